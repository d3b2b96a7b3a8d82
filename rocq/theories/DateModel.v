(** The text, the number and the week of a moment (system.c 1295-1365).

    [strftime] belongs to the C library; it is modelled for the C locale (the program does not set one) and for the
    conversions that occur in i18n/*/msg.h. How many zeros are put before a year is left open ([ypad]). *)
From Coq Require Import String.
From Verif Require Import Common Txt NumModel NumSpec JsonModel ClockModel.
Local Open Scope Z_scope.
Local Notation length := List.length.
Local Notation "'tx' s" := (lit s%string) (at level 8, s at level 0).

Definition two (n : Z) : text := dec_fix 2 (Z.to_N n) [].
Definition year_text (ypad : Z -> nat) (y : Z) : text := sgn (y <? 0) ++ repeat 48%N (ypad y) ++ dec (Z.to_N (Z.abs y)).
(** [wd], [yd]: the day of the week (0 is a Sunday) and of the year (from 0) *)
Definition conversion (ypad : Z -> nat) (f : tm) (wd yd : Z) (c : N) : option text :=
  if (c =? 89)%N then Some (year_text ypad (tm_year f + 1900)) else
  if (c =? 109)%N then Some (two (tm_mon f + 1)) else
  if (c =? 100)%N then Some (two (tm_mday f)) else
  if (c =? 72)%N then Some (two (tm_hour f)) else
  if (c =? 73)%N then Some (two (let h := if 12 <? tm_hour f then tm_hour f - 12 else tm_hour f in if h =? 0 then 12 else h)) else
  if (c =? 77)%N then Some (two (tm_min f)) else
  if (c =? 83)%N then Some (two (tm_sec f)) else
  if (c =? 112)%N then Some (if 11 <? tm_hour f then tx "PM" else tx "AM") else
  if (c =? 87)%N then Some (two ((yd - (wd - 1 + 7) mod 7 + 7) / 7)) else None.
Fixpoint expand (ypad : Z -> nat) (f : tm) (wd yd : Z) (format : text) : outcome text :=
  match format with
  | [] => Ok []
  | c :: r =>
      if (c =? 37)%N then
        match r with
        | [] => UB
        | k :: r' => match conversion ypad f wd yd k with
                     | None => UB
                     | Some t => do s <- expand ypad f wd yd r'; Ok (t ++ s)
                     end
        end
      else do s <- expand ypad f wd yd r; Ok (c :: s)
  end.
(** With a NUL it has to fit into [max] bytes, otherwise what is in the buffer is not specified. *)
Definition strftime (ypad : Z -> nat) (max : nat) (format : text) (f : tm) (wd yd : Z) : outcome text :=
  do s <- expand ypad f wd yd format; if (length s <? max)%nat then Ok s else UB.

Section Date.
Variables (zones : text -> zone) (ypad : Z -> nat).
(** system.c 1328-1351, [ctr_clock_to_string] *)
Definition clock_to_string (format : text) (c : clock) : outcome text :=
  do t <- c_int64 (c_time c);
  let z := zones (cstring (c_zone c)) in
  match localtime z t with
  | None => UB
  | Some (f, _) => strftime ypad 40 format f (wday (local z t)) (yday (local z t))
  end.
(** system.c 1304-1316, [ctr_clock_week]; TZ is not set, so the zone is the one left by the message before *)
Definition clock_week (tz : zone) (dsep tsep : text) (c : clock) : outcome (option num) :=
  do t <- c_int64 (c_time c);
  match localtime tz t with
  | None => UB
  | Some (f, _) =>
      do s <- strftime ypad 3 (tx "%W") f (wday (local tz t)) (yday (local tz t));
      number_from_text true dsep tsep (zeros 41) (zeros 41) s
  end.
(** system.c 1363-1365, [ctr_clock_to_number]: sends the message "time", which only exists (world.c 976) in a language
    where that is the word; otherwise the moment answers itself (base.c 515-517) *)
Inductive answer := ANumber (x : num) | AMyself.
Definition clock_to_number (time_word : text) (c : clock) : outcome answer :=
  if text_eqb time_word (tx "time") then do x <- clock_time c; Ok (ANumber x) else Ok AMyself.
(** world.c 436-439, [ctr_internal_cast2number], of a moment, and whether an error is raised *)
Definition moment_as_number (time_word : text) (c : clock) : outcome (num * bool) :=
  do a <- clock_to_number time_word c;
  Ok match a with ANumber x => (x, false) | AMyself => (of_Z 0, true) end.
(** system.c 740-745, [ctr_clock_new_set], of a number; [here] is CTR_STDTIMEZONE *)
Definition clock_new_set (here : text) (x : num) : clock := mkClock x here.
End Date.
