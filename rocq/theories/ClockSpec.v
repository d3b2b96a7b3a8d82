(** Specification of the calendar and of moments. *)
From Coq Require Import QArith.
From Verif Require Import Common NumModel FloatSpec NumSpec ClockModel.
Local Open Scope Z_scope.

(** Days of a month, counted from 0. *)
Definition month_days (l : bool) (m : Z) : Z :=
  nth (Z.to_nat m) [31; if l then 29 else 28; 31; 30; 31; 30; 31; 31; 30; 31; 30; 31] 0.
(** A date with a time of day that exists. *)
Definition valid (f : tm) : Prop :=
  0 <= tm_mon f < 12 /\ 1 <= tm_mday f <= month_days (leap (tm_year f + 1900)) (tm_mon f) /\
  0 <= tm_hour f < 24 /\ 0 <= tm_min f < 60 /\ 0 <= tm_sec f < 60.
(** The next second of the calendar. *)
Definition next_second (f : tm) : tm :=
  let 'mkTm y mo d h mi s := f in
  if s <? 59 then mkTm y mo d h mi (s + 1) else
  if mi <? 59 then mkTm y mo d h (mi + 1) 0 else
  if h <? 23 then mkTm y mo d (h + 1) 0 0 else
  if d <? month_days (leap (y + 1900)) mo then mkTm y mo (d + 1) 0 0 0 else
  if mo <? 11 then mkTm y (mo + 1) 1 0 0 0 else
  mkTm (y + 1) 0 1 0 0 0.
(** The fields a program reads: year, month, day, hour, minute, second. *)
Definition part_of (f : tm) (p : part) : Z :=
  match p with
  | Year => tm_year f + 1900 | Month => tm_mon f + 1 | Day => tm_mday f
  | Hour => tm_hour f | Minute => tm_min f | Second => tm_sec f
  end.

(** Offsets are less than a week. *)
Definition zone_ok (z : zone) : Prop := forall b, Z.abs (offset z b) < 604800.
(** A moment in second [t], at most some 285 million years away. *)
Definition in_reach (t : Z) : Prop := Z.abs t <= 9000000000000000.
Definition at_second (c : clock) (t : Z) : Prop := finite (c_time c) /\ is_trunc (SF2Q (c_time c)) t.
(** A date with one part set: the larger parts are kept, the smaller ones start again. *)
Definition rank (p : part) : nat :=
  match p with Year => 0 | Month => 1 | Day => 2 | Hour => 3 | Minute => 4 | Second => 5 end.
Definition start_of (p : part) : Z := match p with Year | Month | Day => 1 | Hour | Minute | Second => 0 end.
Definition with_part (date : part -> Z) (p : part) (n : Z) (q : part) : Z :=
  match Nat.compare (rank q) (rank p) with Lt => date q | Eq => n | Gt => start_of q end.
(** [find] gives a moment with the local time [s], if there is one. *)
Definition finds (find : zone -> Z -> Z) : Prop := forall z t, local z (find z (local z t)) = local z t.
(** The units of a fixed length, in seconds, and how many of the changed field they are. *)
Inductive fixed_unit (w : words) : text -> Z -> Z -> Prop :=
  | fixed_hour : fixed_unit w (w_hour w) 3600 1
  | fixed_minute : fixed_unit w (w_minute w) 60 1
  | fixed_second : fixed_unit w (w_second w) 1 1
  | fixed_day : fixed_unit w (w_day w) 86400 1
  | fixed_week : fixed_unit w (w_week w) 604800 7.
(** No word is the beginning of one tested before. *)
Definition prefix (a b : text) : Prop := exists c, b = a ++ c.
Fixpoint distinct (seen l : list text) : Prop :=
  match l with
  | [] => True
  | a :: r => Forall (fun b => ~ prefix a b) seen /\ distinct (a :: seen) r
  end.
Definition words_distinct (w : words) : Prop :=
  Forall (fun a => ~ In 0%N a) [w_hour w; w_minute w; w_second w; w_day w; w_month w; w_year w; w_week w] /\
  distinct [] [w_hour w; w_minute w; w_second w; w_day w; w_month w; w_year w; w_week w].
(** A date [n] months or years later: the day and the time of day stay. *)
Definition months_later (f : tm) (n : Z) : tm :=
  let m := tm_mon f + n in
  mkTm (tm_year f + m / 12) (m mod 12) (tm_mday f) (tm_hour f) (tm_min f) (tm_sec f).
Definition years_later (f : tm) (n : Z) : tm :=
  mkTm (tm_year f + n) (tm_mon f) (tm_mday f) (tm_hour f) (tm_min f) (tm_sec f).
(** One way to find a moment: try standard time first. *)
Definition find_std (z : zone) (s : Z) : Z := if local z (s - z_std z) =? s then s - z_std z else s - z_dst z.
