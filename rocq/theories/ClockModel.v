(** Model of the Moment object (system.c).

    [localtime] and [mktime] belong to the C library.  They are modelled for the Gregorian
    calendar without leap seconds and for zones with at most two offsets, one of them for
    summer time, and by what glibc documents: a set [tm_isdst] tells which offset to take; an
    unset one (-1) makes [mktime] look for a moment with these fields ([find], an argument).
    The zone of a moment is its text; [zones] says what zone a text names.  Every message sets
    TZ to UTC before it ends.  Numbers are taken after [ctr_internal_cast2number]. *)
From Verif Require Import Common NumModel JsonModel.
Local Open Scope Z_scope.

(** * Calendar *)
Definition leap (y : Z) : bool := (y mod 4 =? 0) && (negb (y mod 100 =? 0) || (y mod 400 =? 0)).
(** Days of the year before month [m], counted from 0. *)
Definition month_start (l : bool) (m : Z) : Z :=
  nth (Z.to_nat m) [0; 31; 59; 90; 120; 151; 181; 212; 243; 273; 304; 334] 0 + (if l && (2 <=? m) then 1 else 0).
(** Days from January 1 of year 1 to January 1 of year [y]. *)
Definition year_start (y : Z) : Z := 365 * (y - 1) + (y - 1) / 4 - (y - 1) / 100 + (y - 1) / 400.
(** Days from January 1, 1970; the month may be any number. *)
Definition day_number (y m d : Z) : Z :=
  let y' := y + m / 12 in year_start y' + month_start (leap y') (m mod 12) + (d - 1) - 719162.

(** [struct tm] without the fields for the day of the week and of the year; the year is
    counted from 1900, the month from 0. *)
Record tm := mkTm { tm_year : Z; tm_mon : Z; tm_mday : Z; tm_hour : Z; tm_min : Z; tm_sec : Z }.
(** Seconds since January 1, 1970 (POSIX, "Seconds Since the Epoch"), fields in any range. *)
Definition secs (f : tm) : Z :=
  day_number (tm_year f + 1900) (tm_mon f) (tm_mday f) * 86400 + tm_hour f * 3600 + tm_min f * 60 + tm_sec f.

(** The date of a day. *)
Definition year_of (d : Z) : Z * Z :=
  let e := (d + 719162) / 146097 in
  let r := (d + 719162) mod 146097 in
  let c := Z.min (r / 36524) 3 in
  let r1 := r - c * 36524 in
  let q := r1 / 1461 in
  let r2 := r1 mod 1461 in
  let n := Z.min (r2 / 365) 3 in
  (400 * e + 100 * c + 4 * q + n + 1, r2 - n * 365).
Fixpoint month_of (l : bool) (doy : Z) (m : nat) : Z :=
  match m with
  | O => 0
  | S m' => if month_start l (Z.of_nat m) <=? doy then Z.of_nat m else month_of l doy m'
  end.
Definition fields (s : Z) : tm :=
  let (y, doy) := year_of (s / 86400) in
  let m := month_of (leap y) doy 11 in
  let r := s mod 86400 in
  mkTm (y - 1900) m (doy - month_start (leap y) m + 1) (r / 3600) (r mod 3600 / 60) (r mod 60).
Definition wday (s : Z) : Z := (s / 86400 + 4) mod 7.
Definition yday (s : Z) : Z := snd (year_of (s / 86400)).

Record zone := mkZone { z_std : Z; z_dst : Z; z_summer : Z -> bool }.
Definition offset (z : zone) (summer : bool) : Z := if summer then z_dst z else z_std z.
Definition local (z : zone) (t : Z) : Z := t + offset z (z_summer z t).
Definition utc : zone := mkZone 0 0 (fun _ => false).

(** [localtime]: the fields and whether it is summer time; a null pointer when the year does
    not fit *)
Definition localtime (z : zone) (t : Z) : option (tm * bool) :=
  let f := fields (local z t) in if in_int (tm_year f) then Some (f, z_summer z t) else None.

Section Clock.
Variables (zones : text -> zone) (find : zone -> Z -> Z).
(** [mktime], -1 when the year does not fit *)
Definition mktime (z : zone) (f : tm) (summer : option bool) : Z :=
  let t := match summer with Some b => secs f - offset z b | None => find z (secs f) end in
  if in_int (tm_year (fields (local z t))) then t else -1.

(** A moment: the private properties "time" and "zone". *)
Record clock := mkClock { c_time : num; c_zone : text }.
Inductive part := Year | Month | Day | Hour | Minute | Second.

(** system.c 750-788, [ctr_clock_get_time] *)
Definition get_time (c : clock) (p : part) : outcome Z :=
  do t <- c_int64 (c_time c);
  match localtime (zones (cstring (c_zone c))) t with
  | None => UB
  | Some (f, _) =>
      Ok match p with
         | Year => tm_year f + 1900 | Month => tm_mon f + 1 | Day => tm_mday f
         | Hour => tm_hour f | Minute => tm_min f | Second => tm_sec f
         end
  end.

(** system.c 793-849, [ctr_clock_set_time] *)
Definition set_part (f : tm) (p : part) (x : num) : outcome tm :=
  match p with
  | Year => do n <- c_int (sub64 x (of_Z 1900)); Ok (mkTm n 0 1 0 0 0)
  | Month => do n <- c_int (sub64 x (of_Z 1)); Ok (mkTm (tm_year f) n 1 0 0 0)
  | Day => do n <- c_int x; Ok (mkTm (tm_year f) (tm_mon f) n 0 0 0)
  | Hour => do n <- c_int x; Ok (mkTm (tm_year f) (tm_mon f) (tm_mday f) n 0 0)
  | Minute => do n <- c_int x; Ok (mkTm (tm_year f) (tm_mon f) (tm_mday f) (tm_hour f) n 0)
  | Second => do n <- c_int x; Ok (mkTm (tm_year f) (tm_mon f) (tm_mday f) (tm_hour f) (tm_min f) n)
  end.
Definition set_time (c : clock) (p : part) (x : num) : outcome clock :=
  do t <- c_int64 (c_time c);
  match localtime (zones (cstring (c_zone c))) t with
  | None => UB
  | Some (f, _) =>
      do f' <- set_part f p x;
      Ok (mkClock (of_Z (mktime (zones (cstring (c_zone c))) f' None)) (c_zone c))
  end.

(** C library [strncmp] with a result of 0 or not; reading past the end of either is
    undefined. *)
Fixpoint strncmp0 (n : nat) (a b : text) : outcome bool :=
  match n with
  | O => Ok true
  | S n' =>
      match a, b with
      | x :: a', y :: b' =>
          if (x =? y)%N then if (x =? 0)%N then Ok true else strncmp0 n' a' b' else Ok false
      | _, _ => UB
      end
  end.

(** The words for the units, system.c 1409-1422: as C strings. *)
Record words := mkWords { w_hour : text; w_minute : text; w_second : text; w_day : text;
                          w_month : text; w_year : text; w_week : text }.
Definition is_unit (unit word : text) : outcome bool := strncmp0 (length unit) unit (word ++ [0%N]).

(** [field += number], with an [int] field *)
Definition bump (field : Z) (x : num) : outcome Z := c_int (add64 (of_Z field) x).

(** system.c 1378-1428, [ctr_clock_change]; [unit] is the private property "qualifier" *)
Definition change_fields (w : words) (f : tm) (unit : text) (x : num) : outcome tm :=
  do b <- is_unit unit (w_hour w);
  if b then do n <- bump (tm_hour f) x; Ok (mkTm (tm_year f) (tm_mon f) (tm_mday f) n (tm_min f) (tm_sec f)) else
  do b <- is_unit unit (w_minute w);
  if b then do n <- bump (tm_min f) x; Ok (mkTm (tm_year f) (tm_mon f) (tm_mday f) (tm_hour f) n (tm_sec f)) else
  do b <- is_unit unit (w_second w);
  if b then do n <- bump (tm_sec f) x; Ok (mkTm (tm_year f) (tm_mon f) (tm_mday f) (tm_hour f) (tm_min f) n) else
  do b <- is_unit unit (w_day w);
  if b then do n <- bump (tm_mday f) x; Ok (mkTm (tm_year f) (tm_mon f) n (tm_hour f) (tm_min f) (tm_sec f)) else
  do b <- is_unit unit (w_month w);
  if b then do n <- bump (tm_mon f) x; Ok (mkTm (tm_year f) n (tm_mday f) (tm_hour f) (tm_min f) (tm_sec f)) else
  do b <- is_unit unit (w_year w);
  if b then do n <- bump (tm_year f) x; Ok (mkTm n (tm_mon f) (tm_mday f) (tm_hour f) (tm_min f) (tm_sec f)) else
  do b <- is_unit unit (w_week w);
  if b then do n <- bump (tm_mday f) (mul64 x (of_Z 7)); Ok (mkTm (tm_year f) (tm_mon f) n (tm_hour f) (tm_min f) (tm_sec f)) else
  Ok f.
Definition clock_change (w : words) (c : clock) (forward : bool) (x : num) (unit : option text) : outcome clock :=
  let number := mul64 x (of_Z (if forward then 1 else -1)) in
  match unit with
  | None => Ok c
  | Some u =>
      do t <- c_int64 (c_time c);
      let z := zones (cstring (c_zone c)) in
      match localtime z t with
      | None => UB
      | Some (f, summer) =>
          do f' <- change_fields w f u number;
          Ok (mkClock (of_Z (mktime z f' (Some summer))) (c_zone c))
      end
  end.
(** system.c 1450-1452, [ctr_clock_add], and system.c 1474-1476, [ctr_clock_subtract] *)
Definition clock_add w c x unit := clock_change w c true x unit.
Definition clock_subtract w c x unit := clock_change w c false x unit.

(** system.c 1208-1214, [ctr_clock_time] *)
Definition clock_time (c : clock) : outcome num := do t <- c_int64 (c_time c); Ok (of_Z t).
(** system.c 1226-1240, [ctr_clock_copy]: the properties are put in front of those of the new
    moment, so these are found. *)
Definition clock_copy (c : clock) : outcome clock := do t <- clock_time c; Ok (mkClock t (c_zone c)).
(** system.c 1257-1271, [ctr_clock_equals], and system.c 1288-1292, [ctr_clock_neq] *)
Definition clock_equals (a b : clock) : outcome bool :=
  do ta <- clock_time a;
  do tb <- clock_time b;
  if SFeqb ta tb then strncmp0 (length (c_zone a)) (c_zone a) (c_zone b) else Ok false.
Definition clock_neq (a b : clock) : outcome bool := do e <- clock_equals a b; Ok (negb e).

(** system.c 1190-1198, [ctr_clock_weekday], and system.c 1171-1179, [ctr_clock_yearday]: TZ is not set, so the zone is the
    one left by the message before *)
Definition clock_weekday (tz : zone) (c : clock) : outcome Z :=
  do t <- c_int64 (c_time c);
  match localtime tz t with None => UB | Some _ => Ok (wday (local tz t) + 1) end.
Definition clock_yearday (tz : zone) (c : clock) : outcome Z :=
  do t <- c_int64 (c_time c);
  match localtime tz t with None => UB | Some _ => Ok (yday (local tz t)) end.
End Clock.
