(** Specification of the text of a moment and of the weeks of a year. *)
From Verif Require Import Common NumModel NumSpec ClockModel ClockSpec.
Local Open Scope Z_scope.

(** What is written with two digits: %m, %d, %H, %I, %M, %S. *)
Definition counted (f : tm) (c : N) : option Z :=
  if (c =? 109)%N then Some (tm_mon f + 1) else
  if (c =? 100)%N then Some (tm_mday f) else
  if (c =? 72)%N then Some (tm_hour f) else
  if (c =? 73)%N then Some (if tm_hour f =? 0 then 12 else if tm_hour f <=? 12 then tm_hour f else tm_hour f - 12) else
  if (c =? 77)%N then Some (tm_min f) else
  if (c =? 83)%N then Some (tm_sec f) else None.
(** [shows f format s]: [s] shows the date and time [f] as [format] tells. *)
Inductive shows (f : tm) : text -> text -> Prop :=
| shows_end : shows f [] []
| shows_char c r s : c <> 37%N -> shows f r s -> shows f (c :: r) (c :: s)
| shows_two c n a b r s : counted f c = Some n -> digit a -> digit b -> 10 * (Z.of_N a - 48) + (Z.of_N b - 48) = n ->
    shows f r s -> shows f (37%N :: c :: r) (a :: b :: s)
| shows_year ds r s : ds <> [] -> digits ds -> dvalue ds = Z.abs (tm_year f + 1900) ->
    (hd 48%N ds <> 48%N \/ List.length ds <= 4)%nat ->
    shows f r s -> shows f (37 :: 89 :: r)%N (sgn (tm_year f + 1900 <? 0) ++ ds ++ s)
| shows_half r s : shows f r s -> shows f (37 :: 112 :: r)%N ((if tm_hour f <? 12 then [65%N; 77%N] else [80%N; 77%N]) ++ s).

(** How many Mondays of the year there were, up to and including the day of second [s]. *)
Definition mondays (s : Z) : Z :=
  Z.of_nat (List.length (filter (fun k => wday (s - 86400 * Z.of_nat k) =? 1) (seq 0 (S (Z.to_nat (yday s)))))).

(** Years are written with at least one, at most four digits, if four are enough. *)
Definition ypad_ok (ypad : Z -> nat) : Prop := forall y, ypad y = 0%nat \/ (ypad y <= 3)%nat /\ Z.abs y < 10 ^ (4 - Z.of_nat (ypad y)).
