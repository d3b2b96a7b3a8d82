(** What numbers and their written forms are, independently of the implementation. *)
From Coq Require Import ZArith NArith List QArith Qpower Qabs SpecFloat.
From Verif Require Export FloatSpec.
Import ListNotations.
Open Scope Z_scope.

(** ** Rounding a rational to a whole number *)
Definition is_floor (q : Q) (z : Z) : Prop := (inject_Z z <= q /\ q < inject_Z z + 1)%Q.
Definition is_ceil (q : Q) (z : Z) : Prop := (inject_Z z - 1 < q /\ q <= inject_Z z)%Q.
(** Nearest whole number, halves away from zero. *)
Definition is_round (q : Q) (z : Z) : Prop :=
  (Qabs (q - inject_Z z) <= 1 # 2 /\ (Qabs (q - inject_Z z) == 1 # 2 -> Qabs q < Qabs (inject_Z z)))%Q.
(** Nearest whole number towards zero. *)
Definition is_trunc (q : Q) (z : Z) : Prop :=
  (Qabs (inject_Z z) <= Qabs q /\ Qabs q < Qabs (inject_Z z) + 1 /\ 0 <= q * inject_Z z)%Q.

(** ** Numerals *)
Definition digit (c : N) : Prop := (48 <= c <= 57)%N.
Definition digits (ds : list N) : Prop := Forall digit ds.
Definition dvalue (ds : list N) : Z := fold_left (fun a c => 10 * a + (Z.of_N c - 48)) ds 0.

(** A sign, an integer part and a fraction, written with a point. *)
Definition sgn (s : bool) : list N := if s then [45%N] else [].
Definition plain (s : bool) (ip fp : list N) : list N :=
  sgn s ++ ip ++ match fp with [] => [] | _ => 46%N :: fp end.
Definition numeral (ip fp : list N) : Prop := ip <> [] /\ digits ip /\ digits fp.
(** No superfluous zeros. *)
Definition tidy (ip fp : list N) : Prop :=
  (ip = [48%N] \/ hd 48%N ip <> 48%N) /\ (fp = [] \/ last fp 48%N <> 48%N).
Definition numeral_value (s : bool) (ip fp : list N) : Q :=
  ((if s then -1 else 1) * inject_Z (dvalue (ip ++ fp)) * Qpower 10 (- Z.of_nat (length fp)))%Q.

(** Digits in groups of three counted from the right, [sep] between the groups. *)
Inductive grouped (sep : list N) : list N -> list N -> Prop :=
| grouped_short ds : ds <> [] -> (length ds <= 3)%nat -> grouped sep ds ds
| grouped_more ds out a b c : grouped sep ds out ->
    grouped sep (ds ++ [a; b; c]) (out ++ sep ++ [a; b; c]).
(** The localized form of a numeral. *)
Definition localized (dec_sep tho_sep : list N) (s : bool) (ip fp : list N) (out : list N) : Prop :=
  exists g, grouped tho_sep ip g /\
            out = sgn s ++ g ++ match fp with [] => [] | _ => dec_sep ++ fp end.
(** Separators that can be told from the rest of a numeral. *)
Definition sep_ok (sep : list N) : Prop :=
  sep <> [] /\ (forall c, In c sep -> c <> 0%N) /\ ~ digit (hd 48%N sep) /\ hd 48%N sep <> 45%N.

(** A block of memory filled with zeros. *)
Definition zeros (n : nat) : list N := repeat 0%N n.

(** [r] is a best approximation of the square root of [v]: the root is on [r]'s side of the
    midpoint between [r] and any other non-negative double [w]. *)
Definition root_of (r : spec_float) (v : Q) : Prop :=
  finite r /\ (0 <= SF2Q r)%Q /\
  forall w, finite w -> (0 <= SF2Q w)%Q ->
    ((SF2Q w < SF2Q r -> (SF2Q r + SF2Q w) * (SF2Q r + SF2Q w) <= 4 * v) /\
     (SF2Q r < SF2Q w -> 4 * v <= (SF2Q r + SF2Q w) * (SF2Q r + SF2Q w)))%Q.
