(** The numbers that a binary64 [double] stands for, independently of how it computes. *)
From Coq Require Import ZArith QArith Qpower Qabs SpecFloat.
Open Scope Z_scope.

(** The rational [z * 2^e]. *)
Definition QZ (z e : Z) : Q := (inject_Z z * Qpower 2 e)%Q.
(** The rational a finite [double] stands for (0 for infinities and NaN, which are always
    excluded by [finite]). *)
Definition SF2Q (x : spec_float) : Q :=
  match x with
  | S754_finite s m e => QZ (cond_Zopp s (Zpos m)) e
  | _ => 0%Q
  end.
(** A mantissa and exponent in the unique form the format prescribes. *)
Definition canon (m : positive) (e : Z) : Prop := fexp 53 1024 (Zpos (digits2_pos m) + e) = e.
(** The finite doubles ([FloatProofs.finite_valid]: the standard library's [valid_binary]
    without infinities and NaN). *)
Definition finite (x : spec_float) : Prop :=
  match x with S754_finite _ m e => canon m e /\ e <= 971 | S754_zero _ => True | _ => False end.
(** No finite double is closer to [v] than [r]. *)
Definition near (r : spec_float) (v : Q) : Prop :=
  forall w, finite w -> (Qabs (SF2Q r - v) <= Qabs (SF2Q w - v))%Q.
Definition not_inf (x : spec_float) : Prop := forall s, x <> S754_infinity s.
(** [r] is finite and a best approximation of [v]. *)
Definition rounded (r : spec_float) (v : Q) : Prop := finite r /\ near r v.
