(** The settings of images and where images are sent, independent of the code. *)
From Coq Require Import QArith SpecFloat.
From Verif Require Import Common FloatSpec.
Local Open Scope Z_scope.

(** What can be said to an image about how it behaves *)
Inductive setting :=
| Wall (b : bool) | Active (b : bool) | Bounce (b : bool) | Static (b : bool) | Ghost (b : bool) | Visible (b : bool)
| Gravity (v : spec_float) | Speed (v : spec_float) | Friction (v : spec_float) | Accelerate (v : spec_float).
(** What was said last to image [i] about one thing, or the default *)
Fixpoint latest {A} (f : setting -> option A) (i : nat) (d : A) (said : list (nat * setting)) : A :=
  match said with
  | [] => d
  | (j, s) :: r => latest f i (match f s with Some v => if Nat.eqb i j then v else d | None => d end) r
  end.
(** The last element for which [f] answers *)
Fixpoint last_some {A B} (f : A -> option B) (d : B) (l : list A) : B :=
  match l with [] => d | a :: r => last_some f (match f a with Some b => b | None => d end) r end.

(** pi as a double, and half of it *)
Definition pi64 : spec_float := S754_finite false 7074237752028440 (-51).
Definition half_pi64 : spec_float := S754_finite false 7074237752028440 (-52).
Definition neg (x : spec_float) : spec_float := SFopp x.
(** What ISO C (annex F) says about [atan2] on the axes *)
Definition axes (at2 : spec_float -> spec_float -> spec_float) : Prop :=
  (forall s v, SFltb (S754_zero false) v = true -> at2 (S754_zero s) v = S754_zero s) /\
  (forall s v, SFltb v (S754_zero false) = true -> at2 (S754_zero s) v = if s then neg pi64 else pi64) /\
  (forall s v, SFltb (S754_zero false) v = true -> at2 v (S754_zero s) = half_pi64) /\
  (forall s v, SFltb v (S754_zero false) = true -> at2 v (S754_zero s) = neg half_pi64).
(** [atan2] answers an angle of the right quarter *)
Definition quarters (at2 : spec_float -> spec_float -> spec_float) : Prop :=
  forall dy dx, finite dy -> finite dx -> finite (at2 dy dx) /\
    (let q := SF2Q (at2 dy dx) in
     (0 < SF2Q dy -> 0 <= SF2Q dx -> 0 <= q <= SF2Q half_pi64) /\
     (0 < SF2Q dy -> SF2Q dx <= 0 -> SF2Q half_pi64 <= q <= SF2Q pi64) /\
     (SF2Q dy < 0 -> SF2Q dx <= 0 -> SF2Q (neg pi64) <= q <= SF2Q (neg half_pi64)) /\
     (SF2Q dy < 0 -> 0 <= SF2Q dx -> SF2Q (neg half_pi64) <= q <= 0))%Q.
