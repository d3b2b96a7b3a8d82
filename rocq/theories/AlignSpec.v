(** Where a text on an image is, independent of the code. *)
From Coq Require Import ZArith.
From Verif Require Import Common NumModel.
Local Open Scope Z_scope.

(** align-x:y: and line-height: *)
Inductive setting := Align (a b : num) | Height (a : num).
(** What was said last about the beginning of the text; at first it is the corner. *)
Fixpoint aligned (l : list setting) (p q : Z) : Prop :=
  match l with
  | [] => p = 0 /\ q = 0
  | Align a b :: _ => c_int a = Ok p /\ c_int b = Ok q
  | Height _ :: r => aligned r p q
  end.
(** Lines are as high as was said last, but at least one and at most 100 pixels; at first 10. *)
Fixpoint high (l : list setting) (h : Z) : Prop :=
  match l with
  | [] => h = 10
  | Height a :: _ => exists z, c_int a = Ok z /\ h = Z.max 1 (Z.min 100 z)
  | Align _ _ :: r => high r h
  end.
(** Row [r] of a text that begins at [top], with lines of this height *)
Definition in_row (top h r y : Z) : Prop := top + r * h <= y < top + (r + 1) * h.
Definition near (z : Z) : Prop := Z.abs z <= 2 ^ 26.
