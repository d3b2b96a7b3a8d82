(** The words of two languages, as the lexer sees them. *)
From Coq Require Import NArith List String.
From Verif Require Import Common Txt LexModel LexSpec.
Import ListNotations.
Open Scope nat_scope.
Local Notation "'tx' s" := (lit s%string) (at level 8, s at level 0).

(** i18n/en/dictionary.h 6, 20-22, 179-190 *)
Definition dict_en : dict :=
  mkDict (tx ".") (tx ",") (tx ":=") (tx "<-") (tx "['") (tx "']") (tx ".") (tx ",") 58 (tx "own") (tx ">>").
(** i18n/xx/dictionary.h 6, 20-22, 179-190 *)
Definition dict_xx : dict :=
  mkDict (tx ".") (tx ",") (tx "≔") (tx "↲") (tx "‘") (tx "’") (tx ".") (tx ",") 58 (tx "⚿") (tx "☞").

Fixpoint apartb (a b : text) : bool :=
  match a, b with x :: a, y :: b => if N.eqb x y then apartb a b else true | _, _ => false end.
Lemma apartb_ok a : forall b, apartb a b = true -> apart a b.
Proof.
  induction a as [|x a IH]; intros [|y b] H; try discriminate. cbn in H.
  destruct (N.eqb_spec x y) as [->|NE].
  - destruct (IH _ H) as (p & u & v & a' & b' & -> & -> & N). now exists (y :: p), u, v, a', b'.
  - now exists [], x, y, a, b.
Qed.
Ltac not_in := let H := fresh in intros H; vm_compute in H; decompose [or] H; congruence.
Ltac lang := constructor; repeat split;
  try (apply apartb_ok; vm_compute; reflexivity); try (vm_compute; discriminate); try (vm_compute; repeat constructor; fail);
  try (not_in; fail); try (apply esc_other; not_in).
Lemma en_marks : marks_ok dict_en. Proof. lang. Qed.
Lemma xx_marks : marks_ok dict_xx. Proof. lang. Qed.
Lemma en_lead : lead_ok dict_en. Proof. lang. Qed.
Lemma xx_lead : lead_ok dict_xx. Proof. lang. Qed.
Lemma en_words : words_ok dict_en. Proof. lang. Qed.
Lemma xx_words : words_ok dict_xx. Proof. lang. Qed.
