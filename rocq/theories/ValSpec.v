(** What is asked of equality and of truth: nothing here mentions the model. *)
From Verif Require Import Common.

(** An equality as users know it, on the values that [P] allows. *)
Definition reflexive_on {A} (P : A -> Prop) (eq : A -> A -> Prop) : Prop := forall a, P a -> eq a a.
Definition symmetric_on {A} (P : A -> A -> Prop) (eq : A -> A -> Prop) : Prop := forall a b, P a b -> eq a b -> eq b a.
Definition transitive_on {A} (P : A -> A -> A -> Prop) (eq : A -> A -> Prop) : Prop :=
  forall a b c, P a b c -> eq a b -> eq b c -> eq a c.
