(** Outcomes of pointer-chasing and fuelled computations: a value, undefined behaviour
    (access to memory that is not there), or no fuel left (the model's bound on the
    number of steps, never a behaviour of the program). *)
From Verif Require Import Common.

Inductive res (A : Type) : Type := Ret (a : A) | Bad | NoFuel.
Arguments Ret {A} a.
Arguments Bad {A}.
Arguments NoFuel {A}.
Definition rbind {A B} (o : res A) (f : A -> res B) : res B :=
  match o with Ret a => f a | Bad => Bad | NoFuel => NoFuel end.
Notation "'let!' x := o 'in' f" := (rbind o (fun x => f))
  (at level 200, x pattern, o at level 100, f at level 200, right associativity).
