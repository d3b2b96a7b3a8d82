(** What replacing and matching by a pattern mean.  A pattern is the set of the texts it stands for. *)
From Verif Require Import Common.

Definition lang := text -> Prop.
(** Somewhere in [t], behind [length x] bytes, there is a text of the pattern. *)
Definition found (L : lang) (t x m y : text) : Prop := t = x ++ m ++ y /\ L m.
Definition contains (L : lang) (t : text) : Prop := exists x m y, found L t x m y.
(** It is the leftmost one, and the longest that begins there. *)
Definition first_longest (L : lang) (t x m y : text) : Prop :=
  found L t x m y /\
  (forall x' m' y', found L t x' m' y' -> (length x <= length x')%nat) /\
  (forall m' y', found L t x m' y' -> (length m' <= length m)%nat).
(** From left to right, every text of the pattern is replaced by what [f] makes of it; what was replaced is
    not looked at again. *)
Inductive substituted (L : lang) (f : text -> text) : text -> text -> Prop :=
| s_done t : ~ contains L t -> substituted L f t t
| s_next t x m y out : first_longest L t x m y -> substituted L f y out -> substituted L f t (x ++ f m ++ out).
(** Without NUL bytes. *)
Definition printable (t : text) : Prop := ~ In 0%N t.
