(** Drawing, independent of the code. *)
From Verif Require Import Common.
Local Open Scope Z_scope.

(** What somebody who draws sees in an element of the list: a point, a line, or something that cannot be drawn *)
Inductive item := IPoint (x y : Z) | ILine (x1 y1 x2 y2 : Z) | IOther.
(** What appears on the picture *)
Inductive stroke := SPoint (x y : Z) | SLine (x1 y1 x2 y2 : Z).
Definition strokes_of (i : item) : list stroke :=
  match i with IPoint x y => [SPoint x y] | ILine x1 y1 x2 y2 => [SLine x1 y1 x2 y2] | IOther => [] end.
Definition int_value (z : Z) : Prop := - 2147483648 <= z <= 2147483647.
