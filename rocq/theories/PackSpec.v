(** What a package of files is: the files that were added, in that order. *)
From Verif Require Import Common.

Definition entries := list (text * text).   (* name and content *)
Definition name_ok (n : text) : Prop := ~ In 0%N n.
(** the content of the first file of that name *)
Fixpoint content_of (n : text) (es : entries) : option text :=
  match es with
  | [] => None
  | (m, c) :: r => if list_eq_dec N.eq_dec n m then Some c else content_of n r
  end.
