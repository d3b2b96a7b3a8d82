(** Claim C120. *)
From Verif Require Import Common Txt NumModel ErrModel ParseModel ExpModel ExpProofs.
From Coq Require Import String.
Local Open Scope N_scope.

(** ** C120: the exported tree *)
(** Option -x writes a text for every program that could be parsed; *)
Theorem C120_written : forall p, exists t, export p = Ok t.
Proof. exact (fun p => ex_intro _ _ (export_text p)). Qed.
Print Assumptions C120_written.
(** and the text determines the program, whatever bytes its names and texts contain. *)
Theorem C120_faithful : forall p q t, export p = Ok t -> export q = Ok t -> p = q.
Proof. exact export_inj. Qed.
Print Assumptions C120_faithful.
(** No text of a tree is the beginning of the text of another one: trees can be read back from left to right. *)
Theorem C120_any_tree : forall t u r s, (item t ++ r = item u ++ s)%list -> t = u /\ r = s.
Proof. exact item_unique. Qed.
Print Assumptions C120_any_tree.
Example C120_example : export [NAssign (NRef 2 (lit "a")) (NStr (lit "];5;")); NExpr (NRef 0 (lit "a")) [MKw (lit "add:") [NNum (lit "1")]]] =
  Ok (lit "51;0;0;;[57;2;1;a;;56;0;4;];5;;;];52;0;0;;[57;0;1;a;;55;0;4;add:;[58;0;1;1;;];];79;0;0;;;").
Proof. vm_compute. reflexivity. Qed.
