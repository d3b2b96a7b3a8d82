(** The tree of a program as a text: option -x (util.c 28-55, [ctr_internal_export_tree]). *)
From Verif Require Import Common NumModel ErrModel ParseModel.
Local Open Scope N_scope.

(** citrine.h 241-257, [ctr_tnode] with its list of nodes.  A value that is NULL is an empty one here: both are printed as [0;] *)
Inductive tree := T (type modifier : Z) (value : text) (nodes : list tree).
(** util.c 35-48, one node *)
Fixpoint item (t : tree) : text :=
  match t with
  | T ty m v ns =>
      written_int ty ++ [59] ++ written_int m ++ [59] ++ dec (N.of_nat (length v)) ++ [59] ++ v ++ [59] ++
      match ns with [] => [] | _ => [91] ++ concat (map item ns) ++ [93] end ++ [59]
  end.
(** util.c 28-55; without nodes the first of them is read through a null pointer *)
Definition export_tree (t : tree) : outcome text :=
  match t with T _ _ _ ns => match ns with [] => UB | _ => Ok (concat (map item ns)) end end.

(** The nodes that the parser makes (parser.c 70-620; types in citrine.h 86-111) *)
Definition parameter (v : text) : tree := T 78 0 v [].
Fixpoint of_node (n : node) : tree :=
  match n with
  | NRef m v => T 57 (Z.of_nat m) v []
  | NStr v => T 56 0 v []
  | NNum v => T 58 0 v []
  | NNested e => T 80 0 [] [of_node e]
  | NBlock ps body => T 59 0 [] [T 76 0 [] (map parameter ps); T 77 0 [] (map of_node body)]
  | NExpr r ms => T 52 0 [] (of_node r :: map of_msg ms)
  | NAssign r e => T 51 0 [] [of_node r; of_node e]
  | NRet e => T 60 0 [] [of_node e]
  end
with of_msg (m : msg) : tree :=
  match m with
  | MUna v => T 53 0 v []
  | MBin v a => T 54 0 v [of_node a]
  | MKw v args => T 55 0 v (map of_node args)
  | MNone => T (-1) 0 [] []
  end.
(** parser.c 566-572, [ctr_cparse_fin]; 605-640, [ctr_cparse_program] *)
Definition end_of_program : tree := T 79 0 [] [].
Definition of_program (p : list node) : tree := T 84 0 [] (map of_node p ++ [end_of_program]).
Definition export (p : list node) : outcome text := export_tree (of_program p).
