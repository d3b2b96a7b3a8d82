(** What a chain of messages denotes, stated without the code. *)
From Verif Require Import Common SlurpModel.
Local Open Scope nat_scope.

Fixpoint join (sep : text) (l : list text) : text :=
  match l with
  | [] => []
  | [x] => x
  | x :: l' => x ++ sep ++ join sep l'
  end.

(** The text without a colon at its end. *)
Inductive bare (colon : N) : text -> text -> Prop :=
| bare_colon : forall t, bare colon (t ++ [colon]) t
| bare_other : forall t, (forall t', t <> t' ++ [colon]) -> bare colon t t.

Section Show.
Variables (path_text command_text : text).
(** The text an object reads as. *)
Definition show (w : world) (v : value) : option text :=
  match v with
  | VText r => nth_error (texts w) r
  | VSlurp i =>
      match nth_error (slurps w) i with
      | None => None
      | Some s => match command s with None => Some [] | Some r => nth_error (texts w) r end
      end
  | VPath => Some path_text
  | VCommand => Some command_text
  | VOther t => Some t
  end.

(** The parts of a message: its name, or its name without the colon and its argument. *)
Inductive parts (colon : N) (w : world) : text * list value -> list text -> Prop :=
| parts_unary : forall n, parts colon w (n, []) [n]
| parts_keyword : forall n b a t, bare colon n b -> show w a = Some t -> parts colon w (n, [a]) [b; t].
Inductive all_parts (colon : N) (w : world) : list (text * list value) -> list text -> Prop :=
| all_nil : all_parts colon w [] []
| all_cons : forall m ms p ps, parts colon w m p -> all_parts colon w ms ps -> all_parts colon w (m :: ms) (p ++ ps).

(** The parts asked for by a message with any number of arguments: each word of its name
    followed by the argument. *)
Inductive wanted (colon : N) (w : world) : text * list value -> list text -> Prop :=
| wanted_unary : forall n, wanted colon w (n, []) [n]
| wanted_last : forall n b a t, bare colon n b -> show w a = Some t -> wanted colon w (n, [a]) [b; t]
| wanted_more : forall b n a t args ps, ~ In colon b -> args <> [] -> show w a = Some t ->
    wanted colon w (n, args) ps -> wanted colon w (b ++ colon :: n, a :: args) (b :: t :: ps).
End Show.

(** The texts of slurp objects exist, and no two objects share one. *)
Definition sound (w : world) : Prop :=
  (forall i s r, nth_error (slurps w) i = Some s -> command s = Some r -> r < length (texts w)) /\
  (forall i j si sj r, nth_error (slurps w) i = Some si -> nth_error (slurps w) j = Some sj ->
     command si = Some r -> command sj = Some r -> i = j).

(** The value does not read the text of slurp object [i]. *)
Definition apart (w : world) (i : nat) (v : value) : Prop :=
  v <> VSlurp i /\
  (forall s r, nth_error (slurps w) i = Some s -> command s = Some r -> v <> VText r).
