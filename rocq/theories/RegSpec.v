(** What users of a language rely on about built-in objects and messages, independent of lexer,
    parser and lists of methods. *)
From Coq Require Import List String NArith.
From Verif Require Import Common Txt TextSpec LexModel ParseModel ParseSpec RegTable.
Import ListNotations.
Open Scope nat_scope.

(** [understands o k f]: the message [k] sent to [o] is meant to run [f]: the function [o] itself
    has for it, and otherwise the one of the object it is derived from. *)
Inductive understands : std -> key -> string -> Prop :=
| un_own o k f : In (o, k, f) registrations -> understands o k f
| un_inherited o p k f : (forall g, ~ In (o, k, g) registrations) -> link o = Some p ->
    understands p k f -> understands o k f.

(** The number of characters of a name, and the number of arguments it takes: one if it is a single
    character, otherwise one behind every sign for arguments. *)
Definition leading (b : N) : bool := ((b <? 128) || (192 <=? b))%N.
Definition characters (t : text) : nat := List.length (filter leading t).
Definition arguments (p : N) (name : text) : nat :=
  if characters name =? 1 then 1 else List.length (filter (N.eqb p) name).
(** The text of a message: the name, with an argument behind every sign for arguments. *)
Fixpoint fill (p : N) (name : text) (args : list text) : text :=
  match name with
  | [] => []
  | c :: r =>
      if (c =? p)%N then
        match args with
        | a :: args => c :: 32%N :: a ++ 32%N :: fill p r args
        | [] => c :: 32%N :: fill p r []
        end
      else c :: fill p r args
  end%list.
Definition call (p : N) (name : text) (args : list text) : text :=
  match args with
  | [] => name ++ [32%N]
  | a :: _ => if characters name =? 1 then name ++ 32%N :: a ++ [32%N] else fill p name args
  end%list.
(** The tree of that message. *)
Definition message (name : text) (args : list node) : msg :=
  match args with
  | [] => MUna name
  | a :: _ => if characters name =? 1 then MBin name a else MKw name args
  end.
(** [piece d ts src]: followed by white space, [src] stands for the tokens [ts]. *)
Definition piece (d : dict) (ts : list tk) (src : text) : Prop :=
  forall rest k, layout d rest (32%N :: k) -> layout d (ts ++ rest) (src ++ 32%N :: k).
(** An argument: tree, tokens and text. An argument of a message of one character has no binary
    messages of its own. *)
Definition written_arg (d : dict) (name : text) (a : node * list tk * text) : Prop :=
  let '(n, ts, src) := a in
  (if characters name =? 1 then operand d n ts else argument d n ts) /\ piece d ts src.
