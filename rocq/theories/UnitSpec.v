(** What users rely on about the unit of a number, independent of methods, objects and properties. *)
From Coq Require Import NArith List SpecFloat.
From Verif Require Import Common NumModel.
Import ListNotations.
Open Scope list_scope.
Open Scope nat_scope.

(** What a program does with numbers (the first, second, ... made) and texts (likewise). *)
Inductive act : Type :=
| ANew (x : num)                    (** a number is written *)
| AText (t : text)                  (** a text is made *)
| AWord (n : nat) (w : text)        (** [n w]: a word that is no message of numbers *)
| AUnknown (n : nat) (w : text) (args : list nat)  (** such a message with numbers as arguments *)
| AQualify (n a : nat)              (** [n qualify: a] *)
| AAsk (n : nat)                    (** [n qualifier] *)
| ACopy (n : nat)
| APlus (n m : nat)                 (** [n + m]: a new number *)
| AAdd (n m : nat)                  (** [n add: m]: changes [n] *)
| ARaw (n : nat)                    (** [n raw]: the digits *)
| AShow (n : nat)                   (** [n string] *)
| AAppend (a : nat) (t : text).     (** [a append: t]: changes the text [a] *)

(** What it is answered. *)
Inductive seen : Type := SNumber (n : nat) | SUnit (u : option text) | SText (t : text) | SNone.

(** Numbers with their units, and texts, as values: nothing is shared. *)
Record meaning := mkMeaning { m_nums : list (num * option text); m_texts : list text }.
Definition change {A} (l : list A) (i : nat) (x : A) : list A := firstn i l ++ x :: skipn (S i) l.
Section Meaning.
Variable digits : num -> text -> Prop.    (* [digits x t]: [t] are the digits of [x] *)
Variable local : num -> text -> Prop.     (* [local x t]: [t] is how the language writes [x] *)
Inductive does : meaning -> act -> seen -> meaning -> Prop :=
| does_new ns ts x : does (mkMeaning ns ts) (ANew x) (SNumber (length ns)) (mkMeaning (ns ++ [(x, None)]) ts)
| does_text ns ts t : does (mkMeaning ns ts) (AText t) SNone (mkMeaning ns (ts ++ [t]))
| does_word ns ts n w x u : nth_error ns n = Some (x, u) ->
    does (mkMeaning ns ts) (AWord n w) (SNumber n) (mkMeaning (change ns n (x, Some w)) (ts ++ [w]))
| does_unknown ns ts n w k : n < length ns -> k <> [] ->
    does (mkMeaning ns ts) (AUnknown n w k) (SNumber n) (mkMeaning ns (ts ++ [w]))
| does_qualify ns ts n a x u t : nth_error ns n = Some (x, u) -> nth_error ts a = Some t ->
    does (mkMeaning ns ts) (AQualify n a) (SNumber n) (mkMeaning (change ns n (x, Some t)) ts)
| does_ask ns ts n x u : nth_error ns n = Some (x, u) -> does (mkMeaning ns ts) (AAsk n) (SUnit u) (mkMeaning ns ts)
| does_copy ns ts n x u : nth_error ns n = Some (x, u) ->
    does (mkMeaning ns ts) (ACopy n) (SNumber (length ns)) (mkMeaning (ns ++ [(x, u)]) ts)
| does_plus ns ts n m x u y v : nth_error ns n = Some (x, u) -> nth_error ns m = Some (y, v) ->
    does (mkMeaning ns ts) (APlus n m) (SNumber (length ns)) (mkMeaning (ns ++ [(add64 x y, None)]) ts)
| does_add ns ts n m x u y v : nth_error ns n = Some (x, u) -> nth_error ns m = Some (y, v) ->
    does (mkMeaning ns ts) (AAdd n m) (SNumber n) (mkMeaning (change ns n (add64 x y, u)) ts)
| does_raw ns ts n x u t : nth_error ns n = Some (x, u) -> digits x t ->
    does (mkMeaning ns ts) (ARaw n) (SText t) (mkMeaning ns (ts ++ [t]))
| does_show ns ts n x t : nth_error ns n = Some (x, None) -> local x t ->
    does (mkMeaning ns ts) (AShow n) (SText t) (mkMeaning ns (ts ++ [t]))
| does_show_unit ns ts n x u t : nth_error ns n = Some (x, Some u) -> local x t -> ~ In 0%N u ->
    does (mkMeaning ns ts) (AShow n) (SText (t ++ 32%N :: u)) (mkMeaning ns (ts ++ [t ++ 32%N :: u]))
| does_append ns ts a t s : nth_error ts a = Some s ->
    does (mkMeaning ns ts) (AAppend a t) SNone (mkMeaning ns (change ts a (s ++ t))).
Inductive all_does : meaning -> list act -> list seen -> meaning -> Prop :=
| all_nil m : all_does m [] [] m
| all_cons m a s m1 acts ss m2 : does m a s m1 -> all_does m1 acts ss m2 -> all_does m (a :: acts) (s :: ss) m2.
End Meaning.
