(** What the Json object is expected to do, said without its code. *)
From Coq Require Import Permutation.
From Verif Require Import Common NumModel JsonModel.
Local Open Scope nat_scope.

(** ** Escaping *)

(** The pairs of JSON: a character and the letter that stands for it after a backslash. *)
Inductive pair_of : N -> N -> Prop :=
| pair_quote : pair_of 34 34 | pair_backslash : pair_of 92 92
| pair_tab : pair_of 9 116 | pair_newline : pair_of 10 110
| pair_return : pair_of 13 114 | pair_backspace : pair_of 8 98
(* not JSON, but what the plugin writes: a form feed is kept after its backslash *)
| pair_formfeed : pair_of 12 12.

(** [e] is the text [s] with every byte of [chars] replaced by its pair. *)
Inductive escaped (chars : text) : text -> text -> Prop :=
| esc_nil : escaped chars [] []
| esc_keep c s e : ~ In c chars -> escaped chars s e -> escaped chars (c :: s) (c :: e)
| esc_pair c d s e : In c chars ->
    (pair_of c d \/ (d = c /\ forall x, ~ pair_of c x)) ->
    escaped chars s e -> escaped chars (c :: s) (92%N :: d :: e).

(** A backslash followed by a byte that has a meaning after a backslash. *)
Definition meaningful (c : N) : Prop := In c [34; 92; 9; 10; 13; 8; 12; 116; 110; 114; 98]%N.
Definition entangled (s : text) : Prop := exists u c v, s = u ++ 92%N :: c :: v /\ meaningful c.

(** ** The language of Json texts, with the values they denote *)
Section Grammar.
Variable number : text -> num -> Prop.       (* numerals and their values *)

(** Contents of a quoted text.  [\\] must not be followed by a byte that could be the second
    of a pair: see [entangled]. *)
Definition second (c : N) : Prop := In c [34; 92; 116; 110; 114; 98; 12]%N.
Inductive body : text -> text -> Prop :=
| b_nil : body [] []
| b_raw c b t : (c <> 0 /\ c <> 34 /\ c <> 92)%N -> body b t -> body (c :: b) (c :: t)
| b_esc c d b t : pair_of c d -> c <> 12%N ->
    (c = 92%N -> forall x r, b = x :: r -> ~ second x) ->
    body b t -> body (92%N :: d :: b) (c :: t).

Definition blanks (w : text) : Prop := Forall (fun c => In c [9; 10; 13; 32]%N) w.

(** A numeral consists of printable bytes and no delimiters and starts with a digit or a sign. *)
Definition numeral_shape (t : text) : Prop :=
  (exists c r, t = c :: r /\ (c = 45 \/ 48 <= c <= 57)%N) /\
  Forall (fun c => 33 <= c < 127 /\ c <> 44 /\ c <> 93 /\ c <> 125)%N t.

(** The items of an object in the order of the text: the last value of a key counts, and the
    map lists the latest item first. *)
Fixpoint firsts (seen : list text) (kvs : list (text * jv)) : list (text * jv) :=
  match kvs with
  | [] => []
  | (k, v) :: r => if existsb (text_eqb k) seen then firsts seen r else (k, v) :: firsts (k :: seen) r
  end.
Definition denotes (kvs : list (text * jv)) : jv := JMap (firsts [] (rev kvs)).

Inductive jval : jv -> text -> Prop :=
| v_null : jval JNil [110; 117; 108; 108]%N
| v_true : jval (JBool true) [116; 114; 117; 101]%N
| v_false : jval (JBool false) [102; 97; 108; 115; 101]%N
| v_num x t : numeral_shape t -> number t x -> jval (JNum x) t
| v_text b t : body b t -> jval (JText t) (34%N :: b ++ [34%N])
| v_list_empty w : blanks w -> jval (JList []) (91%N :: w ++ [93%N])
| v_list l t : jelems l t -> jval (JList l) (91%N :: t ++ [93%N])
| v_map_empty w : blanks w -> jval (JMap []) (123%N :: w ++ [125%N])
| v_map kvs t : jmembers kvs t -> jval (denotes kvs) (123%N :: t ++ [125%N])
with jelems : list jv -> text -> Prop :=
| e_last w1 w2 v t : blanks w1 -> blanks w2 -> jval v t -> jelems [v] (w1 ++ t ++ w2)
| e_more w1 w2 v t l u : blanks w1 -> blanks w2 -> jval v t -> jelems l u ->
    jelems (v :: l) (w1 ++ t ++ w2 ++ 44%N :: u)
with jmembers : list (text * jv) -> text -> Prop :=
| m_last w1 w2 w3 w4 b k v t : blanks w1 -> blanks w2 -> blanks w3 -> blanks w4 ->
    body b k -> jval v t ->
    jmembers [(k, v)] (w1 ++ 34%N :: b ++ 34%N :: w2 ++ 58%N :: w3 ++ t ++ w4)
| m_more w1 w2 w3 w4 b k v t l u : blanks w1 -> blanks w2 -> blanks w3 -> blanks w4 ->
    body b k -> jval v t -> jmembers l u ->
    jmembers ((k, v) :: l) (w1 ++ 34%N :: b ++ 34%N :: w2 ++ 58%N :: w3 ++ t ++ w4 ++ 44%N :: u).

End Grammar.

(** ** Values that survive *)

(** The same value up to the order of the items of maps. *)
Inductive same : jv -> jv -> Prop :=
| same_nil : same JNil JNil
| same_bool b : same (JBool b) (JBool b)
| same_num x : same (JNum x) (JNum x)
| same_text t : same (JText t) (JText t)
| same_list l l' : Forall2 same l l' -> same (JList l) (JList l')
| same_map m m' p : Permutation m' p ->
    Forall2 (fun a b => fst a = fst b /\ same (snd a) (snd b)) m p -> same (JMap m) (JMap m').

(** A text that can be written into Json and read back: as a key or value of a map, and as an
    element of a list. *)
Definition clean (t : text) : Prop := ~ In 0%N t /\ ~ In 12%N t /\ ~ entangled t.
Definition clean_elem (t : text) : Prop := ~ In 0%N t /\ ~ In 92%N t.

Section Fit.
Variable good_num : num -> Prop.
Inductive fit : place -> jv -> Prop :=
| f_nil p : fit p JNil
| f_bool p b : fit p (JBool b)
| f_num p x : good_num x -> fit p (JNum x)
| f_text t : clean t -> fit JVal (JText t)
| f_text_elem t : clean_elem t -> fit JElem (JText t)
| f_list l : Forall (fit JElem) l -> fit JVal (JList l)
| f_map p kvs : NoDup (map fst kvs) -> Forall (fun kv => clean (fst kv) /\ fit JVal (snd kv)) kvs ->
    fit p (JMap kvs).
End Fit.

(** Whole numbers that stay one numeral when written with the thousands separator [t]. *)
Definition printable (c : N) : Prop := (33 <= c < 127 /\ c <> 44 /\ c <> 93 /\ c <> 125)%N.
Definition whole_for (t : N) (x : num) : Prop :=
  exists z, x = of_Z z /\ (Z.abs z <= 2 ^ 53)%Z /\ ((Z.abs z < 1000)%Z \/ printable t).
