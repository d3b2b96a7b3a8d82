(** Properties of built-in names in every language. *)
From Coq Require Import NArith List String.
From Verif Require Import Common Fuel Txt TextSpec LexModel LexSpec ParseModel ParseSpec Dicts LangDicts RegTable RegArity RegModel RegSpec RegCheck RegProofs.
Import ListNotations.
Open Scope list_scope.
Open Scope nat_scope.
Local Notation "'tx' s" := (lit s%string) (at level 8, s at level 0).

(** * C108 *)
(** Every built-in message, in every language, reaches the function registered for it, whatever the
    hash; and every built-in object is found under its name. *)
Theorem C108_same_function : forall l d ws hash, In (lit l, d) languages -> In (l, ws) dictionaries ->
  exists w, initialize hash d ws = Ret w /\
  (forall fuel o k f, 300 <= fuel -> understands o k f -> find_method hash fuel w o (key_text d ws k) = Ret (Some f)) /\
  (forall fuel k o, 300 <= fuel -> In (k, o) globals -> find_name hash fuel w (key_text d ws k) = Ret (Some o)).
Proof. exact language_world. Qed.
Print Assumptions C108_same_function.

(** Every built-in object can be written by its name. *)
Theorem C108_object_names : forall l d ws k o, In (lit l, d) languages -> In (l, ws) dictionaries -> In (k, o) globals ->
  prim d (NRef 0 (key_text d ws k)) [ref (key_text d ws k)] /\ piece d [ref (key_text d ws k)] (key_text d ws k).
Proof. exact language_names. Qed.
Print Assumptions C108_object_names.

(** Every built-in message can be written with the number of arguments of its English name, and the
    parser sends exactly that message with those arguments; but for fourteen names.
    Full statement: the same without [~ In (l, k) exceptions]; it is false, see below. *)
Theorem C108_send_partial : forall l d ws o k f r tr sr args a b, In (lit l, d) languages -> In (l, ws) dictionaries ->
  In (o, k, f) registrations -> ~ In (l, k) exceptions ->
  prim d r tr -> piece d tr sr -> Forall (written_arg d (key_text d ws k)) args ->
  List.length args = arguments 58%N (key_text dict_en english k) ->
  exists s, parse d (sr ++ 32%N :: call (d_prefix d) (key_text d ws k) (map snd args) ++ d_eol d) a b =
    POk [NExpr r [message (key_text d ws k) (map (fun x => fst (fst x)) args)]] s /\ err s = false.
Proof. exact language_sends. Qed.
Print Assumptions C108_send_partial.

(** That number is the number of arguments of the function. *)
Theorem C108_arguments : forall o k f, In (o, k, f) registrations -> In (f, arguments 58%N (key_text dict_en english k)) takes.
Proof. exact arity_ok. Qed.
Print Assumptions C108_arguments.
Example C108_arguments_example : arguments 58%N (key_text dict_en english (Dict "SPLICE"%string)) = 3 /\ In ("ctr_array_splice"%string, 3) takes.
Proof. split; [vm_compute; reflexivity|]. apply (arity_ok OArray (Dict "SPLICE"%string)). apply nth_error_In with (n := 167); vm_compute; reflexivity. Qed.

(** Two of the conditions met: the number of languages, and a name as receiver or argument. *)
Example C108_languages : List.length dictionaries = 114 /\ map fst languages = map (fun lw => lit (fst lw)) dictionaries.
Proof. split; vm_compute; reflexivity. Qed.
Definition x_arg : node * list tk * text := (NRef 0 (tx "x"), [ref (tx "x")], tx "x").
Lemma x_ok : Forall (fun ld => prim (snd ld) (NRef 0 (tx "x")) [ref (tx "x")] /\ piece (snd ld) [ref (tx "x")] (tx "x")) languages.
Proof.
  assert (H : forallb (fun ld => word_okb (snd ld) (tx "x") 32%N && negb (text_eqb (tx "x") (d_my (snd ld)))
    && negb (text_eqb (tx "x") (d_var (snd ld)))) languages = true) by (vm_compute; reflexivity).
  rewrite forallb_forall in H. apply Forall_forall. intros ld I. specialize (H _ I). ands.
  split; [|now apply piece_word]. rewrite !Bool.negb_true_iff in *.
  assert (TE : forall a b, text_eqb a b = false -> a <> b).
  { intros a b X ->. assert (text_eqb b b = true) by (now apply MapProofs.text_eqb_spec). congruence. }
  apply g_ref; unfold is_my, is_var; [now apply TE|]. intros [X|X]; [revert X; now apply TE|discriminate].
Qed.
Lemma x_written ld name : In ld languages -> written_arg (snd ld) name x_arg.
Proof.
  intros I. destruct (proj1 (Forall_forall _ _) x_ok _ I) as (P & C). split; [|exact C].
  destruct (characters name =? 1).
  - exact (g_operand (snd ld) _ _ [] P (Forall_nil _)).
  - exact (g_argument (snd ld) _ _ [] [] [] P (Forall_nil _) (g_bnil _)).
Qed.
Definition words_of (l : string) : list string := match find (fun lw => String.eqb (fst lw) l) dictionaries with Some lw => snd lw | None => [] end.
Definition dict_of (l : string) : dict := match find (fun ld => text_eqb (fst ld) (lit l)) languages with Some ld => snd ld | None => dict_en end.
Lemma words_of_in l : existsb (fun lw => String.eqb (fst lw) l) dictionaries = true -> In (l, words_of l) dictionaries.
Proof.
  intros E. unfold words_of. destruct (find _ _) as [(l' & ws)|] eqn:F.
  - apply find_some in F. destruct F as (I & EQ). apply String.eqb_eq in EQ. cbn [fst snd] in *. now subst.
  - apply existsb_exists in E. destruct E as (x & I & E). apply (find_none _ _ F) in I. cbn [fst snd] in *. congruence.
Qed.
Lemma dict_of_in l : existsb (fun ld => text_eqb (fst ld) (lit l)) languages = true -> In (lit l, dict_of l) languages.
Proof.
  intros E. unfold dict_of. destruct (find _ _) as [(l' & d)|] eqn:F.
  - apply find_some in F. destruct F as (I & EQ). apply MapProofs.text_eqb_spec in EQ. cbn [fst snd] in *. now subst.
  - apply existsb_exists in E. destruct E as (x & I & E). apply (find_none _ _ F) in I. cbn [fst snd] in *. congruence.
Qed.
(** The messages [+], [put:at:] and [new] in Dutch. *)
Example C108_dutch : let d := dict_of "nl" in let ws := words_of "nl" in
  call 58%N (key_text d ws (Dict "PUT_AT")) [tx "x"; tx "y"] = tx "zet: x bij: y " /\
  call 58%N (key_text d ws (Dict "NEW")) [] = tx "nieuw " /\
  call 58%N (key_text d ws (Dict "PLUS")) [tx "x"] = tx "+ x " /\
  key_text d ws (Dict "ARRAY_OBJECT") = tx "Reeks" /\
  map (fun k => arguments 58%N (key_text dict_en english (Dict k))) ["PUT_AT"; "NEW"; "PLUS"]%string = [2; 0; 1] /\
  In (tx "nl", d) languages /\ In ("nl"%string, ws) dictionaries.
Proof.
  cbv zeta. repeat (match goal with |- _ /\ _ => split end; [vm_compute; reflexivity|]). split.
  - apply (dict_of_in "nl"). vm_compute. reflexivity.
  - apply words_of_in. vm_compute. reflexivity.
Qed.
Example C108_understood : understands OArray (Dict "PUT_AT") "ctr_array_put" /\ understands OArray (Dict "LEARN") "ctr_object_learn_meaning".
Proof.
  split.
  - apply un_own. apply nth_error_In with (n := 165). vm_compute. reflexivity.
  - apply un_inherited with (p := OObject); [|reflexivity|].
    + intros g I. assert (B : forallb (fun r => negb (std_eqb (fst (fst r)) OArray && key_eqb (snd (fst r)) (Dict "LEARN"))) registrations = true)
        by (vm_compute; reflexivity).
      rewrite forallb_forall in B. specialize (B _ I). vm_compute in B. discriminate.
    + apply un_own. apply nth_error_In with (n := 22). vm_compute. reflexivity.
Qed.

(** The other fourteen: with the number of arguments of the English name, something else is sent, or
    nothing. *)
Theorem C108_exceptions_refuted : forall l k, In (l, k) exceptions -> exists d ws o f,
  In (lit l, d) languages /\ In (l, ws) dictionaries /\ In (o, k, f) registrations /\
  let n := arguments 58%N (key_text dict_en english k) in
  Forall (written_arg d (key_text d ws k)) (repeat x_arg n) /\
  ~ exists s, parse d (tx "x" ++ 32%N :: call (d_prefix d) (key_text d ws k) (repeat (tx "x") n) ++ d_eol d) [] [] =
    POk [NExpr (NRef 0 (tx "x")) [message (key_text d ws k) (repeat (NRef 0 (tx "x")) n)]] s /\ err s = false.
Proof.
  intros l k I.
  assert (G : forall d ws o f m, In (lit l, d) languages -> In (l, ws) dictionaries -> nth_error registrations m = Some (o, k, f) ->
    (forall s, parse d (tx "x" ++ 32%N :: call (d_prefix d) (key_text d ws k) (repeat (tx "x") (arguments 58%N (key_text dict_en english k))) ++ d_eol d) [] [] =
      POk [NExpr (NRef 0 (tx "x")) [message (key_text d ws k) (repeat (NRef 0 (tx "x")) (arguments 58%N (key_text dict_en english k)))]] s -> False) ->
    exists d ws o f,
    In (lit l, d) languages /\ In (l, ws) dictionaries /\ In (o, k, f) registrations /\
    let n := arguments 58%N (key_text dict_en english k) in
    Forall (written_arg d (key_text d ws k)) (repeat x_arg n) /\
    ~ exists s, parse d (tx "x" ++ 32%N :: call (d_prefix d) (key_text d ws k) (repeat (tx "x") n) ++ d_eol d) [] [] =
      POk [NExpr (NRef 0 (tx "x")) [message (key_text d ws k) (repeat (NRef 0 (tx "x")) n)]] s /\ err s = false).
  { intros d ws o f m L D R P. exists d, ws, o, f. split; [exact L|]. split; [exact D|]. split; [now apply nth_error_In with (n := m)|].
    cbv zeta. split; [apply Forall_forall; intros y Y; apply repeat_spec in Y; subst y; exact (x_written _ _ L)|].
    intros (s & E & _). exact (P s E). }
  unfold exceptions in I. cbn [In] in I. decompose [or] I; try contradiction;
  match goal with H : (_, _) = (l, k) |- _ => injection H as <- <- end;
  (match goal with
  | |- context [In (_, Dict "SPLICE", _) _] => eapply (G (dict_of _) (words_of _) _ _ 167)
  | |- context [In (_, Dict "FILL_WITH", _) _] => eapply (G (dict_of _) (words_of _) _ _ 177)
  | |- context [In (_, Dict "WAIT_FOR_PASSW", _) _] => eapply (G (dict_of _) (words_of _) _ _ 223)
  | |- context [In (_, Dict "RESPOND_TO_AND_AND", _) _] => eapply (G (dict_of _) (words_of _) _ _ 8)
  | |- context [In (_, Dict "RESPOND_TO_AND_AND_AND", _) _] => eapply (G (dict_of _) (words_of _) _ _ 9)
  end;
  [apply dict_of_in; vm_compute; reflexivity|apply words_of_in; vm_compute; reflexivity|vm_compute; reflexivity|
   intros s E; vm_compute in E; discriminate]).
Qed.
Print Assumptions C108_exceptions_refuted.

(** ** C41 in every language: the conditions on the signs of a language hold in all of them. *)
Theorem C41_every_language : forall l d ss ts code o oo, In (l, d) languages ->
  statements d ss ts -> layout d ts code -> exists s, parse d code o oo = POk ss s /\ err s = false.
Proof.
  intros l d ss ts code o oo I. destruct (proj1 (Forall_forall _ _) all_languages _ I) as (LA & WO & MO). cbn [snd] in *.
  exact (LayoutProofs.parse_layout d LA WO MO ss ts code o oo).
Qed.
Print Assumptions C41_every_language.
