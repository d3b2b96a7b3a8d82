(** Properties: a translated program is the same program. *)
From Coq Require Import NArith List String Lia.
From Verif Require Import Common Txt TextSpec LexModel LexSpec Dicts ParseModel ParseSpec TransModel TransSpec TransProps SameSpec SameProofs.
From Verif Require LangDicts RegTable RegModel RegProps SameLang.
Import ListNotations.
Open Scope nat_scope.
Local Notation "'tx' s" := (lit s%string) (at level 8, s at level 0).

(** * C150 *)
(** Full statement: a program and its translation are parsed into the same program, but for the words: the same
    receivers, messages, arguments, numbers and blocks in the same order, every word and every message by its
    translation in the dictionary.  Shown for programs that are properly written in both languages ([well_formed], as
    in C76 and C42), if the names of messages without arguments and of those with a sign for their name have one
    character in both languages or in none.  Missing: other programs ([C76_decimal_refuted] and so on,
    [C150_single_refuted]), and texts with the signs for new lines and tabs. *)
Theorem C150_same_program_partial : forall (M : text -> Prop) d d' ls T T' l trail ss o oo,
  lang_ok d = true -> lang_ok d' = true -> ends_in_word ls = true -> load_dictionary d ls = LOk T -> dict_ok d d' T = true ->
  well_formed d d' T [(false, false)] l trail = true -> well_formed d' d T' [(false, false)] (mirror (tidy l)) trail = true ->
  placed false false l = true -> Forall (fun '(_, p) => steady M d d' p) l -> statements d ss (tokens d l) -> uses_all M ss ->
  exists t ss' s s', translate_program d T (render d l ++ trail) = LOk t /\
    parse d (render d l ++ trail) o oo = POk ss s /\ err s = false /\ parse d' t o oo = POk ss' s' /\ err s' = false /\
    all (word_of T) (word_of T) (text_of T) ss ss'.
Proof. exact same_program. Qed.
Print Assumptions C150_same_program_partial.

(** A case: "x := self foo: (own x put: 1,000 at: 2 + x neg) bar: { :x <- x foo: 1. }, foo: ['hi']." *)
Definition more_lines : list (N * text * text) := (ty_t, tx "neg", tx "keer") :: (ty_t, tx "+", tx "⊕") :: (ty_t, tx "self", tx "⛏") :: (ty_t, tx "own", tx "⚿") :: lines.
Definition sentence : program := [
  ([], Word (tx "x") (tx "é")); (sp, Assign); (sp, Word (tx "self") (tx "⛏")); (sp, Key (tx "foo") (tx "G"));
  (sp, Open); ([], Word (tx "own") (tx "⚿")); (sp, Word (tx "x") (tx "é")); (sp, Key (tx "put") (tx "P")); (sp, Num (tx "1,000") (tx "1,000")); (sp, Key (tx "at") (tx "A"));
  (sp, Num (tx "2") (tx "2")); (sp, Word (tx "+") (tx "⊕")); (sp, Word (tx "x") (tx "é")); (sp, Word (tx "neg") (tx "keer")); ([], Close);
  (sp, Key (tx "bar") (tx "B")); (sp, BOpen); (sp, Param (tx "x") (tx "é")); (sp, Return); (sp, Word (tx "x") (tx "é")); (sp, Key (tx "foo") (tx "F"));
  (sp, Num (tx "1") (tx "1")); ([], Dot); (sp, BClose); ([], Chain); (sp, Key (tx "foo") (tx "F")); (sp, Text (tx "hi") (tx "hallo")); ([], Dot)].
Definition tree (x self my neg plus f2 f1 put hi : text) : list node := [
  NAssign (NRef 0 x) (NExpr (NRef 0 self) [
    MKw f2 [NNested (NExpr (NRef 1 x) [MKw put [NNum (tx "1000"); NExpr (NNum (tx "2")) [MBin plus (NExpr (NRef 0 x) [MUna neg])]]]);
            NBlock [x] [NRet (NExpr (NRef 0 x) [MKw f1 [NNum (tx "1")]])]];
    MKw f1 [NStr hi]])].
Definition tree_en := tree (tx "x") (tx "self") (tx "own") (tx "neg") (tx "+") (tx "foo:bar:") (tx "foo:") (tx "put:at:") (tx "hi").
Definition tree_xx := tree (tx "é") (tx "⛏") (tx "⚿") (tx "keer") (tx "⊕") (tx "G:B:") (tx "F:") (tx "P:A:") (tx "hallo").
Definition heard (w : text) : Prop := w = tx "neg" \/ w = tx "+".
Lemma ascii_valid v : forallb (fun b => (b <? 128)%N) v = true -> chars_of v (map (fun b => [b]) v).
Proof.
  induction v as [|b v IH]; intros H; [split; constructor|]. cbn [forallb] in H. apply andb_prop in H as [H1 H2]. destruct (IH H2) as (F & E).
  split; cbn [map concat app]; [constructor; [apply ch1; now apply N.ltb_lt|exact F]|f_equal; exact E].
Qed.
Lemma en_several v : forallb (fun b => (b <? 128)%N) v = true -> 2 <= length v <= 100 -> several v.
Proof. intros H L. exists (map (fun b => [b]) v). split; [now apply ascii_valid|]. rewrite map_length. unfold W64. split; lia. Qed.
Lemma not_single b c v : (b < 128)%N -> ~ single (b :: c :: v).
Proof. intros H S. unfold single in S. inversion S; subst; lia. Qed.
Lemma not_several v : length v <= 100 -> single v -> ~ several v.
Proof.
  intros L S V. destruct (ParseProofs.utf8_several v V) as (u & E & N). rewrite (ParseProofs.utf8_single v S) in E; [injection E as E; congruence|]. unfold W64. lia.
Qed.
Ltac other := let X := fresh in intros X; first [reflexivity|exfalso; vm_compute in X; discriminate].
Lemma sentence_steady : Forall (fun '(_, p) => steady heard dict_en dict_xx p) sentence.
Proof.
  assert (K : forall w w', (heard w -> (single w -> single w') /\ (several w -> several w')) -> (is_my dict_en w <-> is_my dict_xx w') -> (is_var dict_en w <-> is_var dict_xx w') ->
    keeps heard dict_en dict_xx w w') by (intros w w' A B C; exact (conj A (conj B C))).
  assert (NV : forall w w', (text_eqb w (tx ">>") || text_eqb w' (tx ">>") || text_eqb w' (tx "☞"))%bool = false -> (is_var dict_en w <-> is_var dict_xx w')).
  { intros w w' H. apply Bool.orb_false_elim in H as [H H3]. apply Bool.orb_false_elim in H as [H1 H2].
    split; intros [->| ->]; exfalso; vm_compute in H1, H2, H3; discriminate. }
  assert (V : forall v v', forallb (fun b => (b <? 128)%N) v' = true -> valid v -> valid v') by (intros v v' H _; eexists; now apply ascii_valid).
  unfold sentence. repeat (apply Forall_cons; [cbn [steady]; try exact I; try (apply V; reflexivity); try (split; vm_compute; reflexivity)|]); try apply Forall_nil.
  all: apply K; [|split; other|apply NV; vm_compute; reflexivity].
  all: try (intros [X|X]; vm_compute in X; discriminate).
  - intros _. split; [intros _; apply ch3; vm_compute; repeat split; discriminate|]. intros X. exfalso. revert X. apply not_several; [vm_compute; lia|]. apply ch1. vm_compute. reflexivity.
  - intros _. split; [|intros _; apply en_several; [reflexivity|vm_compute; lia]]. intros X. exfalso. revert X. apply not_single. vm_compute. reflexivity.
Qed.
Definition nest_tokens : list tk := [(TPAROPEN, []); ref (tx "own"); ref (tx "x"); ref (tx "put"); (TCOLON, []); (TNUMBER, tx "1000"); ref (tx "at"); (TCOLON, []); (TNUMBER, tx "2"); ref (tx "+"); ref (tx "x"); ref (tx "neg"); (TPARCLOSE, [])].
Definition blk_tokens : list tk := [(TBLOCKOPEN, []); (TCOLON, []); ref (tx "x"); (TRET, []); ref (tx "x"); ref (tx "foo"); (TCOLON, []); (TNUMBER, tx "1"); (TDOT, []); (TBLOCKCLOSE, [])].
Lemma sentence_grammar : statements dict_en tree_en (tokens dict_en sentence).
Proof.
  assert (NIL : binaries dict_en [] []) by constructor.
  assert (PR : forall w, text_eqb w (tx "own") = false -> text_eqb w (tx ">>") = false -> prim dict_en (NRef 0 w) [ref w]).
  { intros w A B. apply g_ref; [intros ->; discriminate|intros [->| ->]; discriminate]. }
  assert (AN : forall v, argument dict_en (NNum v) [(TNUMBER, v)]) by (intros v; apply (g_argument dict_en (NNum v) [(TNUMBER, v)] [] [] []); auto; constructor).
  assert (VA : forall v, forallb (fun b => (b <? 128)%N) v = true -> exists cs, chars_of v cs) by (intros v H; eexists; now apply ascii_valid).
  assert (RET : statements dict_en [NRet (NExpr (NRef 0 (tx "x")) [MKw (tx "foo:") [NNum (tx "1")]])] [(TRET, []); ref (tx "x"); ref (tx "foo"); (TCOLON, []); (TNUMBER, tx "1"); (TDOT, [])]).
  { apply (g_sret dict_en (NExpr (NRef 0 (tx "x")) [MKw (tx "foo:") [NNum (tx "1")]]) [ref (tx "x"); ref (tx "foo"); (TCOLON, []); (TNUMBER, tx "1")] [] []); [|constructor].
    apply (g_send dict_en (NRef 0 (tx "x")) [ref (tx "x")] [MKw (tx "foo:") [NNum (tx "1")]] [ref (tx "foo"); (TCOLON, []); (TNUMBER, tx "1")]); [apply PR; reflexivity|].
    apply (g_kw dict_en [] [] [] (tx "foo") [] [NNum (tx "1")] [(TNUMBER, tx "1")]); auto; [constructor; apply AN|vm_compute; lia]. }
  assert (BLK : argument dict_en (NBlock [tx "x"] [NRet (NExpr (NRef 0 (tx "x")) [MKw (tx "foo:") [NNum (tx "1")]])])
     blk_tokens).
  { eapply (g_argument dict_en _ blk_tokens [] [] []); auto.
    apply (g_block dict_en [tx "x"] _ [(TRET, []); ref (tx "x"); ref (tx "foo"); (TCOLON, []); (TNUMBER, tx "1"); (TDOT, [])]); [left; discriminate|exact RET]. }
  assert (OP : argument dict_en (NExpr (NNum (tx "2")) [MBin (tx "+") (NExpr (NRef 0 (tx "x")) [MUna (tx "neg")])]) [(TNUMBER, tx "2"); ref (tx "+"); ref (tx "x"); ref (tx "neg")]).
  { apply (g_argument dict_en (NNum (tx "2")) [(TNUMBER, tx "2")] [] [MBin (tx "+") (NExpr (NRef 0 (tx "x")) [MUna (tx "neg")])] [ref (tx "+"); ref (tx "x"); ref (tx "neg")]); [constructor|constructor|].
    apply (g_bcons dict_en (tx "+") (NExpr (NRef 0 (tx "x")) [MUna (tx "neg")]) [ref (tx "x"); ref (tx "neg")] [] []); [apply ch1; vm_compute; reflexivity| |exact NIL].
    apply (g_operand dict_en (NRef 0 (tx "x")) [ref (tx "x")] [tx "neg"]); [apply PR; reflexivity|]. constructor; [|constructor]. apply en_several; [reflexivity|vm_compute; lia]. }
  assert (NEST : argument dict_en (NNested (NExpr (NRef 1 (tx "x")) [MKw (tx "put:at:") [NNum (tx "1000"); NExpr (NNum (tx "2")) [MBin (tx "+") (NExpr (NRef 0 (tx "x")) [MUna (tx "neg")])]]]))
     nest_tokens).
  { eapply (g_argument dict_en _ nest_tokens [] [] []); auto.
    apply (g_nested dict_en _ [ref (tx "own"); ref (tx "x"); ref (tx "put"); (TCOLON, []); (TNUMBER, tx "1000"); ref (tx "at"); (TCOLON, []); (TNUMBER, tx "2"); ref (tx "+"); ref (tx "x"); ref (tx "neg")]).
    eapply (g_send dict_en (NRef 1 (tx "x")) [ref (tx "own"); ref (tx "x")] [MKw (tx "put:at:") _] [ref (tx "put"); (TCOLON, []); (TNUMBER, tx "1000"); ref (tx "at"); (TCOLON, []); (TNUMBER, tx "2"); ref (tx "+"); ref (tx "x"); ref (tx "neg")]).
    - apply g_my; [reflexivity|intros [X|X]; discriminate].
    - eapply (g_kw dict_en [] [] [] (tx "put") (tx "at:") _ [(TNUMBER, tx "1000"); ref (tx "at"); (TCOLON, []); (TNUMBER, tx "2"); ref (tx "+"); ref (tx "x"); ref (tx "neg")]); auto; [|vm_compute; lia].
      apply (g_kmore dict_en (NNum (tx "1000")) [(TNUMBER, tx "1000")] (tx "at") [] _ [(TNUMBER, tx "2"); ref (tx "+"); ref (tx "x"); ref (tx "neg")]); [apply AN|]. constructor. exact OP. }
  assert (STR : keywords dict_en [] [NStr (tx "hi")] [(TQUOTE, tx "hi")]).
  { constructor. apply (g_argument dict_en (NStr (tx "hi")) [(TQUOTE, tx "hi")] [] [] []); auto; constructor. }
  apply (g_scons dict_en _ (removelast (tokens dict_en sentence)) [] []); [|constructor].
  eapply (g_assign dict_en 0 (tx "x") [ref (tx "x")] _ (tl (tl (removelast (tokens dict_en sentence))))); [apply PR; reflexivity|].
  match goal with |- expression _ (NExpr ?r ?ms) ?ts => change (expression dict_en (sent r ms) ([ref (tx "self")] ++ tl ts)); apply g_send end; [apply PR; reflexivity|].
  match goal with |- messages_of _ [MKw _ ?args; ?m] _ => apply (g_cascade dict_en [] [] [] (tx "foo") (tx "bar:") args (nest_tokens ++ ref (tx "bar") :: ParseSpec.sign TCOLON :: blk_tokens) [m] [ref (tx "foo"); (TCOLON, []); (TQUOTE, tx "hi")]) end;
    [constructor|exact NIL|apply (g_kmore dict_en _ nest_tokens (tx "bar") [] _ blk_tokens); [exact NEST|constructor; exact BLK]|apply VA; reflexivity|vm_compute; lia| |discriminate].
  apply (g_kw dict_en [] [] [] (tx "foo") [] [NStr (tx "hi")] [(TQUOTE, tx "hi")]); auto. vm_compute; lia.
Qed.
Example C150_case : exists T T',
  lang_ok dict_en = true /\ lang_ok dict_xx = true /\ ends_in_word more_lines = true /\ load_dictionary dict_en more_lines = LOk T /\ dict_ok dict_en dict_xx T = true /\
  well_formed dict_en dict_xx T [(false, false)] sentence [10%N] = true /\ well_formed dict_xx dict_en T' [(false, false)] (mirror (tidy sentence)) [10%N] = true /\
  placed false false sentence = true /\ Forall (fun '(_, p) => steady heard dict_en dict_xx p) sentence /\ statements dict_en tree_en (tokens dict_en sentence) /\ uses_all heard tree_en /\
  render dict_en sentence = tx "x := self foo: (own x put: 1,000 at: 2 + x neg) bar: { :x <- x foo: 1. }, foo: ['hi']." /\
  translate_program dict_en T (render dict_en sentence ++ [10%N]) = LOk (tx "é ≔ ⛏ G: (⚿ é P: 1,000 A: 2 ⊕ é keer) B: { :é ↲ é F: 1. }, F: ‘hallo’." ++ [10%N]) /\
  exists s, parse dict_xx (tx "é ≔ ⛏ G: (⚿ é P: 1,000 A: 2 ⊕ é keer) B: { :é ↲ é F: 1. }, F: ‘hallo’." ++ [10%N]) [] [] = POk tree_xx s.
Proof.
  assert (E : exists T', load_dictionary dict_xx (backwards more_lines) = LOk T' /\ well_formed dict_xx dict_en T' [(false, false)] (mirror (tidy sentence)) [10%N] = true) by (eexists; split; vm_compute; reflexivity).
  destruct E as (T' & _ & W'). eexists. exists T'. do 3 (split; [vm_compute; reflexivity|]). split; [vm_compute; reflexivity|]. do 2 (split; [vm_compute; reflexivity|]). split; [exact W'|].
  split; [reflexivity|]. split; [exact sentence_steady|]. split; [exact sentence_grammar|].
  split; [cbn; unfold heard; tauto|]. do 2 (split; [vm_compute; reflexivity|]). eexists. vm_compute. reflexivity.
Qed.

(** The messages of the standard objects have names of one character in all languages or in none. *)
Theorem C150_languages : forall l d ws l' d' ws' o k f,
  In (lit l, d) LangDicts.languages -> In (l, ws) RegModel.dictionaries -> In (lit l', d') LangDicts.languages -> In (l', ws') RegModel.dictionaries ->
  In (o, k, f) RegTable.registrations ->
  (single (RegModel.key_text d ws k) <-> single (RegModel.key_text d' ws' k)) /\ (several (RegModel.key_text d ws k) <-> several (RegModel.key_text d' ws' k)).
Proof. exact SameLang.part_kept. Qed.
Print Assumptions C150_languages.
(** The length of a text, in English and in Dutch. *)
Example C150_languages_case : In (lit "nl", RegProps.dict_of "nl") LangDicts.languages /\ In ("nl"%string, RegProps.words_of "nl") RegModel.dictionaries /\
  In (lit "en", RegProps.dict_of "en") LangDicts.languages /\ In ("en"%string, RegProps.words_of "en") RegModel.dictionaries /\
  In (RegTable.OString, RegTable.Dict "LENGTH", "ctr_string_length"%string) RegTable.registrations /\
  RegModel.key_text (RegProps.dict_of "nl") (RegProps.words_of "nl") (RegTable.Dict "LENGTH") = tx "lengte".
Proof.
  do 4 (split; [first [apply RegProps.dict_of_in|apply RegProps.words_of_in]; vm_compute; reflexivity|]).
  split; [|vm_compute; reflexivity].
  assert (E : exists n, nth_error RegTable.registrations n = Some (RegTable.OString, RegTable.Dict "LENGTH", "ctr_string_length"%string)).
  { exists 99. vm_compute. reflexivity. }
  destruct E as (n & E). exact (nth_error_In _ n E).
Qed.

(** A message with a name of several characters becomes one with a name of a single character: "x neg abs" is two messages,
    its translation is one, with an argument. *)
Definition short_lines : list (N * text * text) := (ty_t, tx "neg", tx "n") :: (ty_t, tx "abs", tx "waarde") :: lines.
Theorem C150_single_refuted : exists ls T t s s', load_dictionary dict_en ls = LOk T /\ translate_program dict_en T (tx "x neg abs.") = LOk t /\
  parse dict_en (tx "x neg abs.") [] [] = POk [NExpr (NRef 0 (tx "x")) [MUna (tx "neg"); MUna (tx "abs")]] s /\ err s = false /\
  parse dict_xx t [] [] = POk [NExpr (NRef 0 (tx "é")) [MBin (tx "n") (NRef 0 (tx "waarde"))]] s' /\ err s' = false.
Proof. exists short_lines. do 4 eexists. split; [vm_compute; reflexivity|]. split; [vm_compute; reflexivity|]. split; [vm_compute; reflexivity|]. split; [reflexivity|]. split; [vm_compute; reflexivity|]. reflexivity. Qed.
Print Assumptions C150_single_refuted.
