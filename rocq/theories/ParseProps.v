(** Properties of the parser. *)
From Coq Require Import NArith List String.
From Verif Require Import Common Txt TextSpec NumModel LexModel LexSpec LexProofs ParseModel ParseSpec ParseProofs LayoutProofs Dicts.
Import ListNotations.
Open Scope nat_scope.
Local Notation "'tx' s" := (lit s%string) (at level 8, s at level 0).

Ltac language := constructor; repeat split; repeat apply Forall_cons; try apply Forall_nil;
  try (apply apartb_ok; vm_compute; reflexivity); try (vm_compute; discriminate);
  try (eexists _, _; split; [vm_compute; reflexivity|not_in]; fail);
  try (intros ? ? X; vm_compute in X; injection X as <- _; split; [unfold digit; lia|discriminate]);
  try (left; vm_compute; reflexivity); try (left; reflexivity).
Lemma en_lang : lang_ok dict_en. Proof. language. Qed.
Lemma xx_lang : lang_ok dict_xx. Proof. language. Qed.

(** * C41 *)
Theorem C41_parse_written : forall d ss ts code o oo, lang_ok d -> words_ok d -> marks_ok d ->
  statements d ss ts -> layout d ts code ->
  exists s, parse d code o oo = POk ss s /\ err s = false.
Proof. intros d ss ts code o oo LA WO MO. exact (parse_layout d LA WO MO ss ts code o oo). Qed.
Print Assumptions C41_parse_written.

Ltac spell := first
  [ apply name_spelled; [exact en_lang|exact en_words|vm_compute; reflexivity]
  | apply sp_paropen | apply sp_parclose | apply sp_blockopen | apply sp_blockclose | apply sp_dot | apply sp_chain
  | apply sp_return | apply sp_assign
  | apply sp_colon; intros ? [<-|[<-|[]]]; apply starts_false; vm_compute; reflexivity
  | apply (sp_number dict_en []); [now left|discriminate|repeat constructor; vm_compute; discriminate|vm_compute; lia|
      intros X; apply digit_peek in X; discriminate|
      intros ? r [<-|[<-|[]]] E ?; vm_compute in E; discriminate] ].
Ltac write gp src := match goal with |- layout ?d (?t :: ?ts) ?code =>
  let k := eval vm_compute in (skipn (length (gp ++ src)) code) in
  apply (lay_cons d gp t src ts k); [repeat constructor; cbn; tauto|spell|] end.
Definition sample : text := tx "x foo: 1 + y abs bar: { :p <- p. }.".
Definition sample_tokens : list tk :=
  [ref (tx "x"); ref (tx "foo"); sign TCOLON; (TNUMBER, tx "1"); ref (tx "+"); ref (tx "y"); ref (tx "abs");
   ref (tx "bar"); sign TCOLON; sign TBLOCKOPEN; sign TCOLON; ref (tx "p"); sign TRET; ref (tx "p"); sign TDOT;
   sign TBLOCKCLOSE; sign TDOT].
Definition sample_tree : list node :=
  [NExpr (NRef 0 (tx "x"))
     [MKw (tx "foo:bar:")
        [NExpr (NNum (tx "1")) [MBin (tx "+") (NExpr (NRef 0 (tx "y")) [MUna (tx "abs")])];
         NBlock [tx "p"] [NRet (NRef 0 (tx "p"))]]]].
Example C41_sample_layout : layout dict_en sample_tokens sample.
Proof.
  unfold sample_tokens, sample.
  write (tx "") (tx "x"). write (tx " ") (tx "foo"). write (tx "") (tx ":"). write (tx " ") (tx "1"). write (tx " ") (tx "+").
  write (tx " ") (tx "y"). write (tx " ") (tx "abs"). write (tx " ") (tx "bar"). write (tx "") (tx ":").
  write (tx " ") (tx "{"). write (tx " ") (tx ":"). write (tx "") (tx "p"). write (tx " ") (tx "<-"). write (tx " ") (tx "p").
  write (tx "") (tx "."). write (tx " ") (tx "}"). write (tx "") (tx ".").
  apply (lay_end dict_en [] []); [constructor|now left].
Qed.
Lemma ascii_chars v : Forall (fun b => (b < 128)%N) v -> chars_of v (map (fun b => [b]) v).
Proof.
  intros F. split; [|induction v as [|x v IH]; [auto|cbn; f_equal; apply IH; now inversion F]].
  induction F; cbn; constructor; auto. now constructor.
Qed.
Lemma ascii_several v : Forall (fun b => (b < 128)%N) v -> length v <> 1 -> length v <= 1000 -> several v.
Proof.
  intros F L1 L2. exists (map (fun b => [b]) v). split; [now apply ascii_chars|]. rewrite map_length. split; [auto|].
  unfold W64. lia.
Qed.
Ltac ascii := repeat constructor; vm_compute; reflexivity.
Ltac plain_ref := apply g_ref; [discriminate|intros [X|X]; discriminate].
Example C41_sample_grammar : statements dict_en sample_tree sample_tokens.
Proof.
  assert (NIL : binaries dict_en [] []) by constructor.
  assert (P : expression dict_en (NRef 0 (tx "p")) [ref (tx "p")]).
  { apply (g_send dict_en (NRef 0 (tx "p")) [ref (tx "p")] [] []); [plain_ref|]. apply (g_plain dict_en [] [] []); auto. }
  assert (Y : operand dict_en (NExpr (NRef 0 (tx "y")) [MUna (tx "abs")]) [ref (tx "y"); ref (tx "abs")]).
  { apply (g_operand dict_en (NRef 0 (tx "y")) [ref (tx "y")] [tx "abs"]); [plain_ref|]. constructor; [|constructor].
    apply ascii_several; [ascii|vm_compute; lia|vm_compute; lia]. }
  assert (A1 : argument dict_en (NExpr (NNum (tx "1")) [MBin (tx "+") (NExpr (NRef 0 (tx "y")) [MUna (tx "abs")])])
     [(TNUMBER, tx "1"); ref (tx "+"); ref (tx "y"); ref (tx "abs")]).
  { apply (g_argument dict_en (NNum (tx "1")) [(TNUMBER, tx "1")] [] [MBin (tx "+") (NExpr (NRef 0 (tx "y")) [MUna (tx "abs")])] [ref (tx "+"); ref (tx "y"); ref (tx "abs")]); [constructor|constructor|].
    apply (g_bcons dict_en (tx "+") _ [ref (tx "y"); ref (tx "abs")] [] []); [apply ch1; vm_compute; reflexivity|exact Y|exact NIL]. }
  assert (A2 : argument dict_en (NBlock [tx "p"] [NRet (NRef 0 (tx "p"))])
     [sign TBLOCKOPEN; sign TCOLON; ref (tx "p"); sign TRET; ref (tx "p"); sign TDOT; sign TBLOCKCLOSE]).
  { apply (g_argument dict_en (NBlock [tx "p"] [NRet (NRef 0 (tx "p"))])
     [sign TBLOCKOPEN; sign TCOLON; ref (tx "p"); sign TRET; ref (tx "p"); sign TDOT; sign TBLOCKCLOSE] [] [] []); [|constructor|exact NIL].
    apply (g_block dict_en [tx "p"] _ [sign TRET; ref (tx "p"); sign TDOT]); [left; discriminate|].
    apply (g_sret dict_en (NRef 0 (tx "p")) [ref (tx "p")] [] []); [exact P|constructor]. }
  apply (g_scons dict_en _ (firstn 16 sample_tokens) [] []); [|constructor].
  apply (g_send dict_en (NRef 0 (tx "x")) [ref (tx "x")]
    [MKw (tx "foo:bar:")
        [NExpr (NNum (tx "1")) [MBin (tx "+") (NExpr (NRef 0 (tx "y")) [MUna (tx "abs")])];
         NBlock [tx "p"] [NRet (NRef 0 (tx "p"))]]] (tl (firstn 16 sample_tokens))); [plain_ref|].
  apply (g_kw dict_en [] [] [] (tx "foo") (tx "bar:") _ (skipn 3 (firstn 16 sample_tokens))); [constructor|exact NIL| | |vm_compute; lia].
  - apply (g_kmore dict_en _ [(TNUMBER, tx "1"); ref (tx "+"); ref (tx "y"); ref (tx "abs")] (tx "bar") [] _ (skipn 9 (firstn 16 sample_tokens)));
      [exact A1|]. constructor. exact A2.
  - eexists. apply ascii_chars. ascii.
Qed.
(** The written form determines the tree. *)
Theorem C41_unambiguous : forall d ss ss' ts ts' code, lang_ok d -> words_ok d -> marks_ok d ->
  statements d ss ts -> layout d ts code -> statements d ss' ts' -> layout d ts' code -> ss = ss'.
Proof.
  intros d ss ss' ts ts' code LA WO MO S1 L1 S2 L2.
  destruct (parse_layout d LA WO MO ss ts code [] [] S1 L1) as (s & E & _).
  destruct (parse_layout d LA WO MO ss' ts' code [] [] S2 L2) as (s' & E' & _). congruence.
Qed.
Print Assumptions C41_unambiguous.
Example C41_unambiguous_case : exists ss ts code, lang_ok dict_xx /\ lang_ok dict_en /\ words_ok dict_en /\ marks_ok dict_en /\
  statements dict_en ss ts /\ layout dict_en ts code.
Proof.
  exists sample_tree, sample_tokens, sample. split; [exact xx_lang|]. split; [exact en_lang|]. split; [exact en_words|]. split; [exact en_marks|].
  split; [exact C41_sample_grammar|exact C41_sample_layout].
Qed.
(** A name of 255 bytes with an argument does not fit the buffer for its colon. *)
Theorem C41_long_keyword_refuted : exists v, length v = 255 /\
  parse dict_en (tx "x " ++ v ++ tx ": 1.") [] [] = PUB.
Proof. exists (repeat 97%N 255). split; vm_compute; reflexivity. Qed.
Print Assumptions C41_long_keyword_refuted.
(** A program outside the grammar may be accepted: here the number 2 is dropped, and a message
    with one colon gets two arguments. *)
Theorem C41_dropped_token_refuted : exists code s, err s = false /\
  parse dict_en code [] [] = POk [NExpr (NRef 0 (tx "x")) [MKw (tx "foo:") [NExpr (NNum (tx "1")) [MUna (tx "abs")]; NRef 0 (tx "bar")]]] s /\
  occurs (tx " 2 ") code.
Proof.
  exists (tx "x foo: 1 abs 2 bar."), (mkP [] [] (tx ".") false). split; [reflexivity|]. split; [vm_compute; reflexivity|].
  exists 12, (tx "bar."). vm_compute. reflexivity.
Qed.
Print Assumptions C41_dropped_token_refuted.

(** * C65 *)
Theorem C65_parse_ends : forall d code o oo, words_ok d -> 1 <= length (d_qo d) <= 10 -> 1 <= length (d_qc d) <= 10 ->
  parse d code o oo <> PFuel.
Proof. intros d code o oo WO QO QC. exact (parse_total d WO QO QC code o oo). Qed.
Print Assumptions C65_parse_ends.
Example C65_parse_ends_case : words_ok dict_en /\ 1 <= length (d_qo dict_en) <= 10 /\ 1 <= length (d_qc dict_en) <= 10.
Proof. split; [exact en_words|vm_compute; lia]. Qed.
(** The bound on the number of steps is the one used: with more of it nothing changes. *)
Theorem C65_parse_bounded : forall d f code o oo, words_ok d -> 1 <= length (d_qo d) <= 10 -> 1 <= length (d_qc d) <= 10 ->
  4 * length code + 5 <= f -> program d f [] (mkP code o oo false) = parse d code o oo.
Proof.
  intros d f code o oo WO QO QC L. destruct (program_mono d QO QC (4 * length code + 5) f [] (mkP code o oo false) L) as [E|E].
  - exfalso. exact (parse_total d WO QO QC code o oo E).
  - symmetry. exact E.
Qed.
Print Assumptions C65_parse_bounded.
