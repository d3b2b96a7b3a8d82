(** Claims about the lexer and text literals. *)
From Coq Require Import String NArith List Lia Bool.
From Verif Require Import Common Txt LexModel LexSpec LexProofs Dicts.
Import ListNotations.
Open Scope nat_scope.
Local Notation "'tx' s" := (lit s%string) (at level 8, s at level 0).

(** * C15 *)
(** Full statement: whenever [t code] answers [c], evaluating [c] gives [t].  That is false
    (below); it holds for texts without backslash, NUL and the two layout signs whose
    quotation marks all begin within the first 128 bytes. *)
Theorem C15_code_partial : forall d t c, marks_ok d -> lead_ok d -> no_nul t -> ~ In 92%N t ->
  ~ occurs newline_sign (t ++ d_qc d) -> ~ occurs tab_sign (t ++ d_qc d) ->
  (forall m j, is_mark d m -> prefix m (skipn j t) -> j < 128) -> (Z.of_nat (2 * length t) < W64)%Z ->
  string_to_code d t = Ok c ->
  exists src, tok d c = LOk (TQUOTE, [], src) /\ readstr d false src = LOk (t, []).
Proof. exact code_round_trip. Qed.
Print Assumptions C15_code_partial.
Theorem C15_code_defined_partial : forall d t, marks_ok d -> ~ broken_end d t -> exists c, string_to_code d t = Ok c.
Proof. exact code_defined. Qed.
Print Assumptions C15_code_defined_partial.
Lemma occurs_dec p t : (forallb (fun i => negb (NumModel.starts p (skipn i t))) (seq 0 (S (length t)))) = true -> p <> [] -> ~ occurs p t.
Proof.
  intros H NE (i & P). rewrite forallb_forall in H.
  destruct (Nat.le_gt_cases i (length t)) as [L|L].
  - specialize (H i). rewrite in_seq in H. specialize (H ltac:(lia)). apply starts_prefix in P. rewrite P in H. discriminate.
  - rewrite skipn_all2 in P by lia. destruct P as (z & E). destruct p; [congruence|discriminate].
Qed.
Example C15_code_case : exists c,
  string_to_code dict_en (tx "say ['hi'] to ']x") = Ok c /\ c = tx "['say \['hi\'] to \']x']" /\
  ~ broken_end dict_en (tx "say ['hi'] to ']x") /\
  ~ occurs newline_sign (tx "say ['hi'] to ']x" ++ d_qc dict_en) /\
  ~ occurs tab_sign (tx "say ['hi'] to ']x" ++ d_qc dict_en) /\
  no_nul (tx "say ['hi'] to ']x") /\ ~ In 92%N (tx "say ['hi'] to ']x") /\
  forall m j, is_mark dict_en m -> prefix m (skipn j (tx "say ['hi'] to ']x")) -> j < 128.
Proof.
  eexists. split; [vm_compute; reflexivity|]. split; [vm_compute; reflexivity|].
  split.
  { intros (m & p & q & IM & EM & NP & NQ & (z & E)). destruct p as [|a p]; [congruence|]. destruct q as [|b q]; [congruence|].
    assert (p = [] /\ (a = 91 \/ a = 39)%N) as (-> & A).
    { destruct IM as [-> | ->]; vm_compute in EM; injection EM as <- EM; destruct p as [|x p]; auto;
        destruct p; discriminate. }
    apply (f_equal (fun l => last l 0%N)) in E. rewrite last_last in E. vm_compute in E. destruct A; congruence. }
  split; [apply occurs_dec; [vm_compute; reflexivity|discriminate]|].
  split; [apply occurs_dec; [vm_compute; reflexivity|discriminate]|].
  split; [not_in|]. split; [not_in|].
  intros m j IM (z & E). destruct (Nat.lt_ge_cases j 128) as [|G]; [auto|].
  rewrite skipn_all2 in E by (vm_compute; lia). destruct IM as [-> | ->]; discriminate.
Qed.
(** A backslash is not escaped: the text backslash, n comes back as a line break. *)
Theorem C15_backslash_refuted : exists t c, no_nul t /\ string_to_code dict_en t = Ok c /\
  exists src u, tok dict_en c = LOk (TQUOTE, [], src) /\ readstr dict_en false src = LOk (u, []) /\ u <> t.
Proof.
  exists (tx "\n"), (tx "['\n']"). split; [not_in|]. split; [vm_compute; reflexivity|].
  exists (tx "\n']"), [10%N]. split; [vm_compute; reflexivity|]. split; [vm_compute; reflexivity|discriminate].
Qed.
Print Assumptions C15_backslash_refuted.
(** The signs for line breaks and tabs are not escaped either. *)
Theorem C15_sign_refuted : exists t c, no_nul t /\ ~ In 92%N t /\ string_to_code dict_xx t = Ok c /\
  exists src u, tok dict_xx c = LOk (TQUOTE, [], src) /\ readstr dict_xx false src = LOk (u, []) /\ u <> t.
Proof.
  exists (tx "a↵b"), (tx "‘a↵b’"). split; [not_in|]. split; [not_in|]. split; [vm_compute; reflexivity|].
  exists (tx "a↵b’"), [97; 10; 98]%N. split; [vm_compute; reflexivity|]. split; [vm_compute; reflexivity|discriminate].
Qed.
Print Assumptions C15_sign_refuted.
(** A closing mark behind the 128th byte is not escaped, and the literal ends there: positions are
    kept in [char]s. *)
Theorem C15_far_mark_refuted : exists t c, no_nul t /\ ~ In 92%N t /\ string_to_code dict_xx t = Ok c /\
  exists src u rest, tok dict_xx c = LOk (TQUOTE, [], src) /\ readstr dict_xx false src = LOk (u, rest) /\
    u <> t /\ rest <> [].
Proof.
  exists (repeat 97%N 128 ++ tx "’b"). eexists. split; [not_in|]. split; [not_in|].
  split; [vm_compute; reflexivity|]. eexists _, _, _. split; [vm_compute; reflexivity|]. split; [vm_compute; reflexivity|].
  split; vm_compute; discriminate.
Qed.
Print Assumptions C15_far_mark_refuted.
(** The comparison with a mark of two bytes reads behind a text that ends in its first byte. *)
Theorem C15_end_refuted : exists t, no_nul t /\ ~ In 92%N t /\ string_to_code dict_en t = UB.
Proof. exists (tx "it'"). split; [not_in|]. split; [not_in|]. vm_compute. reflexivity. Qed.
Print Assumptions C15_end_refuted.

(** * C39 *)
Theorem C39_token_bounded : forall d code t v rest, words_ok d -> tok d code = LOk (t, v, rest) ->
  length v <= 255 /\ suffix rest code /\ (t = TFIN <-> skip false code = []) /\
  (t <> TFIN -> length rest < length code).
Proof. exact tok_ok. Qed.
Print Assumptions C39_token_bounded.
Example C39_token_bounded_case : words_ok dict_en /\
  tok dict_en (tx "  # note
 counter: 5.") = LOk (TREF, tx "counter", tx ": 5.").
Proof. split; [exact en_words|vm_compute; reflexivity]. Qed.
(** Full statement: for every program text the lexer stays inside its buffer.  It does when the
    next white space or parenthesis is at most 255 bytes away; otherwise it is false (below). *)
Theorem C39_safe_partial : forall d code, ends_within d 255 (skip false code) -> exists r, tok d code = LOk r.
Proof. exact tok_safe. Qed.
Print Assumptions C39_safe_partial.
Example C39_safe_case : ends_within dict_en 255 (skip false (repeat 97%N 255 ++ tx " x")).
Proof.
  right. exists (repeat 97%N 255), 32%N, (tx "x"). split; [reflexivity|]. split; [vm_compute; lia|].
  split; [cbn; tauto|]. split; not_in.
Qed.
Theorem C39_reference_refuted : exists code, tok dict_en code = LUB.
Proof. exists (repeat 97%N 256). vm_compute. reflexivity. Qed.
Print Assumptions C39_reference_refuted.
Theorem C39_number_refuted : exists code, Forall (fun c => c = 49%N) code /\ tok dict_en code = LUB.
Proof. exists (repeat 49%N 256). split; [repeat constructor|vm_compute; reflexivity]. Qed.
Print Assumptions C39_number_refuted.

(** * C40 *)
Theorem C40_literal : forall d src t rest, marks_ok d -> denotes d (d_qc d ++ rest) src t ->
  (Z.of_nat (length src) < W64)%Z -> readstr d false (src ++ d_qc d ++ rest) = LOk (t, rest).
Proof. exact readstr_literal. Qed.
Print Assumptions C40_literal.
Example C40_literal_case : denotes dict_en (d_qc dict_en ++ tx " size.") (tx "a['b\n']c") (tx "a['b" ++ [10%N] ++ tx "']c") /\
  readstr dict_en false (tx "a['b\n']c" ++ tx "']" ++ tx " size.") = LOk (tx "a['b" ++ [10%N] ++ tx "']c", tx " size.").
Proof.
  assert (P : forall p t, NumModel.starts p t = false -> ~ prefix p t) by (intros; now apply starts_false).
  split; [|vm_compute; reflexivity].
  apply (den_byte dict_en (d_qc dict_en ++ tx " size.") 97 (tx "['b\n']c") (tx "['b" ++ [10%N] ++ tx "']c"));
    [discriminate|repeat split; apply P; vm_compute; reflexivity|].
  apply (den_quote dict_en _ (tx "b\n") (tx "b" ++ [10%N]) (tx "c") (tx "c")).
  - apply (den_byte dict_en _ 98 (tx "\n") [10%N]); [discriminate|repeat split; apply P; vm_compute; reflexivity|].
    apply (den_escape dict_en _ 110 10 [] []); constructor.
  - apply (den_byte dict_en _ 99 [] []); [discriminate|repeat split; apply P; vm_compute; reflexivity|constructor].
Qed.
Theorem C40_literal_safe : forall d verb code, 1 <= length (d_qo d) <= 10 -> 1 <= length (d_qc d) <= 10 ->
  exists v rest, readstr d verb code = LOk (v, rest) /\ suffix rest code /\ length v + length rest <= length code.
Proof. exact readstr_safe. Qed.
Print Assumptions C40_literal_safe.
Example C40_literal_safe_case : 1 <= length (d_qo dict_en) <= 10 /\ 1 <= length (d_qc dict_en) <= 10.
Proof. vm_compute. lia. Qed.
(** A literal that is never closed is not reported; it loses the last bytes of the program. *)
Theorem C40_unclosed_refuted : exists code v, readstr dict_xx false code = LOk (v, []) /\ ~ suffix (d_qc dict_xx) code /\
  v <> code.
Proof.
  exists (tx "hello"), (tx "he"). split; [vm_compute; reflexivity|]. split; [|discriminate].
  intros (p & E). apply (f_equal (@rev N)) in E. rewrite rev_app_distr in E. discriminate.
Qed.
Print Assumptions C40_unclosed_refuted.
