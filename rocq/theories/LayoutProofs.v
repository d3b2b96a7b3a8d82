(** The lexer finds the tokens a program text was written with. *)
From Verif Require Import Common TextModel NumModel LexModel LexSpec LexProofs ParseModel ParseSpec ParseProofs.
Open Scope nat_scope.

Lemma isspace_white c : isspace c = true <-> white c.
Proof.
  unfold isspace, white. cbn. rewrite !orb_true_iff, !N.eqb_eq. intuition congruence.
Qed.
Lemma isdigit_digit c : isdigit c = true <-> digit c.
Proof. unfold isdigit, digit. rewrite andb_true_iff, !N.leb_le. tauto. Qed.
Lemma skip_comment w r : ~ In 10%N w -> skip true (w ++ 10%N :: r) = skip false r.
Proof.
  induction w as [|c w IH]; intros NI; cbn; [reflexivity|].
  destruct (N.eqb_spec c 10) as [->|]; [elim NI; now left|]. apply IH. intros H. apply NI. now right.
Qed.
Lemma skip_last w : ~ In 10%N w -> skip true w = [].
Proof.
  induction w as [|c w IH]; intros NI; cbn; [reflexivity|].
  destruct (N.eqb_spec c 10) as [->|]; [elim NI; now left|]. apply IH. intros H. apply NI. now right.
Qed.
Lemma skip_gap g k : gap g -> skip false (g ++ k) = skip false k.
Proof.
  induction 1 as [|c g W G IH|w g NI G IH]; [reflexivity| |].
  - cbn [app skip]. apply isspace_white in W. now rewrite W.
  - cbn [app skip]. change (isspace 35) with false. cbn [N.eqb Pos.eqb]. rewrite <- app_assoc. cbn [app]. rewrite skip_comment by auto. exact IH.
Qed.
Lemma skip_plain c r : isspace c = false -> c <> 35%N -> skip false (c :: r) = c :: r.
Proof. intros A B. cbn. rewrite A. apply N.eqb_neq in B. now rewrite B. Qed.
Lemma tok_skip d g k : gap g -> tok d (g ++ k) = tok d k.
Proof. intros G. unfold tok. now rewrite (skip_gap g k G). Qed.

Section L.
Variable d : dict.
Hypothesis LA : lang_ok d.
Hypothesis WO : words_ok d.
Hypothesis MO : marks_ok d.

Lemma apart_not w b r : apart w b -> starts b (w ++ r) = false.
Proof. intros A. eapply apart_starts; [exact A|now exists r]. Qed.
(** a word with a plain first byte is not mistaken for a bracket or a gap *)
Lemma tok_word w r : plain_first w -> exists c r', w ++ r = c :: r' /\ skip false (w ++ r) = w ++ r /\
  (c =? 40)%N = false /\ (c =? 41)%N = false /\ (c =? 123)%N = false /\ (c =? 125)%N = false.
Proof.
  intros (c & t & -> & NI). exists c, (t ++ r). split; [reflexivity|].
  assert (forall x, In x [32; 9; 13; 10; 35; 40; 41; 123; 125]%N -> c <> x) as NE by (intros x I ->; auto).
  split; [apply skip_plain; [|apply NE; cbn; tauto]|repeat split; apply N.eqb_neq; apply NE; cbn; tauto].
  destruct (isspace c) eqn:E; [|reflexivity]. apply isspace_white in E. unfold white in E. exfalso. apply NI. cbn in *. tauto.
Qed.
Lemma skipn_word (w r : text) : skipn (length w) (w ++ r) = r.
Proof. now rewrite skipn_app, skipn_all, Nat.sub_diag. Qed.
Ltac word W kk := let c := fresh "c" in let r := fresh "r" in
  destruct (tok_word _ kk W) as (c & r & E0 & SK & B1 & B2 & B3 & B4); unfold tok; rewrite SK; rewrite E0; cbv zeta; rewrite B1, B2, B3, B4; rewrite <- E0.
Ltac firsts := let F := fresh in pose proof (la_first d LA) as F; rewrite Forall_forall in F; apply F; cbn; tauto.
Lemma tok_dot k : tok d (d_eol d ++ k) = LOk (TDOT, [], k).
Proof.
  assert (W : plain_first (d_eol d)) by firsts. word W k. rewrite starts_app, skipn_word. reflexivity.
Qed.
Lemma tok_chain k : tok d (d_chain d ++ k) = LOk (TCHAIN, [], k).
Proof.
  assert (W : plain_first (d_chain d)) by firsts. word W k. rewrite (apart_not _ _ _ (la_chain d LA)), starts_app, skipn_word. reflexivity.
Qed.
Lemma tok_assign k : tok d (d_assign d ++ k) = LOk (TASSIGN, [], k).
Proof.
  assert (W : plain_first (d_assign d)) by firsts. destruct (la_assign d LA) as (A & B). word W k.
  rewrite !apart_not, starts_app, skipn_word by auto. reflexivity.
Qed.
Lemma tok_colon k : (forall w, In w [d_assign d; [58; 61]%N] -> ~ prefix w (d_prefix d :: k)) ->
  tok d (d_prefix d :: k) = LOk (TCOLON, [], k).
Proof.
  intros NP. pose proof (la_prefix d LA) as W. destruct (la_colon d LA) as (A & B).
  change (d_prefix d :: k) with ([d_prefix d] ++ k) in *. word W k. injection E0 as <- <-.
  rewrite !(apart_not _ _ k) by auto.
  rewrite (proj2 (starts_false _ _) (NP (d_assign d) ltac:(cbn; tauto))).
  rewrite (proj2 (starts_false _ _) (NP [58; 61]%N ltac:(cbn; tauto))). rewrite N.eqb_refl. reflexivity.
Qed.
Lemma head_ne c c' r r' p : apart (c :: p) [c'] -> c :: r = c' :: r' -> False.
Proof.
  intros (q & x & y & a' & b' & A & B & NE) E. destruct q as [|z q]; cbn in *; [|destruct q; discriminate]. congruence.
Qed.
Lemma tok_return k : tok d (d_return d ++ 32%N :: k) = LOk (TRET, [], 32%N :: k).
Proof.
  assert (W : plain_first (d_return d)) by firsts. destruct (la_return d LA) as (A & B & C & D & E). word W (32%N :: k).
  rewrite !apart_not by auto. destruct (N.eqb_spec c (d_prefix d)) as [->|_].
  - exfalso. destruct (d_return d) as [|z q] eqn:DR; [now destruct W as (? & ? & ? & _)|]. cbn in E0. injection E0 as -> _. eapply (head_ne _ _ [] []); [exact E|]. reflexivity.
  - rewrite starts_app, skipn_word. unfold peek. rewrite app_nth2, Nat.sub_diag by lia. reflexivity.
Qed.
Lemma tok_qo k : tok d (d_qo d ++ k) = LOk (TQUOTE, [], k).
Proof.
  assert (W : plain_first (d_qo d)) by firsts. pose proof (la_qo d LA) as F. rewrite Forall_forall in F. word W k.
  rewrite !apart_not by (apply F; cbn; tauto). destruct (N.eqb_spec c (d_prefix d)) as [->|_].
  - exfalso. destruct (d_qo d) as [|z q] eqn:DR; [now destruct W as (? & ? & ? & _)|]. cbn in E0. injection E0 as -> _. eapply (head_ne _ _ [] []); [apply F; cbn; tauto|]. reflexivity.
  - rewrite starts_app, skipn_word. reflexivity.
Qed.
(** no word begins like a number *)
Lemma numeric_starts c r w : digit c \/ c = 45%N ->
  In w [d_eol d; d_chain d; d_assign d; d_return d; d_qo d; [d_prefix d]; d_dec d; d_tho d] -> w <> [] -> starts w (c :: r) = false.
Proof.
  intros HC I NE. pose proof (la_digits d LA) as F. rewrite Forall_forall in F. specialize (F _ I).
  destruct w as [|a w]; [congruence|]. destruct (F a w eq_refl) as (A & B). cbn. destruct (N.eqb_spec c a) as [->|]; [|rewrite ?andb_false_r; auto].
  2: { destruct (N.eqb_spec a c); [congruence|reflexivity]. }
  exfalso. tauto.
Qed.
Lemma put_room out c : length out < 255 -> put out c = LOk (out ++ [c]).
Proof. intros L. unfold put, bflmt. destruct (Nat.ltb_spec (length out) 255); [auto|lia]. Qed.
Lemma num_whole_digits ip : forall fuel k out, Forall digit ip -> length (out ++ ip) <= 255 -> length ip <= fuel ->
  ~ starts_digit k -> (forall r, k = d_tho d ++ r -> ~ starts_digit r) ->
  num_whole d fuel (ip ++ k) out = LOk (out ++ ip, k).
Proof.
  induction ip as [|c ip IH]; intros fuel k out FD LE LF ND NT.
  - cbn [app]. rewrite app_nil_r. destruct fuel; [reflexivity|]. destruct k as [|x k]; [reflexivity|]. cbn.
    destruct (isdigit x) eqn:DX; [|reflexivity]. exfalso. apply ND. exists x, k. split; [auto|]. now apply isdigit_digit.
  - inversion FD as [|? ? DC FD']; subst. destruct fuel as [|f]; [cbn in LF; lia|]. cbn [app num_whole].
    rewrite (proj2 (isdigit_digit c) DC). rewrite app_length in LE. cbn [length] in LE.
    rewrite put_room by lia. cbn [lbind].
    assert (X : starts (d_tho d) (ip ++ k) && (length (d_tho d) + 1 <=? length (ip ++ k)) && isdigit (peek (ip ++ k) (length (d_tho d))) = false).
    { destruct (starts (d_tho d) (ip ++ k)) eqn:ST; [|reflexivity]. cbn [andb].
      destruct ip as [|x ip].
      - cbn [app] in *. apply starts_prefix in ST. destruct ST as (r & ->). destruct (isdigit (peek _ _)) eqn:DG; [|apply andb_false_r].
        exfalso. unfold peek in DG. rewrite app_nth2, Nat.sub_diag in DG by lia. destruct r as [|y r]; [discriminate|]. cbn in DG.
        apply (NT (y :: r) eq_refl). exists y, r. split; [auto|]. now apply isdigit_digit.
      - inversion FD'; subst. cbn [app] in ST. rewrite numeric_starts in ST; [discriminate|auto|cbn; tauto|]. apply (la_dec d LA). }
    rewrite X. rewrite IH; auto.
    + now rewrite <- app_assoc.
    + rewrite !app_length in *. cbn in *. lia.
    + cbn in LF. lia.
Qed.
Lemma num_frac_digits fp : forall k out, Forall digit fp -> length (out ++ fp) <= 255 -> ~ starts_digit k ->
  num_frac (fp ++ k) out = LOk (out ++ fp, k).
Proof.
  induction fp as [|c fp IH]; intros k out FD LE ND.
  - cbn [app]. rewrite app_nil_r. destruct k as [|x k]; [reflexivity|]. cbn.
    destruct (isdigit x) eqn:DX; [|reflexivity]. exfalso. apply ND. exists x, k. split; [auto|]. now apply isdigit_digit.
  - inversion FD as [|? ? DC FD']; subst. cbn [app num_frac]. rewrite (proj2 (isdigit_digit c) DC). rewrite app_length in LE. cbn [length] in LE.
    rewrite put_room by lia. cbn [lbind]. rewrite IH; auto; [now rewrite <- app_assoc|]. rewrite !app_length in *. cbn in *. lia.
Qed.
Lemma lex_number_sign s ip k : (s = [] \/ s = [45%N]) -> ip <> [] -> Forall digit ip ->
  lex_number d (s ++ ip ++ k) =
    lx (out, code) <- num_whole d (length (ip ++ k)) (ip ++ k) s;
    if starts (d_eol d) code && (length (d_eol d) <=? length code)
       && negb (isdigit (peek code (length (d_eol d))))
    then LOk (out, code)
    else
      lx (out, code) <- (if (length (d_dec d) + 1 <=? length code)
                            && isdigit (peek code (length (d_dec d))) && starts (d_dec d) code
                         then lx o <- put out 46%N; LOk (o, skipn 1 code)
                         else LOk (out, code));
      num_frac code out.
Proof.
  intros HS NE FD. destruct HS as [->| ->]; [|reflexivity]. destruct ip as [|c ip]; [congruence|].
  inversion FD as [|? ? DC FD']; subst. unfold lex_number. cbn [app]. destruct (N.eqb_spec c 45) as [->|]; [|reflexivity].
  exfalso. unfold digit in DC. lia.
Qed.
Lemma tok_numeric s ip k v rest : (s = [] \/ s = [45%N]) -> ip <> [] -> Forall digit ip ->
  lex_number d (s ++ ip ++ k) = LOk (v, rest) -> tok d (s ++ ip ++ k) = LOk (TNUMBER, v, rest).
Proof.
  intros HS NE FD E. destruct ip as [|c ip]; [congruence|]. inversion FD as [|? ? DC FD']; subst.
  assert (H : exists c0 r0, s ++ (c :: ip) ++ k = c0 :: r0 /\ (digit c0 \/ c0 = 45%N) /\
     ((c0 =? 45)%N && (2 <=? length (c0 :: r0)) && isdigit (peek (c0 :: r0) 1)) || isdigit c0 = true).
  { destruct HS as [->| ->].
    - exists c, (ip ++ k). split; [reflexivity|]. split; [auto|]. rewrite (proj2 (isdigit_digit c) DC). apply orb_true_r.
    - exists 45%N, (c :: ip ++ k). split; [reflexivity|]. split; [auto|]. cbn [peek nth]. rewrite (proj2 (isdigit_digit c) DC). reflexivity. }
  destruct H as (c0 & r0 & EQ & HC & HN). rewrite EQ in *.
  assert (NC : forall x, (x < 48)%N \/ (57 < x)%N -> x <> 45%N -> c0 <> x).
  { intros x B NX ->. destruct HC as [X|X]; [unfold digit in X; lia|congruence]. }
  unfold tok. rewrite skip_plain; [|destruct (isspace c0) eqn:IS; [|reflexivity]|apply NC; lia].
  2: { exfalso. apply isspace_white in IS. unfold white in IS. cbn in IS. decompose [or] IS; try contradiction; subst; eapply NC; try reflexivity; lia. }
  cbv zeta. rewrite (proj2 (N.eqb_neq c0 40)), (proj2 (N.eqb_neq c0 41)), (proj2 (N.eqb_neq c0 123)), (proj2 (N.eqb_neq c0 125)) by (apply NC; lia).
  assert (X : starts [58; 61]%N (c0 :: r0) = false).
  { apply starts_false. intros (r & Y). injection Y as Y _. revert Y. apply NC; lia. }
  assert (Y : forall w, In w [d_eol d; d_chain d; d_assign d; d_return d; d_qo d] -> starts w (c0 :: r0) = false).
  { intros w I. apply numeric_starts; [exact HC|cbn in *; tauto|]. cbn in I. decompose [or] I; try contradiction; subst w; apply WO. }
  rewrite X. rewrite !Y by (cbn; tauto). rewrite (proj2 (N.eqb_neq c0 (d_prefix d))).
  - cbn [andb]. rewrite HN. rewrite E. reflexivity.
  - intros ->. pose proof (la_digits d LA) as F. rewrite Forall_forall in F. destruct (F [d_prefix d]) with (c := d_prefix d) (r := @nil N) as (A & B); [cbn; tauto|auto|].
    tauto.
Qed.
Lemma tok_number s ip k : (s = [] \/ s = [45%N]) -> ip <> [] -> Forall digit ip -> length (s ++ ip) <= 255 ->
  ~ starts_digit k -> (forall w r, In w [d_tho d; d_dec d] -> k = w ++ r -> ~ starts_digit r) ->
  tok d ((s ++ ip) ++ k) = LOk (TNUMBER, s ++ ip, k).
Proof.
  intros HS NE FD LE ND NT. rewrite <- app_assoc. apply tok_numeric; auto. rewrite lex_number_sign by auto.
  rewrite num_whole_digits; auto; [|rewrite app_length; lia|intros r; apply NT; cbn; tauto]. cbn [lbind].
  destruct (_ && _ && _); [reflexivity|].
  assert (X : (length (d_dec d) + 1 <=? length k) && isdigit (peek k (length (d_dec d))) && starts (d_dec d) k = false).
  { destruct (starts (d_dec d) k) eqn:ST; [|apply andb_false_r]. apply starts_prefix in ST. destruct ST as (r & ->).
    destruct (isdigit (peek _ _)) eqn:DG; [|now rewrite andb_false_r].
    exfalso. unfold peek in DG. rewrite app_nth2, Nat.sub_diag in DG by lia. destruct r as [|y r]; [discriminate|]. cbn in DG.
    apply (NT (d_dec d) (y :: r) ltac:(cbn; tauto) eq_refl). exists y, r. split; [auto|]. now apply isdigit_digit. }
  rewrite X. cbn [lbind]. change k with ([] ++ k) at 1. rewrite num_frac_digits; auto; [now rewrite app_nil_r|]. now rewrite app_nil_r.
Qed.
Lemma tok_decimal s ip fp c k : (s = [] \/ s = [45%N]) -> ip <> [] -> Forall digit ip ->
  fp <> [] -> Forall digit fp -> length (s ++ ip ++ 46%N :: fp) <= 255 -> d_dec d = [c] ->
  ~ starts_digit k -> tok d ((s ++ ip ++ c :: fp) ++ k) = LOk (TNUMBER, s ++ ip ++ 46%N :: fp, k).
Proof.
  intros HS NE FD NF FF LE DD ND. replace ((s ++ ip ++ c :: fp) ++ k) with (s ++ ip ++ (c :: fp ++ k)) by (repeat rewrite <- app_assoc; reflexivity).
  rewrite !app_length in LE. cbn [length] in LE.
  destruct (la_dec d LA) as (D1 & D2 & D3 & D4). pose proof (la_digits d LA) as F. rewrite Forall_forall in F.
  assert (NDC : ~ digit c) by (destruct (F (d_dec d)) with (c := c) (r := @nil N); cbn; auto 10).
  apply tok_numeric; auto. rewrite lex_number_sign by auto.
  rewrite num_whole_digits; auto.
  - cbn [lbind]. destruct fp as [|x fp]; [congruence|]. inversion FF as [|? ? DX FF']; subst.
    assert (X : starts (d_eol d) (c :: (x :: fp) ++ k) && (length (d_eol d) <=? length (c :: (x :: fp) ++ k)) && negb (isdigit (peek (c :: (x :: fp) ++ k) (length (d_eol d)))) = false).
    { destruct D4 as [->|A].
      - rewrite DD. cbn [length peek nth app]. rewrite (proj2 (isdigit_digit x) DX). apply andb_false_r.
      - replace (c :: (x :: fp) ++ k) with (d_dec d ++ (x :: fp) ++ k) by (rewrite DD; reflexivity).
        rewrite apart_not; [reflexivity|]. now apply apart_sym. }
    rewrite X. rewrite DD. cbn [length starts]. rewrite N.eqb_refl. cbn [peek nth app]. rewrite (proj2 (isdigit_digit x) DX).
    cbn [length Nat.add Nat.leb andb]. rewrite put_room by (rewrite app_length; lia). cbn [lbind skipn].
    change (x :: fp ++ k) with ((x :: fp) ++ k). rewrite num_frac_digits; auto.
    + now repeat rewrite <- app_assoc.
    + rewrite !app_length in *. cbn in *. lia.
  - rewrite app_length. lia.
  - rewrite app_length. lia.
  - intros (y & r & E & DY). injection E as <- _. auto.
  - intros r E. exfalso. assert (P : prefix (d_tho d) (d_dec d ++ fp ++ k)) by (rewrite DD; exists r; exact E).
    apply starts_prefix in P. rewrite apart_not in P; [discriminate|]. now apply apart_sym.
Qed.
(** references *)
Lemma colon_eq_head n c r : 2 <= n -> colon_eq n (c :: r) = true -> c = 58%N.
Proof.
  intros L. destruct n as [|[|[|n]]]; try lia; cbn [colon_eq]; intros H; [|apply andb_true_iff in H; destruct H as (H & _)];
    apply starts_prefix in H; destruct H as (x & E); now injection E as ->.
Qed.
Lemma delimiter_ender code : code <> [] -> is_delimiter d code = true -> ender d code.
Proof.
  intros NE. destruct code as [|c r]; [congruence|]. unfold is_delimiter. cbv zeta. cbn [peek nth]. rewrite !orb_true_iff, !N.eqb_eq.
  assert (C58 : c = 58%N -> ender d (c :: r)).
  { intros ->. destruct (la_coloneq d LA) as [E|E].
    - do 4 right. exists 58%N, r. rewrite E. auto.
    - left. rewrite E. now exists r. }
  intros H. decompose [or] H; clear H.
  - left. now apply starts_prefix.
  - right. left. now apply starts_prefix.
  - do 2 right. left. now apply starts_prefix.
  - apply C58. apply (colon_eq_head (length (d_assign d)) c r); [apply WO|assumption].
  - do 3 right. left. now apply starts_prefix.
  - do 4 right. exists c, r. auto.
  - do 4 right. exists c, r. auto.
  - do 4 right. exists c, r. auto.
  - do 4 right. exists c, r. split; auto. left. cbn. auto.
  - do 4 right. exists c, r. split; auto. left. cbn. auto.
  - do 4 right. exists c, r. split; auto. left. cbn. auto.
  - do 4 right. exists c, r. split; auto. left. cbn. auto.
Qed.
Lemma ender_delimiter code : ender d code -> is_delimiter d code = true.
Proof.
  unfold is_delimiter. cbv zeta. rewrite !orb_true_iff, !N.eqb_eq. intros [H|[H|[H|[H|(c & r & -> & H)]]]]; try (apply starts_prefix in H; tauto).
  cbn [peek nth]. unfold white in H. cbn in H. intuition.
Qed.
Lemma lex_ref_name v : forall k out, length (out ++ v) <= 255 -> ~ In 35%N v ->
  (forall p q, v = p ++ q -> q <> [] -> ~ ender d (q ++ k)) -> (k = [] \/ ender d k) ->
  lex_ref d (v ++ k) out = LOk (out ++ v, k).
Proof.
  induction v as [|c v IH]; intros k out LE NI NE HK.
  - cbn [app]. rewrite app_nil_r. destruct HK as [->|H]; [reflexivity|]. destruct k as [|x k]; [reflexivity|]. cbn [lex_ref].
    now rewrite (ender_delimiter _ H).
  - cbn [app lex_ref]. destruct (is_delimiter d (c :: v ++ k)) eqn:DL.
    + exfalso. apply (NE [] (c :: v)); [reflexivity|discriminate|]. apply delimiter_ender; [discriminate|exact DL].
    + rewrite app_length in LE. cbn [length] in LE. rewrite put_room by lia. cbn [lbind].
      destruct (N.eqb_spec c 35) as [->|]; [elim NI; now left|]. cbn [andb].
      destruct (Nat.ltb_spec bflmt (length (out ++ [c]))) as [X|_]; [rewrite app_length in X; unfold bflmt in X; cbn in X; lia|].
      rewrite IH; auto.
      * now rewrite <- app_assoc.
      * rewrite !app_length. cbn. lia.
      * intros X. apply NI. now right.
      * intros p q E. apply (NE (c :: p) q). cbn. now rewrite E.
Qed.
Lemma tok_name v k : v <> [] -> length v <= 255 -> ~ In 35%N v ->
  ~ In (hd 0%N v) [123; 125]%N -> ~ starts_digit v -> (hd 0%N v = 45%N -> ~ starts_digit (tl v ++ k)) ->
  ~ prefix (d_return d ++ [32%N]) (v ++ k) ->
  (forall p q, v = p ++ q -> q <> [] -> ~ ender d (q ++ k)) -> (k = [] \/ ender d k) ->
  tok d (v ++ k) = LOk (TREF, v, k).
Proof.
  intros NE LE NI NB ND NM NR NN HK. pose proof (lex_ref_name v k [] LE NI NN HK) as LR. cbn [app] in LR.
  destruct v as [|c v]; [congruence|]. cbn [app hd tl] in *.
  pose proof (NN [] (c :: v) eq_refl ltac:(discriminate)) as N0. cbn [app] in N0.
  assert (NS : forall w, In w [d_eol d; d_qo d; d_assign d; d_chain d] -> starts w (c :: v ++ k) = false).
  { intros w I. apply starts_false. intros P. apply N0. unfold ender. cbn in I. decompose [or] I; try contradiction; subst w; tauto. }
  assert (NW : ~ white c /\ c <> 40%N /\ c <> 41%N /\ c <> d_prefix d).
  { repeat split; intros X; apply N0; do 4 right; exists c, (v ++ k); auto. }
  destruct NW as (NW & N40 & N41 & NP).
  unfold tok. rewrite skip_plain; [|destruct (isspace c) eqn:IS; [apply isspace_white in IS; tauto|reflexivity]|intros ->; apply NI; now left].
  cbv zeta. rewrite (proj2 (N.eqb_neq c 40)), (proj2 (N.eqb_neq c 41)) by auto.
  rewrite (proj2 (N.eqb_neq c 123)), (proj2 (N.eqb_neq c 125)) by (intros ->; apply NB; cbn; tauto).
  rewrite !NS by (cbn; tauto).
  assert (X : starts [58; 61]%N (c :: v ++ k) = false).
  { apply starts_false. intros (r & E). injection E as -> _. apply N0.
    destruct (la_coloneq d LA) as [E|E]; [congruence|]. left. rewrite E. now eexists. }
  rewrite X. rewrite (proj2 (N.eqb_neq c (d_prefix d))) by auto.
  assert (Y : starts (d_return d) (c :: v ++ k) && (peek (c :: v ++ k) (length (d_return d)) =? 32)%N = false).
  { destruct (starts (d_return d) (c :: v ++ k)) eqn:ST; [|reflexivity]. cbn [andb]. apply starts_prefix in ST. destruct ST as (r & E).
    rewrite E in NR |- *. unfold peek. rewrite app_nth2, Nat.sub_diag by lia. destruct r as [|y r]; [reflexivity|]. cbn [nth].
    destruct (N.eqb_spec y 32) as [->|]; [|reflexivity]. exfalso. apply NR. exists r. now rewrite <- app_assoc. }
  rewrite Y.
  assert (Z1 : ((c =? 45)%N && (2 <=? length (c :: v ++ k)) && isdigit (peek (c :: v ++ k) 1)) || isdigit c = false).
  { destruct (isdigit c) eqn:DG; [exfalso; apply ND; exists c, v; split; [auto|now apply isdigit_digit]|]. rewrite orb_false_r.
    destruct (N.eqb_spec c 45) as [->|]; [|reflexivity]. cbn [andb]. destruct (v ++ k) as [|y r]; [reflexivity|]. cbn [peek nth].
    destruct (isdigit y) eqn:DY; [|apply andb_false_r]. exfalso. apply NM; [reflexivity|]. exists y, r. split; [auto|now apply isdigit_digit]. }
  rewrite Z1. rewrite (NS (d_qo d)) by (cbn; tauto). rewrite LR. reflexivity.
Qed.

Lemma spelled_tok t v src k : spelled d (t, v) src k ->
  (t <> TQUOTE /\ tok d (src ++ k) = LOk (t, v, k)) \/
  (t = TQUOTE /\ exists c1, tok d (src ++ k) = LOk (TQUOTE, [], c1) /\ readstr d false c1 = LOk (v, k)).
Proof.
  intros H. inversion H; subst; try (left; split; [discriminate|]).
  all: try reflexivity.
  - apply tok_dot.
  - apply tok_chain.
  - apply tok_assign.
  - now apply tok_colon.
  - apply tok_return.
  - right. split; [reflexivity|]. exists (lit ++ d_qc d ++ k). split; [|now apply readstr_literal].
    replace ((d_qo d ++ lit ++ d_qc d) ++ k) with (d_qo d ++ lit ++ d_qc d ++ k) by (repeat rewrite <- app_assoc; reflexivity). apply tok_qo.
  - now apply tok_number.
  - now apply tok_decimal.
  - now apply tok_name.
Qed.
Lemma layout_reads ts code : layout d ts code -> exists rest, reads d code ts rest /\ kind d rest TFIN.
Proof.
  induction 1 as [g w G HW|g [t v] src ts k G SP L (rest & R & K)].
  - exists (g ++ w). split; [constructor|]. exists [], []. rewrite tok_skip by auto.
    destruct HW as [->|(v & -> & NI)]; [reflexivity|]. unfold tok. cbn [skip]. change (isspace 35) with false. cbn [N.eqb Pos.eqb].
    now rewrite skip_last.
  - exists rest. split; [|exact K]. destruct (spelled_tok _ _ _ _ SP) as [(NQ & E)|(-> & c1 & E & RS)].
    + eapply rd_tok; [exact NQ|rewrite tok_skip by auto; exact E|exact R].
    + eapply rd_quote; [rewrite tok_skip by auto; exact E|exact RS|exact R].
Qed.
Theorem parse_layout ss ts code o oo : statements d ss ts -> layout d ts code ->
  exists s, parse d code o oo = POk ss s /\ err s = false.
Proof.
  intros S0 L. destruct (layout_reads _ _ L) as (rest & R & K).
  assert (LO : forall w : text, w <> [] -> length w <= 10 -> 1 <= length w <= 10) by (intros [|x w] A B; [congruence|cbn in *; lia]).
  eapply parse_grammar; eauto; apply LO; apply MO.
Qed.
End L.

(** A decidable criterion for written names, for examples. *)
Definition name_check (d : dict) (v k : text) : bool :=
  negb (length v =? 0) && (length v <=? 255) && forallb (fun c => negb (c =? 35)%N) v
  && negb ((hd 0%N v =? 123)%N || (hd 0%N v =? 125)%N) && negb (isdigit (peek v 0))
  && (negb (hd 0%N v =? 45)%N || negb (isdigit (peek (tl v ++ k) 0)))
  && negb (starts (d_return d ++ [32%N]) (v ++ k))
  && forallb (fun i => negb (is_delimiter d (skipn i v ++ k))) (seq 0 (length v))
  && match k with [] => true | _ => is_delimiter d k end.
Lemma digit_peek k : starts_digit k -> isdigit (peek k 0) = true.
Proof. intros (c & r & -> & H). cbn. now apply isdigit_digit. Qed.
Lemma name_spelled d v k : lang_ok d -> words_ok d -> name_check d v k = true -> spelled d (ref v) v k.
Proof.
  intros LA WO H. unfold name_check in H. rewrite !andb_true_iff in H. destruct H as ((((((((A & B) & C) & D) & E) & F) & G) & I) & J).
  rewrite !negb_true_iff in *. apply Nat.eqb_neq in A. apply Nat.leb_le in B. rewrite forallb_forall in C, I. apply orb_false_iff in D.
  apply sp_name.
  - intros ->. now apply A.
  - exact B.
  - intros X. apply C in X. discriminate.
  - intros [X|[X|[]]]; rewrite <- X in D; destruct D as (D1 & D2); discriminate.
  - intros X. apply digit_peek in X. congruence.
  - intros X Y. apply digit_peek in Y. rewrite Y in F. rewrite X in F. discriminate.
  - now apply starts_false.
  - intros p q EQ NE EN. assert (X : In (length p) (seq 0 (length v))).
    { apply in_seq. rewrite EQ, app_length. destruct q; [congruence|cbn; lia]. }
    apply I in X. rewrite EQ, skipn_word in X. rewrite (ender_delimiter d) in X by auto. discriminate.
  - destruct k as [|c k]; [now left|right]. apply delimiter_ender; auto. discriminate.
Qed.
