(** What the scan for the parts of a message finds. *)
From Verif Require Import Common TextModel NumModel LexModel LexSpec LexProofs TransModel TransSpec TransLex.
From Coq Require Import Lia.
Open Scope nat_scope.

Lemma distinct_sym a : forall b, distinct a b = true -> distinct b a = true.
Proof. induction a as [|x a IH]; intros [|y b] H; try discriminate. cbn in H |- *. rewrite N.eqb_sym. destruct (x =? y)%N; auto. Qed.
Lemma bracket_false c : bracket c = false -> (c =? 40)%N = false /\ (c =? 41)%N = false /\ (c =? 123)%N = false /\ (c =? 125)%N = false.
Proof. unfold bracket, among. cbn [existsb]. rewrite !orb_false_iff. intuition. Qed.
Lemma plain_bracket c : plain c = true -> bracket c = false.
Proof. unfold plain. intros H. apply negb_true_iff in H. now rewrite !orb_false_iff in H. Qed.
Lemma plain_digit c : plain c = true -> digit c = false.
Proof. unfold plain. intros H. apply negb_true_iff in H. now rewrite !orb_false_iff in H. Qed.

Section Scan.
Variable d : dict.
Hypothesis L : lang d.
Notation fs := (forward_scan d).
Definition ending (code : text) : bool :=
  starts (d_chain d) code || starts (d_eol d) code || (hd 0 code =? 41)%N || (hd 0 code =? d_prefix d)%N.
Definition passes (w rest : text) (n b n' b' : nat) : Prop :=
  forall nu, exists nu', fs (w ++ rest) n b false nu = option_map (Nat.add (length w)) (fs rest n' b' false nu').
Lemma passes_nil rest n b : passes [] rest n b n b.
Proof. intros nu. exists nu. cbn. now destruct (fs rest n b false nu). Qed.
Lemma passes_app w1 w2 rest n b n1 b1 n2 b2 : passes w1 (w2 ++ rest) n b n1 b1 -> passes w2 rest n1 b1 n2 b2 -> passes (w1 ++ w2) rest n b n2 b2.
Proof.
  intros H1 H2 nu. destruct (H1 nu) as (nu1 & E1). destruct (H2 nu1) as (nu2 & E2). exists nu2. rewrite <- app_assoc, E1, E2, app_length.
  destruct (fs rest n2 b2 false nu2); cbn; [f_equal; lia|reflexivity].
Qed.
Lemma pass_byte c rest n b : bracket c = false -> starts (d_qo d) (c :: rest) = false ->
  (n <> 0 \/ b <> 0 \/ ending (c :: rest) = false) -> passes [c] rest n b n b.
Proof.
  intros Hb Hq He nu. apply bracket_false in Hb as (B1 & B2 & B3 & B4). cbn [app length].
  assert (Em : forall o : option nat, match o with Some k => Some (S k) | None => None end = option_map (Nat.add 1) o) by (intros []; reflexivity).
  cbn [forward_scan]. set (nu1 := nu && _). clearbody nu1. exists (nu1 || isdigit c).
  rewrite B1, B2, B3, B4, Hq. cbn [negb andb]. rewrite !andb_false_r.
  destruct (isdigit c) eqn:Dc.
  - rewrite orb_true_r. destruct nu1; cbn [negb andb]; [|apply Em]. rewrite !andb_false_r. cbn [andb]. apply Em.
  - rewrite (orb_false_r nu1), <- Em. replace (negb nu1 && false) with false by (now destruct nu1).
    match goal with |- (if ?x then _ else _) = _ => enough (x = false) as -> by reflexivity end.
    destruct He as [He|[He|He]].
    + apply Nat.eqb_neq in He. now rewrite He.
    + apply Nat.eqb_neq in He. rewrite He. now rewrite !andb_false_r.
    + unfold ending in He. cbn [hd] in He. rewrite B2 in He. rewrite He. apply andb_false_r.
Qed.
(** Texts none of whose bytes is looked at. *)
Lemma pass_bytes n b w : forall rest,
  (forall i, i < length w -> bracket (nth i w 0%N) = false /\ starts (d_qo d) (skipn i w ++ rest) = false /\
    (n <> 0 \/ b <> 0 \/ ending (skipn i w ++ rest) = false)) -> passes w rest n b n b.
Proof.
  induction w as [|c w IH]; intros rest H; [apply passes_nil|]. change (c :: w) with ([c] ++ w).
  apply passes_app with n b.
  - destruct (H 0 ltac:(cbn; lia)) as (H1 & H2 & H3). apply pass_byte; assumption.
  - apply IH. intros i Hi. exact (H (S i) ltac:(cbn; lia)).
Qed.
Lemma odd_hd m c t : plain (hd 0%N m) = true -> plain c = false -> starts m (c :: t) = false.
Proof. apply odd_not. Qed.
Lemma odd_ending c t : plain c = false -> c <> 41%N -> ending (c :: t) = false.
Proof.
  intros H N1. unfold ending. rewrite !odd_not by (apply L || exact H). cbn [hd orb]. apply orb_false_iff. split; apply N.eqb_neq; [exact N1|].
  intros ->. pose proof (la_prefix d L). congruence.
Qed.
(** Comments. *)
Lemma tails_skipn (m : text) : forall i, i < length m -> In (skipn i m) (tails m).
Proof. induction m as [|c m IH]; intros i Hi; [cbn in Hi; lia|]. destruct i as [|i]; [now left|right]. apply IH. cbn in Hi. lia. Qed.
Lemma skipn_hd (m : text) : forall i, hd 0%N (skipn i m) = nth i m 0%N.
Proof. induction m as [|c m IH]; intros [|i]; cbn; auto. Qed.
Lemma discreet_spec m : discreet d m = true -> forall i rest, i < length m -> bracket (nth i m 0%N) = false /\ starts (d_qo d) (skipn i m ++ rest) = false.
Proof.
  unfold discreet. intros H i rest Hi. rewrite forallb_forall in H. specialize (H _ (tails_skipn m i Hi)). apply andb_true_iff in H as (H1 & H2).
  rewrite skipn_hd in H1. split; [now apply negb_true_iff|now apply distinct_starts].
Qed.
Lemma endless_spec m : endless d m = true -> forall i rest, i < length m -> bracket (nth i m 0%N) = false -> ending (skipn i m ++ rest) = false.
Proof.
  unfold endless. intros H i rest Hi B. rewrite forallb_forall in H. specialize (H _ (tails_skipn m i Hi)). apply andb_true_iff in H as (H1 & H3). apply andb_true_iff in H1 as (H1 & H2).
  unfold ending. rewrite !distinct_starts by assumption. rewrite skipn_hd in H3. apply negb_true_iff in H3.
  assert (E : hd 0%N (skipn i m ++ rest) = nth i m 0%N).
  { rewrite <- skipn_hd. pose proof (skipn_length i m). destruct (skipn i m); [cbn in *; lia|reflexivity]. }
  rewrite E, H3. apply bracket_false in B as (_ & -> & _). reflexivity.
Qed.
Lemma pass_discreet m rest n b : discreet d m = true -> (n <> 0 \/ b <> 0 \/ endless d m = true) -> passes m rest n b n b.
Proof.
  intros H Hn. apply pass_bytes. intros i Hi. destruct (discreet_spec m H i rest Hi) as (H1 & H2). split; [exact H1|]. split; [exact H2|].
  destruct Hn as [Hn|[Hn|Hn]]; auto. right. right. now apply endless_spec.
Qed.
Lemma skipn_nth_cons i (w : text) rest : i < length w -> skipn i w ++ rest = nth i w 0%N :: skipn (S i) w ++ rest.
Proof. revert w. induction i; intros [|c w] Hi; cbn in *; try lia; auto. apply IHi. lia. Qed.
Lemma pass_word w rest n b : word_ok d w rest = true -> passes w rest n b n b.
Proof.
  intros H. apply word_parts in H as (Hl & Hc & Hb & _). apply pass_bytes. intros i Hi. pose proof (Hc i Hi) as C.
  unfold clear, sign in C. rewrite (skipn_nth_cons i w rest Hi) in *. set (c := nth i w 0%N) in *.
  apply negb_true_iff in C. cbn [existsb hd] in C. unfold among in C. cbn [existsb] in C. rewrite !orb_false_iff in C.
  rewrite forallb_forall in Hb. pose proof (Hb c (nth_In w 0%N Hi)) as B. apply negb_true_iff in B. unfold among in B. cbn [existsb] in B. rewrite !orb_false_iff in B.
  unfold bracket, among, ending. cbn [existsb hd]. rewrite !orb_false_iff. intuition.
Qed.
Lemma inert_spec m : inert d m = true -> forall i rest, i < length m ->
  bracket (nth i m 0%N) = false /\ starts (d_qo d) (skipn i m ++ rest) = false.
Proof.
  unfold inert. induction m as [|c m IH]; intros H i rest Hi; [cbn in Hi; lia|]. cbn [tails forallb] in H. apply andb_true_iff in H as (H1 & H2).
  destruct i as [|i].
  - cbn [nth skipn hd] in *. apply andb_true_iff in H1 as (H1 & H3). apply andb_true_iff in H1 as (H1 & _). apply negb_true_iff in H1.
    split; [exact H1|]. apply distinct_starts, H3.
  - cbn [nth skipn]. apply IH; [exact H2|cbn in Hi; lia].
Qed.
Lemma silent_spec m : silent d m = true -> forall i rest, i < length m -> ending (skipn i m ++ rest) = false.
Proof.
  unfold silent. intros H. apply andb_true_iff in H as (H0 & H). revert H0 H. unfold inert. induction m as [|c m IH]; intros H0 H i rest Hi; [cbn in Hi; lia|].
  cbn [tails forallb] in H, H0. apply andb_true_iff in H as (H1 & H2). apply andb_true_iff in H0 as (H3 & H4).
  destruct i as [|i]; [|cbn [skipn]; apply IH; [exact H4|exact H2|cbn in Hi; lia]].
  cbn [skipn hd] in *. apply andb_true_iff in H1 as (H1 & H5). apply andb_true_iff in H1 as (H1 & H6). apply negb_true_iff in H5.
  apply andb_true_iff in H3 as (H3 & _). apply andb_true_iff in H3 as (H3 & _). apply negb_true_iff, bracket_false in H3.
  unfold ending. rewrite !distinct_starts by assumption. cbn [app hd]. rewrite H5. now destruct H3 as (_ & -> & _).
Qed.
Lemma pass_inert m rest n b : inert d m = true -> n <> 0 \/ b <> 0 -> passes m rest n b n b.
Proof. intros H Hn. apply pass_bytes. intros i Hi. destruct (inert_spec m H i rest Hi). intuition. Qed.
Lemma pass_silent m rest n b : silent d m = true -> passes m rest n b n b.
Proof.
  intros H. pose proof H as H2. apply andb_true_iff in H2 as (H2 & _). apply pass_bytes. intros i Hi.
  destruct (inert_spec m H2 i rest Hi). split; [assumption|]. split; [assumption|]. right. right. now apply silent_spec.
Qed.

(** Inside of a text. *)
Lemma pass_quoted w : forall rest n b nu, (forall i, i < length w -> starts (d_qc d) (skipn i w ++ rest) = false) ->
  exists nu', fs (w ++ rest) n b true nu = option_map (Nat.add (length w)) (fs rest n b true nu').
Proof.
  assert (Em : forall o : option nat, match o with Some k => Some (S k) | None => None end = option_map S o) by (intros []; reflexivity).
  induction w as [|c w IH]; intros rest n b nu H.
  { exists nu. cbn. now destruct (fs rest n b true nu). }
  pose proof (H 0 ltac:(cbn; lia)) as H0. cbn [skipn app] in H0.
  assert (E : exists nu1, fs ((c :: w) ++ rest) n b true nu = option_map S (fs (w ++ rest) n b true nu1)).
  { cbn [app forward_scan]. set (nu1 := nu && _). clearbody nu1. rewrite H0. cbn [negb andb]. rewrite !andb_false_r. cbn [andb].
    destruct (c =? 92)%N; [exists nu1; apply Em|]. destruct (negb nu1 && isdigit c); [exists true; apply Em|exists nu1; apply Em]. }
  destruct E as (nu1 & E). destruct (IH rest n b nu1) as (nu2 & E2). { intros i Hi. apply (H (S i)). cbn. lia. }
  exists nu2. rewrite E, E2. cbn [length]. now destruct (fs rest n b true nu2).
Qed.
Lemma pass_text s rest n b : text_ok d s rest = true -> passes (d_qo d ++ s ++ d_qc d) rest n b n b.
Proof.
  unfold text_ok. intros H. apply andb_true_iff in H as (H & H3). apply andb_true_iff in H as (_ & H2).
  assert (Em : forall o : option nat, match o with Some k => Some (S k) | None => None end = option_map S o) by (intros []; reflexivity).
  destruct (plain_hd _ (la_qo d L)) as (c & qo & Eq & P). pose proof (la_qc_len d L) as Q. destruct (d_qc d) as [|x qc] eqn:Ec; [cbn in Q; lia|].
  intros nu. rewrite Eq in *. cbn [tl] in H3.
  assert (E1 : exists nu1, fs (((c :: qo) ++ s ++ x :: qc) ++ rest) n b false nu = option_map S (fs (qo ++ s ++ x :: qc ++ rest) n b true nu1)).
  { pose proof (plain_bracket c P) as B. apply bracket_false in B as (B1 & B2 & B3 & B4).
    repeat (rewrite <- ?app_assoc; cbn [app]). cbn [forward_scan].
    set (nu1 := nu && _). clearbody nu1. rewrite B1, B2, B3, B4. cbn [negb andb]. rewrite !andb_false_r.
    pose proof (starts_app (d_qo d) (s ++ x :: qc ++ rest)) as S1. rewrite Eq in S1. cbn [app] in S1. rewrite Eq, S1. exists nu1. apply Em. }
  destruct E1 as (nu1 & E1).
  destruct (pass_quoted qo (s ++ x :: qc ++ rest) n b nu1) as (nu2 & E2).
  { clear - H3 Ec. cbn [app] in H3. revert H3. induction qo as [|y qo IH]; intros H3 i Hi; [cbn in Hi; lia|]. cbn [tails forallb] in H3.
    apply andb_true_iff in H3 as (H3 & H4). destruct i; [cbn [skipn]; rewrite Ec; now apply negb_true_iff in H3|]. cbn [skipn]. apply IH; [exact H4|cbn in Hi; lia]. }
  destruct (pass_quoted s (x :: qc ++ rest) n b nu2) as (nu3 & E3).
  { intros i Hi. rewrite Ec. pose proof (forallb_seq _ _ H2 i Hi) as E. cbn beta zeta in E. apply andb_true_iff in E as (_ & E). now apply negb_true_iff in E. }
  assert (E4 : exists nu4, fs (x :: qc ++ rest) n b true nu3 = option_map S (fs (qc ++ rest) n b false nu4)).
  { cbn [forward_scan]. set (nu4 := nu3 && _). clearbody nu4. cbn [negb andb]. rewrite Ec.
    pose proof (starts_app (d_qc d) rest) as S1. rewrite Ec in S1. cbn [app] in S1. rewrite S1. exists nu4. apply Em. }
  destruct E4 as (nu4 & E4).
  destruct (pass_silent qc rest n b) with (nu := nu4) as (nu5 & E5). { pose proof (la_qc_tail d L) as T. now rewrite Ec in T. }
  exists nu5. rewrite E1, E2, E3, E4, E5. repeat (rewrite app_length; cbn [length]). destruct (fs rest n b false nu5); cbn; [f_equal; lia|reflexivity].
Qed.

(** Numbers *)
Definition numeric (x y c : N) : bool := digit c || (c =? x)%N || (c =? y)%N || (c =? 45)%N.
Lemma fraction_numeric x y u : fraction_ok u = true -> forallb (numeric x y) u = true.
Proof.
  induction u as [|c u IH]; [auto|]. cbn [fraction_ok forallb]. intros H. apply andb_true_iff in H as (H1 & H2). unfold numeric at 1. rewrite H1. cbn. auto.
Qed.
Lemma whole_numeric x y u : whole_ok x y u = true -> forallb (numeric x y) u = true.
Proof.
  induction u as [|c u IH]; [auto|]. cbn [whole_ok forallb]. unfold numeric at 1. destruct (digit c); [cbn; exact IH|].
  destruct (c =? y)%N; [rewrite orb_true_r; cbn; intros (_ & H)%andb_true_iff; auto|].
  intros H. apply andb_true_iff in H as (H & H2). apply andb_true_iff in H as (H0 & _). rewrite H0. cbn. now apply fraction_numeric.
Qed.
Lemma digit_odd c : digit c = true -> plain c = false /\ bracket c = false.
Proof.
  intros H. split; [unfold plain; rewrite H; now rewrite orb_true_r|]. unfold bracket, among. cbn [existsb]. rewrite !orb_false_iff.
  repeat split; apply N.eqb_neq; intros ->; discriminate.
Qed.
Section Seps.
Variables x y : N.
Hypothesis Hx : d_dec d = [x].
Hypothesis Hy : d_tho d = [y].
Hypothesis Hxy : x <> y.
Hypothesis Hs : forall c, c = x \/ c = y -> bracket c = false /\ digit c = false /\ c <> 45%N /\ c <> d_prefix d /\ c <> hd 0%N (d_qo d).
Lemma numeric_quiet c t : numeric x y c = true -> bracket c = false /\ starts (d_qo d) (c :: t) = false.
Proof.
  unfold numeric. rewrite !orb_true_iff, !N.eqb_eq. intros [[[H|H]|H]|H].
  - destruct (digit_odd c H). split; [assumption|]. apply odd_not; [apply L|assumption].
  - destruct (Hs c (or_introl H)) as (H1 & _ & _ & _ & H5). split; [exact H1|]. apply plain_not; [apply L|exact H5].
  - destruct (Hs c (or_intror H)) as (H1 & _ & _ & _ & H5). split; [exact H1|]. apply plain_not; [apply L|exact H5].
  - subst. split; [reflexivity|]. apply odd_not; [apply L|reflexivity].
Qed.
Lemma pass_numeric u rest n b : forallb (numeric x y) u = true -> n <> 0 \/ b <> 0 -> passes u rest n b n b.
Proof.
  intros H Hn. apply pass_bytes. intros i Hi. rewrite forallb_forall in H. pose proof (H _ (nth_In u 0%N Hi)) as H1.
  rewrite (skipn_nth_cons i u rest Hi). destruct (numeric_quiet _ (skipn (S i) u ++ rest) H1). split; [assumption|]. split; [assumption|]. intuition.
Qed.
(** Inside of a number at the level of the message. *)
Lemma pass_wide u : forall rest, forallb (fun c => digit c || (c =? x)%N || (c =? y)%N) u = true -> wide u = true ->
  exists nu', fs (u ++ rest) 0 0 false true = option_map (Nat.add (length u)) (fs rest 0 0 false nu').
Proof.
  assert (Em : forall o : option nat, match o with Some k => Some (S k) | None => None end = option_map S o) by (intros []; reflexivity).
  induction u as [|c u IH]; intros rest Hu Hw.
  { exists true. cbn. now destruct (fs rest 0 0 false true). }
  cbn [forallb] in Hu. apply andb_true_iff in Hu as (Hc & Hu). cbn [wide] in Hw. apply andb_true_iff in Hw as (Hw0 & Hw).
  assert (N1 : numeric x y c = true) by (unfold numeric; rewrite Hc; reflexivity).
  destruct (numeric_quiet c (u ++ rest) N1) as (B & Hq). apply bracket_false in B as (B1 & B2 & B3 & B4).
  destruct (IH rest Hu Hw) as (nu' & E). exists nu'.
  assert (E1 : fs ((c :: u) ++ rest) 0 0 false true = option_map S (fs (u ++ rest) 0 0 false true)).
  { cbn [app forward_scan]. rewrite B1, B2, B3, B4, Hq. cbn [negb andb].
    match goal with |- context [?a || ?b || ?c0] => replace (a || b || c0) with true end.
    - cbn [negb andb]. apply Em.
    - symmetry. rewrite (isdigit_digit c). destruct (digit c) eqn:Dc; [reflexivity|]. cbn [orb] in *.
      rewrite !orb_true_iff in Hc.
      assert (W : begins_digit u && begins_digit (tl u) = true).
      { apply orb_true_iff in Hw0. destruct Hw0 as [Hw0|Hw0]; [|exact Hw0]. apply N.eqb_eq in Hw0. subst c.
        exfalso. rewrite !N.eqb_eq in Hc. destruct Hc as [Hc|Hc]; [destruct (Hs _ (or_introl Hc))|destruct (Hs _ (or_intror Hc))]; intuition. }
      apply andb_true_iff in W as (W1 & W2). destruct u as [|c1 [|c2 u]]; try discriminate. cbn [begins_digit tl] in W1, W2.
      rewrite Hx, Hy. cbn [starts length app Nat.add]. unfold peek. cbn [nth]. rewrite !isdigit_digit, W2.
      rewrite !andb_true_r. cbn [Nat.ltb Nat.leb]. rewrite !andb_true_l. rewrite (N.eqb_sym x c), (N.eqb_sym y c). apply orb_true_iff. intuition. }
  rewrite E1, E. cbn [length]. now destruct (fs rest 0 0 false nu').
Qed.
End Seps.
Lemma pass_num m rest n b : num_ok d m rest = true -> (n <> 0 \/ b <> 0) \/ (n = 0 /\ b = 0 /\ wide m = true) -> passes m rest n b n b.
Proof.
  destruct (la_seps d L) as (x & y & Hx & Hy & Nxy & Hs). unfold num_ok. rewrite Hx, Hy. intros H.
  repeat match goal with H : (_ && _)%bool = true |- _ => apply andb_true_iff in H as (? & ?) end.
  rename H3 into Hu. rename H2 into Hw. clear H0 H1 H.
  assert (Hn : forallb (numeric x y) m = true).
  { apply whole_numeric in Hw. destruct m as [|c m]; [reflexivity|]. cbn [unsigned] in Hw. destruct (c =? 45)%N eqn:E; [|exact Hw].
    cbn [forallb]. rewrite Hw. unfold numeric. rewrite E. now rewrite orb_true_r. }
  intros [C|(-> & -> & W)]; [now apply (pass_numeric x y Hs)|].
  assert (Hv : forall u, begins_digit u = true -> whole_ok x y u = true -> wide u = true -> passes u rest 0 0 0 0).
  { intros u U1 U2 U3 nu. destruct u as [|c u]; [discriminate|]. cbn [begins_digit] in U1.
    destruct (digit_odd c U1) as (O1 & O2). apply bracket_false in O2 as (B1 & B2 & B3 & B4).
    cbn [whole_ok] in U2. rewrite U1 in U2. cbn [wide] in U3. apply andb_true_iff in U3 as (_ & U3).
    destruct (pass_wide x y Hx Hy Hs u rest) as (nu' & E).
    - clear - U2 Hs. induction u as [|c u IH]; [reflexivity|]. cbn [whole_ok forallb] in *. destruct (digit c); [cbn; auto|].
      destruct (c =? y)%N; [rewrite orb_true_r; apply andb_true_iff in U2 as (_ & U2); cbn; auto|].
      apply andb_true_iff in U2 as (U2 & U4). apply andb_true_iff in U2 as (-> & _). cbn.
      clear - U4. induction u as [|c u IH]; [reflexivity|]. cbn [fraction_ok forallb] in *. apply andb_true_iff in U4 as (-> & U4). cbn. auto.
    - exact U3.
    - exists nu'. assert (E1 : fs ((c :: u) ++ rest) 0 0 false nu = option_map S (fs (u ++ rest) 0 0 false true)).
      { cbn [app forward_scan]. set (nu1 := nu && _). clearbody nu1. rewrite B1, B2, B3, B4. rewrite odd_not by (apply L || exact O1). cbn [negb andb].
        rewrite isdigit_digit, U1. destruct nu1; cbn [negb andb]; now destruct (fs (u ++ rest) 0 0 false true). }
      rewrite E1, E. cbn [length]. now destruct (fs rest 0 0 false nu'). }
  destruct m as [|c m]; [apply passes_nil|]. cbn [unsigned] in *. destruct (c =? 45)%N eqn:E; [|apply Hv; assumption].
  apply N.eqb_eq in E as ->. change (45%N :: m) with ([45%N] ++ m). apply passes_app with 0 0.
  - apply pass_byte; [reflexivity|apply odd_not; [apply L|reflexivity]|]. right. right. apply odd_ending; [reflexivity|discriminate].
  - apply Hv; [exact Hu|exact Hw|]. cbn [wide] in W. now apply andb_true_iff in W as (_ & W).
Qed.
End Scan.
