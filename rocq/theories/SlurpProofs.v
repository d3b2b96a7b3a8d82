(** Proofs about the objects Path, Command and Slurp. *)
From Coq Require Import Lia.
From Verif Require Import Common SlurpModel SlurpSpec.
Local Open Scope nat_scope.

Lemma put_length : forall A (l : list A) i x, i < length l -> length (put l i x) = length l.
Proof. intros. unfold put. rewrite app_length, firstn_length. cbn [length]. rewrite skipn_length. lia. Qed.
Lemma nth_firstn : forall A (l : list A) i j, j < i -> nth_error (firstn i l) j = nth_error l j.
Proof. induction l as [|a l IH]; intros [|i] [|j] H; cbn; try lia; auto. apply IH. lia. Qed.
Lemma nth_put : forall A (l : list A) i x j, i < length l ->
  nth_error (put l i x) j = if j =? i then Some x else nth_error l j.
Proof.
  intros A l i x j H. unfold put.
  assert (F : length (firstn i l) = i) by (rewrite firstn_length; lia).
  destruct (Nat.eqb_spec j i) as [->|Ne].
  - rewrite nth_error_app2 by lia. rewrite F, Nat.sub_diag. reflexivity.
  - destruct (Nat.lt_ge_cases j i).
    + rewrite nth_error_app1 by lia. apply nth_firstn. exact H0.
    + rewrite nth_error_app2 by lia. rewrite F.
      replace (j - i) with (S (j - S i)) by lia. cbn [nth_error].
      assert (G : forall (m : list A) k n, nth_error (skipn k m) n = nth_error m (k + n)).
      { induction m as [|b m IHm]; intros [|k] n; cbn; auto. now destruct n. }
      rewrite G. f_equal. lia.
Qed.
Lemma put_same_lt : forall A (l : list A) i y, nth_error l i = Some y -> i < length l.
Proof. intros. apply nth_error_Some. congruence. Qed.

Lemma bare_test : forall colon t b, bare colon t b ->
  (if (0 <? length t) && (nth (length t - 1) t 0 =? colon)%N then firstn (length t - 1) t else t) = b.
Proof.
  intros colon t b H. destruct H as [t|t H].
  - rewrite app_length. cbn [length]. replace (length t + 1 - 1) with (length t) by lia.
    rewrite app_nth2 by lia. rewrite Nat.sub_diag. cbn [nth]. rewrite N.eqb_refl.
    replace (0 <? length t + 1) with true by (symmetry; apply Nat.ltb_lt; lia). cbn.
    rewrite firstn_app, Nat.sub_diag, firstn_all. cbn. now rewrite app_nil_r.
  - destruct t as [|c t'] using rev_ind; [reflexivity|]. clear IHt'.
    rewrite app_length. cbn [length]. replace (length t' + 1 - 1) with (length t') by lia.
    rewrite app_nth2 by lia. rewrite Nat.sub_diag. cbn [nth].
    destruct (N.eqb_spec c colon) as [->|]; [now destruct (H t')|]. now rewrite Bool.andb_false_r.
Qed.
Lemma bare_fun : forall colon t b b', bare colon t b -> bare colon t b' -> b = b'.
Proof. intros. rewrite <- (bare_test _ _ _ H). now apply bare_test. Qed.
Lemma bare_total : forall colon t, exists b, bare colon t b.
Proof.
  intros colon t. destruct t as [|c t] using rev_ind.
  - exists []. apply bare_other. intros [|? ?]; discriminate.
  - destruct (N.eq_dec c colon) as [->|Ne]; [exists t; constructor|].
    exists (t ++ [c]). apply bare_other. intros t' E. apply app_inj_tail in E. now destruct E.
Qed.

Section P.
Variables (pt ct : text).
Notation show := (show pt ct).
Notation cast2string := (cast2string pt ct).
Notation string_append := (string_append pt ct).
Notation slurp_respond_to := (slurp_respond_to pt ct).

(** [grows w w']: nothing is lost and nothing changes but the text [r]. *)
Definition grows (w w' : world) (r : nat) : Prop :=
  length (texts w) <= length (texts w') /\ slurps w' = slurps w /\
  forall k, k <> r -> k < length (texts w) -> nth_error (texts w') k = nth_error (texts w) k.

Lemma cast_ok : forall w v t, sound w -> show w v = Some t ->
  exists w1 r, cast2string w v = Ok (w1, r) /\ nth_error (texts w1) r = Some t /\
    (exists l, texts w1 = texts w ++ l) /\ slurps w1 = slurps w.
Proof.
  intros w v t Sw H.
  assert (New : forall t, exists w1 r, Ok (new_text w t) = Ok (w1, r) /\ nth_error (texts w1) r = Some t /\
    (exists l, texts w1 = texts w ++ l) /\ slurps w1 = slurps w).
  { intros u. unfold new_text. do 2 eexists. split; [reflexivity|]. cbn. split; [|eauto].
    rewrite nth_error_app2 by lia. now rewrite Nat.sub_diag. }
  destruct v as [r|i| | |u]; unfold SlurpModel.cast2string; cbn in H.
  - assert (r < length (texts w)) by (apply nth_error_Some; congruence).
    replace (r <? length (texts w)) with true by (symmetry; now apply Nat.ltb_lt).
    exists w, r. split; [reflexivity|]. split; [exact H|]. split; [|reflexivity]. exists []. now rewrite app_nil_r.
  - unfold slurp_to_string, slurp_obtain. destruct (nth_error (slurps w) i) as [s|] eqn:E; [|discriminate].
    destruct (command s) as [r|].
    + exists w, r. split; [reflexivity|]. split; [exact H|]. split; [|reflexivity]. exists []. now rewrite app_nil_r.
    + injection H as <-. apply New.
  - injection H as <-. apply New.
  - injection H as <-. apply New.
  - injection H as <-. apply New.
Qed.

Lemma append_ok : forall w r v a t, sound w -> nth_error (texts w) r = Some a -> show w v = Some t ->
  exists w', string_append w r v = Ok w' /\ nth_error (texts w') r = Some (a ++ t) /\ grows w w' r.
Proof.
  intros w r v a t Sw Ha Hv. destruct (cast_ok w v t Sw Hv) as (w1 & r2 & Ec & Et & (l & El) & Es).
  unfold SlurpModel.string_append. rewrite Ec. cbn [obind]. rewrite Et.
  assert (Lr : r < length (texts w)) by (apply nth_error_Some; congruence).
  assert (Ha1 : nth_error (texts w1) r = Some a) by (rewrite El, nth_error_app1; auto).
  rewrite Ha1. eexists. split; [reflexivity|].
  assert (Lr1 : r < length (texts w1)) by (rewrite El, app_length; lia).
  cbn [texts slurps]. split; [rewrite nth_put by exact Lr1; now rewrite Nat.eqb_refl|].
  split; [cbn [texts]; rewrite put_length by exact Lr1; rewrite El, app_length; lia|].
  split; [exact Es|]. intros k Nk Lk. cbn [texts]. rewrite nth_put by exact Lr1.
  destruct (Nat.eqb_spec k r); [contradiction|]. rewrite El, nth_error_app1 by exact Lk. reflexivity.
Qed.

Lemma grows_sound : forall w w' r, grows w w' r -> sound w -> sound w'.
Proof.
  intros w w' r (L & Es & _) [S1 S2]. split; rewrite Es; [|exact S2].
  intros i s k Hi Hc. specialize (S1 i s k Hi Hc). lia.
Qed.
Lemma grows_trans : forall w w1 w2 r, grows w w1 r -> grows w1 w2 r -> grows w w2 r.
Proof.
  intros w w1 w2 r (L & E & F) (L' & E' & F'). split; [lia|]. split; [congruence|].
  intros k Nk Lk. rewrite F' by (try assumption; lia). now apply F.
Qed.
(** Values apart from the slurp object owning the text [r] read the same. *)
Lemma grows_show : forall w w' i s r v t, grows w w' r -> sound w ->
  nth_error (slurps w) i = Some s -> command s = Some r -> apart w i v -> show w v = Some t -> show w' v = Some t.
Proof.
  intros w w' i s r v t (L & E & F) [S1 S2] Hi Hr [A1 A2] H. destruct v as [k|j| | |u]; cbn in *; auto.
  - rewrite F; auto. + intros ->. now apply (A2 s r). + apply nth_error_Some. congruence.
  - rewrite E. destruct (nth_error (slurps w) j) as [sj|] eqn:Ej; [|discriminate].
    destruct (command sj) as [k|] eqn:Ek; [|exact H]. rewrite F; auto.
    + intros ->. apply A1. f_equal. exact (S2 j i sj s r Ej Hi Ek Hr).
    + apply nth_error_Some. congruence.
Qed.
Lemma grows_apart : forall w w' i r v, grows w w' r -> apart w i v -> apart w' i v.
Proof. intros w w' i r v (_ & E & _) [A B]. split; [exact A|]. rewrite E. exact B. Qed.

(** One part, when there is a text already. *)
Lemma respond_more : forall w i s r g a v t, sound w ->
  nth_error (slurps w) i = Some s -> command s = Some r -> glue s = Some g ->
  nth_error (texts w) r = Some a -> apart w i v -> show w v = Some t ->
  exists w', slurp_respond_to w i v = Ok w' /\ nth_error (texts w') r = Some (a ++ g ++ t) /\ grows w w' r.
Proof.
  intros w i s r g a v t Sw Hi Hr Hg Ha Av Hv. unfold SlurpModel.slurp_respond_to. rewrite Hi, Hr, Hg.
  destruct (append_ok w r (VOther g) a g Sw Ha eq_refl) as (w1 & E1 & T1 & G1). rewrite E1. cbn [obind].
  assert (Hv1 : show w1 v = Some t) by (eapply grows_show; eauto).
  destruct (append_ok w1 r v (a ++ g) t (grows_sound _ _ _ G1 Sw) T1 Hv1) as (w2 & E2 & T2 & G2).
  exists w2. split; [exact E2|]. split; [now rewrite T2, <- app_assoc|]. eapply grows_trans; eauto.
Qed.

(** The first part. *)
Lemma respond_first : forall w i s v t, sound w ->
  nth_error (slurps w) i = Some s -> command s = None -> v <> VSlurp i -> show w v = Some t ->
  exists w', slurp_respond_to w i v = Ok w' /\
    length (texts w) < length (texts w') /\ nth_error (texts w') (length (texts w)) = Some t /\
    slurps w' = put (slurps w) i (mkSlurp (glue s) (Some (length (texts w)))) /\
    (forall k, k < length (texts w) -> nth_error (texts w') k = nth_error (texts w) k) /\ sound w'.
Proof.
  intros w i s v t Sw Hi Hc Nv Hv. unfold SlurpModel.slurp_respond_to. rewrite Hi, Hc. unfold new_text.
  cbn [texts slurps].
  set (n := length (texts w)). set (w1 := mkWorld (texts w ++ [[]]) (put (slurps w) i (mkSlurp (glue s) (Some n)))).
  assert (Li : i < length (slurps w)) by (eapply put_same_lt; eauto).
  assert (Sw1 : sound w1).
  { destruct Sw as [S1 S2]. split; cbn.
    - intros j sj r Hj Hr. rewrite nth_put in Hj by exact Li. rewrite app_length. cbn. fold n.
      destruct (Nat.eqb_spec j i); [injection Hj as <-; cbn in Hr; injection Hr as <-; lia|].
      specialize (S1 j sj r Hj Hr). fold n in S1. lia.
    - intros j k sj sk r Hj Hk Hr Hr'. rewrite nth_put in Hj, Hk by exact Li.
      destruct (Nat.eqb_spec j i) as [->|]; destruct (Nat.eqb_spec k i) as [->|]; auto.
      + injection Hj as <-. cbn in Hr. injection Hr as <-. specialize (S1 k sk n Hk Hr'). fold n in S1. lia.
      + injection Hk as <-. cbn in Hr'. injection Hr' as <-. specialize (S1 j sj n Hj Hr). fold n in S1. lia.
      + eapply S2; eauto. }
  assert (Hv1 : show w1 v = Some t).
  { destruct v as [r|j| | |u]; cbn in *; auto.
    - rewrite nth_error_app1; auto. apply nth_error_Some. congruence.
    - rewrite nth_put by exact Li. destruct (Nat.eqb_spec j i) as [->|]; [congruence|].
      destruct (nth_error (slurps w) j) as [sj|]; [|discriminate]. destruct (command sj) as [r|]; [|exact Hv].
      rewrite nth_error_app1; auto. apply nth_error_Some. congruence. }
  assert (Hn : nth_error (texts w1) n = Some []).
  { cbn. rewrite nth_error_app2 by (unfold n; lia). unfold n. now rewrite Nat.sub_diag. }
  destruct (append_ok w1 n v [] t Sw1 Hn Hv1) as (w2 & E2 & T2 & G2). pose proof G2 as (L & E & F).
  exists w2. split; [exact E2|]. cbn in L. rewrite app_length in L. cbn in L. fold n in L. split; [unfold n in *; lia|].
  split; [exact T2|]. split; [exact E|]. split.
  - intros k Lk. rewrite F; [|unfold n; lia|cbn; rewrite app_length; lia]. cbn. now rewrite nth_error_app1 by exact Lk.
  - eapply grows_sound; eauto.
Qed.

Section C.
Variables (colon : N) (dirsep : text) (known : text -> bool).
Notation send := (send colon dirsep known pt ct).
Notation chain := (chain colon dirsep known pt ct).
Notation parts := (parts pt ct).
Notation all_parts := (all_parts pt ct).

Definition glued (g : text) (ps : list text) : text := flat_map (fun p => g ++ p) ps.
Lemma join_glued : forall g p ps, join g (p :: ps) = p ++ glued g ps.
Proof.
  intros g p ps. revert p. induction ps as [|q ps IH]; intros p; [cbn; now rewrite app_nil_r|].
  change (join g (p :: q :: ps)) with (p ++ g ++ join g (q :: ps)). rewrite IH. cbn. now rewrite <- !app_assoc.
Qed.
Lemma join_app : forall g ps qs, ps <> [] -> join g (ps ++ qs) = join g ps ++ glued g qs.
Proof.
  intros g [|p ps] qs H; [contradiction|]. cbn [app]. rewrite !join_glued. unfold glued.
  now rewrite flat_map_app, app_assoc.
Qed.

Lemma new_text_grows : forall w t r, r < length (texts w) -> grows w (fst (new_text w t)) r.
Proof.
  intros w t r L. unfold new_text. cbn. split; [cbn; rewrite app_length; lia|]. split; [reflexivity|].
  intros k _ Lk. cbn. now apply nth_error_app1.
Qed.
Lemma new_text_show : forall w t, show (fst (new_text w t)) (VText (length (texts w))) = Some t.
Proof. intros. cbn. rewrite nth_error_app2 by lia. now rewrite Nat.sub_diag. Qed.
Lemma fresh_apart : forall w i, sound w -> apart w i (VText (length (texts w))).
Proof. intros w i [S1 _]. split; [discriminate|]. intros s r Hi Hr E. injection E as E. specialize (S1 i s r Hi Hr). lia. Qed.

(** One message to a slurp object that has a text. *)
Lemma send_more : forall w i s r g a m ps, sound w ->
  nth_error (slurps w) i = Some s -> command s = Some r -> glue s = Some g -> nth_error (texts w) r = Some a ->
  known (fst m) = false -> parts colon w m ps -> Forall (apart w i) (snd m) ->
  exists w', send w (VSlurp i) (fst m) (snd m) = Ok (SDone w' (VSlurp i)) /\
    nth_error (texts w') r = Some (a ++ glued g ps) /\ grows w w' r.
Proof.
  intros w i s r g a m ps Sw Hi Hr Hg Ha Kn Hp Ap.
  assert (Lr : r < length (texts w)) by (eapply put_same_lt; eauto).
  destruct Hp as [n|n b v t Hb Hv]; cbn [fst snd] in *; unfold SlurpModel.send; rewrite Kn.
  - unfold new_text. cbn [start obind].
    pose proof (new_text_grows w n r Lr) as G0. pose proof (new_text_show w n) as V0. cbn [fst new_text] in G0, V0.
    set (w0 := mkWorld (texts w ++ [n]) (slurps w)) in *.
    assert (S0 : sound w0) by (eapply grows_sound; eauto).
    assert (A0 : apart w0 i (VText (length (texts w)))) by (eapply grows_apart; [exact G0|]; now apply fresh_apart).
    assert (T0 : nth_error (texts w0) r = Some a) by (cbn; now rewrite nth_error_app1).
    destruct (respond_more w0 i s r g a _ n S0 Hi Hr Hg T0 A0 V0) as (w1 & E1 & T1 & G1).
    exists w1. rewrite E1. cbn [obind]. split; [reflexivity|]. split; [cbn; rewrite app_nil_r; exact T1|].
    eapply grows_trans; eauto.
  - unfold new_text. cbn [start obind].
    pose proof (new_text_grows w n r Lr) as G0. pose proof (new_text_show w n) as V0. cbn [fst new_text] in G0, V0.
    set (w0 := mkWorld (texts w ++ [n]) (slurps w)) in *.
    assert (S0 : sound w0) by (eapply grows_sound; eauto).
    assert (A0 : apart w0 i (VText (length (texts w)))) by (eapply grows_apart; [exact G0|]; now apply fresh_apart).
    assert (T0 : nth_error (texts w0) r = Some a) by (cbn; now rewrite nth_error_app1).
    assert (Hv0 : show w0 v = Some t) by (inversion Ap; subst; eapply grows_show; eauto).
    assert (Av0 : apart w0 i v) by (inversion Ap; subst; eapply grows_apart; eauto).
    unfold slurp_respond_to_and.
    replace (cast2string w0 (VText (length (texts w)))) with (Ok (w0, length (texts w))).
    2:{ unfold SlurpModel.cast2string. now replace (length (texts w) <? length (texts w0)) with true by (symmetry; apply Nat.ltb_lt; unfold w0; cbn; rewrite app_length; cbn; lia). }
    cbn [obind]. change (nth_error (texts w0) (length (texts w))) with (show w0 (VText (length (texts w)))). rewrite V0.
    assert (Step : exists w1, (if (0 <? length n) && (nth (length n - 1) n 0 =? colon)%N
        then let (w1', r') := new_text w0 (firstn (length n - 1) n) in slurp_respond_to w1' i (VText r')
        else slurp_respond_to w0 i (VText (length (texts w)))) = Ok w1 /\
        nth_error (texts w1) r = Some (a ++ g ++ b) /\ grows w0 w1 r).
    { pose proof (bare_test colon n b Hb) as B.
      destruct ((0 <? length n) && (nth (length n - 1) n 0 =? colon)%N).
      - assert (Lr0 : r < length (texts w0)) by (eapply put_same_lt; eauto).
        pose proof (new_text_grows w0 (firstn (length n - 1) n) r Lr0) as G1.
        pose proof (new_text_show w0 (firstn (length n - 1) n)) as V1. rewrite B in *.
        unfold new_text in *. cbn [fst] in *. set (w1 := mkWorld (texts w0 ++ [b]) (slurps w0)) in *.
        assert (T1 : nth_error (texts w1) r = Some a) by (cbn [texts w1]; rewrite nth_error_app1; auto).
        destruct (respond_more w1 i s r g a (VText (length (texts w0))) b (grows_sound _ _ _ G1 S0) Hi Hr Hg T1
          ltac:(eapply grows_apart; [exact G1|]; now apply fresh_apart) V1) as (w2 & E2 & T2 & G2).
        exists w2. split; [exact E2|]. split; [exact T2|]. eapply grows_trans; eauto.
      - rewrite B in V0. destruct (respond_more w0 i s r g a _ b S0 Hi Hr Hg T0 A0 V0) as (w1 & E1 & T1 & G1).
        exists w1. split; [exact E1|]. split; assumption. }
    destruct Step as (w1 & E1 & T1 & G1). rewrite E1. cbn [obind].
    assert (Hv1 : show w1 v = Some t) by (eapply grows_show; eauto).
    assert (Sl1 : nth_error (slurps w1) i = Some s) by (destruct G1 as (_ & E & _); rewrite E; exact Hi).
    destruct (respond_more w1 i s r g _ v t (grows_sound _ _ _ G1 S0) Sl1 Hr Hg T1
      ltac:(eapply grows_apart; eauto) Hv1) as (w2 & E2 & T2 & G2).
    rewrite E2. cbn [obind]. exists w2. split; [reflexivity|]. split.
    + rewrite T2. cbn. now rewrite app_nil_r, <- !app_assoc.
    + eapply grows_trans; [exact G0|]. eapply grows_trans; eauto.
Qed.

Lemma grows_parts : forall w w' i s r m ps, grows w w' r -> sound w ->
  nth_error (slurps w) i = Some s -> command s = Some r -> Forall (apart w i) (snd m) ->
  parts colon w m ps -> parts colon w' m ps.
Proof.
  intros w w' i s r m ps G Sw Hi Hr Ap H. destruct H as [|n b a t Hb Hv]; constructor; auto.
  cbn in Ap. inversion Ap; subst. eapply grows_show; eauto.
Qed.
Lemma grows_all_parts : forall w w' i s r ms ps, grows w w' r -> sound w ->
  nth_error (slurps w) i = Some s -> command s = Some r -> Forall (fun m => Forall (apart w i) (snd m)) ms ->
  all_parts colon w ms ps -> all_parts colon w' ms ps.
Proof.
  intros w w' i s r ms ps G Sw Hi Hr Ap H. induction H as [|m ms p ps Hp H IH]; [constructor|].
  inversion Ap; subst. constructor; [eapply grows_parts; eauto|auto].
Qed.

Lemma chain_more : forall ms w i s r g a ps, sound w ->
  nth_error (slurps w) i = Some s -> command s = Some r -> glue s = Some g -> nth_error (texts w) r = Some a ->
  Forall (fun m => known (fst m) = false) ms -> all_parts colon w ms ps ->
  Forall (fun m => Forall (apart w i) (snd m)) ms ->
  exists w', chain w (VSlurp i) ms = Ok (SDone w' (VSlurp i)) /\
    nth_error (texts w') r = Some (a ++ glued g ps) /\ grows w w' r.
Proof.
  induction ms as [|m ms IH]; intros w i s r g a ps Sw Hi Hr Hg Ha Kn Hp Ap.
  - inversion Hp; subst. exists w. split; [reflexivity|]. cbn. rewrite app_nil_r. split; [exact Ha|].
    split; [lia|]. split; [reflexivity|auto].
  - inversion Hp as [|? ? p ps' Hm Hms]; subst. inversion Kn; subst. inversion Ap; subst.
    destruct (send_more w i s r g a m p Sw Hi Hr Hg Ha) as (w1 & E1 & T1 & G1); auto.
    assert (Sl1 : nth_error (slurps w1) i = Some s) by (destruct G1 as (_ & E & _); rewrite E; exact Hi).
    destruct (IH w1 i s r g (a ++ glued g p) ps') as (w2 & E2 & T2 & G2); auto.
    + eapply grows_sound; eauto.
    + eapply grows_all_parts; eauto.
    + eapply Forall_impl; [|eassumption]. intros q Hq. cbn in Hq |- *. eapply Forall_impl; [|exact Hq].
      intros v Hv. eapply grows_apart; eauto.
    + exists w2. destruct m as [n args]. cbn [SlurpModel.chain fst snd] in *. rewrite E1. cbn [obind].
      split; [exact E2|]. split; [|eapply grows_trans; eauto].
      rewrite T2. unfold glued. now rewrite flat_map_app, app_assoc.
Qed.

(** The first message to a slurp object. *)
Definition keeps (w w' : world) (i : nat) : Prop :=
  forall v t, v <> VSlurp i -> show w v = Some t -> show w' v = Some t /\ apart w' i v.
Lemma first_keeps : forall w w' i s g, nth_error (slurps w) i = Some s -> sound w ->
  slurps w' = put (slurps w) i (mkSlurp g (Some (length (texts w)))) ->
  (forall k, k < length (texts w) -> nth_error (texts w') k = nth_error (texts w) k) -> keeps w w' i.
Proof.
  intros w w' i s g Hi [S1 S2] E F v t Nv H.
  assert (Li : i < length (slurps w)) by (eapply put_same_lt; eauto).
  split.
  - destruct v as [r|j| | |u]; cbn in *; auto.
    + rewrite F; auto. apply nth_error_Some. congruence.
    + rewrite E, nth_put by exact Li. destruct (Nat.eqb_spec j i) as [->|]; [congruence|].
      destruct (nth_error (slurps w) j) as [sj|]; [|discriminate]. destruct (command sj) as [r|]; [|exact H].
      rewrite F; auto. apply nth_error_Some. congruence.
  - split; [exact Nv|]. intros s' r Hs Hr ->. rewrite E, nth_put, Nat.eqb_refl in Hs by exact Li. injection Hs as <-.
    cbn in Hr. injection Hr as <-. cbn in H. assert (length (texts w) < length (texts w)) by (apply nth_error_Some; congruence). lia.
Qed.

Lemma respond_first_keeps : forall w i s g v t, sound w -> nth_error (slurps w) i = Some s -> command s = None ->
  glue s = Some g -> v <> VSlurp i -> show w v = Some t ->
  exists w' r, slurp_respond_to w i v = Ok w' /\ nth_error (slurps w') i = Some (mkSlurp (Some g) (Some r)) /\    nth_error (texts w') r = Some t /\ sound w' /\ keeps w w' i.
Proof.
  intros w i s g v t Sw Hi Hc Hg Nv Hv.
  destruct (respond_first w i s v t Sw Hi Hc Nv Hv) as (w' & E & L & T & Es & F & S').
  exists w', (length (texts w)). split; [exact E|].
  assert (Li : i < length (slurps w)) by (eapply put_same_lt; eauto).
  split; [rewrite Es, nth_put, Nat.eqb_refl, Hg by exact Li; reflexivity|]. split; [exact T|]. split; [exact S'|].
  eapply first_keeps; eauto.
Qed.

Definition extends (w w' : world) : Prop := (exists l, texts w' = texts w ++ l) /\ slurps w' = slurps w.
Lemma extends_sound : forall w w', extends w w' -> sound w -> sound w'.
Proof.
  intros w w' ((l & E) & Es) [S1 S2]. split; rewrite Es; [|exact S2].
  intros i s r Hi Hr. rewrite E, app_length. specialize (S1 i s r Hi Hr). lia.
Qed.
Lemma extends_show : forall w w' v t, extends w w' -> show w v = Some t -> show w' v = Some t.
Proof.
  intros w w' v t ((l & E) & Es) H. destruct v as [r|j| | |u]; cbn in *; auto.
  - rewrite E, nth_error_app1; auto. apply nth_error_Some. congruence.
  - rewrite Es. destruct (nth_error (slurps w) j) as [sj|]; [|discriminate]. destruct (command sj) as [r|]; [|exact H].
    rewrite E, nth_error_app1; auto. apply nth_error_Some. congruence.
Qed.

Lemma send_first : forall w i s g m ps, sound w ->
  nth_error (slurps w) i = Some s -> command s = None -> glue s = Some g ->
  parts colon w m ps -> Forall (fun v => v <> VSlurp i) (snd m) ->
  exists w' r,
    (do w3 <- match snd m with
      | [a] => slurp_respond_to_and colon pt ct (fst (new_text w (fst m))) i (VText (length (texts w))) a
      | _ => slurp_respond_to (fst (new_text w (fst m))) i (VText (length (texts w)))
      end; Ok (SDone w3 (VSlurp i))) = Ok (SDone w' (VSlurp i)) /\
    nth_error (slurps w') i = Some (mkSlurp (Some g) (Some r)) /\
    nth_error (texts w') r = Some (join g ps) /\ sound w' /\ keeps w w' i.
Proof.
  intros w i s g m ps Sw Hi Hc Hg Hp Nv.
  assert (X0 : forall t, extends w (fst (new_text w t))) by (intros t; split; cbn; eauto).
  destruct Hp as [n|n b v t Hb Hv]; cbn [fst snd] in *.
  - pose proof (X0 n) as X. pose proof (new_text_show w n) as V. set (w0 := fst (new_text w n)) in *.
    destruct (respond_first_keeps w0 i s g (VText (length (texts w))) n (extends_sound _ _ X Sw) Hi Hc Hg ltac:(discriminate) V)
      as (w1 & r & E1 & Sl & T & S1 & K).
    rewrite E1. exists w1, r. split; [reflexivity|]. split; [exact Sl|]. split; [exact T|]. split; [exact S1|].
    intros u t Nu Hu. apply K; [exact Nu|]. eapply extends_show; eauto.
  - pose proof (X0 n) as X. pose proof (new_text_show w n) as V. set (w0 := fst (new_text w n)) in *.
    pose proof (extends_sound _ _ X Sw) as S0. inversion Nv as [|? ? Nv1 _]; subst.
    unfold slurp_respond_to_and.
    replace (cast2string w0 (VText (length (texts w)))) with (Ok (w0, length (texts w))).
    2:{ unfold SlurpModel.cast2string. now replace (length (texts w) <? length (texts w0)) with true by (symmetry; apply Nat.ltb_lt; unfold w0; cbn; rewrite app_length; cbn; lia). }
    cbn [obind]. change (nth_error (texts w0) (length (texts w))) with (show w0 (VText (length (texts w)))). rewrite V.
    assert (Step : exists w1 r, (if (0 <? length n) && (nth (length n - 1) n 0 =? colon)%N
        then let (w1', r') := new_text w0 (firstn (length n - 1) n) in slurp_respond_to w1' i (VText r')
        else slurp_respond_to w0 i (VText (length (texts w)))) = Ok w1 /\
        nth_error (slurps w1) i = Some (mkSlurp (Some g) (Some r)) /\ nth_error (texts w1) r = Some b /\
        sound w1 /\ keeps w0 w1 i).
    { pose proof (bare_test colon n b Hb) as B.
      destruct ((0 <? length n) && (nth (length n - 1) n 0 =? colon)%N).
      - rewrite B. assert (X1 : extends w0 (fst (new_text w0 b))) by (split; cbn; eauto).
        pose proof (new_text_show w0 b) as V1. change (new_text w0 b) with (fst (new_text w0 b), length (texts w0)).
        cbv iota beta. set (w1 := fst (new_text w0 b)) in *.
        destruct (respond_first_keeps w1 i s g (VText (length (texts w0))) b (extends_sound _ _ X1 S0) Hi Hc Hg ltac:(discriminate) V1)
          as (w2 & r & E1 & Sl & T & S1 & K).
        exists w2, r. split; [exact E1|]. split; [exact Sl|]. split; [exact T|]. split; [exact S1|].
        intros u u' Nu Hu. apply K; [exact Nu|]. eapply extends_show; eauto.
      - rewrite B in V. destruct (respond_first_keeps w0 i s g (VText (length (texts w))) b S0 Hi Hc Hg ltac:(discriminate) V)
          as (w2 & r & E1 & Sl & T & S1 & K). exists w2, r. auto. }
    destruct Step as (w1 & r & E1 & Sl & T & S1 & K). rewrite E1. cbn [obind].
    destruct (K v t Nv1 (extends_show _ _ _ _ X Hv)) as [Hv1 A1].
    destruct (respond_more w1 i _ r g b v t S1 Sl eq_refl eq_refl T A1 Hv1) as (w2 & E2 & T2 & G2).
    rewrite E2. cbn [obind]. exists w2, r. split; [reflexivity|].
    split; [destruct G2 as (_ & E & _); now rewrite E|]. split; [exact T2|]. split; [eapply grows_sound; eauto|].
    intros u u' Nu Hu. destruct (K u u' Nu (extends_show _ _ _ _ X Hu)) as [Hu1 Au].
    split; [eapply grows_show; eauto; reflexivity|eapply grows_apart; eauto].
Qed.

Lemma sound_new_slurp : forall w g, sound w -> sound (fst (new_slurp w g)).
Proof.
  intros w g [S1 S2].
  assert (H : forall i s r, nth_error (slurps w ++ [mkSlurp g None]) i = Some s -> command s = Some r -> nth_error (slurps w) i = Some s).
  { intros i s r Hi Hr. destruct (Nat.lt_ge_cases i (length (slurps w))); [now rewrite nth_error_app1 in Hi|].
    rewrite nth_error_app2 in Hi by lia. destruct (i - length (slurps w)) as [|[|k]]; cbn in Hi; try discriminate.
    injection Hi as <-. discriminate. }
  split; cbn.
  - intros i s r Hi Hr. eapply S1; eauto.
  - intros i j si sj r Hi Hj Hr Hr'. eapply S2; eauto.
Qed.
Lemma show_new_slurp : forall w g v t, show w v = Some t -> show (fst (new_slurp w g)) v = Some t /\ v <> VSlurp (length (slurps w)).
Proof.
  intros w g v t H. destruct v as [r|j| | |u]; cbn in *; try (split; [exact H|discriminate]).
  destruct (nth_error (slurps w) j) as [s|] eqn:E; [|discriminate].
  assert (j < length (slurps w)) by (eapply put_same_lt; eauto).
  rewrite nth_error_app1, E by assumption. split; [exact H|]. intros X. injection X as ->. lia.
Qed.

Lemma parts_keeps : forall w w' i m ps, keeps w w' i -> Forall (fun v => v <> VSlurp i) (snd m) ->
  parts colon w m ps -> parts colon w' m ps /\ Forall (apart w' i) (snd m).
Proof.
  intros w w' i m ps K N H. destruct H as [|n b a t Hb Hv]; cbn in *.
  - split; constructor.
  - inversion N; subst. destruct (K a t) as [Ha Aa]; auto. split; [constructor; auto|]. constructor; [exact Aa|constructor].
Qed.
Lemma all_parts_keeps : forall w w' i ms ps, keeps w w' i -> Forall (fun m => Forall (fun v => v <> VSlurp i) (snd m)) ms ->
  all_parts colon w ms ps -> all_parts colon w' ms ps /\ Forall (fun m => Forall (apart w' i) (snd m)) ms.
Proof.
  intros w w' i ms ps K N H. induction H as [|m ms p ps Hp H IH]; [split; constructor|].
  inversion N; subst. destruct (parts_keeps w w' i m p) as [A B]; auto. destruct IH as [C D]; auto.
  split; constructor; auto.
Qed.
Lemma all_parts_new : forall w g ms ps, all_parts colon w ms ps ->
  all_parts colon (fst (new_slurp w g)) ms ps /\
  Forall (fun m => Forall (fun v => v <> VSlurp (length (slurps w))) (snd m)) ms.
Proof.
  intros w g ms ps H. induction H as [|m ms p ps Hp H [IH1 IH2]]; [split; constructor|].
  split; constructor; auto.
  - destruct Hp as [|n b a t Hb Hv]; constructor; auto. now apply show_new_slurp.
  - destruct Hp as [|n b a t Hb Hv]; cbn; auto. constructor; [|constructor]. exact (proj2 (show_new_slurp w g a t Hv)).
Qed.

(** A chain of messages to a slurp object without a text. *)
Lemma chain_first : forall w i s g m ms ps, sound w ->
  nth_error (slurps w) i = Some s -> command s = None -> glue s = Some g ->
  Forall (fun m => known (fst m) = false) (m :: ms) ->
  all_parts colon w (m :: ms) ps -> Forall (fun m => Forall (fun v => v <> VSlurp i) (snd m)) (m :: ms) ->
  exists w', chain w (VSlurp i) (m :: ms) = Ok (SDone w' (VSlurp i)) /\
    show w' (VSlurp i) = Some (join g ps) /\ sound w' /\ (forall v t, v <> VSlurp i -> show w v = Some t -> show w' v = Some t).
Proof.
  intros w i s g m ms ps Sw Hi Hc Hg Kn Hp Nv.
  inversion Hp as [|? ? p ps' Hm Hms]; subst. inversion Kn; subst. inversion Nv; subst.
  destruct (send_first w i s g m p Sw Hi Hc Hg Hm) as (w1 & r & E1 & Sl & T & S1 & K); auto.
  destruct (all_parts_keeps w w1 i ms ps' K) as [Hp1 A1]; auto.
  destruct (chain_more ms w1 i _ r g (join g p) ps' S1 Sl eq_refl eq_refl T) as (w2 & E2 & T2 & G2); auto.
  exists w2. split.
  - destruct m as [n args]. cbn [SlurpModel.chain fst snd] in *.
    assert (Es : send w (VSlurp i) n args = Ok (SDone w1 (VSlurp i))).
    { unfold SlurpModel.send. match goal with H : known n = false |- _ => rewrite H end.
      change (new_text w n) with (fst (new_text w n), length (texts w)). cbv iota beta.
      inversion Hm; subst; cbn [start]; cbv iota beta in E1 |- *; exact E1. }
    rewrite Es. cbn [obind]. exact E2.
  - split; [|split].
    + cbn. destruct G2 as (_ & E & _). rewrite E, Sl. cbn. rewrite T2. f_equal.
      rewrite join_app; [reflexivity|]. inversion Hm; discriminate.
    + eapply grows_sound; eauto.
    + intros v t Nu Hu. destruct (K v t Nu Hu) as [Hu1 Au]. eapply grows_show; eauto; reflexivity.
Qed.

Theorem chain_root : forall w root sep ms ps, sound w ->
  (root = VPath /\ sep = dirsep \/ root = VCommand /\ sep = [32%N]) -> ms <> [] ->
  Forall (fun m => known (fst m) = false) ms -> all_parts colon w ms ps ->
  exists w', chain w root ms = Ok (SDone w' (VSlurp (length (slurps w)))) /\
    show w' (VSlurp (length (slurps w))) = Some (join sep ps) /\ sound w' /\
    (forall v t, show w v = Some t -> show w' v = Some t).
Proof.
  intros w root sep [|m ms] ps Sw Hr Ne Kn Hp; [contradiction|].
  destruct (all_parts_new w (Some sep) _ _ Hp) as [Hp1 N1].
  set (w1 := fst (new_slurp w (Some sep))) in *. set (i := length (slurps w)) in *.
  assert (Hi : nth_error (slurps w1) i = Some (mkSlurp (Some sep) None)).
  { cbn. unfold i. rewrite nth_error_app2 by lia. now rewrite Nat.sub_diag. }
  destruct (chain_first w1 i _ sep m ms ps (sound_new_slurp _ _ Sw) Hi eq_refl eq_refl Kn Hp1 N1) as (w2 & E2 & T2 & S2 & F2).
  exists w2. split; [|split; [exact T2|split; [exact S2|]]].
  - rewrite <- E2. destruct m as [n args]. cbn [SlurpModel.chain]. 
    assert (Es : send w root n args = send w1 (VSlurp i) n args).
    { unfold SlurpModel.send. inversion Kn; subst. cbn [fst] in *. match goal with H : known n = false |- _ => rewrite H end.
      inversion Hp as [|? ? p ps' Hm Hms]; subst. 
      destruct Hr as [[-> ->]|[-> ->]]; inversion Hm; subst; reflexivity. }
    now rewrite Es.
  - intros v t Hv. destruct (show_new_slurp w (Some sep) v t Hv) as [H1 H2]. apply F2; auto.
Qed.
Theorem chain_again : forall w i s g r ms ps a, sound w ->
  nth_error (slurps w) i = Some s -> glue s = Some g -> command s = Some r -> show w (VSlurp i) = Some a ->
  Forall (fun m => known (fst m) = false) ms -> all_parts colon w ms ps ->
  Forall (fun m => Forall (apart w i) (snd m)) ms ->
  exists w', chain w (VSlurp i) ms = Ok (SDone w' (VSlurp i)) /\
    show w' (VSlurp i) = Some (join g (a :: ps)) /\ show w' (VText r) = Some (join g (a :: ps)) /\ sound w' /\
    (forall v t, apart w i v -> show w v = Some t -> show w' v = Some t).
Proof.
  intros w i s g r ms ps a Sw Hi Hg Hr Ha Kn Hp Ap. cbn in Ha. rewrite Hi, Hr in Ha.
  destruct (chain_more ms w i s r g a ps Sw Hi Hr Hg Ha Kn Hp Ap) as (w' & E & T & G).
  exists w'. split; [exact E|]. rewrite join_glued. split; [|split; [exact T|split; [eapply grows_sound; eauto|]]].
  - cbn. destruct G as (_ & Es & _). now rewrite Es, Hi, Hr.
  - intros v t Av Hv. eapply grows_show; eauto.
Qed.
End C.

Lemma obtain_shows : forall w i t, show w (VSlurp i) = Some t -> sound w ->
  exists w' r, slurp_obtain w i = Ok (w', r) /\ show w' (VText r) = Some t /\
    (forall v u, show w v = Some u -> show w' v = Some u).
Proof.
  intros w i t H Sw. destruct (cast_ok w (VSlurp i) t Sw H) as (w1 & r & E & T & X & Es).
  exists w1, r. split; [exact E|]. split; [exact T|]. intros v u Hv. eapply extends_show; eauto. split; eauto.
Qed.
End P.
