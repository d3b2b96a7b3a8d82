From Verif Require Import Common Fuel TextSpec TextModel TextProofs MapSpec MapModel.

Section P.
Context {V : Type} (hash : list N -> Z).
Notation item := (item V).
Notation pmap := (pmap V).
Notation heap := (heap (V := V)).
Notation kvs := (list (list N * V)).

(** doubly linked segment from [p] (predecessor [prev]) to [nxt] (predecessor [last]) *)
Fixpoint seg (h : heap) (prev p : option nat) (ads : list nat) (l : kvs) (last nxt : option nat) : Prop :=
  match ads, l with
  | [], [] => p = nxt /\ prev = last
  | a :: ads', (k, v) :: l' => p = Some a /\ exists n, h a = Some (mkI (hash k) k v prev n) /\ seg h (Some a) n ads' l' last nxt
  | _, _ => False
  end.

Lemma seg_len h : forall ads l prev p last nxt, seg h prev p ads l last nxt -> length ads = length l.
Proof.
  induction ads as [|a ads IH]; intros [|[k v] l] prev p last nxt; simpl; try tauto.
  intros (_ & n & _ & H). f_equal. eapply IH; eassumption.
Qed.

Lemma seg_app h : forall ads1 ads2 l1 l2 prev p last nxt, length ads1 = length l1 ->
  (seg h prev p (ads1 ++ ads2) (l1 ++ l2) last nxt <->
   exists m mp, seg h prev p ads1 l1 mp m /\ seg h mp m ads2 l2 last nxt).
Proof.
  induction ads1 as [|a ads1 IH]; intros ads2 [|[k v] l1] l2 prev p last nxt E; simpl in *; try discriminate.
  - split.
    + intros H. exists p, prev. auto.
    + intros (m & mp & [-> ->] & H). exact H.
  - injection E as E. split.
    + intros (-> & n & Ha & H). apply IH in H; [|assumption]. destruct H as (m & mp & H1 & H2).
      exists m, mp. split; [|assumption]. split; [reflexivity|]. exists n. auto.
    + intros (m & mp & (-> & n & Ha & H1) & H2). split; [reflexivity|]. exists n. split; [assumption|].
      apply IH; [assumption|]. exists m, mp. auto.
Qed.

Lemma seg_frame h h' : forall ads l prev p last nxt, (forall a, In a ads -> h' a = h a) ->
  seg h prev p ads l last nxt -> seg h' prev p ads l last nxt.
Proof.
  induction ads as [|a ads IH]; intros [|[k v] l] prev p last nxt E; simpl in *; try tauto.
  intros (-> & n & Ha & H). split; [reflexivity|]. exists n. rewrite E by auto. split; [assumption|].
  apply IH; auto.
Qed.

(** a non-empty segment ends in its last address *)
Lemma seg_last h : forall ads l prev p last nxt, seg h prev p ads l last nxt -> ads <> [] ->
  exists ads' b, ads = ads' ++ [b] /\ last = Some b.
Proof.
  induction ads as [|a ads IH]; intros [|[k v] l] prev p last nxt H NE; simpl in H; try tauto; try congruence.
  destruct H as (_ & n & _ & H). destruct ads as [|a2 ads].
  - destruct l; [|destruct H]. destruct H as [-> <-]. exists [], a. auto.
  - destruct (IH _ _ _ _ _ H) as (ads' & b & E & E2); [discriminate|]. exists (a :: ads'), b. rewrite E. auto.
Qed.

Definition with_next (it : item) n : item := mkI (i_hash it) (i_key it) (i_val it) (i_prev it) n.
Definition with_prev (it : item) p : item := mkI (i_hash it) (i_key it) (i_val it) p (i_next it).

Lemma seg_set_next h : forall ads l prev p b nxt n', NoDup ads -> ads <> [] -> seg h prev p ads l (Some b) nxt ->
  exists h', set_next h b n' = Ret h' /\ seg h' prev p ads l (Some b) n' /\ (forall a, a <> b -> h' a = h a) /\ h' b <> None /\ In b ads.
Proof.
  intros ads l prev p b nxt n' ND NE H.
  destruct (seg_last _ _ _ _ _ _ _ H NE) as (ads' & b' & -> & E). injection E as <-.
  assert (L : length (ads' ++ [b]) = length l) by (eapply seg_len; eassumption).
  assert (Hl : l <> []) by (intros ->; rewrite app_length in L; simpl in L; lia).
  destruct (exists_last Hl) as (l' & [k v] & ->).
  assert (L' : length ads' = length l') by (rewrite !app_length in L; simpl in L; lia).
  apply seg_app in H; [|assumption]. destruct H as (m & mp & H1 & H2). simpl in H2.
  destruct H2 as (-> & n & Hb & -> & _).
  unfold set_next, deref. rewrite Hb. cbn [rbind]. eexists; split; [reflexivity|].
  assert (Nb : ~ In b ads'). { apply NoDup_remove in ND. destruct ND as [_ ND]. rewrite app_nil_r in ND. exact ND. }
  split; [|split; [|split]].
  - apply seg_app; [assumption|]. exists (Some b), mp. split.
    + apply seg_frame with (h := h); [|assumption]. intros a Ha. unfold upd. destruct (Nat.eqb_spec a b); [subst; contradiction|reflexivity].
    + simpl. split; [reflexivity|]. exists n'. unfold upd. rewrite Nat.eqb_refl. auto.
  - intros a Ha. unfold upd. destruct (Nat.eqb_spec a b); [contradiction|reflexivity].
  - unfold upd. rewrite Nat.eqb_refl. discriminate.
  - apply in_or_app. right. left. reflexivity.
Qed.

Lemma seg_set_prev h : forall ads l prev a last nxt p', NoDup ads -> seg h prev (Some a) ads l last nxt -> ads <> [] ->
  exists h', set_prev h a p' = Ret h' /\ seg h' p' (Some a) ads l last nxt /\ (forall b, b <> a -> h' b = h b) /\ h' a <> None /\ In a ads.
Proof.
  intros [|a' ads] [|[k v] l] prev a last nxt p' ND H NE; simpl in H; try tauto; try congruence.
  destruct H as (E & n & Ha & H). injection E as <-.
  unfold set_prev, deref. rewrite Ha. cbn [rbind]. eexists; split; [reflexivity|].
  inversion ND as [|? ? Na ND']; subst. split; [|split; [|split]].
  - simpl. split; [reflexivity|]. exists n. unfold upd at 1. rewrite Nat.eqb_refl. split; [reflexivity|].
    apply seg_frame with (h := h); [|assumption]. intros b Hb. unfold upd. destruct (Nat.eqb_spec b a); [subst; contradiction|reflexivity].
  - intros b Hb. unfold upd. destruct (Nat.eqb_spec b a); [contradiction|reflexivity].
  - unfold upd. rewrite Nat.eqb_refl. discriminate.
  - left. reflexivity.
Qed.

(** representation of a finite map *)
Definition rep (m : pmap) (l : kvs) : Prop := exists ads last,
  seg (m_heap m) None (m_head m) ads l last None /\ NoDup ads /\ (forall a, In a ads -> a < m_brk m) /\
  (forall a, m_heap m a <> None -> In a ads) /\ m_size m = length l /\ NoDup (map fst l).

Lemma new_rep : rep map_new [].
Proof.
  exists [], None. split; [simpl; auto|]. split; [constructor|]. split; [intros a []|]. split; [intros a H; simpl in H; congruence|].
  split; [reflexivity|constructor].
Qed.

Lemma text_eqb_spec a : forall b, text_eqb a b = true <-> a = b.
Proof.
  induction a as [|x a IH]; intros [|y b]; simpl; try (split; congruence).
  rewrite andb_true_iff, N.eqb_eq, IH. split; [intros [-> ->]; reflexivity|]. intros E; injection E; auto.
Qed.
Lemma key_eq_spec a b : key_eq a b = true <-> a = b.
Proof.
  unfold key_eq. rewrite andb_true_iff, text_eqb_spec, Nat.eqb_eq. split; [tauto|intros ->; auto].
Qed.
Lemma match_key (k key : text) : ((hash key =? hash k)%Z && key_eq k key) = if text_dec k key then true else false.
Proof.
  destruct (text_dec k key) as [->|NE].
  - rewrite Z.eqb_refl. cbn [andb]. apply key_eq_spec. reflexivity.
  - apply andb_false_iff. right. apply not_true_iff_false. rewrite key_eq_spec. exact NE.
Qed.

Lemma scan_spec h key : forall ads l prev p last fuel, seg h prev p ads l last None -> length l < fuel ->
  (scan fuel h p (hash key) key = Ret None /\ ~ In key (map fst l)) \/
  (exists ads1 a ads2 l1 v l2, ads = ads1 ++ a :: ads2 /\ l = l1 ++ (key, v) :: l2 /\ length ads1 = length l1 /\
     ~ In key (map fst l1) /\ scan fuel h p (hash key) key = Ret (Some a)).
Proof.
  induction ads as [|a ads IH]; intros [|[k v] l] prev p last fuel H F; simpl in H; try tauto.
  - destruct H as [-> _]. destruct fuel; [lia|]. left. split; [reflexivity|intros []].
  - destruct H as (-> & n & Ha & H). destruct fuel as [|f]; [lia|]. cbn [scan]. unfold deref. rewrite Ha. cbn [rbind i_hash i_key i_next].
    rewrite match_key. destruct (text_dec k key) as [->|NE].
    + right. exists [], a, ads, [], v, l. repeat split; auto.
    + destruct (IH l (Some a) n last f H) as [[E NI]|(ads1 & b & ads2 & l1 & v' & l2 & -> & -> & L & NI & E)]; [simpl in F; lia| |].
      * left. split; [exact E|]. simpl. intros [X|X]; [congruence|contradiction].
      * right. exists (a :: ads1), b, ads2, ((k, v) :: l1), v', l2. repeat split; auto; [simpl; lia|].
        simpl. intros [X|X]; [congruence|contradiction].
Qed.

Lemma lookup_app l1 l2 key : ~ In key (map fst l1) -> lookup (V := V) (l1 ++ l2) key = lookup l2 key.
Proof.
  induction l1 as [|[k v] l1 IH]; intros NI; [reflexivity|]. simpl in *. destruct (text_dec k key); [tauto|]. apply IH. tauto.
Qed.
Lemma lookup_none l key : ~ In key (map fst l) -> lookup (V := V) l key = None.
Proof. intros NI. rewrite <- (app_nil_r l), lookup_app by assumption. reflexivity. Qed.
Lemma without_none l key : ~ In key (map fst l) -> without (V := V) l key = l.
Proof.
  induction l as [|[k v] l IH]; intros NI; [reflexivity|]. simpl in *. destruct (text_dec k key); [tauto|]. f_equal. apply IH. tauto.
Qed.
Lemma without_app l1 l2 key : without (V := V) (l1 ++ l2) key = without l1 key ++ without l2 key.
Proof. apply filter_app. Qed.

Lemma find_rep m l key fuel : rep m l -> length l < fuel -> find_property hash fuel m key = Ret (lookup l key).
Proof.
  intros (ads & last & H & ND & B & O & Sz & NK) F. unfold find_property. rewrite Sz.
  destruct (Nat.eqb_spec (length l) 0) as [E|NE]; [destruct l; [reflexivity|discriminate]|].
  destruct (scan_spec _ key _ _ _ _ _ fuel H F) as [[E NI]|(ads1 & a & ads2 & l1 & v & l2 & -> & -> & L & NI & E)]; rewrite E; cbn [rbind].
  - rewrite lookup_none by assumption. reflexivity.
  - apply seg_app in H; [|assumption]. destruct H as (mm & mp & _ & H). simpl in H. destruct H as (-> & n & Ha & _).
    unfold deref. rewrite Ha. cbn [rbind i_val]. rewrite lookup_app by assumption. simpl. destruct (text_dec key key); [reflexivity|congruence].
Qed.

Lemma NoDup_app_l {B} (l1 l2 : list B) : NoDup (l1 ++ l2) -> NoDup l1 /\ NoDup l2.
Proof.
  induction l1 as [|x l1 IH]; simpl; intros H; [split; [constructor|assumption]|].
  inversion H as [|? ? H1 H2]; subst. destruct (IH H2). split; [|assumption]. constructor; [|assumption].
  intros X. apply H1. apply in_or_app. auto.
Qed.

Lemma app_cons_ne {B} (l1 : list B) x l2 : l1 ++ x :: l2 <> [].
Proof. destruct l1; discriminate. Qed.

Lemma delete_rep m l key fuel : rep m l -> length l < fuel ->
  exists m', delete_property hash fuel m key = Ret m' /\ rep m' (without l key) /\ m_brk m' = m_brk m.
Proof.
  intros R F. pose proof R as (ads & last & H & ND & B & O & Sz & NK). unfold delete_property. rewrite Sz.
  destruct (Nat.eqb_spec (length l) 0) as [E|NE].
  { destruct l; [|discriminate]. exists m. auto. }
  destruct (scan_spec _ key _ _ _ _ _ fuel H F) as [[E NI]|(ads1 & a & ads2 & l1 & v & l2 & -> & -> & L & NI & E)]; rewrite E; cbn [rbind].
  { exists m. rewrite without_none by assumption. auto. }
  (* the bindings of the result *)
  assert (NI2 : ~ In key (map fst l2)).
  { rewrite map_app in NK. simpl in NK. apply NoDup_remove_2 in NK. intros X. apply NK. apply in_or_app. right. exact X. }
  assert (Ew : without (l1 ++ (key, v) :: l2) key = l1 ++ l2).
  { rewrite without_app. simpl. destruct (text_dec key key); [|congruence]. rewrite !without_none by assumption. reflexivity. }
  rewrite Ew.
  assert (NK' : NoDup (map fst (l1 ++ l2))).
  { rewrite map_app in *. simpl in NK. apply NoDup_remove_1 in NK. exact NK. }
  assert (ND' : NoDup (ads1 ++ ads2)) by (apply NoDup_remove_1 in ND; exact ND).
  assert (Na : ~ In a (ads1 ++ ads2)) by (apply NoDup_remove_2 in ND; exact ND).
  destruct (NoDup_app_l _ _ ND') as [ND1 ND2].
  apply seg_app in H; [|assumption]. destruct H as (mm & mp & H1 & H). simpl in H. destruct H as (-> & n & Ha & H2).
  unfold deref at 1. rewrite Ha. cbn [rbind i_next i_prev].
  (* it suffices to give the new heap *)
  assert (Fin : forall h1 hd last', seg h1 None hd (ads1 ++ ads2) (l1 ++ l2) last' None ->
    (forall b, ~ In b (ads1 ++ ads2) -> h1 b = m_heap m b) ->
    rep (mkM (upd h1 a None) (m_brk m) hd (length (l1 ++ (key, v) :: l2) - 1)) (l1 ++ l2)).
  { intros h1 hd last' S1 Fr. exists (ads1 ++ ads2), last'. cbn [m_heap m_brk m_head m_size].
    split; [|split; [|split; [|split; [|split]]]].
    - apply seg_frame with (h := h1); [|assumption]. intros b Hb. unfold upd. destruct (Nat.eqb_spec b a); [subst; contradiction|reflexivity].
    - assumption.
    - intros b Hb. apply B. apply in_or_app. apply in_app_or in Hb. simpl. tauto.
    - intros b Hb. unfold upd in Hb. destruct (Nat.eqb_spec b a) as [e|Nb]; [congruence|].
      destruct (in_dec Nat.eq_dec b (ads1 ++ ads2)) as [|NIb]; [assumption|]. rewrite (Fr b NIb) in Hb.
      pose proof (O b Hb) as X. apply in_app_or in X. simpl in X. apply in_or_app. destruct X as [X|[X|X]]; [tauto|congruence|tauto].
    - rewrite !app_length. simpl. lia.
    - assumption. }
  assert (Hn : n = None /\ ads2 = [] \/ exists b, n = Some b /\ ads2 <> []).
  { destruct ads2 as [|b ads2]; destruct l2 as [|[k2 v2] l2]; simpl in H2; try tauto.
    right. destruct H2 as (-> & _). exists b. split; [reflexivity|discriminate]. }
  assert (Hp : mp = None /\ ads1 = [] /\ m_head m = Some a \/ exists b, mp = Some b /\ ads1 <> [] /\ m_head m <> Some a).
  { destruct ads1 as [|b ads1]; destruct l1 as [|[k1 v1] l1]; try (simpl in L; discriminate).
    - left. simpl in H1. destruct H1 as [-> <-]. auto.
    - right. destruct (seg_last _ _ _ _ _ _ _ H1) as (? & b' & _ & ->); [discriminate|]. exists b'. split; [reflexivity|]. split; [discriminate|].
      simpl in H1. destruct H1 as (-> & _). intros X. injection X as ->. apply Na. left. reflexivity. }
  destruct Hn as [[-> ->]|(bn & -> & NE2)]; destruct Hp as [(-> & -> & Hd)|(bp & -> & NE1 & Hd)].
  - (* only element *)
    cbn [rbind]. rewrite Hd. cbn [opt_eqb]. rewrite Nat.eqb_refl.
    destruct l1; [|discriminate]. destruct l2; [|destruct H2]. eexists; split; [reflexivity|]. split; [|reflexivity].
    apply (Fin _ _ None); [simpl; auto|reflexivity].
  - (* last element *)
    cbn [rbind]. destruct (seg_set_next _ _ _ _ _ _ _ None ND1 NE1 H1) as (h' & -> & S' & Fr & _ & Inb). cbn [rbind].
    assert (opt_eqb (m_head m) (Some a) = false) as ->.
    { destruct (m_head m) as [c|]; [|reflexivity]. cbn. apply Nat.eqb_neq. congruence. }
    destruct l2; [|destruct H2]. eexists; split; [reflexivity|]. split; [|reflexivity].
    apply (Fin _ _ (Some bp)).
    + rewrite !app_nil_r. exact S'.
    + intros b Hb. apply Fr. intros ->. apply Hb. rewrite app_nil_r. exact Inb.
  - (* first element *)
    destruct (seg_set_prev _ _ _ _ _ _ _ None ND2 H2 NE2) as (h' & -> & S' & Fr & _ & Inb). cbn [rbind].
    rewrite Hd. cbn [opt_eqb]. rewrite Nat.eqb_refl.
    destruct l1; [|discriminate]. eexists; split; [reflexivity|]. split; [|reflexivity].
    apply (Fin _ _ last); [exact S'|]. intros b Hb. apply Fr. intros ->. contradiction.
  - (* in the middle *)
    destruct (seg_set_prev _ _ _ _ _ _ _ (Some bp) ND2 H2 NE2) as (h' & -> & S' & Fr & _ & Inb). cbn [rbind].
    assert (S1 : seg h' None (m_head m) ads1 l1 (Some bp) (Some a)).
    { apply seg_frame with (h := m_heap m); [|assumption]. intros b Hb. apply Fr. intros ->.
      clear - ND' Hb Inb. induction ads1 as [|x ads1 IH]; [destruct Hb|]. simpl in *. inversion ND'; subst.
      destruct Hb as [->|Hb]; [|auto]. match goal with H : ~ _ |- _ => apply H end. apply in_or_app. auto. }
    destruct (seg_set_next _ _ _ _ _ _ _ (Some bn) ND1 NE1 S1) as (h'' & -> & S'' & Fr' & _ & Inb'). cbn [rbind].
    assert (opt_eqb (m_head m) (Some a) = false) as ->.
    { destruct (m_head m) as [c|]; [|reflexivity]. cbn. apply Nat.eqb_neq. congruence. }
    eexists; split; [reflexivity|]. split; [|reflexivity].
    apply (Fin _ _ last).
    + apply seg_app; [assumption|]. exists (Some bn), (Some bp). split; [exact S''|].
      apply seg_frame with (h := h'); [|exact S']. intros b Hb. apply Fr'. intros ->.
      clear - ND' Hb Inb'. induction ads1 as [|x ads1 IH]; [destruct Inb'|]. simpl in *. inversion ND'; subst.
      destruct Inb' as [->|Inb']; [|auto]. match goal with H : ~ _ |- _ => apply H end. apply in_or_app. auto.
    + intros b Hb. rewrite Fr', Fr; [reflexivity| |]; intros ->; apply Hb; apply in_or_app; auto.
Qed.

Lemma add_rep m l key v : rep m l -> ~ In key (map fst l) ->
  exists m', add_property hash m key v = Ret m' /\ rep m' ((key, v) :: l) /\ m_brk m' = S (m_brk m).
Proof.
  intros (ads & last & H & ND & B & O & Sz & NK) NI. unfold add_property. rewrite Sz.
  assert (Nb : ~ In (m_brk m) ads) by (intros X; apply B in X; lia).
  destruct l as [|[k0 v0] l].
  - cbn [length Nat.eqb]. eexists; split; [reflexivity|]. split; [|reflexivity].
    destruct ads; [|destruct H]. exists [m_brk m], (Some (m_brk m)). cbn [m_heap m_brk m_head m_size].
    split; [|split; [|split; [|split; [|split]]]].
    + simpl. split; [reflexivity|]. exists None. unfold upd. rewrite Nat.eqb_refl. auto.
    + constructor; [intros []|constructor].
    + intros a [<-|[]]; lia.
    + intros a Ha. unfold upd in Ha. destruct (Nat.eqb_spec a (m_brk m)); [left; auto|]. apply O in Ha. destruct Ha.
    + reflexivity.
    + repeat constructor. intros [].
  - cbn [length Nat.eqb]. destruct ads as [|c ads]; [destruct H|]. pose proof H as H0. simpl in H0. destruct H0 as (Hd & _).
    rewrite Hd in *. destruct (seg_set_prev _ _ _ _ _ _ _ (Some (m_brk m)) ND H) as (h' & -> & S' & Fr & _ & _); [discriminate|].
    cbn [rbind]. eexists; split; [reflexivity|]. split; [|reflexivity].
    exists (m_brk m :: c :: ads), last. cbn [m_heap m_brk m_head m_size].
    split; [|split; [|split; [|split; [|split]]]].
    + simpl seg. split; [reflexivity|]. exists (Some c). unfold upd at 1. rewrite Nat.eqb_refl. split; [reflexivity|].
      change (seg (upd h' (m_brk m) (Some (mkI (hash key) key v None (Some c)))) (Some (m_brk m)) (Some c) (c :: ads) ((k0, v0) :: l) last None).
      apply seg_frame with (h := h'); [|exact S']. intros a Ha. unfold upd. destruct (Nat.eqb_spec a (m_brk m)); [subst; contradiction|reflexivity].
    + constructor; assumption.
    + intros a [<-|Ha]; [lia|]. apply B in Ha. lia.
    + intros a Ha. unfold upd in Ha. destruct (Nat.eqb_spec a (m_brk m)); [left; auto|]. right.
      destruct (Nat.eq_dec a c) as [->|Nc]; [left; reflexivity|]. rewrite Fr in Ha by assumption. apply O. exact Ha.
    + simpl. lia.
    + simpl. constructor; assumption.
Qed.

Lemma without_not_in l key : ~ In key (map fst (without (V := V) l key)).
Proof.
  unfold without. rewrite in_map_iff. intros ([k v] & E & H). simpl in E. subst. apply filter_In in H. destruct H as [_ H].
  cbn [fst] in H. destruct (text_dec key key); congruence.
Qed.

Lemma put_rep m l v key fuel : rep m l -> length l < fuel ->
  exists m', map_put hash fuel m v key = Ret m' /\ rep m' (with_binding l key v) /\ m_brk m' = S (m_brk m).
Proof.
  intros R F. unfold map_put. destruct (delete_rep m l key fuel R F) as (m1 & -> & R1 & B1). cbn [rbind].
  destruct (add_rep m1 _ key v R1 (without_not_in l key)) as (m2 & -> & R2 & B2).
  exists m2. split; [reflexivity|]. split; [exact R2|]. lia.
Qed.

Lemma items_spec h : forall ads l prev p last fuel, seg h prev p ads l last None -> length l < fuel ->
  exists its, items fuel h p = Ret its /\ map (fun it => (i_key it, i_val it)) its = l.
Proof.
  induction ads as [|a ads IH]; intros [|[k v] l] prev p last fuel H F; simpl in H; try tauto.
  - destruct H as [-> _]. destruct fuel; [lia|]. exists []. auto.
  - destruct H as (-> & n & Ha & H). destruct fuel as [|f]; [lia|]. cbn [items]. unfold deref. rewrite Ha. cbn [rbind i_next].
    destruct (IH l (Some a) n last f H) as (its & -> & E); [simpl in F; lia|]. cbn [rbind].
    eexists; split; [reflexivity|]. simpl. rewrite E. reflexivity.
Qed.

Lemma without_len l key : length (without (V := V) l key) <= length l.
Proof. induction l as [|[k v] l IH]; simpl; [lia|]. destruct (text_dec k key); simpl; lia. Qed.

Lemma removelast_firstn' {B} (l : list B) : removelast l = firstn (length l - 1) l.
Proof. rewrite removelast_firstn_len. f_equal. lia. Qed.
Lemma msg_key_firstn msg : (if (1 <? length msg)%nat then firstn (length msg - 1) msg else msg) = msg_key msg.
Proof.
  destruct msg as [|x [|y msg]]; try reflexivity. unfold msg_key. rewrite removelast_firstn'. reflexivity.
Qed.

Lemma step_rep m l o fuel : rep m l -> length l + 1 < fuel ->
  exists m', map_step hash fuel m o = Ret (m', snd (fm_step l o)) /\ rep m' (fst (fm_step l o)) /\
    length (fst (fm_step l o)) <= length l + 1.
Proof.
  intros R F. destruct o as [v k|msg v|k|k| | |]; cbn [map_step fm_step fst snd].
  - destruct (put_rep m l v k fuel R ltac:(lia)) as (m' & -> & R' & _). exists m'. cbn [rbind]. split; [reflexivity|].
    split; [exact R'|]. simpl. pose proof (without_len l k). lia.
  - unfold map_key_value. rewrite msg_key_firstn.
    destruct (put_rep m l v (msg_key msg) fuel R ltac:(lia)) as (m' & -> & R' & _). exists m'. cbn [rbind]. split; [reflexivity|].
    split; [exact R'|]. simpl. pose proof (without_len l (msg_key msg)). lia.
  - unfold map_delete. destruct (delete_rep m l k fuel R ltac:(lia)) as (m' & -> & R' & _). exists m'. cbn [rbind]. split; [reflexivity|].
    split; [exact R'|]. pose proof (without_len l k). lia.
  - unfold map_get. rewrite (find_rep m l k fuel R) by lia. cbn [rbind]. exists m. split; [reflexivity|]. split; [exact R|lia].
  - exists m. unfold map_count. pose proof R as (? & ? & _ & _ & _ & _ & Sz & _). rewrite Sz. split; [reflexivity|]. split; [exact R|lia].
  - pose proof R as (ads & last & H & _). destruct (items_spec _ _ _ _ _ _ fuel H ltac:(lia)) as (its & E & El).
    unfold map_keys. rewrite E. cbn [rbind]. exists m. split; [|split; [exact R|lia]]. rewrite <- El, map_map. reflexivity.
  - pose proof R as (ads & last & H & _). destruct (items_spec _ _ _ _ _ _ fuel H ltac:(lia)) as (its & E & El).
    unfold map_values. rewrite E. cbn [rbind]. exists m. split; [|split; [exact R|lia]]. rewrite <- El, map_map. reflexivity.
Qed.

Lemma run_rep os : forall m l fuel, rep m l -> length l + length os + 1 < fuel ->
  exists m', map_run hash fuel m os = Ret (m', snd (fm_run l os)) /\ rep m' (fst (fm_run l os)).
Proof.
  induction os as [|o os IH]; intros m l fuel R F; cbn [map_run fm_run].
  - exists m. auto.
  - simpl length in F. destruct (step_rep m l o fuel R ltac:(lia)) as (m1 & -> & R1 & L1). cbn [rbind].
    destruct (fm_step l o) as [l1 r]. cbn [fst snd] in *.
    destruct (IH m1 l1 fuel R1 ltac:(lia)) as (m2 & -> & R2). cbn [rbind].
    destruct (fm_run l1 os) as [l2 rs]. exists m2. auto.
Qed.

Lemma run_new os fuel : length os + 1 < fuel ->
  exists m', map_run hash fuel map_new os = Ret (m', snd (fm_run [] os)) /\ rep m' (fst (fm_run [] os)).
Proof. intros F. apply run_rep; [apply new_rep|simpl; lia]. Qed.

(** the specification is a finite map *)
Lemma lookup_with_same l k v : lookup (with_binding (V := V) l k v) k = Some v.
Proof. simpl. destruct (text_dec k k); congruence. Qed.
Lemma lookup_without l k k' : lookup (without (V := V) l k) k' = if text_dec k k' then None else lookup l k'.
Proof.
  induction l as [|[k0 v0] l IH]; simpl; [destruct (text_dec k k'); reflexivity|].
  destruct (text_dec k0 k) as [->|N].
  - rewrite IH. destruct (text_dec k k'); reflexivity.
  - simpl. rewrite IH. destruct (text_dec k0 k') as [->|]; [|reflexivity]. destruct (text_dec k k'); congruence.
Qed.
Lemma lookup_with_other l k v k' : k <> k' -> lookup (with_binding (V := V) l k v) k' = lookup l k'.
Proof. intros N. simpl. destruct (text_dec k k'); [congruence|]. rewrite lookup_without. destruct (text_dec k k'); congruence. Qed.
Lemma fm_run_nodup os : forall l, NoDup (map fst l) -> NoDup (map fst (fst (fm_run (V := V) l os))).
Proof.
  assert (W : forall l k, NoDup (map fst l) -> NoDup (map fst (without (V := V) l k))).
  { intros l k. induction l as [|[k0 v0] l IH]; intros H; simpl; [constructor|]. simpl in H. inversion H as [|? ? H1 H2]; subst.
    destruct (text_dec k0 k); simpl; [auto|]. constructor; [|auto]. intros X. apply H1.
    rewrite in_map_iff in *. destruct X as (y & E & X). apply filter_In in X. exists y. tauto. }
  induction os as [|o os IH]; intros l H; simpl; [assumption|].
  destruct (fm_step l o) as [l1 r] eqn:E. specialize (IH l1). destruct (fm_run l1 os) as [l2 rs]. simpl in *. apply IH.
  destruct o as [v k|msg v|k|k| | |]; simpl in E; injection E as <- _; auto.
  - simpl. constructor; [apply without_not_in|auto].
  - simpl. constructor; [apply without_not_in|auto].
Qed.

(** ** each: *)
Lemma copy_loop_spec h : forall ads l prev p last fuel fuel' c done_, seg h prev p ads l last None -> length l < fuel ->
  rep c done_ -> length done_ + length l < fuel' -> NoDup (map fst (rev l ++ done_)) ->
  exists c', copy_loop hash fuel fuel' h p c = Ret c' /\ rep c' (rev l ++ done_).
Proof.
  induction ads as [|a ads IH]; intros [|[k v] l] prev p last fuel fuel' c dn H F R F' ND; simpl in H; try tauto.
  - destruct H as [-> _]. destruct fuel; [lia|]. exists c. auto.
  - destruct H as (-> & n & Ha & H). destruct fuel as [|f]; [lia|]. cbn [copy_loop]. unfold deref. rewrite Ha. cbn [rbind i_next i_val i_key].
    simpl length in F, F'. destruct (put_rep c dn v k fuel' R ltac:(lia)) as (c1 & -> & R1 & _). cbn [rbind].
    assert (W : with_binding dn k v = (k, v) :: dn).
    { unfold with_binding. rewrite without_none; [reflexivity|]. simpl in ND. rewrite <- app_assoc, map_app in ND. simpl in ND.
      apply NoDup_remove_2 in ND. intros X. apply ND. apply in_or_app. right. exact X. }
    rewrite W in R1. destruct (IH l (Some a) n last f fuel' c1 _ H ltac:(lia) R1) as (c' & E & R').
    + simpl. lia.
    + simpl in ND. rewrite <- app_assoc in ND. exact ND.
    + exists c'. split; [exact E|]. simpl. rewrite <- app_assoc. exact R'.
Qed.

Lemma copy_rep m l fuel : rep m l -> length l < fuel -> exists c, map_copy hash fuel m = Ret c /\ rep c (rev l).
Proof.
  intros (ads & last & H & ND & B & O & Sz & NK) F.
  destruct (copy_loop_spec _ _ _ _ _ _ fuel fuel map_new [] H F new_rep) as (c & E & R).
  - simpl. lia.
  - rewrite app_nil_r, map_rev. apply NoDup_rev. exact NK.
  - exists c. split; [exact E|]. rewrite app_nil_r in R. exact R.
Qed.

(** what running a block over a list of bindings means *)
Fixpoint visit {W} (blk : W -> list N -> V -> W * flow) (w : W) (l : kvs) : W * flow :=
  match l with
  | [] => (w, FNone)
  | (k, v) :: l' =>
      let '(w', fl) := blk w k v in
      match fl with FNone | FContinue => visit blk w' l' | FBreak => (w', FNone) | FError => (w', FError) end
  end.

Lemma each_loop_spec {W} (blk : W -> list N -> V -> W * flow) (c : pmap) :
  forall ads l prev p last fuel w, seg (m_heap c) prev p ads l last None -> length l < fuel ->
  each_loop (fun w k v c => (fst (blk w k v), c, snd (blk w k v))) fuel w c p = Ret (visit blk w l).
Proof.
  induction ads as [|a ads IH]; intros [|[k v] l] prev p last fuel w H F; simpl in H; try tauto.
  - destruct H as [-> _]. destruct fuel; [lia|]. reflexivity.
  - destruct H as (-> & n & Ha & H). destruct fuel as [|f]; [lia|]. cbn [each_loop]. unfold deref. rewrite Ha.
    cbn [rbind i_next i_val i_key visit].
    destruct (blk w k v) as [w' fl]. cbn [fst snd]. simpl in F.
    destruct fl; try reflexivity; apply (IH l (Some a) n last f); auto; lia.
Qed.

Lemma each_rep {W} (blk : W -> list N -> V -> W * flow) m l fuel w : rep m l -> length l < fuel ->
  map_each hash (fun w k v c => (fst (blk w k v), c, snd (blk w k v))) fuel w m = Ret (visit blk w (rev l)).
Proof.
  intros R F. unfold map_each. destruct (copy_rep m l fuel R F) as (c & -> & Rc). cbn [rbind].
  destruct Rc as (ads & last & H & _). eapply each_loop_spec; [exact H|]. rewrite rev_length. exact F.
Qed.

Lemma has_loop_spec (str : V -> list N) needle : forall its found, exists b, has_loop str its needle found = Ok b /\
  (b = true <-> found = true \/ exists it, In it its /\ same_text (str (i_val it)) needle).
Proof.
  induction its as [|it its IH]; intros found; cbn [has_loop].
  - exists found. split; [reflexivity|]. split; [auto|]. intros [H|(it & [] & _)]; exact H.
  - destruct (eq_len_strncmp (str (i_val it)) needle) as (r & -> & Hr). cbn [obind].
    destruct (IH (if r then true else found)) as (b & -> & Hb). exists b. split; [reflexivity|]. rewrite Hb. destruct r.
    + split; [intros _; right; exists it; split; [left; reflexivity|apply Hr; reflexivity]|left; reflexivity].
    + split.
      * intros [H|(it' & I & H)]; [left; exact H|right; exists it'; split; [right; exact I|exact H]].
      * intros [H|(it' & [<-|I] & H)]; [left; exact H| |right; exists it'; auto]. apply Hr in H. discriminate.
Qed.
Lemma has_rep (str : V -> list N) m l needle fuel : rep m l -> length l < fuel ->
  exists b, map_has str fuel m needle = Ret b /\ (b = true <-> exists v, In v (map snd l) /\ same_text (str v) needle).
Proof.
  intros (ads & last & H & _) F. unfold map_has. destruct (items_spec _ _ _ _ _ _ fuel H F) as (its & -> & El). cbn [rbind].
  destruct (has_loop_spec str needle its false) as (b & -> & Hb). exists b. split; [reflexivity|]. rewrite Hb. rewrite <- El, map_map. cbn [snd].
  split.
  - intros [X|(it & I & Hs)]; [discriminate|]. exists (i_val it). split; [apply in_map; exact I|exact Hs].
  - intros (v & I & Hs). right. apply in_map_iff in I. destruct I as (it & <- & I). exists it. auto.
Qed.
End P.
