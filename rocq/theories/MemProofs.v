From Verif Require Import Common MemModel MemSpec.
Open Scope Z_scope.

Definition pod_in (c : cls) (l : list blk) : nat :=
  length (filter (fun b => match b_addr b with Pod d _ => cls_eqb d c | Sys _ => false end) l).

Record pinv (m : mem) : Prop := {
  pi_off : p_on (m_pool m) = false -> forall c, p_cap (m_pool m) c = 0;
  pi_capnn : forall c, 0 <= p_cap (m_pool m) c;
  pi_fit : p_on (m_pool m) = true ->
           forall c, (p_cap (m_pool m) c) * psize c <= p_size (m_pool m);
  pi_sz : 0 <= p_size (m_pool m) <= POOL_MAX;
  pi_cnt : forall c, 0 <= p_cnt (m_pool m) c <= p_cap (m_pool m) c;
  pi_free : forall c a, In a (p_free (m_pool m) c) ->
            exists i, a = Pod c i /\ 0 <= i < p_cnt (m_pool m) c;
  pi_fnd : forall c, NoDup (p_free (m_pool m) c);
  pi_nd : NoDup (map b_addr (m_live m));
  pi_live : forall b, In b (m_live m) ->
     0 <= b_req b /\ b_req b + 8 <= b_width b /\
     match b_addr b with
     | Pod c i => b_width b = psize c /\ 0 <= i < p_cnt (m_pool m) c
                  /\ ~ In (Pod c i) (p_free (m_pool m) c)
     | Sys n => (n < m_next m)%N /\ cls_of (b_width b) = None
     end;
  pi_count : forall c, Z.of_nat (pod_in c (m_live m) + length (p_free (m_pool m) c))
                       = p_cnt (m_pool m) c;
  pi_sys : sys_total (m_live m) <= SYS_MAX
}.

Definition minv (m : mem) : Prop := pinv m /\ m_alloc m = total (m_live m).

Lemma cls_eqb_eq a b : cls_eqb a b = true <-> a = b.
Proof. destruct a, b; simpl; split; congruence. Qed.
Lemma cls_eqb_refl a : cls_eqb a a = true.
Proof. destruct a; reflexivity. Qed.
Lemma addr_eqb_eq a b : addr_eqb a b = true <-> a = b.
Proof.
  destruct a, b; simpl; try (split; congruence).
  - rewrite andb_true_iff, cls_eqb_eq, Z.eqb_eq. split; [intros [-> ->]|intros E; injection E]; auto.
  - rewrite N.eqb_eq. split; congruence.
Qed.
Lemma addr_eqb_refl a : addr_eqb a a = true.
Proof. now apply addr_eqb_eq. Qed.
Lemma psize_pos c : 32 <= psize c <= 128.
Proof. destruct c; simpl; lia. Qed.
Lemma cls_of_some s c : cls_of s = Some c -> s = psize c.
Proof.
  unfold cls_of. destruct (s =? 32) eqn:A; [intros E; injection E as <-; apply Z.eqb_eq in A; auto|].
  destruct (s =? 64) eqn:B; [intros E; injection E as <-; apply Z.eqb_eq in B; auto|].
  destruct (s =? 128) eqn:C; [intros E; injection E as <-; apply Z.eqb_eq in C; auto|discriminate].
Qed.
Lemma cls_of_psize c : cls_of (psize c) = Some c.
Proof. destruct c; reflexivity. Qed.
Lemma set_cls_same {A} (f : cls -> A) c v : set_cls f c v c = v.
Proof. unfold set_cls. now rewrite cls_eqb_refl. Qed.
Lemma set_cls_other {A} (f : cls -> A) c v d : d <> c -> set_cls f c v d = f d.
Proof. unfold set_cls. intros N. destruct (cls_eqb d c) eqn:E; auto. apply cls_eqb_eq in E. congruence. Qed.
Lemma per_cls_eq {A} (f : cls -> A) c : per_cls f c = f c.
Proof. destruct c; reflexivity. Qed.
Lemma cls_dec (a b : cls) : {a = b} + {a <> b}.
Proof. decide equality. Qed.

Lemma wrap64_id z : 0 <= z < W64 -> wrap64 z = z.
Proof. apply Z.mod_small. Qed.
Lemma to_int_id z : 0 <= z < 2147483648 -> to_int z = z.
Proof.
  intros H. unfold to_int. rewrite Z.mod_small by lia.
  destruct (z <? 2147483648) eqn:E; auto. apply Z.ltb_ge in E. lia.
Qed.

(** The rounded size: at least the size, and a pod size only if a pod is free to carve. *)
Lemma bucket_spec p s : 0 < s < 2147483647 ->
  s <= pool_bucket p s < 2147483648 /\
  (forall c, cls_of (pool_bucket p s) = Some c -> p_cnt p c < p_cap p c).
Proof.
  intros H. unfold pool_bucket.
  assert (W : wrap64 (s + 1) = s + 1) by (apply wrap64_id; unfold W64; lia).
  rewrite W. clear W.
  destruct ((0 <? s) && (s <=? 32) && (p_cnt p Sp <? p_cap p Sp)) eqn:A.
  { apply andb_true_iff in A. destruct A as [A1 A2]. apply andb_true_iff in A1.
    destruct A1 as [A0 A1]. apply Z.leb_le in A1. apply Z.ltb_lt in A2.
    rewrite to_int_id by lia. split; [lia|]. intros c E. injection E as <-. auto. }
  destruct ((32 <? s) && (s <=? 64) && (p_cnt p Mp <? p_cap p Mp)) eqn:B.
  { apply andb_true_iff in B. destruct B as [A1 A2]. apply andb_true_iff in A1.
    destruct A1 as [A0 A1]. apply Z.leb_le in A1. apply Z.ltb_lt in A2.
    rewrite to_int_id by lia. split; [lia|]. intros c E. injection E as <-. auto. }
  destruct ((64 <? s) && (s <=? 128) && (p_cnt p Lp <? p_cap p Lp)) eqn:C.
  { apply andb_true_iff in C. destruct C as [A1 A2]. apply andb_true_iff in A1.
    destruct A1 as [A0 A1]. apply Z.leb_le in A1. apply Z.ltb_lt in A2.
    rewrite to_int_id by lia. split; [lia|]. intros c E. injection E as <-. auto. }
  clear A B C.
  destruct ((s =? 32) || (s =? 64) || (s =? 128)) eqn:D.
  - rewrite to_int_id by lia. split; [lia|]. intros c E. apply cls_of_some in E.
    apply orb_true_iff in D. rewrite orb_true_iff, !Z.eqb_eq in D.
    destruct c; simpl in E; lia.
  - rewrite to_int_id by lia. split; [lia|]. intros c E. apply cls_of_some in E.
    apply orb_false_iff in D. rewrite orb_false_iff, !Z.eqb_neq in D.
    destruct c; simpl in E; lia.
Qed.

Lemma bucket_w p n : size_ok n ->
  let s := wrap64 (pool_bucket p (wrap64 (n + 8))) in
  n + 8 <= s < 2147483648 /\ (forall c, cls_of s = Some c -> p_cnt p c < p_cap p c).
Proof.
  intros H. unfold size_ok, BIG in H. rewrite (wrap64_id (n + 8)) by (unfold W64; lia).
  destruct (bucket_spec p (n + 8)) as [B C]; [lia|].
  cbv zeta. rewrite wrap64_id by (unfold W64; lia). split; [lia|auto].
Qed.

(** Lists of blocks. *)
Lemma find_blk_some m a b : find_blk m a = Some b -> In b (m_live m) /\ b_addr b = a.
Proof.
  unfold find_blk. intros H. apply find_some in H. destruct H as [I E].
  apply addr_eqb_eq in E. auto.
Qed.
Lemma find_blk_in m a : In a (map b_addr (m_live m)) -> exists b, find_blk m a = Some b.
Proof.
  unfold find_blk. induction (m_live m) as [|x l IH]; simpl; [tauto|].
  intros [E|I].
  - rewrite E, addr_eqb_refl. eauto.
  - destruct (addr_eqb (b_addr x) a); eauto.
Qed.

Lemma drop_notin l a : ~ In a (map b_addr l) ->
  filter (fun b => negb (addr_eqb (b_addr b) a)) l = l.
Proof.
  induction l as [|x l IH]; simpl; auto. intros N.
  destruct (addr_eqb (b_addr x) a) eqn:E.
  - apply addr_eqb_eq in E. tauto.
  - simpl. f_equal. tauto.
Qed.
Lemma drop_split l a : NoDup (map b_addr l) -> forall b, In b l -> b_addr b = a ->
  exists l1 l2, l = l1 ++ b :: l2 /\
    filter (fun b => negb (addr_eqb (b_addr b) a)) l = l1 ++ l2.
Proof.
  intros ND b I E. apply in_split in I. destruct I as (l1 & l2 & ->).
  exists l1, l2. split; auto.
  rewrite map_app in ND. simpl in ND. rewrite E in ND.
  apply NoDup_remove in ND. destruct ND as [_ ND].
  rewrite in_app_iff in ND.
  rewrite filter_app. simpl. rewrite E, addr_eqb_refl. simpl.
  rewrite !drop_notin; tauto.
Qed.
Lemma total_app a b : total (a ++ b) = total a + total b.
Proof. induction a; simpl; lia. Qed.
Lemma total_nonneg l : (forall b, In b l -> 0 <= b_width b) -> 0 <= total l.
Proof.
  induction l as [|x l IH]; simpl; intros H; [lia|].
  pose proof (H x (or_introl eq_refl)). assert (0 <= total l) by auto. lia.
Qed.
Lemma sys_app a b : sys_total (a ++ b) = sys_total a + sys_total b.
Proof. induction a as [|x a IH]; simpl; auto. destruct (b_addr x); lia. Qed.
Lemma pod_app c a b : pod_in c (a ++ b) = (pod_in c a + pod_in c b)%nat.
Proof. unfold pod_in. now rewrite filter_app, app_length. Qed.
Lemma pod_cons c b l : pod_in c (b :: l) =
  ((match b_addr b with Pod d _ => if cls_eqb d c then 1 else 0 | Sys _ => 0 end) + pod_in c l)%nat.
Proof.
  unfold pod_in. simpl. destruct (b_addr b); simpl; auto.
  destruct (cls_eqb c0 c); simpl; auto.
Qed.

Lemma total_split m : pinv m ->
  total (m_live m) = sys_total (m_live m) + 32 * Z.of_nat (pod_in Sp (m_live m))
    + 64 * Z.of_nat (pod_in Mp (m_live m)) + 128 * Z.of_nat (pod_in Lp (m_live m)) /\
  0 <= sys_total (m_live m).
Proof.
  intros I. pose proof (pi_live m I) as L. revert L. induction (m_live m) as [|b l IH]; intros L.
  - split; reflexivity || (simpl; lia).
  - destruct IH as (E & P). { intros b' H. apply L. now right. }
    specialize (L b (or_introl eq_refl)). destruct L as (R0 & W & L).
    rewrite !pod_cons. cbn [total].
    assert (SC : sys_total (b :: l) =
      match b_addr b with Sys _ => b_width b + sys_total l | Pod _ _ => sys_total l end) by reflexivity.
    rewrite SC. clear SC.
    destruct (b_addr b) as [c i|n] eqn:A.
    + destruct L as (LW & _). rewrite LW. destruct c; cbn [cls_eqb psize]; split; lia.
    + split; lia.
Qed.

(** The live total is far from the end of the 64-bit range. *)
Lemma total_bound m : pinv m -> 0 <= total (m_live m) < SYS_MAX + 3 * POOL_MAX + 1.
Proof.
  intros I. destruct (total_split m I) as (E & P).
  pose proof (pi_sys m I). pose proof (pi_sz m I).
  pose proof (pi_count m I Sp). pose proof (pi_count m I Mp). pose proof (pi_count m I Lp).
  pose proof (pi_cnt m I Sp). pose proof (pi_cnt m I Mp). pose proof (pi_cnt m I Lp).
  destruct (p_on (m_pool m)) eqn:ON.
  - pose proof (pi_fit m I ON Sp). pose proof (pi_fit m I ON Mp). pose proof (pi_fit m I ON Lp).
    simpl psize in *. lia.
  - pose proof (pi_off m I ON Sp). pose proof (pi_off m I ON Mp). pose proof (pi_off m I ON Lp).
    unfold POOL_MAX. lia.
Qed.
Lemma total_w m : pinv m -> 0 <= total (m_live m) < W64 - 2147483648.
Proof. intros I. pose proof (total_bound m I). unfold SYS_MAX, POOL_MAX, W64 in *. lia. Qed.

(** Same memory, whatever the ledger and the limit are. *)
Lemma pinv_same m m' : m_pool m' = m_pool m -> m_live m' = m_live m -> m_next m' = m_next m ->
  pinv m -> pinv m'.
Proof.
  intros A B C I. destruct I. constructor; rewrite ?A, ?B, ?C; auto.
Qed.

Section Steps.
Variable avail : N -> bool.

(** Taking a block. *)
Lemma alloc_pinv m n size a z m2 :
  pinv m -> 0 <= n -> n + 8 <= size -> 0 <= size ->
  (forall c, cls_of size = Some c -> p_cnt (m_pool m) c < p_cap (m_pool m) c) ->
  pool_alloc avail m size = (Some (a, z), m2) ->
  pinv (add_blk m2 {| b_addr := a; b_width := size; b_req := n; b_zero := z |}) /\
  m_live m2 = m_live m /\ m_alloc m2 = m_alloc m /\ m_limit m2 = m_limit m /\
  ~ In a (map b_addr (m_live m)) /\ room (m_pool m2) a size = size /\
  (p_on (m_pool m) = false -> z = true).
Proof.
  intros I Nn Ns Sp0 CL PA. unfold pool_alloc in PA.
  assert (OS : forall r m2', (match sys_calloc avail m size with
            | Some a => (Some (a, true), bump m) | None => (None, bump m) end) = (Some r, m2') ->
            cls_of size = None ->
            r = (Sys (m_next m), true) /\ m2' = bump m /\ sys_total (m_live m) + size <= SYS_MAX).
  { unfold sys_calloc. intros r m2' E _.
    destruct (avail (m_next m) && (sys_total (m_live m) + size <=? SYS_MAX)) eqn:Q; [|discriminate].
    apply andb_true_iff in Q. destruct Q as [_ Q]. apply Z.leb_le in Q.
    injection E as <- <-. auto. }
  assert (SYSCASE : cls_of size = None -> a = Sys (m_next m) -> z = true -> m2 = bump m ->
     sys_total (m_live m) + size <= SYS_MAX ->
     pinv (add_blk m2 {| b_addr := a; b_width := size; b_req := n; b_zero := z |}) /\
     m_live m2 = m_live m /\ m_alloc m2 = m_alloc m /\ m_limit m2 = m_limit m /\
     ~ In a (map b_addr (m_live m)) /\ room (m_pool m2) a size = size /\
     (p_on (m_pool m) = false -> z = true)).
  { intros CN -> -> -> Q.
    assert (NI : ~ In (Sys (m_next m)) (map b_addr (m_live m))).
    { intros H. apply in_map_iff in H. destruct H as (b & E & H).
      pose proof (pi_live m I b H) as (_ & _ & L). rewrite E in L. destruct L as [L _]. lia. }
    split; [|repeat split; auto].
    destruct I. constructor; unfold add_blk, with_live, bump; cbn [m_pool m_live m_next]; auto.
    - simpl. constructor; auto.
    - intros b [<-|H]; cbn [b_req b_width b_addr].
      + repeat split; auto; lia.
      + specialize (pi_live0 b H). destruct (b_addr b); intuition lia.
    - simpl. lia. }
  destruct (p_on (m_pool m)) eqn:ON; cbn [negb] in PA.
  2:{ assert (CN : cls_of size = None).
      { destruct (cls_of size) as [c|] eqn:E; auto. specialize (CL c eq_refl).
        pose proof (pi_cnt m I c). rewrite (pi_off m I ON c) in *. lia. }
      destruct (OS _ _ PA CN) as (Q & -> & T). injection Q as -> ->. auto. }
  destruct (cls_of size) as [c|] eqn:CE.
  2:{ destruct (OS _ _ PA eq_refl) as (Q & -> & T). injection Q as -> ->. auto. }
  specialize (CL c eq_refl). pose proof (cls_of_some _ _ CE) as SE.
  destruct (p_free (m_pool m) c) as [|f fr] eqn:F.
  - apply Z.ltb_lt in CL as CL'. rewrite CL' in PA. injection PA as <- <- <-.
    pose proof (pi_cnt m I c) as PC. pose proof (pi_fit m I ON c) as FT.
    pose proof (pi_sz m I) as SZ.
    assert (PP := psize_pos c).
    assert (W : wrap64 (p_cnt (m_pool m) c + 1) = p_cnt (m_pool m) c + 1).
    { apply wrap64_id. unfold W64, POOL_MAX in *. nia. }
    assert (NI : ~ In (Pod c (p_cnt (m_pool m) c)) (map b_addr (m_live m))).
    { intros H. apply in_map_iff in H. destruct H as (b & E & H).
      pose proof (pi_live m I b H) as (_ & _ & L). rewrite E in L. lia. }
    split; [|repeat split; auto].
    + destruct I. constructor; unfold add_blk, with_live, with_pool;
        cbn [m_pool m_live m_next p_on p_cap p_size p_cnt p_free]; try discriminate; auto.
      * intros d. destruct (cls_dec d c) as [->|D]; [rewrite set_cls_same, W; lia|].
        rewrite set_cls_other by auto. auto.
      * intros d x H. destruct (pi_free0 d x H) as (i & E & B). exists i. split; auto.
        destruct (cls_dec d c) as [->|D]; [rewrite set_cls_same, W; lia|].
        rewrite set_cls_other by auto. auto.
      * simpl. constructor; auto.
      * intros b [<-|H]; cbn [b_req b_width b_addr].
        { repeat split; auto; try lia.
          - rewrite set_cls_same, W. lia.
          - rewrite F. simpl. tauto. }
        specialize (pi_live0 b H). destruct (b_addr b) as [d i|]; auto.
        destruct (cls_dec d c) as [->|D]; [rewrite set_cls_same, W; intuition lia|].
        rewrite set_cls_other by auto. auto.
      * intros d. rewrite pod_cons. cbn [b_addr]. specialize (pi_count0 d).
        destruct (cls_dec d c) as [->|D].
        { rewrite set_cls_same, W, cls_eqb_refl. lia. }
        rewrite set_cls_other by auto.
        destruct (cls_eqb c d) eqn:E; [apply cls_eqb_eq in E; congruence|]. lia.
    + cbn [room m_pool with_pool p_size]. subst size. nia.
  - injection PA as <- <- <-.
    destruct (pi_free m I c f) as (i & -> & B). { rewrite F. now left. }
    pose proof (pi_fnd m I c) as FN. rewrite F in FN. inversion FN as [|? ? FN1 FN2]; subst.
    pose proof (pi_cnt m I c) as PC. pose proof (pi_fit m I ON c) as FT.
    assert (PP := psize_pos c).
    assert (NI : ~ In (Pod c i) (map b_addr (m_live m))).
    { intros H. apply in_map_iff in H. destruct H as (b & E & H).
      pose proof (pi_live m I b H) as (_ & _ & L). rewrite E in L. destruct L as (_ & _ & L).
      apply L. rewrite F. now left. }
    split; [|repeat split; auto].
    + destruct I. constructor; unfold add_blk, with_live, with_pool;
        cbn [m_pool m_live m_next p_on p_cap p_size p_cnt p_free]; try discriminate; auto.
      * intros d x H. apply pi_free0. destruct (cls_dec d c) as [->|D].
        { rewrite set_cls_same in H. rewrite F. now right. }
        now rewrite set_cls_other in H by auto.
      * intros d. destruct (cls_dec d c) as [->|D].
        { now rewrite set_cls_same. } now rewrite set_cls_other by auto.
      * simpl. constructor; auto.
      * intros b [<-|H]; cbn [b_req b_width b_addr].
        { repeat split; auto; try lia. now rewrite set_cls_same. }
        specialize (pi_live0 b H). destruct (b_addr b) as [d j|]; auto.
        destruct (cls_dec d c) as [->|D].
        { rewrite set_cls_same. rewrite F in pi_live0. simpl in pi_live0. tauto. }
        rewrite set_cls_other by auto. auto.
      * intros d. rewrite pod_cons. cbn [b_addr]. specialize (pi_count0 d).
        destruct (cls_dec d c) as [->|D].
        { rewrite set_cls_same, cls_eqb_refl. rewrite F in pi_count0. simpl in pi_count0. lia. }
        rewrite set_cls_other by auto.
        destruct (cls_eqb c d) eqn:E; [apply cls_eqb_eq in E; congruence|]. lia.
    + cbn [room m_pool with_pool p_size]. nia.
Qed.

(** Giving a block back. *)
Lemma dealloc_pinv m l1 b l2 : pinv m -> m_live m = l1 ++ b :: l2 ->
  exists m1, pool_dealloc m (b_addr b) (b_width b) = MOk m1 /\
    m_live m1 = m_live m /\ m_alloc m1 = m_alloc m /\ m_limit m1 = m_limit m /\
    m_next m1 = m_next m /\ pinv (with_live m1 (l1 ++ l2)).
Proof.
  intros I L.
  assert (IB : In b (m_live m)) by (rewrite L; apply in_or_app; right; now left).
  pose proof (pi_live m I b IB) as (R0 & R1 & LB).
  assert (SUB : forall x, In x (l1 ++ l2) -> In x (m_live m)).
  { intros x. rewrite L, !in_app_iff. simpl. tauto. }
  assert (ND := pi_nd m I). rewrite L, map_app in ND. simpl in ND.
  apply NoDup_remove in ND. destruct ND as [ND NB]. rewrite <- map_app in ND, NB.
  unfold pool_dealloc.
  destruct (b_addr b) as [c i|n] eqn:A.
  - destruct LB as (W & B & NF).
    assert (ON : p_on (m_pool m) = true).
    { destruct (p_on (m_pool m)) eqn:E; auto. pose proof (pi_off m I E c).
      pose proof (pi_cnt m I c). lia. }
    rewrite ON, W, cls_of_psize. cbn [negb].
    pose proof (pi_count m I c) as CT. rewrite L, pod_app, pod_cons, A, cls_eqb_refl in CT.
    pose proof (pi_cnt m I c) as PC.
    destruct (Z.of_nat (length (p_free (m_pool m) c)) <? p_cap (m_pool m) c) eqn:Q;
      [|apply Z.ltb_ge in Q; lia].
    eexists. split; [reflexivity|]. do 4 (split; [reflexivity|]).
    destruct I; constructor; unfold with_live, with_pool;
      cbn [m_pool m_live m_next p_on p_cap p_size p_cnt p_free]; try discriminate; auto.
    + intros d x H. destruct (cls_dec d c) as [->|D].
      * rewrite set_cls_same in H. destruct H as [<-|H]; eauto.
      * rewrite set_cls_other in H by auto. auto.
    + intros d. destruct (cls_dec d c) as [->|D].
      * rewrite set_cls_same. constructor; auto.
      * rewrite set_cls_other by auto. auto.
    + intros x H. specialize (pi_live0 x (SUB x H)). destruct (b_addr x) as [d j|] eqn:AX; auto.
      destruct (cls_dec d c) as [->|D]; [|rewrite set_cls_other by auto; auto].
      rewrite set_cls_same. repeat split; try tauto. simpl. intros [E|E]; [|tauto].
      apply NB. rewrite E, <- AX. now apply in_map.
    + intros d. specialize (pi_count0 d). rewrite L, pod_app, pod_cons, A in pi_count0.
      rewrite pod_app. destruct (cls_dec d c) as [->|D].
      * rewrite set_cls_same. rewrite cls_eqb_refl in pi_count0. simpl. lia.
      * rewrite set_cls_other by auto.
        destruct (cls_eqb c d) eqn:E; [apply cls_eqb_eq in E; congruence|]. lia.
    + rewrite L, sys_app in pi_sys0. simpl in pi_sys0. rewrite A in pi_sys0.
      rewrite sys_app. lia.
  - destruct LB as (NN & CN). rewrite CN.
    assert (E : (if negb (p_on (m_pool m)) then sys_free m (Sys n) else sys_free m (Sys n)) = MOk m)
      by (destruct (p_on (m_pool m)); reflexivity).
    rewrite E. eexists. split; [reflexivity|]. do 4 (split; [reflexivity|]).
    destruct I; constructor; unfold with_live;
      cbn [m_pool m_live m_next p_on p_cap p_size p_cnt p_free]; auto.
    + intros d. specialize (pi_count0 d). rewrite L, pod_app, pod_cons, A in pi_count0.
      rewrite pod_app. simpl in pi_count0. auto.
    + rewrite L, sys_app in pi_sys0. simpl in pi_sys0. rewrite A in pi_sys0.
      rewrite sys_app. lia.
Qed.

(** [ctr_heap_allocate]. *)
Lemma allocate_ok m n : minv m -> size_ok n ->
  match heap_allocate avail m n with
  | MUB => False
  | MExit => True
  | MOk (a, m') =>
      minv m' /\ m_limit m' = m_limit m /\ m_alloc m' <= m_limit m' /\
      ~ In a (map b_addr (m_live m)) /\
      exists w z, m_live m' = {| b_addr := a; b_width := w; b_req := n; b_zero := z |} :: m_live m /\
                  n + 8 <= w /\ room (m_pool m') a w = w /\
                  (p_on (m_pool m) = false -> z = true)
  end.
Proof.
  intros [I AL] S. unfold heap_allocate.
  destruct (bucket_w (m_pool m) n S) as [SB CL]. cbv zeta in SB, CL.
  set (size := wrap64 (pool_bucket (m_pool m) (wrap64 (n + 8)))) in *.
  assert (S' := S). unfold size_ok in S'.
  pose proof (total_w m I) as TB.
  assert (WA : wrap64 (m_alloc m + size) = m_alloc m + size) by (apply wrap64_id; lia).
  set (m1 := with_alloc m (wrap64 (m_alloc m + size))).
  destruct (m_limit m1 <? m_alloc m1) eqn:Q; auto.
  apply Z.ltb_ge in Q. cbn [m1 with_alloc m_limit m_alloc] in Q.
  destruct (pool_alloc avail m1 size) as [[[a z]|] m2] eqn:PA; auto.
  assert (I1 : pinv m1) by (eapply pinv_same; [| | |exact I]; reflexivity).
  destruct (alloc_pinv m1 n size a z m2 I1) as (P2 & L2 & A2 & LM & NI & RM & ZZ); auto; try lia.
  rewrite RM. destruct (size <? 8) eqn:Q8; [apply Z.ltb_lt in Q8; lia|].
  split; [split; auto|].
  - cbn [add_blk with_live m_alloc m_live total b_width]. rewrite L2, A2.
    cbn [m1 with_alloc m_alloc m_live]. rewrite WA. lia.
  - cbn [add_blk with_live m_alloc m_live m_limit m_pool]. rewrite A2, LM, L2.
    cbn [m1 with_alloc m_alloc m_limit m_live]. repeat split; auto.
    exists size, z. repeat split; auto. lia.
Qed.

(** [ctr_heap_free]. *)
Lemma free_ok m a : minv m -> In a (map b_addr (m_live m)) ->
  exists m' l1 b l2, heap_free m a = MOk m' /\ minv m' /\ m_limit m' = m_limit m /\
    m_live m = l1 ++ b :: l2 /\ b_addr b = a /\ m_live m' = l1 ++ l2 /\
    m_alloc m' = m_alloc m - b_width b.
Proof.
  intros [I AL] IN. destruct (find_blk_in m a IN) as [b F].
  destruct (find_blk_some m a b F) as [IB E].
  destruct (drop_split (m_live m) a (pi_nd m I) b IB E) as (l1 & l2 & L & D).
  destruct (dealloc_pinv m l1 b l2 I L) as (m1 & DE & L1 & A1 & LM & NX & P1).
  unfold heap_free. rewrite F. rewrite E in DE. rewrite DE. cbn [mbind].
  assert (T : total (m_live m) = b_width b + total (l1 ++ l2)).
  { rewrite L, !total_app. simpl. lia. }
  assert (TN : 0 <= total (l1 ++ l2)) by exact (proj1 (total_w _ P1)).
  unfold drop_blk. cbn [with_live m_alloc]. rewrite A1.
  destruct (m_alloc m <? b_width b) eqn:Q; [apply Z.ltb_lt in Q; lia|].
  eexists _, l1, b, l2. split; [reflexivity|].
  cbn [with_alloc with_live m_live m_limit m_alloc].
  rewrite L1, D. split; [split|do 4 (split; [now auto|])].
  - eapply pinv_same; [| | |exact P1]; reflexivity.
  - cbn [with_alloc with_live m_live m_limit m_alloc]. lia.
  - reflexivity.
Qed.

Lemma NoDup_map_snoc {A B} (f : A -> B) l1 x l2 : NoDup (map f (l1 ++ x :: l2)) ->
  NoDup (map f (x :: l1 ++ l2)).
Proof.
  intros H. rewrite map_app in H. simpl in *. pose proof (NoDup_remove_1 _ _ _ H).
  pose proof (NoDup_remove_2 _ _ _ H). constructor; rewrite map_app; auto.
Qed.

(** Changing the recorded request of a block. *)
Lemma move_pinv m l1 b l2 n : pinv m -> m_live m = l1 ++ b :: l2 -> 0 <= n -> n + 8 <= b_width b ->
  pinv (with_live m ({| b_addr := b_addr b; b_width := b_width b; b_req := n;
                        b_zero := b_zero b |} :: l1 ++ l2)).
Proof.
  intros I L N0 N1.
  assert (IB : In b (m_live m)) by (rewrite L; apply in_or_app; right; now left).
  assert (SUB : forall x, In x (l1 ++ l2) -> In x (m_live m)).
  { intros x. rewrite L, !in_app_iff. simpl. tauto. }
  destruct I. constructor; unfold with_live; cbn [m_pool m_live m_next]; auto.
  - rewrite L in pi_nd0. apply NoDup_map_snoc in pi_nd0. exact pi_nd0.
  - intros x [<-|H]; cbn [b_req b_width b_addr]; auto.
    specialize (pi_live0 b IB). tauto.
  - intros c. specialize (pi_count0 c). rewrite L, pod_app, pod_cons in pi_count0.
    rewrite pod_cons, pod_app. cbn [b_addr]. lia.
  - rewrite L, sys_app in pi_sys0. simpl in pi_sys0. simpl. rewrite sys_app.
    destruct (b_addr b); lia.
Qed.

(** [ctr_heap_reallocate]. *)
Lemma reallocate_ok m a n : minv m -> size_ok n -> In a (map b_addr (m_live m)) ->
  match heap_reallocate avail m a n with
  | MUB => False
  | MExit => True
  | MOk (a', m') =>
      minv m' /\ m_limit m' = m_limit m /\
      exists l1 b l2 w z, m_live m = l1 ++ b :: l2 /\ b_addr b = a /\
        m_live m' = {| b_addr := a'; b_width := w; b_req := n; b_zero := z |} :: l1 ++ l2 /\
        n + 8 <= w /\ b_width b <= w /\ room (m_pool m') a' w = w /\
        (a' = a \/ ~ In a' (map b_addr (m_live m)))
  end.
Proof.
  intros [I AL] S IN. unfold heap_reallocate.
  destruct (bucket_w (m_pool m) n S) as [SB CL]. cbv zeta in SB, CL.
  set (size := wrap64 (pool_bucket (m_pool m) (wrap64 (n + 8)))) in *.
  assert (S' := S). unfold size_ok in S'.
  destruct (find_blk_in m a IN) as [b F]. rewrite F.
  destruct (find_blk_some m a b F) as [IB E].
  destruct (drop_split (m_live m) a (pi_nd m I) b IB E) as (l1 & l2 & L & D).
  pose proof (total_w m I) as TB.
  assert (T : total (m_live m) = b_width b + total (l1 ++ l2)).
  { rewrite L, !total_app. simpl. lia. }
  pose proof (pi_live m I b IB) as (R0 & R1 & LB).
  assert (TN : 0 <= total (l1 ++ l2)).
  { apply total_nonneg. intros x HX. pose proof (pi_live m I x) as PX.
    assert (In x (m_live m)) as IX by (rewrite L; rewrite in_app_iff in *; simpl; tauto).
    specialize (PX IX). lia. }
  destruct (size <=? b_width b) eqn:Q.
  - apply Z.leb_le in Q. split; [split|].
    + pose proof (move_pinv m l1 b l2 n I L) as P. rewrite E in P.
      unfold add_blk, drop_blk. cbn [with_live m_live]. rewrite D.
      eapply pinv_same; [| | |apply P; lia]; reflexivity.
    + unfold add_blk, drop_blk. cbn [with_live m_live m_alloc total b_width]. rewrite D. lia.
    + split; [reflexivity|]. exists l1, b, l2, (b_width b), (b_zero b).
      repeat split; auto; try lia.
      * unfold add_blk, drop_blk. cbn [with_live m_live]. now rewrite D.
      * unfold add_blk, drop_blk. cbn [with_live m_pool].
        subst a. destruct (b_addr b) as [c i|]; auto. cbn [room].
        destruct LB as (-> & B & _). pose proof (pi_cnt m I c).
        destruct (p_on (m_pool m)) eqn:ON.
        { pose proof (pi_fit m I ON c). pose proof (psize_pos c). nia. }
        pose proof (pi_off m I ON c). lia.
  - apply Z.leb_gt in Q.
    set (m1 := with_alloc m (wrap64 (wrap64 (m_alloc m - b_width b) + size))).
    destruct (pool_alloc avail m1 size) as [[[a' z]|] m2] eqn:PA; auto.
    assert (I1 : pinv m1) by (eapply pinv_same; [| | |exact I]; reflexivity).
    destruct (alloc_pinv m1 n size a' z m2 I1) as (P2 & L2 & A2 & LM & NI & RM & ZZ); auto; try lia.
    cbn [m1 with_alloc m_live] in L2, NI. cbn [m1 with_alloc m_alloc] in A2.
    cbn [m1 with_alloc m_limit] in LM.
    rewrite RM. destruct (size <? b_width b) eqn:Q8; [apply Z.ltb_lt in Q8; lia|].
    set (nb := {| b_addr := a'; b_width := size; b_req := n; b_zero := z |}) in *.
    destruct (dealloc_pinv (add_blk m2 nb) (nb :: l1) b l2 P2) as (m3 & DE & L3 & A3 & LM3 & NX & P3).
    { cbn [add_blk with_live m_live]. rewrite L2, L. reflexivity. }
    (* the block list plays no role in pool_dealloc *)
    assert (DE' : exists m3', pool_dealloc m2 a (b_width b) = MOk m3' /\
              m_live m3' = m_live m /\ m_alloc m3' = m_alloc m2 /\ m_limit m3' = m_limit m2 /\
              m_next m3' = m_next m3 /\ m_pool m3' = m_pool m3).
    { rewrite E in DE. revert DE. unfold pool_dealloc.
      cbn [add_blk with_live m_pool].
      destruct (negb (p_on (m_pool m2))).
      { destruct a; cbn [sys_free]; [discriminate|]. intros X; injection X as <-.
        eexists; split; [reflexivity|]. repeat split; auto. }
      destruct (cls_of (b_width b)) as [c|].
      2:{ destruct a; cbn [sys_free]; [discriminate|]. intros X; injection X as <-.
          eexists; split; [reflexivity|]. repeat split; auto. }
      destruct (Z.of_nat (length (p_free (m_pool m2) c)) <? p_cap (m_pool m2) c).
      - intros X; injection X as <-. eexists; split; [reflexivity|]. repeat split; auto.
      - destruct a; cbn [sys_free]; [discriminate|]. intros X; injection X as <-.
        eexists; split; [reflexivity|]. repeat split; auto. }
    destruct DE' as (m3' & DE' & L3' & A3' & LM3' & NX' & P3').
    rewrite DE'. cbn [mbind].
    assert (DD : filter (fun b0 => negb (addr_eqb (b_addr b0) a)) (m_live m3') = l1 ++ l2)
      by (rewrite L3'; exact D).
    assert (PF : pinv (add_blk (drop_blk m3' a) nb)).
    { eapply pinv_same; [| | |exact P3];
      unfold add_blk, drop_blk; cbn [with_live m_pool m_live m_next]; auto.
      rewrite DD. reflexivity. }
    split; [split; [exact PF|]|split].
    + unfold add_blk, drop_blk. cbn [with_live m_live m_alloc total].
      rewrite DD, A3', A2. cbn [nb b_width].
      rewrite (wrap64_id (m_alloc m - b_width b)) by lia. rewrite wrap64_id by lia. lia.
    + unfold add_blk, drop_blk. cbn [with_live m_limit]. congruence.
    + exists l1, b, l2, size, z. repeat split; auto; try lia.
      * unfold add_blk, drop_blk. cbn [with_live m_live]. now rewrite DD.
      * unfold add_blk, drop_blk. cbn [with_live m_pool]. rewrite P3'.
        assert (EQ : p_size (m_pool m3) = p_size (m_pool m2)).
        { rewrite <- P3'. revert DE'. unfold pool_dealloc.
          destruct (negb (p_on (m_pool m2))).
          { destruct a; cbn [sys_free]; [discriminate|]. intros X; injection X as <-. auto. }
          destruct (cls_of (b_width b)) as [c|].
          2:{ destruct a; cbn [sys_free]; [discriminate|]. intros X; injection X as <-. auto. }
          destruct (Z.of_nat (length (p_free (m_pool m2) c)) <? p_cap (m_pool m2) c).
          - intros X; injection X as <-. auto.
          - destruct a; cbn [sys_free]; [discriminate|]. intros X; injection X as <-. auto. }
        unfold room in *. rewrite EQ. exact RM.
Qed.

(** [ctr_pool_init]. *)
Lemma init_ok m n : minv m -> (n < 300 \/ 384 <= n) -> 0 <= n ->
  match pool_init m n with
  | MUB => False
  | MExit => True
  | MOk m' => minv m' /\ m_live m' = m_live m /\ m_limit m' = m_limit m
  end.
Proof.
  intros [I AL] H N0. unfold pool_init.
  destruct (p_on (m_pool m)) eqn:ON; [split; [split; auto|auto]|].
  destruct (n <? 300) eqn:Q; auto. apply Z.ltb_ge in Q.
  destruct (POOL_MAX <? n / 3) eqn:Q2; auto. apply Z.ltb_ge in Q2.
  assert (S0 : 128 <= n / 3) by (apply Z.div_le_lower_bound; lia).
  assert (CP : forall c, let q := n / 3 / psize c in
            wrap64 (q - 1) = q - 1 /\ 0 <= q - 1 /\ (q - 1) * psize c <= n / 3).
  { intros c q. assert (PP := psize_pos c).
    assert (1 <= q) by (apply Z.div_le_lower_bound; lia).
    assert (q * psize c <= n / 3) by (unfold q; rewrite Z.mul_comm; apply Z.mul_div_le; lia).
    repeat split; try nia. apply wrap64_id. unfold W64, POOL_MAX in *. nia. }
  assert (CZ : forall c, p_cnt (m_pool m) c = 0).
  { intros c. pose proof (pi_cnt m I c). pose proof (pi_off m I ON c). lia. }
  split; [split|split]; auto.
  pose proof (pi_off m I ON) as OFF.
  destruct I. constructor; unfold with_pool;
    cbn [m_pool m_live m_next p_on p_cap p_size p_cnt p_free]; auto.
  - discriminate.
  - intros c. rewrite per_cls_eq. destruct (CP c) as (-> & ? & ?). auto.
  - intros _ c. rewrite per_cls_eq. destruct (CP c) as (-> & ? & ?). auto.
  - lia.
  - intros c. rewrite per_cls_eq. destruct (CP c) as (-> & ? & ?). rewrite CZ. lia.
Qed.

(** The tracked blocks. *)
Record tinv (t : tmem) : Prop := {
  ti_mem : minv (t_mem t);
  ti_nd : NoDup (t_blocks t);
  ti_in : forall a, In a (t_blocks t) -> In a (map b_addr (m_live (t_mem t)));
  ti_arr : forall a, t_arr t = Some a -> ~ In a (t_blocks t) /\
           exists b, In b (m_live (t_mem t)) /\ b_addr b = a /\ t_max t * 16 <= b_req b;
  ti_len : Z.of_nat (length (t_blocks t)) <= t_max t;
  ti_none : t_arr t = None -> t_max t = 0;
  ti_max : 0 <= t_max t <= 100000010
}.

Lemma live_room m b : minv m -> In b (m_live m) -> room (m_pool m) (b_addr b) (b_width b) = b_width b.
Proof.
  intros [I _] IB. pose proof (pi_live m I b IB) as (R0 & R1 & LB).
  destruct (b_addr b) as [c i|]; auto. cbn [room].
  destruct LB as (-> & B & _). pose proof (pi_cnt m I c).
  destruct (p_on (m_pool m)) eqn:ON.
  { pose proof (pi_fit m I ON c). pose proof (psize_pos c). nia. }
  pose proof (pi_off m I ON c). lia.
Qed.

Lemma find_blk_exact m b : minv m -> In b (m_live m) -> find_blk m (b_addr b) = Some b.
Proof.
  intros [I _] IB. destruct (find_blk_in m (b_addr b)) as [b' F]; [now apply in_map|].
  rewrite F. f_equal. destruct (find_blk_some _ _ _ F) as [IB' E].
  pose proof (pi_nd m I) as ND. revert IB IB' E ND. clear.
  induction (m_live m) as [|x l IH]; simpl; [tauto|].
  intros IB IB' E ND. inversion ND as [|? ? N1 N2]; subst.
  destruct IB as [->|IB], IB' as [->|IB']; auto.
  - exfalso. apply N1. rewrite <- E. now apply in_map.
  - exfalso. apply N1. rewrite E. now apply in_map.
Qed.

Lemma in_drop (l1 : list blk) b l2 a : In a (map b_addr (l1 ++ b :: l2)) -> a <> b_addr b ->
  In a (map b_addr (l1 ++ l2)).
Proof. rewrite !map_app, !in_app_iff. simpl. intuition congruence. Qed.

Lemma t_alloc_ok t n : tinv t -> size_ok n -> Z.of_nat (length (t_blocks t)) < 100000000 ->
  match allocate_tracked avail t n with
  | MUB => False
  | MExit => True
  | MOk (a, t') => tinv t' /\ t_blocks t' = t_blocks t ++ [a]
  end.
Proof.
  intros T S LN. unfold allocate_tracked.
  pose proof (allocate_ok (t_mem t) n (ti_mem t T) S) as H1.
  destruct (heap_allocate avail (t_mem t) n) as [[sp m1]| |]; auto.
  destruct H1 as (I1 & LM1 & LIM1 & NI1 & w1 & z1 & L1 & W1 & RM1 & _).
  cbn [mbind]. set (k := Z.of_nat (length (t_blocks t))) in *.
  assert (NB : ~ In sp (t_blocks t)).
  { intros H. apply NI1. now apply (ti_in t T). }
  assert (ND' : NoDup (t_blocks t ++ [sp])).
  { pose proof (ti_nd t T) as ND. revert ND NB. clear. induction (t_blocks t); simpl; intros.
    - constructor; auto.
    - inversion ND; subst. constructor.
      + rewrite in_app_iff. simpl. intuition.
      + apply IHl; intuition. }
  assert (FIN : forall arr mx m2,
    minv m2 ->
    (forall a, In a (map b_addr (m_live m1)) -> (t_arr t = Some a \/ In a (map b_addr (m_live m2)))) ->
    In sp (map b_addr (m_live m2)) ->
    (exists a, arr = Some a /\ ~ In a (t_blocks t) /\ a <> sp /\
       exists b, In b (m_live m2) /\ b_addr b = a /\ mx * 16 <= b_req b) ->
    k + 1 <= mx -> mx <= 100000010 ->
    match (if entry_ok m2 arr k then
       MOk (sp, {| t_mem := m2; t_blocks := t_blocks t ++ [sp]; t_max := mx; t_arr := arr |})
     else MUB) with
    | MUB => False | MExit => True
    | MOk (a, t') => tinv t' /\ t_blocks t' = t_blocks t ++ [a] end).
  { intros arr mx m2 I2 OLD SPI (a & -> & NA & NS & b & IB & EA & RQ) KM MX.
    unfold entry_ok. subst a. rewrite (find_blk_exact m2 b I2 IB).
    rewrite (live_room m2 b I2 IB).
    pose proof (pi_live m2 (proj1 I2) b IB) as (R0 & R1 & _).
    destruct ((k + 1) * 16 <=? b_width b - 8) eqn:Q; [|apply Z.leb_gt in Q; lia].
    split; [|reflexivity]. constructor; cbn [t_mem t_blocks t_max t_arr]; auto.
    - intros x H. apply in_app_or in H. destruct H as [H|[<-|[]]]; auto.
      destruct (OLD x) as [Q2|Q2]; auto.
      + rewrite L1. right. now apply (ti_in t T).
      + exfalso. destruct (ti_arr t T x Q2) as [NN _]. auto.
    - intros x X. injection X as <-. split; [|eauto].
      rewrite in_app_iff. simpl. intuition.
    - rewrite app_length. simpl. unfold k in KM. lia.
    - discriminate.
    - unfold k in *. lia. }
  destruct (t_max t <=? k) eqn:Q.
  - apply Z.leb_le in Q. destruct (t_arr t) as [a|] eqn:AR.
    + destruct (ti_arr t T a AR) as (NA & b & IB & EA & RQ).
      pose proof (ti_max t T) as TM. pose proof (ti_len t T) as TL. fold k in TL.
      rewrite (wrap64_id (t_max t + 10)) by (unfold W64; lia).
      rewrite (wrap64_id (16 * (t_max t + 10))) by (unfold W64; lia).
      assert (SO : size_ok (16 * (t_max t + 10))) by (unfold size_ok, BIG; lia).
      assert (INA : In a (map b_addr (m_live m1))).
      { rewrite L1. right. rewrite <- EA. now apply in_map. }
      pose proof (reallocate_ok m1 a _ I1 SO INA) as H2.
      destruct (heap_reallocate avail m1 a (16 * (t_max t + 10))) as [[a' m2]| |]; auto.
      destruct H2 as (I2 & LM2 & l1 & b1 & l2 & w & z & L2 & E2 & L2' & W2 & WW & RM2 & DIF).
      cbn [mbind].
      assert (AN : a <> sp). { intros ->. apply NI1. rewrite <- EA. now apply in_map. }
      apply FIN; auto; try lia.
      * intros x H. destruct (addr_eqb x a) eqn:XA.
        { apply addr_eqb_eq in XA. subst. auto. }
        right. rewrite L2'. right. rewrite L2 in H. apply in_drop in H; auto.
        intros ->. rewrite E2, addr_eqb_refl in XA. discriminate.
      * rewrite L2'. right. assert (H : In sp (map b_addr (m_live m1))) by (rewrite L1; now left).
        rewrite L2 in H. apply in_drop in H; auto. congruence.
      * exists a'. split; [reflexivity|]. repeat split.
        { destruct DIF as [->|D]; auto. intros H. apply D. rewrite L1. right.
          now apply (ti_in t T). }
        { destruct DIF as [->|D]; auto. intros ->. apply D. rewrite L1. now left. }
        eexists. split; [rewrite L2'; now left|]. cbn [b_addr b_req]. split; auto; lia.
    + assert (SO : size_ok 16) by (unfold size_ok, BIG; lia).
      pose proof (allocate_ok m1 16 I1 SO) as H2.
      destruct (heap_allocate avail m1 16) as [[a m2]| |]; auto.
      destruct H2 as (I2 & LM2 & LIM2 & NI2 & w2 & z2 & L2 & W2 & RM2 & _).
      cbn [mbind].
      pose proof (ti_none t T AR). pose proof (ti_len t T) as TL. fold k in TL.
      apply FIN; auto; try lia.
      * intros x H'. right. rewrite L2. now right.
      * rewrite L2. right. rewrite L1. now left.
      * exists a. split; [reflexivity|]. repeat split.
        { intros H'. apply NI2. rewrite L1. right. now apply (ti_in t T). }
        { intros ->. apply NI2. rewrite L1. now left. }
        eexists. split; [rewrite L2; now left|]. cbn [b_addr b_req]. split; auto; lia.
  - apply Z.leb_gt in Q. cbn [mbind]. pose proof (ti_max t T).
    destruct (t_arr t) as [a|] eqn:AR; [|pose proof (ti_none t T AR); lia].
    destruct (ti_arr t T a AR) as (NA & b & IB & EA & RQ).
    apply FIN; auto; try lia.
    + rewrite L1. now left.
    + exists a. split; [reflexivity|]. repeat split; auto.
      { intros ->. apply NI1. rewrite <- EA. now apply in_map. }
      exists b. split; [rewrite L1; now right|]. auto.
Qed.

Lemma set_nth_length {A} (l : list A) i v : length (set_nth l i v) = length l.
Proof. revert i; induction l; destruct i; simpl; auto. Qed.
Lemma set_nth_in {A} (l : list A) i v x : In x (set_nth l i v) -> x = v \/ In x l.
Proof. revert i; induction l; destruct i; simpl; intuition. apply IHl in H0. tauto. Qed.
Lemma set_nth_in_strict {A} (l : list A) i v x old : NoDup l -> nth_error l i = Some old ->
  In x (set_nth l i v) -> x = v \/ (In x l /\ x <> old).
Proof.
  revert i; induction l as [|y l IH]; destruct i; simpl; intros ND E H; try discriminate; try tauto.
  - injection E as ->. inversion ND; subst. destruct H as [H|H]; auto.
    right. split; auto. intros ->. auto.
  - inversion ND as [|? ? N1 N2]; subst. destruct H as [<-|H].
    + right. split; auto. intros ->. apply N1. eapply nth_error_In; eauto.
    + destruct (IH i N2 E H) as [Q|[Q1 Q2]]; auto.
Qed.
Lemma set_nth_nodup {A} (l : list A) i v old : NoDup l -> nth_error l i = Some old ->
  (v = old \/ ~ In v l) -> NoDup (set_nth l i v).
Proof.
  revert i; induction l as [|y l IH]; destruct i; simpl; intros ND E H; try discriminate; auto.
  - injection E as ->. inversion ND; subst. constructor; auto. destruct H as [->|H]; auto.
  - inversion ND as [|? ? N1 N2]; subst. constructor.
    + intros Q. apply (set_nth_in_strict _ _ _ _ _ N2 E) in Q. destruct Q as [Q|[Q1 Q2]]; auto.
      subst v. destruct H as [->|H]; [|tauto]. apply N1. eapply nth_error_In; eauto.
    + apply IH; auto. tauto.
Qed.

Lemma t_realloc_ok t id n : tinv t -> (id < length (t_blocks t))%nat -> size_ok n ->
  match reallocate_tracked avail t id n with
  | MUB => False
  | MExit => True
  | MOk (a, t') => tinv t'
  end.
Proof.
  intros T LT S. unfold reallocate_tracked.
  destruct (nth_error (t_blocks t) id) as [sp|] eqn:E;
    [|apply nth_error_None in E; lia].
  assert (IS : In sp (t_blocks t)) by (eapply nth_error_In; eauto).
  pose proof (reallocate_ok (t_mem t) sp n (ti_mem t T) S (ti_in t T sp IS)) as H2.
  destruct (heap_reallocate avail (t_mem t) sp n) as [[a' m2]| |]; auto.
  destruct H2 as (I2 & LM2 & l1 & b1 & l2 & w & z & L2 & E2 & L2' & W2 & WW & RM2 & DIF).
  cbn [mbind].
  assert (DIF' : a' = sp \/ ~ In a' (t_blocks t)).
  { destruct DIF as [->|D]; auto. right. intros H. apply D. now apply (ti_in t T). }
  constructor; cbn [t_mem t_blocks t_max t_arr]; auto.
  - eapply set_nth_nodup; eauto. apply (ti_nd t T).
  - intros x H. apply (set_nth_in_strict _ _ _ _ _ (ti_nd t T) E) in H.
    rewrite L2'. destruct H as [->|[H1 H2]]; [now left|]. right.
    pose proof (ti_in t T x H1) as Q. rewrite L2 in Q. apply in_drop in Q; auto. congruence.
  - intros x X. destruct (ti_arr t T x X) as (NA & b & IB & EA & RQ). split.
    + intros H. apply (set_nth_in_strict _ _ _ _ _ (ti_nd t T) E) in H.
      destruct H as [->|[H1 H2]]; auto. destruct DIF as [->|D]; auto.
      apply D. rewrite <- EA. now apply in_map.
    + exists b. repeat split; auto. rewrite L2'. right. rewrite L2 in IB.
      rewrite in_app_iff in *. simpl in IB. destruct IB as [?|[<-|?]]; auto.
      exfalso. apply NA. rewrite <- EA, E2. auto.
  - rewrite set_nth_length. apply (ti_len t T).
  - apply (ti_none t T).
  - apply (ti_max t T).
Qed.

Lemma free_all_ok l : forall m, minv m -> NoDup l ->
  (forall a, In a l -> In a (map b_addr (m_live m))) ->
  exists m', free_all m l = MOk m' /\ minv m' /\ m_limit m' = m_limit m /\
    forall b, In b (m_live m') <-> In b (m_live m) /\ ~ In (b_addr b) l.
Proof.
  induction l as [|a l IH]; intros m I ND IN.
  - exists m. simpl. split; [reflexivity|split; [exact I|split; [reflexivity|]]].
    intros b. tauto.
  - inversion ND as [|? ? N1 N2]; subst.
    destruct (free_ok m a I (IN a (or_introl eq_refl)))
      as (m1 & l1 & b & l2 & F & I1 & LM & L & E & L1 & AL).
    assert (ND2 : NoDup (map b_addr (m_live m))) by (exact (pi_nd m (proj1 I))).
    rewrite L, map_app in ND2. simpl in ND2. apply NoDup_remove_2 in ND2.
    rewrite <- map_app in ND2.
    assert (KEEP : forall x, In x (l1 ++ l2) <-> In x (m_live m) /\ b_addr x <> a).
    { intros x. rewrite L. split.
      - intros H. split; [rewrite in_app_iff in *; simpl; tauto|].
        intros Q. apply ND2. rewrite E, <- Q. now apply in_map.
      - intros [H Q]. rewrite in_app_iff in *. simpl in H.
        destruct H as [?|[->|?]]; auto. contradiction. }
    destruct (IH m1 I1 N2) as (m' & F' & I' & LM' & LV).
    { intros x H. specialize (IN x (or_intror H)). rewrite L1.
      apply in_map_iff in IN. destruct IN as (y & Y & IN). rewrite <- Y. apply in_map.
      apply KEEP. split; auto. congruence. }
    exists m'. simpl. rewrite F. cbn [mbind].
    split; [exact F'|split; [exact I'|split; [congruence|]]]. intros x. split.
    + intros H. apply LV in H. destruct H as [H Q]. rewrite L1 in H. apply KEEP in H.
      intuition congruence.
    + intros [H Q]. apply LV. rewrite L1. split; [apply KEEP; intuition congruence|].
      intuition.
Qed.

Lemma NoDup_firstn {A} k (l : list A) : NoDup l -> NoDup (firstn k l).
Proof.
  intros H. rewrite <- (firstn_skipn k l) in H. revert H. generalize (firstn k l) as u.
  induction u; simpl; intros H; constructor; inversion H; subst.
  - rewrite in_app_iff in *. tauto.
  - auto.
Qed.
Lemma NoDup_skipn {A} k (l : list A) : NoDup l -> NoDup (skipn k l) /\
  forall x, In x (firstn k l) -> ~ In x (skipn k l).
Proof.
  intros H. rewrite <- (firstn_skipn k l) in H. revert H. generalize (firstn k l) as u.
  induction u; simpl; intros H; auto. inversion H; subst. destruct (IHu H3) as [A1 A2].
  split; auto. intros x [<-|Q] Q2; [|eapply A2; eauto]. apply H2. rewrite in_app_iff. auto.
Qed.
Lemma in_firstn {A} k (l : list A) x : In x (firstn k l) -> In x l.
Proof. intros H. rewrite <- (firstn_skipn k l). apply in_or_app; auto. Qed.
Lemma in_skipn {A} k (l : list A) x : In x (skipn k l) -> In x l.
Proof. intros H. rewrite <- (firstn_skipn k l). apply in_or_app; auto. Qed.

Lemma t_rewind_ok t k : tinv t ->
  exists t', tracker_rewind t k = MOk t' /\ tinv t' /\
    t_blocks t' = firstn k (t_blocks t) /\
    forall b, In b (m_live (t_mem t')) <->
              In b (m_live (t_mem t)) /\ ~ In (b_addr b) (skipn k (t_blocks t)).
Proof.
  intros T. unfold tracker_rewind.
  destruct (NoDup_skipn k _ (ti_nd t T)) as [SN SD].
  destruct (free_all_ok (rev (skipn k (t_blocks t))) (t_mem t) (ti_mem t T)) as (m' & F & I & LM & LV).
  - now apply NoDup_rev.
  - intros a H. apply in_rev in H. apply in_skipn in H. now apply (ti_in t T).
  - rewrite F. cbn [mbind]. eexists. split; [reflexivity|].
    assert (LV' : forall b, In b (m_live m') <-> In b (m_live (t_mem t)) /\ ~ In (b_addr b) (skipn k (t_blocks t))).
    { intros b. rewrite LV, <- in_rev. tauto. }
    split; [|split; [reflexivity|exact LV']].
    constructor; cbn [t_mem t_blocks t_max t_arr]; auto.
    + apply NoDup_firstn, (ti_nd t T).
    + intros a H. pose proof (ti_in t T a (in_firstn _ _ _ H)) as Q.
      apply in_map_iff in Q. destruct Q as (b & <- & Q). apply in_map. apply LV'. auto.
    + intros a H. destruct (ti_arr t T a H) as (NA & b & IB & EA & RQ). split.
      * intros Q. apply in_firstn in Q. auto.
      * exists b. repeat split; auto. apply LV'. split; auto. intros Q. apply in_skipn in Q. congruence.
    + pose proof (ti_len t T). rewrite firstn_length. lia.
    + apply (ti_none t T).
    + apply (ti_max t T).
Qed.

Lemma t_free_rest_ok t : tinv t ->
  exists t', free_rest t = MOk t' /\ tinv t' /\ t_blocks t' = [] /\ t_arr t' = None /\
    forall b, In b (m_live (t_mem t')) <-> In b (m_live (t_mem t)) /\
       ~ In (b_addr b) (t_blocks t) /\ t_arr t <> Some (b_addr b).
Proof.
  intros T. unfold free_rest.
  destruct (free_all_ok (t_blocks t) (t_mem t) (ti_mem t T) (ti_nd t T) (ti_in t T))
    as (m' & F & I & LM & LV).
  rewrite F. cbn [mbind]. destruct (t_arr t) as [a|] eqn:AR.
  - destruct (ti_arr t T a AR) as (NA & b & IB & EA & RQ).
    destruct (free_all_ok [a] m' I) as (m2 & F2 & I2 & LM2 & LV2).
    { repeat constructor. simpl. tauto. }
    { intros x [<-|[]]. rewrite <- EA. apply in_map. apply LV. split; auto. congruence. }
    simpl in F2. destruct (heap_free m' a) as [m3| |]; cbn [mbind] in F2; try discriminate.
    injection F2 as ->. cbn [mbind]. eexists. split; [reflexivity|].
    split; [|split; [reflexivity|split; [reflexivity|]]].
    + constructor; cbn [t_mem t_blocks t_max t_arr]; auto; try discriminate; try (simpl; lia);
        try (constructor); try (intros ? []).
    + intros x. cbn [t_mem]. rewrite LV2, LV. simpl. split.
      * intros ((A & B) & C). repeat split; auto. intros Q. injection Q as Q. apply C. auto.
      * intros (A & B & C). repeat split; auto. intros [Q|[]]. apply C. congruence.
  - cbn [mbind]. eexists. split; [reflexivity|].
    split; [|split; [reflexivity|split; [reflexivity|]]].
    + constructor; cbn [t_mem t_blocks t_max t_arr]; auto; try discriminate; try (simpl; lia);
        try (constructor); try (intros ? []).
    + intros x. cbn [t_mem]. rewrite LV. split; [intros [A B]|intros (A & B & C)]; repeat split; auto.
      discriminate.
Qed.

(** An operation on memory that is not tracked leaves the tracked blocks alone. *)
Lemma tinv_keep t m : tinv t -> minv m ->
  (forall b, In b (m_live (t_mem t)) -> (In (b_addr b) (t_blocks t) \/ t_arr t = Some (b_addr b)) ->
             In b (m_live m)) ->
  tinv (with_mem t m).
Proof.
  intros T I K. destruct T. constructor; unfold with_mem; cbn [t_mem t_blocks t_max t_arr]; auto.
  - intros a H. pose proof (ti_in0 a H) as Q. apply in_map_iff in Q.
    destruct Q as (b & <- & Q). apply in_map. auto.
  - intros a H. destruct (ti_arr0 a H) as (NA & b & IB & EA & RQ). split; auto.
    exists b. repeat split; auto. apply K; auto. right. congruence.
Qed.

Lemma step_ok t o : tinv t -> uses_ok t o ->
  match mstep avail t o with
  | MUB => False
  | MExit => True
  | MOk t' => tinv t'
  end.
Proof.
  intros T U. destruct o as [n|a|a n|n|id n|k| |n|n]; cbn [mstep uses_ok] in *.
  - pose proof (allocate_ok (t_mem t) n (ti_mem t T) U) as H.
    destruct (heap_allocate avail (t_mem t) n) as [[a m]| |]; auto.
    destruct H as (I & _ & _ & _ & w & z & L & _). cbn [mbind].
    apply tinv_keep; auto. intros b H _. rewrite L. now right.
  - destruct U as (IU & NB & NA).
    destruct (free_ok (t_mem t) a (ti_mem t T) IU) as (m & l1 & b & l2 & F & I & _ & L & E & L' & _).
    rewrite F. cbn [mbind]. apply tinv_keep; auto.
    intros x H K. rewrite L'. rewrite L in H. rewrite in_app_iff in *. simpl in H.
    destruct H as [?|[->|?]]; auto. subst a. destruct K; contradiction.
  - destruct U as ((IU & NB & NA) & S).
    pose proof (reallocate_ok (t_mem t) a n (ti_mem t T) S IU) as H.
    destruct (heap_reallocate avail (t_mem t) a n) as [[a' m]| |]; auto.
    destruct H as (I & _ & l1 & b & l2 & w & z & L & E & L' & _). cbn [mbind].
    apply tinv_keep; auto.
    intros x H K. rewrite L'. rewrite L in H. right. rewrite in_app_iff in *. simpl in H.
    destruct H as [?|[->|?]]; auto. subst a. destruct K; contradiction.
  - destruct U as (S & LN). pose proof (t_alloc_ok t n T S LN) as H.
    destruct (allocate_tracked avail t n) as [[a t']| |]; cbn [mbind]; tauto.
  - destruct U as (LT & S). pose proof (t_realloc_ok t id n T LT S) as H.
    destruct (reallocate_tracked avail t id n) as [[a t']| |]; cbn [mbind]; tauto.
  - destruct (t_rewind_ok t k T) as (t' & -> & H & _). auto.
  - destruct (t_free_rest_ok t T) as (t' & -> & H & _). auto.
  - destruct U as (U1 & U2). pose proof (init_ok (t_mem t) n (ti_mem t T) U1 U2) as H.
    destruct (pool_init (t_mem t) n) as [m| |]; cbn [mbind]; auto.
    destruct H as (I & L & _). apply tinv_keep; auto. intros b H _. now rewrite L.
  - apply tinv_keep; auto. destruct (ti_mem t T) as [I A]. split; auto.
    eapply pinv_same; [| | |exact I]; reflexivity.
Qed.

Lemma run_ok l : forall t, tinv t -> disciplined avail t l ->
  match mrun avail t l with
  | MUB => False
  | MExit => True
  | MOk t' => tinv t'
  end.
Proof.
  induction l as [|o l IH]; intros t T D; simpl; auto.
  destruct D as [U D]. pose proof (step_ok t o T U) as H.
  destruct (mstep avail t o) as [t'| |]; cbn [mbind]; auto.
  exact (IH t' H D).
Qed.

Lemma start_inv : tinv t_start.
Proof.
  constructor; unfold t_start; cbn [t_mem t_blocks t_max t_arr]; try (simpl; tauto);
    try discriminate; try (constructor); try (simpl; lia); auto.
  constructor; unfold mem_start, no_pools;
    cbn [m_pool m_live m_next p_on p_cap p_size p_cnt p_free]; try discriminate; auto;
    try (unfold POOL_MAX; lia); try (simpl; tauto); try (intros; constructor); try (simpl; lia).
Qed.

(** From the invariant to the layout. *)
Lemma minv_disjoint m : minv m -> disjoint_blocks m.
Proof.
  intros [I _] l1 b l2 b' l3 ar z L [A1 R1] [A2 R2].
  assert (IB : In b (m_live m)) by (rewrite L; apply in_or_app; right; now left).
  assert (IB' : In b' (m_live m)).
  { rewrite L. apply in_or_app; right; right. apply in_or_app; right; now left. }
  pose proof (pi_live m I b IB) as (_ & _ & B). pose proof (pi_live m I b' IB') as (_ & _ & B').
  assert (NE : b_addr b <> b_addr b').
  { pose proof (pi_nd m I) as ND. rewrite L, map_app in ND. simpl in ND.
    apply NoDup_remove_2 in ND. intros E. apply ND. rewrite E, map_app. simpl.
    rewrite !in_app_iff. simpl. auto. }
  destruct (b_addr b) as [c i|n] eqn:E1, (b_addr b') as [d j|n'] eqn:E2;
    simpl in A1, A2; subst ar; try discriminate.
  - injection A2 as ->. simpl in R1, R2. destruct B as (WB & _), B' as (WB' & _).
    rewrite WB in R1. rewrite WB' in R2. pose proof (psize_pos c). assert (i = j) by nia. congruence.
  - injection A2 as ->. congruence.
Qed.
Lemma minv_roomy m : minv m -> roomy_blocks m.
Proof.
  intros I b IB. pose proof (live_room m b I IB) as R. destruct I as [I _].
  pose proof (pi_live m I b IB) as (R0 & R1 & B). unfold area_size. repeat split; auto.
  - destruct (b_addr b) as [c i|]; simpl; try lia. pose proof (psize_pos c). nia.
  - destruct (b_addr b) as [c i|]; simpl in *; lia.
Qed.
Lemma minv_free_lists m : minv m -> sound_free_lists m.
Proof.
  intros I c a IN. destruct I as [I _]. destruct (pi_free m I c a IN) as (i & -> & B).
  exists i. pose proof (pi_cnt m I c) as C. pose proof (psize_pos c) as PP.
  repeat split; try lia.
  - destruct (p_on (m_pool m)) eqn:ON.
    + pose proof (pi_fit m I ON c). nia.
    + pose proof (pi_off m I ON c). lia.
  - intros b z IB [A R] Q. pose proof (pi_live m I b IB) as (_ & _ & L).
    destruct (b_addr b) as [d j|]; simpl in A; [|discriminate]. injection A as ->.
    destruct L as (W & _ & NF). simpl in R. rewrite W in R.
    assert (i = j) by nia. subst. auto.
Qed.

(** What a history guarantees. *)
Lemma history_inv l t : disciplined avail t_start l -> mrun avail t_start l = MOk t -> tinv t.
Proof. intros D E. pose proof (run_ok l t_start start_inv D) as H. rewrite E in H. exact H. Qed.

Lemma history_no_ub l : disciplined avail t_start l -> mrun avail t_start l <> MUB.
Proof. intros D E. pose proof (run_ok l t_start start_inv D) as H. rewrite E in H. exact H. Qed.

Lemma history_layout l t : disciplined avail t_start l -> mrun avail t_start l = MOk t ->
  disjoint_blocks (t_mem t) /\ roomy_blocks (t_mem t) /\ sound_free_lists (t_mem t).
Proof.
  intros D E. pose proof (ti_mem t (history_inv l t D E)) as I.
  split; [now apply minv_disjoint|split; [now apply minv_roomy|now apply minv_free_lists]].
Qed.

Lemma history_ledger l t : disciplined avail t_start l -> mrun avail t_start l = MOk t ->
  m_alloc (t_mem t) = total (m_live (t_mem t)) /\
  (m_alloc (t_mem t) = 0 <-> m_live (t_mem t) = []).
Proof.
  intros D E. destruct (ti_mem t (history_inv l t D E)) as [I A]. split; auto.
  rewrite A. split; [|intros ->; reflexivity].
  pose proof (pi_live _ I) as L. destruct (m_live (t_mem t)) as [|b r] eqn:EL; auto.
  cbn [total]. intros Q.
  assert (0 <= total r).
  { apply total_nonneg. intros x H. specialize (L x (or_intror H)). lia. }
  specialize (L b (or_introl eq_refl)). lia.
Qed.

Lemma history_limit l t n a m : disciplined avail t_start l -> mrun avail t_start l = MOk t ->
  size_ok n -> heap_allocate avail (t_mem t) n = MOk (a, m) -> m_alloc m <= m_limit m.
Proof.
  intros D E S H. pose proof (allocate_ok _ n (ti_mem t (history_inv l t D E)) S) as Q.
  rewrite H in Q. tauto.
Qed.

Lemma history_refuse l t n : disciplined avail t_start l -> mrun avail t_start l = MOk t ->
  size_ok n -> m_limit (t_mem t) < total (m_live (t_mem t)) + n + 8 ->
  heap_allocate avail (t_mem t) n = MExit.
Proof.
  intros D E S H. destruct (ti_mem t (history_inv l t D E)) as [I AL].
  unfold heap_allocate. destruct (bucket_w (m_pool (t_mem t)) n S) as [SB _]. cbv zeta in SB.
  set (size := wrap64 (pool_bucket (m_pool (t_mem t)) (wrap64 (n + 8)))) in *.
  pose proof (total_w _ I). unfold size_ok in S. cbn [with_alloc m_limit m_alloc].
  rewrite (wrap64_id (m_alloc (t_mem t) + size)) by lia.
  match goal with |- context[?x <? ?y] => destruct (x <? y) eqn:Q end; auto.
  apply Z.ltb_ge in Q. lia.
Qed.

Lemma history_alloc l t n a m : disciplined avail t_start l -> mrun avail t_start l = MOk t ->
  size_ok n -> heap_allocate avail (t_mem t) n = MOk (a, m) ->
  (forall b, In b (m_live (t_mem t)) -> b_addr b <> a) /\
  exists b, m_live m = b :: m_live (t_mem t) /\ b_addr b = a /\ b_req b = n.
Proof.
  intros D E S H. pose proof (allocate_ok _ n (ti_mem t (history_inv l t D E)) S) as Q.
  rewrite H in Q. destruct Q as (_ & _ & _ & NI & w & z & L & _). split.
  - intros b IB EB. apply NI. rewrite <- EB. now apply in_map.
  - eexists. split; [exact L|auto].
Qed.

Lemma history_realloc l t n a a' m : disciplined avail t_start l -> mrun avail t_start l = MOk t ->
  size_ok n -> in_use t a -> heap_reallocate avail (t_mem t) a n = MOk (a', m) ->
  exists l1 b l2 b', m_live (t_mem t) = l1 ++ b :: l2 /\ b_addr b = a /\
    m_live m = b' :: l1 ++ l2 /\ b_addr b' = a' /\ b_req b' = n /\ b_width b <= b_width b'.
Proof.
  intros D E S U H. pose proof (reallocate_ok _ a n (ti_mem t (history_inv l t D E)) S U) as Q.
  rewrite H in Q. destruct Q as (_ & _ & l1 & b & l2 & w & z & L & EB & L' & _ & W & _).
  exists l1, b, l2. eexists. do 2 (split; [eassumption|]). split; [exact L'|].
  cbn [b_addr b_req b_width]. auto.
Qed.

Lemma history_free l t a : disciplined avail t_start l -> mrun avail t_start l = MOk t ->
  in_use t a -> exists m l1 b l2, heap_free (t_mem t) a = MOk m /\
    m_live (t_mem t) = l1 ++ b :: l2 /\ b_addr b = a /\ m_live m = l1 ++ l2.
Proof.
  intros D E U. destruct (free_ok (t_mem t) a (ti_mem t (history_inv l t D E)) U)
    as (m & l1 & b & l2 & H). exists m, l1, b, l2. tauto.
Qed.

(** Zero-filling without the pool. *)
Definition is_pool_op (o : mop) : bool := match o with OPool _ => true | _ => false end.
Definition zinv (t : tmem) : Prop :=
  p_on (m_pool (t_mem t)) = false /\ forall b, In b (m_live (t_mem t)) -> b_zero b = true.

Definition mz (m : mem) : Prop :=
  p_on (m_pool m) = false /\ forall b, In b (m_live m) -> b_zero b = true.
Lemma mz_alloc m n a m' : mz m -> heap_allocate avail m n = MOk (a, m') -> mz m'.
Proof.
  intros [P Z0]. unfold heap_allocate, pool_alloc, sys_calloc. cbn [with_alloc m_pool m_next m_live m_limit m_alloc].
  rewrite P. cbn [negb].
  destruct (_ <? _); [discriminate|]. destruct (_ && _); [|discriminate].
  destruct (room _ _ _ <? 8); [discriminate|]. intros E. injection E as <- <-. split; auto.
  simpl. intros b [<-|H]; auto.
Qed.
Lemma mz_free m a m' : mz m -> heap_free m a = MOk m' -> mz m'.
Proof.
  intros [P Z0]. unfold heap_free. destruct (find_blk m a) as [b|]; [|discriminate].
  unfold pool_dealloc. rewrite P. cbn [negb]. destruct a; cbn [sys_free mbind]; [discriminate|].
  intros E. injection E as <-.
  assert (K : forall x, In x (filter (fun b0 => negb (addr_eqb (b_addr b0) (Sys n))) (m_live m)) -> b_zero x = true).
  { intros x H. apply filter_In in H. apply Z0. tauto. }
  destruct (_ <? _); split; auto.
Qed.
Lemma mz_realloc m a n a' m' : mz m -> heap_reallocate avail m a n = MOk (a', m') -> mz m'.
Proof.
  intros [P Z0]. unfold heap_reallocate. destruct (find_blk m a) as [b|] eqn:F; [|discriminate].
  apply find_blk_some in F. destruct F as [F _].
  assert (K : forall s x, In x (filter (fun b0 => negb (addr_eqb (b_addr b0) s)) (m_live m)) -> b_zero x = true).
  { intros s x H. apply filter_In in H. apply Z0. tauto. }
  destruct (_ <=? _).
  - intros E. injection E as <- <-. split; auto. simpl. intros x [<-|H]; eauto. simpl. auto.
  - unfold pool_alloc, sys_calloc. cbn [with_alloc m_pool m_next m_live m_limit m_alloc].
    rewrite P. cbn [negb]. destruct (_ && _); [|discriminate].
    destruct (room _ _ _ <? _); [discriminate|].
    unfold pool_dealloc. cbn [bump with_alloc m_pool]. rewrite P. cbn [negb].
    destruct a; cbn [sys_free mbind]; [discriminate|].
    intros E. injection E as <- <-. split; auto. simpl. intros x [<-|H]; eauto.
Qed.
Lemma mz_free_all l : forall m m', mz m -> free_all m l = MOk m' -> mz m'.
Proof.
  induction l as [|a l IH]; simpl; intros m m' Z0 E.
  - injection E as <-. auto.
  - destruct (heap_free m a) as [m1| |] eqn:F; cbn [mbind] in E; try discriminate.
    eapply IH; [|exact E]. eapply mz_free; eauto.
Qed.

Lemma mz_step t o t' : mz (t_mem t) -> is_pool_op o = false -> mstep avail t o = MOk t' -> mz (t_mem t').
Proof.
  intros Z0 NP E. destruct o as [n|a|a n|n|id n|k| |n|n]; cbn [mstep] in E; try discriminate NP.
  - destruct (heap_allocate avail (t_mem t) n) as [[a m]| |] eqn:F; cbn [mbind] in E; try discriminate.
    injection E as <-. eapply mz_alloc; eauto.
  - destruct (heap_free (t_mem t) a) as [m| |] eqn:F; cbn [mbind] in E; try discriminate.
    injection E as <-. eapply mz_free; eauto.
  - destruct (heap_reallocate avail (t_mem t) a n) as [[a' m]| |] eqn:F; cbn [mbind] in E; try discriminate.
    injection E as <-. eapply mz_realloc; eauto.
  - unfold allocate_tracked in E.
    destruct (heap_allocate avail (t_mem t) n) as [[a m]| |] eqn:F; cbn [mbind] in E; try discriminate.
    apply mz_alloc in F; auto.
    destruct (_ <=? _).
    + destruct (t_arr t) as [ar|].
      * destruct (heap_reallocate avail m ar _) as [[a2 m2]| |] eqn:F2; cbn [mbind] in E; try discriminate.
        apply mz_realloc in F2; auto. destruct (entry_ok _ _ _); cbn [mbind] in E; [|discriminate].
        injection E as <-. auto.
      * destruct (heap_allocate avail m 16) as [[a2 m2]| |] eqn:F2; cbn [mbind] in E; try discriminate.
        apply mz_alloc in F2; auto. destruct (entry_ok _ _ _); cbn [mbind] in E; [|discriminate].
        injection E as <-. auto.
    + cbn [mbind] in E. destruct (entry_ok _ _ _); cbn [mbind] in E; [|discriminate].
      injection E as <-. auto.
  - unfold reallocate_tracked in E. destruct (nth_error (t_blocks t) id) as [sp|]; [|discriminate].
    destruct (heap_reallocate avail (t_mem t) sp n) as [[a' m]| |] eqn:F; cbn [mbind] in E; try discriminate.
    injection E as <-. eapply mz_realloc; eauto.
  - unfold tracker_rewind in E. destruct (free_all _ _) as [m| |] eqn:F; cbn [mbind] in E; try discriminate.
    injection E as <-. eapply mz_free_all; eauto.
  - unfold free_rest in E. destruct (free_all _ _) as [m| |] eqn:F; cbn [mbind] in E; try discriminate.
    apply mz_free_all in F; auto. destruct (t_arr t).
    + destruct (heap_free m a) as [m2| |] eqn:F2; cbn [mbind] in E; try discriminate.
      injection E as <-. eapply mz_free; eauto.
    + cbn [mbind] in E. injection E as <-. auto.
  - cbn in E. injection E as <-. exact Z0.
Qed.

Lemma history_zero l t : existsb is_pool_op l = false -> mrun avail t_start l = MOk t ->
  forall b, In b (m_live (t_mem t)) -> b_zero b = true.
Proof.
  assert (G : forall l t0, mz (t_mem t0) -> existsb is_pool_op l = false -> mrun avail t0 l = MOk t ->
              mz (t_mem t)).
  { induction l0 as [|o l0 IH]; simpl; intros t0 Z0 NP E.
    - injection E as <-. auto.
    - apply orb_false_iff in NP. destruct NP as [NP1 NP2].
      destruct (mstep avail t0 o) as [t1| |] eqn:F; cbn [mbind] in E; try discriminate.
      eapply IH; [|auto|exact E]. eapply mz_step; eauto. }
  intros NP E. apply (G l t_start) in E; auto; [exact (proj2 E)|].
  split; [reflexivity|simpl; tauto].
Qed.

(** Releasing tracked memory. *)
Lemma history_rewind l t k : disciplined avail t_start l -> mrun avail t_start l = MOk t ->
  exists t', tracker_rewind t k = MOk t' /\ t_blocks t' = firstn k (t_blocks t) /\
    forall b, In b (m_live (t_mem t')) <->
              In b (m_live (t_mem t)) /\ ~ In (b_addr b) (skipn k (t_blocks t)).
Proof.
  intros D E. destruct (t_rewind_ok t k (history_inv l t D E)) as (t' & A & _ & B). eauto.
Qed.
Lemma history_free_rest l t : disciplined avail t_start l -> mrun avail t_start l = MOk t ->
  exists t', free_rest t = MOk t' /\ t_blocks t' = [] /\
    (forall b, In b (m_live (t_mem t')) <->
              In b (m_live (t_mem t)) /\ ~ In (b_addr b) (t_blocks t) /\ t_arr t <> Some (b_addr b)) /\
    ((forall a, in_use t a -> ~ own t a) -> m_alloc (t_mem t') = 0).
Proof.
  intros D E. destruct (t_free_rest_ok t (history_inv l t D E)) as (t' & A & I & B & C & L).
  exists t'. do 3 (split; [assumption|]). intros N.
  assert (Z0 : m_live (t_mem t') = []).
  { destruct (m_live (t_mem t')) as [|b r] eqn:EL; auto. exfalso.
    destruct (proj1 (L b) (or_introl eq_refl)) as (P1 & P2 & P3).
    assert (U : in_use t (b_addr b)) by (apply in_map; auto).
    apply (N _ U). unfold own. auto. }
  destruct (ti_mem t' I) as [_ AL]. rewrite AL, Z0. reflexivity.
Qed.

Lemma reuse_pod m c i fr n : p_on (m_pool m) = true ->
  p_free (m_pool m) c = Pod c i :: fr -> p_cnt (m_pool m) c < p_cap (m_pool m) c ->
  psize c / 2 < n + 8 <= psize c \/ (c = Sp /\ 0 <= n <= 24) -> 0 <= m_alloc m ->
  m_alloc m + psize c <= m_limit m -> m_limit m < W64 -> 0 <= i ->
  (i + 1) * psize c <= p_size (m_pool m) ->
  exists m', heap_allocate avail m n = MOk (Pod c i, m').
Proof.
  intros ON F C N A0 A1 LW I0 I1.
  assert (B : wrap64 (pool_bucket (m_pool m) (wrap64 (n + 8))) = psize c).
  { assert (NR : 0 <= n + 8 < W64).
    { assert (0 <= psize c / 2) by (destruct c; vm_compute; discriminate).
      pose proof (psize_pos c). unfold W64. destruct N as [N|[-> N]]; lia. }
    rewrite (wrap64_id (n + 8)) by lia. apply Z.ltb_lt in C. unfold pool_bucket.
    destruct N as [N|[-> N]].
    - destruct c; simpl psize in *; change (32 / 2) with 16 in *; change (64 / 2) with 32 in *;
        change (128 / 2) with 64 in *.
      + replace (0 <? n + 8) with true by (symmetry; apply Z.ltb_lt; lia).
        replace (n + 8 <=? 32) with true by (symmetry; apply Z.leb_le; lia).
        rewrite C. reflexivity.
      + replace (n + 8 <=? 32) with false by (symmetry; apply Z.leb_gt; lia).
        rewrite andb_false_r. cbn [andb].
        replace (32 <? n + 8) with true by (symmetry; apply Z.ltb_lt; lia).
        replace (n + 8 <=? 64) with true by (symmetry; apply Z.leb_le; lia).
        rewrite C. reflexivity.
      + replace (n + 8 <=? 32) with false by (symmetry; apply Z.leb_gt; lia).
        rewrite andb_false_r. cbn [andb].
        replace (n + 8 <=? 64) with false by (symmetry; apply Z.leb_gt; lia).
        rewrite andb_false_r. cbn [andb].
        replace (64 <? n + 8) with true by (symmetry; apply Z.ltb_lt; lia).
        replace (n + 8 <=? 128) with true by (symmetry; apply Z.leb_le; lia).
        rewrite C. reflexivity.
    - replace (0 <? n + 8) with true by (symmetry; apply Z.ltb_lt; lia).
      replace (n + 8 <=? 32) with true by (symmetry; apply Z.leb_le; lia).
      rewrite C. reflexivity. }
  unfold heap_allocate. rewrite B. pose proof (psize_pos c).
  cbn [with_alloc m_limit m_alloc]. rewrite (wrap64_id (m_alloc m + psize c)) by lia.
  destruct (m_limit m <? m_alloc m + psize c) eqn:Q; [apply Z.ltb_lt in Q; lia|].
  unfold pool_alloc. cbn [with_alloc m_pool]. rewrite ON, cls_of_psize, F. cbn [negb].
  cbn [with_pool m_pool room p_size].
  destruct (Z.min (psize c) (p_size (m_pool m) - i * psize c) <? 8) eqn:Q8;
    [apply Z.ltb_lt in Q8; nia|].
  eexists. reflexivity.
Qed.

End Steps.

(** A decision procedure for the contract, used for the concrete histories. *)
Definition size_okb (n : Z) : bool := (0 <=? n) && (n <? BIG).
Definition ownb (t : tmem) (a : addr) : bool :=
  existsb (fun b => addr_eqb (b_addr b) a) (m_live (t_mem t)) &&
  negb (existsb (addr_eqb a) (t_blocks t)) &&
  match t_arr t with None => true | Some x => negb (addr_eqb x a) end.
Definition uses_okb (t : tmem) (o : mop) : bool :=
  match o with
  | OAlloc n => size_okb n
  | OFree a => ownb t a
  | ORealloc a n => ownb t a && size_okb n
  | OTAlloc n => size_okb n && (Z.of_nat (length (t_blocks t)) <? 100000000)
  | OTRealloc id n => (id <? length (t_blocks t))%nat && size_okb n
  | OTRewind _ => true
  | OTFreeRest => true
  | OPool n => ((n <? 300) || (384 <=? n)) && (0 <=? n)
  | OLimit n => (0 <=? n) && (n <? W64)
  end.
Fixpoint disciplinedb (avail : N -> bool) (t : tmem) (l : list mop) : bool :=
  match l with
  | [] => true
  | o :: r => uses_okb t o &&
              match mstep avail t o with MOk t' => disciplinedb avail t' r | _ => true end
  end.

Lemma size_okb_sound n : size_okb n = true -> size_ok n.
Proof. unfold size_okb, size_ok. rewrite andb_true_iff, Z.leb_le, Z.ltb_lt. tauto. Qed.
Lemma ownb_sound t a : ownb t a = true -> own t a.
Proof.
  unfold ownb, own, in_use. rewrite !andb_true_iff. intros ((A & B) & C). repeat split.
  - apply existsb_exists in A. destruct A as (b & I & E). apply addr_eqb_eq in E.
    rewrite <- E. now apply in_map.
  - intros H. apply negb_true_iff in B.
    assert (existsb (addr_eqb a) (t_blocks t) = true); [|congruence].
    apply existsb_exists. exists a. split; auto. apply addr_eqb_refl.
  - intros H. rewrite H, addr_eqb_refl in C. discriminate.
Qed.
Lemma uses_okb_sound t o : uses_okb t o = true -> uses_ok t o.
Proof.
  destruct o; simpl; auto using size_okb_sound, ownb_sound.
  - rewrite andb_true_iff. intros [A B]. auto using size_okb_sound, ownb_sound.
  - rewrite andb_true_iff, Z.ltb_lt. intros [A B]. auto using size_okb_sound.
  - rewrite andb_true_iff. intros [A B]. apply Nat.ltb_lt in A. auto using size_okb_sound.
  - rewrite andb_true_iff, orb_true_iff, Z.ltb_lt, !Z.leb_le. tauto.
  - rewrite andb_true_iff, Z.leb_le, Z.ltb_lt. tauto.
Qed.
Lemma disciplinedb_sound avail l : forall t, disciplinedb avail t l = true -> disciplined avail t l.
Proof.
  induction l as [|o l IH]; simpl; auto. intros t. rewrite andb_true_iff. intros [A B]. split.
  - now apply uses_okb_sound.
  - destruct (mstep avail t o); auto.
Qed.
