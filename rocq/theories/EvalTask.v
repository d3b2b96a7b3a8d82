(** Proofs about the evaluator: tasks, methods, loops, truth values and errors. *)
From Coq Require Import Lia.
From Verif Require Import Common TextModel TextProofs NumModel LexModel ParseModel EvalModel EvalSpec EvalParse EvalProofs EvalMono EvalFlow.
From Verif Require FloatSpec NumSpec NumProofs NumFacts.
Open Scope nat_scope.

Lemma replace_last h o o' : replace (h ++ [o]) (length h) o' = h ++ [o'].
Proof. induction h as [|x h IH]; cbn; [reflexivity|now rewrite IH]. Qed.
Definition scope (t : list (text * addr)) := mkObj VObj t [] null false false.
Definition in_scope s (t : list (text * addr)) := with_ctxs (with_heap s (heap s ++ [scope t])) (length (heap s) :: ctxs s).
Lemma local_eq s t k x : flow s = null -> 0 < length (heap s) -> assign_local k x (in_scope s t) = Done x (in_scope s (set_prop t k x)).
Proof.
  intros F L. unfold assign_local, bind, get. cbn [flow in_scope with_ctxs with_heap]. rewrite F. cbn [Nat.eqb negb].
  cbn [ctxs in_scope with_ctxs]. unfold set_property, change, bind, deref. cbn [heap in_scope with_ctxs with_heap].
  destruct (length (heap s)) as [|l] eqn:E; [lia|]. rewrite <- E. rewrite nth_error_app2 by lia. rewrite Nat.sub_diag. cbn [nth_error].
  unfold put. cbn [heap in_scope with_ctxs with_heap]. rewrite replace_last. reflexivity.
Qed.
Fixpoint params (ps : list text) (args : list addr) (t : list (text * addr)) : list (text * addr) :=
  match ps, args with
  | p :: ps, a :: args => params ps args (if a =? null then t else set_prop t p a)
  | _, _ => t
  end.
Lemma bind_params_eq s : flow s = null -> 0 < length (heap s) -> forall ps args t,
  bind_params ps args (in_scope s t) = Done tt (in_scope s (params ps args t)).
Proof.
  intros F L. induction ps as [|p ps IH]; intros args t; [now destruct args|]. destruct args as [|a args]; [reflexivity|].
  cbn [bind_params params]. destruct (a =? null).
  - unfold bind at 1, ret. apply IH.
  - unfold bind at 1. unfold bind at 1. rewrite local_eq by auto. cbn [ret]. apply IH.
Qed.
Definition table (w : words) ps args my b :=
  let t := params ps args [] in
  let t := if my =? null then t else set_prop (set_prop t (w_me w) my) (w_my w) my in
  set_prop t (w_task w) b.
Lemma set_same t k x : binds (set_prop t k x) k x. Proof. apply binds_cons. auto. Qed.
Lemma set_other t k x k' v : k' <> k -> (binds (set_prop t k x) k' v <-> binds t k' v).
Proof.
  intros NE. unfold set_prop. rewrite binds_cons, del_binds by auto. split; [intros [(? & _)|(_ & ?)]; [congruence|auto]|auto].
Qed.
Lemma set_inv t k x k' v : binds (set_prop t k x) k' v -> (k' = k /\ v = x) \/ (k' <> k /\ binds t k' v).
Proof.
  destruct (teq_dec k' k) as [->|NE]; [|intros B; right; split; auto; now apply set_other in B].
  intros B. left. split; auto. eapply binds_fun; [exact B|apply set_same].
Qed.
Lemma params_keep ps : forall args t k v, ~ In k ps -> (binds (params ps args t) k v <-> binds t k v).
Proof.
  induction ps as [|p ps IH]; intros args t k v N; [now destruct args|]. destruct args as [|a args]; [reflexivity|]. cbn [params].
  cbn in N. rewrite IH by tauto. destruct (a =? null); [reflexivity|]. apply set_other. intros ->. tauto.
Qed.
Lemma params_bound ps : forall args t i p a, nth_error ps i = Some p -> nth_error args i = Some a -> a <> null ->
  ~ In p (skipn (S i) ps) -> binds (params ps args t) p a.
Proof.
  induction ps as [|q ps IH]; intros args t i p a E1 E2 NZ N; [now destruct i|]. destruct args as [|b args]; [now destruct i|].
  cbn [params]. destruct i as [|i]; cbn in E1, E2.
  - injection E1 as ->. injection E2 as ->. apply Nat.eqb_neq in NZ. rewrite NZ. rewrite params_keep by exact N. apply set_same.
  - eapply IH; eauto.
Qed.
Lemma params_inv ps : forall args t k v, binds (params ps args t) k v ->
  binds t k v \/ exists i, nth_error ps i = Some k /\ nth_error args i = Some v.
Proof.
  induction ps as [|q ps IH]; intros args t k v B; [destruct args; auto|]. destruct args as [|b args]; [auto|]. cbn [params] in B.
  apply IH in B. destruct B as [B|(i & E1 & E2)]; [|right; now exists (S i)].
  destruct (b =? null); [auto|]. apply set_inv in B. destruct B as [(-> & ->)|(_ & B)]; [right; now exists 0|auto].
Qed.
Lemma table_initial w ps args my b : initial w ps args my b (table w ps args my b).
Proof.
  unfold initial, table. cbv zeta. split; [apply set_same|]. split; [|split; [|split]].
  - intros NZ N1 N2. apply set_other; [congruence|]. apply Nat.eqb_neq in NZ. rewrite NZ. apply set_other; [congruence|]. apply set_same.
  - intros NZ N1. apply set_other; [congruence|]. apply Nat.eqb_neq in NZ. rewrite NZ. apply set_same.
  - intros i p a E1 E2 NZ N H1 H2 H3. apply set_other; auto. destruct (my =? null); [|apply set_other; auto; apply set_other; auto];
    eapply params_bound; eauto.
  - intros k v B. apply set_inv in B. destruct B as [(-> & ->)|(_ & B)]; auto. right.
    assert (G : binds (params ps args []) k v -> exists i, nth_error ps i = Some k /\ nth_error args i = Some v).
    { intros B'. apply params_inv in B'. destruct B' as [B'|B']; auto. now apply binds_nil in B'. }
    destruct (Nat.eqb_spec my null) as [Z|NZ]; [right; auto|]. apply set_inv in B. destruct B as [(-> & ->)|(_ & B)]; [left; auto|].
    apply set_inv in B. destruct B as [(-> & ->)|(_ & B)]; [left; auto|right; auto].
Qed.

Section Task.
Variable d : dict.
Variable w : words.
Variable sandbox : bool.
Variable ext : native -> calls -> addr -> list addr -> M addr.
Local Notation send := (send d w sandbox ext).
Local Notation block_run := (block_run d w sandbox ext).
Local Notation run := (run d w sandbox ext).
Local Notation eval := (eval d w sandbox ext).

(** The part of a task after its scope has been made *)
Definition finish (n : nat) (b my : addr) (x : option addr) : M addr :=
  let x := match x with Some (S x) => S x | _ => if my =? null then b else my end in
  close_context;;
  let! s := get in
  if failed s then
    let! o := deref b in
    match find_prop (o_props o) CATCH with
    | None => ret x
    | Some h =>
        let! e := cast2text w (mkCalls (send n) (block_run n) (eval n)) (flow s) in
        put (fun s => with_flow s null);;
        put (fun s => with_errs (with_cs s (Z.to_N ((Z.of_N (cs s) - errs s) mod 256)) (csw s)) 0%Z);;
        block_run n h [e] null;;
        ret b
    end
  else ret x.
Lemma enter_eq n b args my s ps body : task_code s b ps body -> flow s = null -> 0 < length (heap s) -> length (ctxs s) < 300 ->
  block_run (S n) b args my s = bind (run n body) (finish n b my) (in_scope s (table w ps args my b)).
Proof.
  intros (o & O & V) F L LC. rewrite block_run_S. unfold code_of. unfold bind at 1. rewrite (bind_eq _ _ _ _ _ _ _ (proj2 (deref_at s b o) O)).
  rewrite V. cbn [ret]. 
  assert (OC : open_context w s = Done tt (in_scope s [])).
  { unfold open_context, bind, get. assert ((300 <=? length (ctxs s)) = false) as -> by (apply Nat.leb_gt; lia). cbn [ret].
    unfold create. cbn [ctxs with_heap]. assert ((MAX_CTX <=? length (ctxs s)) = false) as -> by (apply Nat.leb_gt; change MAX_CTX with 301; lia).
    reflexivity. }
  rewrite (bind_eq _ _ _ _ _ _ _ OC). rewrite (bind_eq _ _ _ _ _ _ _ (bind_params_eq s F L _ _ _)).
  unfold table, finish. destruct (my =? null).
  - unfold bind at 1, ret at 1. rewrite (bind_eq _ _ _ _ _ _ _ (local_eq s _ _ _ F L)). reflexivity.
  - unfold bind at 1. unfold bind at 1. rewrite local_eq by auto. unfold bind at 1. rewrite local_eq by auto. cbn [ret].
    rewrite (bind_eq _ _ _ _ _ _ _ (local_eq s _ _ _ F L)). reflexivity.
Qed.

Hypothesis Hext : forall p, tame (ext p).
Lemma trivially : steady sandbox (fun _ => True). Proof. now split. Qed.
Lemma good_gd s : good s -> gd (fun _ => True) s. Proof. now split. Qed.
Lemma good_scope s t : good s -> flow s = null -> length (ctxs s) < 300 -> good (in_scope s t).
Proof.
  intros [H1 H2 H3 H4 H5 (H6 & H7)] F L. split; cbn; auto; rewrite ?app_length; cbn; try lia.
  - apply wf_code_app; auto. discriminate.
  - split.
    + constructor; auto. intros I. rewrite Forall_forall in H7. apply H7 in I. lia.
    + constructor; [lia|]. eapply Forall_impl; [|exact H7]. cbn. intros. lia.
Qed.
Lemma done_after A (m : M A) s a s' Q : m s = Done a s' -> after (fun _ => True) (m s) Q -> Q a s'.
Proof. now intros ->. Qed.
Definition result (x : option addr) (my b : addr) := match x with Some (S x) => S x | _ => if my =? null then b else my end.
Lemma send_pending n r k args s x s' : flow s <> null -> send n r k args s = Done x s' -> x = a_nil /\ s' = s.
Proof.
  intros F H. destruct n; [discriminate|]. rewrite send_S in H. destruct (r =? null); [discriminate|].
  unfold bind, get in H. apply Nat.eqb_neq in F. rewrite F in H. now injection H as <- <-.
Qed.
(** A task that comes to an end. *)
Lemma task_ends n b args my s ps body r s' : good s -> flow s = null -> length (ctxs s) < 300 -> task_code s b ps body ->
  block_run (S n) b args my s = Done r s' -> exists x s1,
  run n body (in_scope s (table w ps args my b)) = Done x s1 /\ ctxs s1 = length (heap s) :: ctxs s /\
  let s2 := with_ctxs s1 (ctxs s) in
  (~ is_error s2 -> s' = s2 /\ r = result x my b) /\
  (is_error s2 -> (forall h, ~ handler s2 b h) -> s' = s2) /\
  (forall h, is_error s2 -> handler s2 b h -> r = b /\ exists e s3 y,
     block_run n h [e] null s3 = Done y s' /\ flow s3 = null /\ errs s3 = 0%Z /\
     ctxs s3 = ctxs s /\ mstack s3 = mstack s2 /\ log s3 = log s2 /\ recur s3 = recur s2 /\
     (forall o t, object_at s2 (flow s2) o -> o_val o = VText t -> e = flow s2 /\ heap s3 = heap s2) /\
     (forall o on, object_at s2 (flow s2) o -> is_text (o_val o) = false -> object_at s2 a_nil on -> is_text (o_val on) = false ->
        exists o', object_at s3 e o' /\ o_val o' = VText [63%N])).
Proof.
  intros G F L TC H. rewrite (enter_eq n b args my s ps body TC F ltac:(pose proof (g_std _ G); lia) L) in H.
  apply bind_done in H. destruct H as (x & s1 & R & H). exists x, s1. split; auto.
  assert (B : Forall wf_node body).
  { destruct TC as (o & (NZ & O) & V). eapply (g_code _ G); eauto. }
  pose proof (good_scope s (table w ps args my b) G F L) as GS.
  pose proof (done_after _ _ _ _ _ _ R (proj2 (proj2 (proj2 (proj2 (proj2 (proj2 (proj2 (bb_frame d w sandbox ext _ trivially Hext n))))))) body _ B (good_gd _ GS))) as FB.
  pose proof (f_ctxs _ _ _ _ FB) as CE. cbn in CE. split; auto. cbv zeta.
  unfold finish in H. cbv zeta in H. fold (result x my b) in H. unfold close_context, put in H. unfold bind at 1 in H.
  assert (E0 : (match ctxs s1 with _ :: c :: r => with_ctxs s1 (c :: r) | _ => s1 end) = with_ctxs s1 (ctxs s)).
  { rewrite CE. destruct (ctxs s) eqn:E; auto. destruct G. rewrite E in g_ctx. cbn in g_ctx. lia. }
  rewrite E0 in H. set (s2 := with_ctxs s1 (ctxs s)) in *. unfold bind at 1, get in H.
  assert (FE : failed s2 = true <-> is_error s2).
  { unfold failed, is_error. rewrite !Bool.andb_true_iff, !Bool.negb_true_iff, !Nat.eqb_neq. tauto. }
  split; [|split].
  - intros NE. destruct (failed s2); [exfalso; apply NE; now apply FE|]. injection H as <- <-. auto.
  - intros IE NH. rewrite (proj2 FE IE) in H. apply bind_done in H. destruct H as (o & s3 & D & H). apply deref_state in D. destruct D as (-> & O).
    destruct (find_prop (o_props o) CATCH) as [h|] eqn:E; [|injection H as <- <-; auto]. exfalso. apply (NH h). exists o. apply find_binds in E. tauto.
  - intros h IE (o & O & BH & NZ). rewrite (proj2 FE IE) in H. rewrite (bind_eq _ _ _ _ _ _ _ (proj2 (deref_at s2 b o) O)) in H.
    rewrite (proj2 (find_binds _ _ _) (conj BH NZ)) in H. apply bind_done in H. destruct H as (e & s3 & T & H).
    unfold bind at 1 in H. unfold bind at 1 in H. cbn [put] in H. apply bind_done in H. destruct H as (y & s4 & RH & H). injection H as <- <-.
    split; auto. exists e. eexists. exists y. split; [exact RH|]. split; [reflexivity|]. split; [reflexivity|].
    cbn [ctxs mstack log recur heap with_errs with_cs with_flow].
    unfold cast2text in T. apply bind_done in T. destruct T as (oe & s5 & D & T). apply deref_state in D. destruct D as (-> & OE).
    destruct (is_text (o_val oe)) eqn:IT.
    + injection T as <- <-. repeat split; auto. intros o0 on O0 IT0. rewrite (object_fun _ _ _ _ O0 OE) in IT0. congruence.
    + apply bind_done in T. destruct T as (q & s6 & SQ & T). cbn [c_send] in SQ.
      destruct (send_pending n _ _ _ _ _ _ (proj1 IE) SQ) as (-> & ->).
      apply bind_done in T. destruct T as (on & s7 & D & T). apply deref_state in D. destruct D as (-> & ON).
      assert (NT : forall o0 t, object_at s2 (flow s2) o0 -> o_val o0 = VText t -> False).
      { intros o0 t O0 V0. rewrite (object_fun _ _ _ _ O0 OE) in V0. rewrite V0 in IT. discriminate. }
      destruct (is_text (o_val on)) eqn:IN.
      * injection T as <- <-. repeat split; auto; try (exfalso; eapply NT; eauto; fail).
        intros o0 on0 _ _ ON0 IN0. rewrite (object_fun _ _ _ _ ON0 ON) in IN0. congruence.
      * cbn in T. injection T as <- <-. cbn. repeat split; auto; try (exfalso; eapply NT; eauto; fail).
        intros _ _ _ _ _ _. eexists. split; [split|].
        -- cbn. rewrite app_length. cbn. lia.
        -- cbn [heap with_errs with_cs with_flow with_heap]. rewrite nth_error_app2 by lia. rewrite Nat.sub_diag. reflexivity.
        -- reflexivity.
Qed.

(** ** Too many scopes *)
Lemma pending_params ps : forall args s, flow s <> null -> bind_params ps args s = Done tt s.
Proof.
  induction ps as [|p ps IH]; intros args s F; [now destruct args|]. destruct args as [|a args]; [reflexivity|]. cbn [bind_params].
  destruct (a =? null); unfold bind at 1.
  - cbn [ret]. now apply IH.
  - unfold bind at 1. unfold assign_local, bind at 1, get. apply Nat.eqb_neq in F as F'. rewrite F'. cbn [negb ret]. now apply IH.
Qed.
Lemma pending_local k x s : flow s <> null -> assign_local k x s = Done a_nil s.
Proof. intros F. unfold assign_local, bind, get. apply Nat.eqb_neq in F. now rewrite F. Qed.
Lemma too_deep n b args my s ps body r s' : good s -> flow s = null -> length (ctxs s) = 300 -> task_code s b ps body ->
  (forall h, ~ handler s b h) -> block_run (S n) b args my s = Done r s' ->
  (exists o, object_at s' (flow s') o /\ o_val o = VText (e_nesting w)) /\ length (heap s) <= flow s' /\
  (forall a, a < length (heap s) -> nth_error (heap s') a = nth_error (heap s) a) /\
  ctxs s' = ctxs s /\ mstack s' = mstack s /\ natives (log s') = natives (log s).
Proof.
  intros G F L TC NH H. pose proof TC as (o & O & V). rewrite block_run_S in H. unfold code_of in H. unfold bind at 1 in H.
  rewrite (bind_eq _ _ _ _ _ _ _ (proj2 (deref_at s b o) O)) in H. rewrite V in H. cbn [ret] in H.
  set (sc := [mkObj (VText (e_nesting w)) [] [] a_string false false; scope []]).
  set (s0 := with_ctxs (with_errs (with_flow (with_heap s (heap s ++ sc)) (length (heap s))) 0%Z) (length (heap s) + 1 :: ctxs s)).
  assert (OC : open_context w s = Done tt s0).
  { unfold open_context, bind, get. rewrite L. cbn [Nat.leb]. change (300 <=? 300) with true. cbn [ret]. unfold error, build_text, create, bind, put.
    cbn [ctxs with_heap with_errs with_flow heap]. rewrite L. change (MAX_CTX <=? 300) with false. cbv iota.
    rewrite app_length. cbn [length]. unfold s0, sc, with_ctxs, with_errs, with_flow, with_heap. cbn [heap flow ctxs mstack recur cs csw errs inmsg restricted steps log].
    rewrite <- app_assoc. reflexivity. }
  rewrite (bind_eq _ _ _ _ _ _ _ OC) in H. pose proof (g_std _ G) as G13.
  assert (F0 : flow s0 <> null) by (cbn; lia).
  rewrite (bind_eq _ _ _ _ _ _ _ (pending_params ps args s0 F0)) in H.
  assert (ME : (if my =? null then ret tt else assign_local (w_me w) my;; assign_local (w_my w) my;; ret tt) s0 = Done tt s0).
  { destruct (my =? null); [reflexivity|]. rewrite (bind_eq _ _ _ _ _ _ _ (pending_local _ _ s0 F0)).
    now rewrite (bind_eq _ _ _ _ _ _ _ (pending_local _ _ s0 F0)). }
  rewrite (bind_eq _ _ _ _ _ _ _ ME), (bind_eq _ _ _ _ _ _ _ (pending_local _ _ s0 F0)) in H.
  apply bind_done in H. destruct H as (x & s1 & R & H).
  assert (B : Forall wf_node body) by (destruct O as (NZ & O); eapply (g_code _ G); eauto).
  pose proof (done_after _ _ _ _ _ _ R (proj2 (proj2 (proj2 (proj2 (proj2 (quiet d w sandbox ext n))))) body s0 B F0)) as Q.
  destruct Q as [(new & Q1) Q2 Q3 Q4 Q5 Q6 Q7 Q8 Q9 _]. cbn in Q1, Q2, Q3, Q4, Q9.
  cbv zeta in H. unfold close_context, put in H. unfold bind at 1 in H.
  assert (E0 : (match ctxs s1 with _ :: c :: r => with_ctxs s1 (c :: r) | _ => s1 end) = with_ctxs s1 (ctxs s)).
  { rewrite Q3. destruct (ctxs s) eqn:E; auto. discriminate. }
  rewrite E0 in H. unfold bind at 1, get in H.
  assert (FE : failed (with_ctxs s1 (ctxs s)) = true).
  { unfold failed. cbn [flow with_ctxs]. rewrite Q2. rewrite !Bool.andb_true_iff, !Bool.negb_true_iff, !Nat.eqb_neq. unfold a_break, a_continue. lia. }
  rewrite FE in H. assert (OLD : forall a, a < length (heap s) -> nth_error (heap s1) a = nth_error (heap s) a).
  { intros a La. rewrite Q1. rewrite <- app_assoc. now rewrite nth_error_app1. }
  assert (O1 : object_at (with_ctxs s1 (ctxs s)) b o).
  { destruct O as (NZ & O). split; auto. cbn [heap with_ctxs]. rewrite OLD; auto. apply nth_error_Some. congruence. }
  rewrite (bind_eq _ _ _ _ _ _ _ (proj2 (deref_at _ b o) O1)) in H.
  assert (find_prop (o_props o) CATCH = None) as FP.
  { destruct (find_prop (o_props o) CATCH) as [h|] eqn:E; auto. exfalso. apply (NH h). exists o. apply find_binds in E. tauto. }
  rewrite FP in H. injection H as <- <-. cbn [flow ctxs heap mstack log with_ctxs]. rewrite Q2.
  split; [|repeat split; auto].
  exists (mkObj (VText (e_nesting w)) [] [] a_string false false). split; [split; [lia|]|reflexivity]. cbn [heap with_ctxs].
  rewrite Q1, <- app_assoc, nth_error_app2 by lia. rewrite Nat.sub_diag. reflexivity.
Qed.

(** ** Messages *)
Lemma used_reused s m : reused s m (used s (Some m)).
Proof.
  unfold reused, used. destruct (existsb _ _) eqn:E; [left|right]; split; auto; [now apply running_in|]. intros I. apply running_in in I. congruence.
Qed.
Lemma send_method n r k args s m x s' : flow s = null -> nearest s r k r (Some m) -> send (S n) r k args s = Done x s' ->
  exists s1 om y s2 ro, reused s m s1 /\ object_at s m om /\
  match o_val om with
  | VBlock _ =>
      if o_self om then exists s3, block_run n m args r (with_mstack s1 (m :: mstack s)) = Done y s3 /\ s2 = with_mstack s3 (tl (mstack s3))
      else block_run n m args null s1 = Done y s2
  | VNat p => if restricted s && negb (data_method p) then y = a_nil /\ s2 = s1
              else call_native d w ext n (mkCalls (send n) (block_run n) (eval n)) p r args (with_log s1 (ENative p :: log s)) = Done y s2
  | _ => y = a_nil /\ s2 = s1
  end /\ s' = s2 /\ object_at s' r ro /\ x = (if o_chain ro then r else y).
Proof.
  intros F NR H. rewrite send_S in H. destruct (r =? null); [discriminate|]. unfold bind at 1, get in H. rewrite calmed in H by auto.
  apply bind_done in H. destruct H as (m' & s1 & LK & H). apply lookup_sound in LK. destruct LK as (NR' & ->).
  assert (m' = Some m) as -> by (eapply nearest_fun; eauto). apply bind_done in H. destruct H as (y & s2 & H1 & H).
  apply bind_done in H. destruct H as (ro & s3 & D & H). apply deref_state in D. destruct D as (-> & RO). injection H as <- <-.
  apply bind_done in H1. destruct H1 as (om & s4 & D & H1). apply deref_state in D. destruct D as (-> & OM).
  pose proof (used_reused s m) as US. assert (SAME : heap (used s (Some m)) = heap s /\ restricted (used s (Some m)) = restricted s /\
    log (used s (Some m)) = log s /\ mstack (used s (Some m)) = mstack s).
  { unfold used. destruct (existsb _ _); auto. } destruct SAME as (SH & SR & SL & SM).
  exists (used s (Some m)), om, y, s2, ro. split; auto. split; [unfold object_at in *; now rewrite SH in OM|]. split; [|auto].
  destruct (o_val om); try (injection H1 as <- <-; auto; fail).
  - destruct (o_self om); [|exact H1]. unfold bind at 1, get in H1. destruct (_ <=? _); [discriminate|]. unfold bind at 1, put in H1.
    apply bind_done in H1. destruct H1 as (y' & s5 & BR & H1). rewrite SM in BR. cbn in H1. injection H1 as <- <-. eauto.
  - unfold bind at 1, get in H1. rewrite SR in H1. destruct (restricted s && _); [injection H1 as <- <-; auto|].
    unfold bind, note, put in H1. now rewrite SL in H1.
Qed.
Lemma send_unknown n r k args s x s' : flow s = null -> nearest s r k r None -> send (S n) r k args s = Done x s' ->
  exists y ro, send n r (respond_word w args) (length (heap s) :: args)
    (with_heap s (heap s ++ [mkObj (VText k) [] [] a_string false false])) = Done y s' /\
  object_at s' r ro /\ x = (if o_chain ro then r else y).
Proof.
  intros F NR H. rewrite send_S in H. destruct (r =? null); [discriminate|]. unfold bind at 1, get in H. rewrite calmed in H by auto.
  apply bind_done in H. destruct H as (m' & s1 & LK & H). apply lookup_sound in LK. destruct LK as (NR' & ->).
  assert (m' = None) as -> by (eapply nearest_fun; eauto). apply bind_done in H. destruct H as (y & s2 & H1 & H).
  apply bind_done in H. destruct H as (ro & s3 & D & H). apply deref_state in D. destruct D as (-> & RO). injection H as <- <-. eauto.
Qed.
End Task.

(** ** Loops *)
Section Loops.
Variable C : calls.
Variable w : words.
Lemma unbroken_consume s s' : consume a_break s = Done tt s' <-> unbroken s s'.
Proof.
  unfold consume, put, unbroken. destruct (Nat.eqb_spec (flow s) a_break); split.
  - intros [= <-]. auto. - intros [(_ & ->)|(? & _)]; congruence.
  - intros [= <-]. auto. - intros [(? & _)|(_ & ->)]; congruence.
Qed.
Lemma with_flow_id s : with_flow s (flow s) = s. Proof. now destruct s. Qed.
Lemma rounds_counted block : forall n i k s s', rounds n C block i k s = Done tt s' -> counted (round C block) (i + Z.of_nat k) (i + 1) s s'.
Proof.
  induction n as [|n IH]; intros i k s s' H; [discriminate|]. cbn [rounds] in H. destruct k as [|k].
  - injection H as <-. apply co_end. lia.
  - unfold build_number, create in H. unfold bind at 1 in H. apply bind_done in H. destruct H as (y & s1 & R & H).
    unfold consume, put in H. unfold bind at 1 in H. unfold bind at 1, get in H.
    assert (RD : round C block (i + 1) s s1) by (exists y; exact R).
    destruct (Nat.eqb_spec (flow s1) a_continue) as [E|E].
    + cbn in H. apply IH in H. eapply co_next; eauto; [lia|]. now replace (i + Z.of_nat (S k))%Z with (i + 1 + Z.of_nat k)%Z by lia.
    + destruct (Nat.eqb_spec (flow s1) null) as [Z|Z]; cbn in H.
      * apply IH in H. eapply co_next; eauto; [lia|]. rewrite <- Z, with_flow_id. now replace (i + Z.of_nat (S k))%Z with (i + 1 + Z.of_nat k)%Z by lia.
      * injection H as <-. apply co_leave; auto. lia.
Qed.
Lemma counted_rounds block N : forall j s s', counted (round C block) N j s s' -> forall i k, j = (i + 1)%Z -> (i + Z.of_nat k = N)%Z ->
  exists n, forall n', n <= n' -> rounds n' C block i k s = Done tt s'.
Proof.
  induction 1 as [j s L|j s s1 s' L (y & R) FL _ IH|j s s1 L (y & R) F1 F2]; intros i k -> EN.
  - exists 1. intros [|n'] Ln; [lia|]. assert (k = 0) by lia. subst k. reflexivity.
  - destruct k as [|k]; [lia|]. destruct (IH (i + 1)%Z k eq_refl ltac:(lia)) as (n & Hn). exists (S n). intros [|n'] Ln; [lia|].
    cbn [rounds]. unfold build_number, create. unfold bind at 1. rewrite (bind_eq _ _ _ _ _ _ _ R). unfold consume, put. unfold bind at 1. unfold bind at 1, get.
    specialize (Hn n' ltac:(lia)). destruct FL as [Z|Z]; rewrite Z; cbn; [rewrite Z; cbn; rewrite <- Z, with_flow_id in Hn|]; exact Hn.
  - destruct k as [|k]; [lia|]. exists 1. intros [|n'] Ln; [lia|].
    cbn [rounds]. unfold build_number, create. unfold bind at 1. rewrite (bind_eq _ _ _ _ _ _ _ R). unfold consume, put. unfold bind at 1. unfold bind at 1, get.
    apply Nat.eqb_neq in F1, F2. rewrite F2. rewrite F1. reflexivity.
Qed.
Lemma counted_none body N j s s' : (N < j)%Z -> counted body N j s s' -> s' = s.
Proof. intros L H. inversion H; subst; auto; lia. Qed.
Lemma times_counted n self a rest s r s'' o x t : object_at s a o -> o_val o = VNum x -> c_int x = Ok t ->
  block_times w n C self (a :: rest) s = Done r s'' ->
  r = self /\ exists s', counted (round C self) t 1 s s' /\ unbroken s' s''.
Proof.
  intros O V I H. unfold block_times, arg in H. unfold bind at 1, ret in H. unfold cast2number in H. unfold bind at 1 in H.
  rewrite (bind_eq _ _ _ _ _ _ _ (proj2 (deref_at s a o) O)) in H. rewrite V in H. cbn [is_num ret] in H.
  unfold nvalue in H. unfold bind at 1 in H. rewrite (bind_eq _ _ _ _ _ _ _ (proj2 (deref_at s a o) O)) in H. rewrite V in H. cbn [ret] in H.
  rewrite I in H. apply bind_done in H. destruct H as ([] & s' & R & H). apply bind_done in H. destruct H as ([] & s3 & B & H).
  injection H as <- <-. apply unbroken_consume in B. split; auto. exists s'. split; auto. apply rounds_counted in R.
  cbn [Z.add] in R. destruct (Z.le_gt_cases 0 t) as [P|P]; [now rewrite Z2Nat.id in R by auto|].
  replace (Z.to_nat t) with 0 in R by lia. apply counted_none in R; [|cbn; lia]. subst. apply co_end. lia.
Qed.
Lemma counted_times self a rest s s' s'' o x t : object_at s a o -> o_val o = VNum x -> c_int x = Ok t ->
  counted (round C self) t 1 s s' -> unbroken s' s'' -> exists n, forall n', n <= n' -> block_times w n' C self (a :: rest) s = Done self s''.
Proof.
  intros O V I H U. assert (R : exists n, forall n', n <= n' -> rounds n' C self 0 (Z.to_nat t) s = Done tt s').
  { destruct (Z.le_gt_cases 0 t) as [P|P]; [eapply counted_rounds; eauto; lia|].
    apply counted_none in H; [|lia]. subst. exists 1. intros [|n'] L; [lia|]. now replace (Z.to_nat t) with 0 by lia. }
  destruct R as (n & R). exists n. intros n' L. specialize (R n' L).
  unfold block_times, arg. unfold bind at 1, ret. unfold cast2number. unfold bind at 1.
  rewrite (bind_eq _ _ _ _ _ _ _ (proj2 (deref_at s a o) O)). rewrite V. cbn [is_num ret].
  unfold nvalue. unfold bind at 1. rewrite (bind_eq _ _ _ _ _ _ _ (proj2 (deref_at s a o) O)). rewrite V. cbn [ret].
  rewrite I. rewrite (bind_eq _ _ _ _ _ _ _ R). apply unbroken_consume in U. now rewrite (bind_eq _ _ _ _ _ _ _ U).
Qed.

Lemma cast2bool_truth a s b s1 : (exists x, cast2bool w C a s = Done x s1 /\ bvalue x s1 = Done b s1) <-> truth w C a s b s1.
Proof.
  split.
  - intros (x & H & B). unfold cast2bool in H. apply bind_done in H. destruct H as (o & s0 & D & H). apply deref_state in D. destruct D as (-> & O).
    unfold bvalue in B. apply bind_done in B. destruct B as (o1 & s2 & D1 & B). apply deref_state in D1. destruct D1 as (-> & O1).
    destruct (o_val o1) eqn:V1; try discriminate. injection B as ->.
    destruct (is_bool (o_val o)) eqn:IB.
    + injection H as <- <-. pose proof (object_fun _ _ _ _ O O1) as ->. eapply tr_own; eauto.
    + apply bind_done in H. destruct H as (r & s0 & S1 & H). apply bind_done in H. destruct H as (o2 & s2 & D2 & H). apply deref_state in D2. destruct D2 as (-> & O2).
      destruct (is_bool (o_val o2)) eqn:IB2.
      * injection H as <- <-. eapply tr_asked; eauto.
      * cbn in H. injection H as <- <-. eapply tr_none; eauto.
  - intros H. destruct H as [s o b O V|s o r s1 o1 b O IB S1 O1 V|s o r s1 o1 o2 b O IB S1 O1 IB1 s2 O2 V].
    + exists a. unfold cast2bool. rewrite (bind_eq _ _ _ _ _ _ _ (proj2 (deref_at s a o) O)). rewrite V. split; [reflexivity|].
      unfold bvalue. rewrite (bind_eq _ _ _ _ _ _ _ (proj2 (deref_at s a o) O)). now rewrite V.
    + exists r. unfold cast2bool. rewrite (bind_eq _ _ _ _ _ _ _ (proj2 (deref_at s a o) O)). rewrite IB. rewrite (bind_eq _ _ _ _ _ _ _ S1).
      rewrite (bind_eq _ _ _ _ _ _ _ (proj2 (deref_at s1 r o1) O1)). rewrite V. split; [reflexivity|].
      unfold bvalue. rewrite (bind_eq _ _ _ _ _ _ _ (proj2 (deref_at s1 r o1) O1)). now rewrite V.
    + exists a_false. unfold cast2bool. rewrite (bind_eq _ _ _ _ _ _ _ (proj2 (deref_at s a o) O)). rewrite IB. rewrite (bind_eq _ _ _ _ _ _ _ S1).
      rewrite (bind_eq _ _ _ _ _ _ _ (proj2 (deref_at s1 r o1) O1)). rewrite IB1. split; [reflexivity|].
      unfold bvalue. rewrite (bind_eq _ _ _ _ _ _ _ (proj2 (deref_at s2 a_false o2) O2)). now rewrite V.
Qed.
Lemma while_repeated self cond args : forall n s s', while_loop w n C self cond args s = Done tt s' ->
  repeated (tested C w cond args) (ran C self args) s s'.
Proof.
  induction n as [|n IH]; intros s s' H; [discriminate|]. cbn [while_loop] in H. unfold bind at 1, get in H.
  destruct (Nat.eqb_spec (flow s) null) as [Z|Z]; cbn [negb] in H; [|injection H as <-; now apply re_pending].
  apply bind_done in H. destruct H as (r & s0 & R & H). apply bind_done in H. destruct H as (x & s1 & CB & H).
  apply bind_done in H. destruct H as (v & s2 & BV & H).
  assert (s2 = s1) as ->.
  { unfold bvalue in BV. apply bind_done in BV. destruct BV as (o & s3 & D & BV). apply deref_state in D. destruct D as (-> & O).
    destruct (o_val o); try discriminate. now injection BV. }
  assert (T : tested C w cond args s v s1) by (exists r, s0; split; auto; apply cast2bool_truth; eauto).
  unfold bind at 1, get in H. destruct v; cbn [negb orb] in H.
  - destruct (Nat.eqb_spec (flow s1) null) as [Z1|Z1]; cbn [negb] in H; [|injection H as <-; now apply re_error].
    apply bind_done in H. destruct H as (y & s2 & R2 & H). unfold consume, put in H. unfold bind at 1 in H. apply IH in H.
    eapply re_next; eauto. exists y. exact R2.
  - injection H as <-. now apply re_false.
Qed.
Lemma repeated_while self cond args s s' : repeated (tested C w cond args) (ran C self args) s s' ->
  exists n, forall n', n <= n' -> while_loop w n' C self cond args s = Done tt s'.
Proof.
  induction 1 as [s NZ|s s1 Z (r & s0 & R & T)|s s1 Z (r & s0 & R & T) NZ|s s1 s2 s' Z (r & s0 & R & T) Z1 (y & R2) _ (n & IH)].
  - exists 1. intros [|n'] L; [lia|]. cbn [while_loop]. unfold bind at 1, get. apply Nat.eqb_neq in NZ. now rewrite NZ.
  - exists 1. intros [|n'] L; [lia|]. cbn [while_loop]. unfold bind at 1, get. rewrite Z. cbn [negb Nat.eqb].
    apply cast2bool_truth in T. destruct T as (x & E1 & E2).
    rewrite (bind_eq _ _ _ _ _ _ _ R), (bind_eq _ _ _ _ _ _ _ E1), (bind_eq _ _ _ _ _ _ _ E2). reflexivity.
  - exists 1. intros [|n'] L; [lia|]. cbn [while_loop]. unfold bind at 1, get. rewrite Z. cbn [negb Nat.eqb].
    apply cast2bool_truth in T. destruct T as (x & E1 & E2).
    rewrite (bind_eq _ _ _ _ _ _ _ R), (bind_eq _ _ _ _ _ _ _ E1), (bind_eq _ _ _ _ _ _ _ E2). unfold bind, get. apply Nat.eqb_neq in NZ. now rewrite NZ.
  - exists (S n). intros [|n'] L; [lia|]. cbn [while_loop]. unfold bind at 1, get. rewrite Z. cbn [negb Nat.eqb].
    apply cast2bool_truth in T. destruct T as (x & E1 & E2).
    rewrite (bind_eq _ _ _ _ _ _ _ R), (bind_eq _ _ _ _ _ _ _ E1), (bind_eq _ _ _ _ _ _ _ E2). unfold bind at 1, get. rewrite Z1. cbn [negb orb Nat.eqb].
    rewrite (bind_eq _ _ _ _ _ _ _ R2). unfold consume, put. unfold bind at 1. apply IH. lia.
Qed.
Lemma block_while_repeated n self cond rest s r s'' o : object_at s cond o -> is_block (o_val o) = true ->
  block_while w n C self (cond :: rest) s = Done r s'' ->
  r = self /\ exists s', repeated (tested C w cond (cond :: rest)) (ran C self (cond :: rest)) s s' /\ unbroken s' s''.
Proof.
  intros O IB H. unfold block_while, arg in H. unfold bind at 1, ret in H. rewrite (bind_eq _ _ _ _ _ _ _ (proj2 (deref_at s cond o) O)) in H.
  rewrite IB in H. unfold bind at 1 in H. apply bind_done in H. destruct H as ([] & s' & R & H).
  apply bind_done in H. destruct H as ([] & s3 & B & H). injection H as <- <-. apply unbroken_consume in B.
  split; auto. exists s'. split; auto. eapply while_repeated; eauto.
Qed.
Lemma repeated_block_while self cond rest s s' s'' o : object_at s cond o -> is_block (o_val o) = true ->
  repeated (tested C w cond (cond :: rest)) (ran C self (cond :: rest)) s s' -> unbroken s' s'' ->
  exists n, forall n', n <= n' -> block_while w n' C self (cond :: rest) s = Done self s''.
Proof.
  intros O IB R U. apply repeated_while in R. destruct R as (n & R). exists n. intros n' L. specialize (R n' L).
  unfold block_while, arg. unfold bind at 1, ret. rewrite (bind_eq _ _ _ _ _ _ _ (proj2 (deref_at s cond o) O)).
  rewrite IB. unfold bind at 1. rewrite (bind_eq _ _ _ _ _ _ _ R). apply unbroken_consume in U. now rewrite (bind_eq _ _ _ _ _ _ _ U).
Qed.

(** ** Truth values *)
Lemma bool_op_table f self a rest s b s1 os x : truth w C a s b s1 -> object_at s1 self os -> o_val os = VBool x ->
  bool_op w C f self (a :: rest) s = Done (if f x b then a_true else a_false) s1.
Proof.
  intros T O V. apply cast2bool_truth in T. destruct T as (y & E1 & E2). unfold bool_op, arg. unfold bind at 1, ret.
  rewrite (bind_eq _ _ _ _ _ _ _ E1), (bind_eq _ _ _ _ _ _ _ E2). unfold bvalue. unfold bind at 1.
  rewrite (bind_eq _ _ _ _ _ _ _ (proj2 (deref_at s1 self os) O)). now rewrite V.
Qed.
End Loops.

Lemma bool_tables d w ext n C self a rest s b s1 os x :
  truth w C a s b s1 -> object_at s1 self os -> o_val os = VBool x ->
  let call p := call_native d w ext n C p self (a :: rest) s in
  let answer (b : bool) := if b then a_true else a_false in
  call NAnd = Done (answer (match x, b with true, true => true | _, _ => false end)) s1 /\
  call NOr = Done (answer (match x, b with false, false => false | _, _ => true end)) s1 /\
  call NNor = Done (answer (match x, b with false, false => true | _, _ => false end)) s1 /\
  call NBoolEq = Done (answer (match x, b with true, true | false, false => true | _, _ => false end)) s1 /\
  call NBoolNeq = Done (answer (match x, b with true, false | false, true => true | _, _ => false end)) s1.
Proof.
  intros T O V. cbv zeta. cbn [call_native]. rewrite !(fun f => bool_op_table C w f self a rest s b s1 os x T O V).
  now destruct x, b.
Qed.
Lemma bool_single d w ext n C self s os x a b rest args :
  object_at s self os -> o_val os = VBool x ->
  let answer (b : bool) := if b then a_true else a_false in
  call_native d w ext n C NNot self args s = Done (answer (match x with true => false | false => true end)) s /\
  call_native d w ext n C NEither self (a :: b :: rest) s = Done (match x with true => a | false => b end) s.
Proof.
  intros O V. cbv zeta. cbn [call_native]. unfold bvalue. unfold bind. rewrite (proj2 (deref_at s self os) O), V. cbn. now destruct x.
Qed.
Lemma times_sound w C n self a rest s r s2 o x t :
  object_at s a o -> o_val o = VNum x -> FloatSpec.finite x -> NumSpec.is_trunc (FloatSpec.SF2Q x) t -> NumProofs.int_range t ->
  block_times w n C self (a :: rest) s = Done r s2 ->
  r = self /\ exists s1, counted (round C self) t 1 s s1 /\ unbroken s1 s2.
Proof. intros O V F T R. eapply times_counted; eauto. now apply NumFacts.c_int_trunc. Qed.
Lemma times_complete w C self a rest s s1 s2 o x t :
  object_at s a o -> o_val o = VNum x -> FloatSpec.finite x -> NumSpec.is_trunc (FloatSpec.SF2Q x) t -> NumProofs.int_range t ->
  counted (round C self) t 1 s s1 -> unbroken s1 s2 ->
  exists n, forall m, n <= m -> block_times w m C self (a :: rest) s = Done self s2.
Proof. intros O V F T R. eapply counted_times; eauto. now apply NumFacts.c_int_trunc. Qed.
Lemma task_runs d w sandbox ext (Hext : forall p, tame (ext p)) n b args my s ps body r s' :
  good s -> flow s = null -> length (ctxs s) < 300 -> task_code s b ps body ->
  block_run d w sandbox ext (S n) b args my s = Done r s' ->
  exists vars x s1, initial w ps args my b vars /\
  run d w sandbox ext n body (in_scope s vars) = Done x s1 /\ ctxs s1 = length (heap s) :: ctxs s /\
  let s2 := with_ctxs s1 (ctxs s) in
  (~ is_error s2 -> s' = s2 /\ r = result x my b) /\
  (is_error s2 -> (forall h, ~ handler s2 b h) -> s' = s2) /\
  (forall h, is_error s2 -> handler s2 b h -> r = b /\ exists e s3 y,
     block_run d w sandbox ext n h [e] null s3 = Done y s' /\ flow s3 = null /\ errs s3 = 0%Z /\
     ctxs s3 = ctxs s /\ mstack s3 = mstack s2 /\ log s3 = log s2 /\ recur s3 = recur s2 /\
     (forall o t, object_at s2 (flow s2) o -> o_val o = VText t -> e = flow s2 /\ heap s3 = heap s2) /\
     (forall o on, object_at s2 (flow s2) o -> is_text (o_val o) = false -> object_at s2 a_nil on -> is_text (o_val on) = false ->
        exists o', object_at s3 e o' /\ o_val o' = VText [63%N])).
Proof.
  intros G F L TC H. destruct (task_ends d w sandbox ext Hext n b args my s ps body r s' G F L TC H) as (x & s1 & K).
  exists (table w ps args my b), x, s1. split; [apply table_initial|exact K].
Qed.
Lemma send_other d w sandbox ext n r k args s x s' :
  flow s = null -> nearest s r k r None -> send d w sandbox ext (S n) r k args s = Done x s' ->
  exists y ro, send d w sandbox ext n r
    (match length args - 1 with 1 => w_respond1 w | 2 => w_respond2 w | 3 => w_respond3 w | _ => w_respond w end)
    (length (heap s) :: args)
    (with_heap s (heap s ++ [mkObj (VText k) [] [] a_string false false])) = Done y s' /\
  object_at s' r ro /\ x = (if o_chain ro then r else y).
Proof.
  intros F NR H. destruct (send_unknown d w sandbox ext n r k args s x s' F NR H) as (y & ro & S1 & K). exists y, ro. split; auto.
  replace (match length args - 1 with 1 => w_respond1 w | 2 => w_respond2 w | 3 => w_respond3 w | _ => w_respond w end)
    with (respond_word w args); auto. unfold respond_word. now destruct (length args - 1) as [|[|[|[|[|]]]]].
Qed.
Lemma send_unique d w sandbox ext : monotone ext -> forall n m r k args s x s' y s'',
  send d w sandbox ext n r k args s = Done x s' -> send d w sandbox ext m r k args s = Done y s'' -> x = y /\ s' = s''.
Proof.
  intros ME. assert (X : forall n m r k args s x s' y s'', n <= m ->
    send d w sandbox ext n r k args s = Done x s' -> send d w sandbox ext m r k args s = Done y s'' -> x = y /\ s' = s'').
  { intros n m r k args s x s' y s'' L H1 H2.
    destruct (mono_all d w sandbox ext ME n m L) as (_ & _ & _ & _ & _ & MS & _). specialize (MS r k args s). rewrite H1, H2 in MS.
    cbn in MS. now injection MS. }
  intros n m r k args s x s' y s'' H1 H2. destruct (Nat.le_ge_cases n m) as [L|L]; [eauto|].
  destruct (X _ _ _ _ _ _ _ _ _ _ L H2 H1). auto.
Qed.
