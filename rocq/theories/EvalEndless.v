(** A program that the limit of steps does not end. *)
From Coq Require Import String Lia.
From Verif Require Import Common TextModel TextProofs NumModel LexModel ParseModel EvalModel EvalSpec EvalParse EvalProofs EvalMono EvalFlow EvalTask EvalWorld Txt Dicts.
Open Scope nat_scope.
Open Scope list_scope.

Definition spins {A} (r : res A) : Prop := exists s, r = Fuel s.
Lemma spins_bind A B (m : M A) (f : A -> M B) s : spins (m s) -> spins (bind m f s).
Proof. intros (s' & E). exists s'. unfold bind. now rewrite E. Qed.
Lemma spins_done A B (m : M A) (f : A -> M B) s a s1 : m s = Done a s1 -> spins (f a s1) -> spins (bind m f s).
Proof. intros E H. now rewrite (bind_eq _ _ _ _ _ _ _ E). Qed.

Section Endless.
Variable d : dict.
Variable w : words.
Variable ext : native -> calls -> addr -> list addr -> M addr.
Hypothesis Hext : forall p, tame (ext p).
Hypothesis Hmono : monotone ext.
Variable sandbox : bool.
Local Notation eval := (eval d w sandbox ext).
Local Notation message := (message d w sandbox ext).
Local Notation chain := (chain d w sandbox ext).
Local Notation arguments := (arguments d w sandbox ext).
Local Notation send := (send d w sandbox ext).
Local Notation block_run := (block_run d w sandbox ext).
Local Notation run := (run d w sandbox ext).

(** [s] comes from [s0] by the making of objects *)
Record grown (s0 s : state) : Prop := mkGrown {
  gr_heap : exists new, heap s = heap s0 ++ new;
  gr_flow : flow s = flow s0; gr_ctxs : ctxs s = ctxs s0; gr_mstack : mstack s = mstack s0; gr_restricted : restricted s = restricted s0
}.
Lemma grown_refl s : grown s s. Proof. split; auto. exists []. now rewrite app_nil_r. Qed.
Lemma grown_trans s0 s s' : grown s0 s -> grown s s' -> grown s0 s'.
Proof. intros [(n & E) ? ? ? ?] [(n' & E') ? ? ? ?]. split; try congruence. exists (n ++ n'). rewrite E', E. now rewrite app_assoc. Qed.
Lemma grown_at s0 s a o : grown s0 s -> object_at s0 a o -> object_at s a o.
Proof.
  intros G (NZ & O). split; auto. destruct G as [(n & E) _ _ _ _]. rewrite E. rewrite nth_error_app1; auto. apply nth_error_Some. congruence.
Qed.

(** the run of a task without statements *)
Lemma empty_run n b args s ps : task_code s b ps [] -> flow s = null -> 0 < List.length (heap s) -> List.length (ctxs s) < 300 -> ctxs s <> [] ->
  spins (block_run n b args null s) \/ exists s', block_run n b args null s = Done b s' /\ grown s s'.
Proof.
  intros T F L LC NE. destruct n as [|n]; [left; now exists s|]. rewrite (enter_eq d w sandbox ext n b args null s ps [] T F L LC).
  destruct n as [|n]; [left; eexists; reflexivity|]. right. rewrite run_S. unfold bind at 1. cbn [ret]. unfold finish. cbv zeta.
  unfold close_context, put. unfold bind at 1. cbn [in_scope with_ctxs ctxs]. destruct (ctxs s) as [|c r] eqn:E; [congruence|].
  unfold bind at 1, get. unfold failed. change (flow (with_ctxs (in_scope s (table w ps args 0 b)) (c :: r))) with (flow s). rewrite F. cbn [negb andb Nat.eqb ret].
  eexists. split; [reflexivity|]. split; cbn; auto. eexists. reflexivity.
Qed.

Variable s0 : state.
Variables self cond m : addr.
Variables ps qs : list text.
Variables om : obj.
Hypothesis S_flow : flow s0 = null.
Hypothesis S_ctxs : List.length (ctxs s0) < 300 /\ ctxs s0 <> [].
Hypothesis S_restricted : restricted s0 = false.
Hypothesis S_mstack : mstack s0 = [].
Hypothesis S_heap : 0 < List.length (heap s0).
Hypothesis S_self : task_code s0 self ps [].
Hypothesis S_cond : exists o, object_at s0 cond o /\ o_val o = VBlock (Some (qs, [])) /\ o_link o = a_block /\ o_meths o = [] /\ o_chain o = false.
Hypothesis S_block : exists o, object_at s0 a_block o /\ o_link o = a_object /\ forall v, ~ binds (o_meths o) (w_bool w) v.
Hypothesis S_object : exists o, object_at s0 a_object o /\ binds (o_meths o) (w_bool w) m.
Hypothesis S_method : object_at s0 m om /\ o_val om = VNat NObjBool.
Hypothesis S_true : exists o, object_at s0 a_true o /\ o_val o = VBool true.

Lemma asked_nearest s : grown s0 s -> nearest s cond (w_bool w) cond (Some m).
Proof.
  intros G. destruct S_cond as (oc & OC & _ & LC & MC & _), S_block as (ob & OB & LB & MB), S_object as (oo & OO & MO), S_method as (OM & _).
  apply (grown_at s0 s _ _ G) in OC, OB, OO, OM.
  apply (near_up _ _ _ _ oc); auto; [| |rewrite LC].
  - intros x (o & O & B & _). rewrite (object_fun _ _ _ _ O OC), MC in B. now apply binds_nil in B.
  - rewrite LC. discriminate.
  - apply (near_up _ _ _ _ ob); auto; [| |rewrite LB].
    + intros x (o & O & B & _). rewrite (object_fun _ _ _ _ O OB) in B. now apply MB in B.
    + rewrite LB. discriminate.
    + apply near_here. exists oo. split; auto. split; auto. split; [apply OM|]. left. rewrite (gr_mstack _ _ G), S_mstack. intros [].
Qed.
Lemma asked n s : grown s0 s -> spins (send n cond (w_bool w) [a_nil] s) \/
  exists s', send n cond (w_bool w) [a_nil] s = Done a_true s' /\ grown s s'.
Proof.
  intros G. destruct n as [|n]; [left; now exists s|]. rewrite send_S.
  destruct S_cond as (oc & OC & _ & _ & _ & CH). apply (grown_at s0 s _ _ G) in OC. pose proof OC as (NZ & _). apply Nat.eqb_neq in NZ. rewrite NZ.
  pose proof (gr_flow _ _ G) as FS. rewrite S_flow in FS.
  destruct (lookup_complete s cond (w_bool w) cond (Some m) (asked_nearest s G)) as (k & K).
  assert (LK : spins (lookup n cond cond (w_bool w) s) \/ lookup n cond cond (w_bool w) s = Done (Some m) (used s (Some m))).
  { pose proof (mono_lookup n (Nat.max n k) cond cond (w_bool w) (Nat.le_max_l _ _) s) as X. rewrite (K (Nat.max n k)) in X by lia.
    unfold le_res in X. destruct (lookup n cond cond (w_bool w) s); auto. left. eexists. reflexivity. }
  destruct LK as [LK|LK].
  { left. unfold bind at 1, get. rewrite FS. cbn [negb Nat.eqb]. now apply spins_bind. }
  right. exists (with_log s (ENative NObjBool :: log s)). split; [|split; auto; exists []; now rewrite app_nil_r].
  unfold bind at 1, get. rewrite FS. cbn [negb Nat.eqb]. rewrite (bind_eq _ _ _ _ _ _ _ LK).
  assert (U : used s (Some m) = s).
  { unfold used. now rewrite (gr_mstack _ _ G), S_mstack. } rewrite U.
  destruct S_method as (OM & VM). apply (grown_at s0 s _ _ G) in OM. unfold bind at 1. rewrite (bind_eq _ _ _ _ _ _ _ (proj2 (deref_at s m om) OM)).
  rewrite VM. unfold bind at 1, get. rewrite (gr_restricted _ _ G), S_restricted. cbn [andb].
  unfold note, put. unfold bind at 1. cbn [call_native ret].
  set (s1 := with_log s (ENative NObjBool :: log s)).
  assert (O1 : object_at s1 cond oc) by exact OC.
  rewrite (bind_eq _ _ _ _ _ _ _ (proj2 (deref_at s1 cond oc) O1)). now rewrite CH.
Qed.
Lemma endless_loop n k args : forall s, grown s0 s ->
  spins (while_loop w k (mkCalls (send n) (block_run n) (eval n)) self cond args s).
Proof.
  induction k as [|k IH]; intros s G; [now exists s|]. cbn [while_loop]. unfold bind at 1, get. rewrite (gr_flow _ _ G), S_flow. cbn [negb Nat.eqb].
  assert (RUN : forall b xs s1, grown s0 s1 -> task_code s0 b xs [] ->
    spins (block_run n b args null s1) \/ exists s', block_run n b args null s1 = Done b s' /\ grown s1 s').
  { intros b xs s1 G1 (o & O & V). apply (empty_run n b args s1 xs).
    - exists o. split; auto. now apply (grown_at s0).
    - now rewrite (gr_flow _ _ G1). - destruct (gr_heap _ _ G1) as (new & ->). rewrite app_length. lia.
    - now rewrite (gr_ctxs _ _ G1). - now rewrite (gr_ctxs _ _ G1). }
  assert (TC : task_code s0 cond qs []) by (destruct S_cond as (o & O & V & _); exists o; auto).
  cbn [c_run]. destruct (RUN cond qs s G TC) as [X|(s1 & E1 & G1)]; [now apply spins_bind|]. rewrite (bind_eq _ _ _ _ _ _ _ E1).
  pose proof (grown_trans _ _ _ G G1) as G01. destruct S_cond as (oc & OC & VC & _ & _ & _). pose proof (grown_at _ _ _ _ G01 OC) as OC1.
  unfold cast2bool. unfold bind at 1. rewrite (bind_eq _ _ _ _ _ _ _ (proj2 (deref_at s1 cond oc) OC1)). rewrite VC. cbn [is_bool c_send].
  destruct (asked n s1 G01) as [X|(s2 & E2 & G2)].
  { destruct X as (s' & X). exists s'. unfold bind at 1. now rewrite X. }
  pose proof (grown_trans _ _ _ G01 G2) as G02. destruct S_true as (ot & OT & VT). pose proof (grown_at _ _ _ _ G02 OT) as OT2.
  rewrite (bind_eq _ _ _ _ _ _ _ E2). rewrite (bind_eq _ _ _ _ _ _ _ (proj2 (deref_at s2 a_true ot) OT2)). rewrite VT. cbn [is_bool ret].
  unfold bvalue. unfold bind at 1. rewrite (bind_eq _ _ _ _ _ _ _ (proj2 (deref_at s2 a_true ot) OT2)). rewrite VT. cbn [ret].
  unfold bind at 1, get. rewrite (gr_flow _ _ G02), S_flow. cbn [negb orb Nat.eqb].
  destruct (RUN self ps s2 G02 S_self) as [X|(s3 & E3 & G3)]; [now apply spins_bind|]. rewrite (bind_eq _ _ _ _ _ _ _ E3).
  pose proof (grown_trans _ _ _ G02 G3) as G03. unfold consume, put. unfold bind at 1. rewrite (gr_flow _ _ G03), S_flow. cbn [Nat.eqb a_continue].
  now apply IH.
Qed.
End Endless.

(** the program, and the state when the loop starts *)
Definition endless : string := "{ :x } while: { :y }.".
Definition s_loop : state := Eval vm_compute in
  let b := mkObj (VBlock (Some ([lit "x"], []))) [] [] a_block false false in
  let c := mkObj (VBlock (Some ([lit "y"], []))) [] [] a_block false false in
  mkS (heap_en ++ [b; c]) 0 [1] [] 0 1%N [0%N] 0%Z 0%Z false 4%N [ENative NWhile; ENode; EMsg; ENode].
Lemma spins_le A (m m' : M A) s : le m m' -> spins (m' s) -> spins (m s).
Proof.
  intros L (s' & E). specialize (L s). unfold le_res in L. destruct (m s); [|eexists; reflexivity|..]; rewrite <- L in E; discriminate.
Qed.
Lemma unbound t k v : existsb (fun e => text_eqb (fst e) k) t = false -> ~ binds t k v.
Proof.
  intros E (pre & post & -> & _). rewrite existsb_app in E. cbn [existsb fst] in E. rewrite (proj2 (text_eqb_eq k k) eq_refl) in E.
  destruct (existsb _ pre); discriminate.
Qed.
Definition p_endless : list node := Eval vm_compute in program_en endless.
Lemma p_endless_ok : program_en endless = p_endless. Proof. vm_compute. reflexivity. Qed.
Lemma endless_run n : monotone ext_en -> spins (run_program dict_en words_en true ext_en n (program_en endless) state_en).
Proof.
  intros ME. rewrite p_endless_ok. unfold run_program. apply spins_bind.
  enough (X : spins (run dict_en words_en true ext_en (9 + n) p_endless state_en)).
  { destruct (mono_all dict_en words_en true ext_en ME n (9 + n) ltac:(lia)) as (_ & _ & _ & _ & _ & _ & _ & MR).
    exact (spins_le _ _ _ _ (MR p_endless) X). }
  unfold p_endless.
  change (9 + n) with (S (S (S (S (S (S (S (S (S n))))))))). rewrite run_S. apply spins_bind. rewrite eval_S.
  eapply spins_done; [vm_compute; reflexivity|]. eapply spins_done; [vm_compute; reflexivity|].
  apply spins_bind. rewrite message_S. eapply spins_done; [vm_compute; reflexivity|]. eapply spins_done; [vm_compute; reflexivity|].
  unfold bind at 1, get. cbn [negb andb]. cbv zeta. apply spins_bind. rewrite chain_S.
  eapply spins_done; [vm_compute; reflexivity|]. eapply spins_done; [vm_compute; reflexivity|]. eapply spins_done; [vm_compute; reflexivity|].
  cbn [names_of]. eapply spins_done; [vm_compute; reflexivity|]. eapply spins_done; [vm_compute; reflexivity|].
  eapply spins_done; [vm_compute; reflexivity|]. apply spins_bind. rewrite send_S.
  match goal with |- spins ((if ?b then _ else _) _) => change b with false end. cbv iota.
  unfold bind at 1, get. match goal with |- spins ((if ?b then _ else _) _) => change b with false end. cbv iota.
  eapply spins_done; [vm_compute; reflexivity|]. apply spins_bind.
  eapply spins_done; [vm_compute; reflexivity|]. cbn [o_val]. eapply spins_done; [reflexivity|].
  match goal with |- spins ((if ?b then _ else _) _) => change b with false end. cbv iota.
  eapply spins_done; [vm_compute; reflexivity|].
  cbn [call_native app]. unfold block_while. eapply spins_done; [reflexivity|]. eapply spins_done; [vm_compute; reflexivity|]. cbn [is_block o_val].
  eapply spins_done; [reflexivity|]. apply spins_bind.
  match goal with |- spins (while_loop _ _ _ _ _ _ ?s) => change s with s_loop end.
  eapply (endless_loop dict_en words_en ext_en true s_loop 82 83); try reflexivity.
  - split; [vm_compute; lia|discriminate].
  - vm_compute. lia.
  - eexists. split; [split; [discriminate|vm_compute; reflexivity]|reflexivity].
  - eexists. split; [split; [discriminate|vm_compute; reflexivity]|vm_compute; auto].
  - eexists. split; [split; [discriminate|vm_compute; reflexivity]|]. split; [reflexivity|]. intros v. cbn [o_meths]. apply unbound. vm_compute. reflexivity.
  - eexists. split; [split; [discriminate|vm_compute; reflexivity]|]. cbn [o_meths]. eapply proj1, find_binds. vm_compute. reflexivity.
  - split; [split; [discriminate|vm_compute; reflexivity]|vm_compute; reflexivity].
  - eexists. split; [split; [discriminate|vm_compute; reflexivity]|reflexivity].
  - apply grown_refl.
Qed.
