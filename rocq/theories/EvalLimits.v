(** Proofs about the evaluator: balance, the skipping of messages, restricted evaluation and the limit of steps. *)
From Coq Require Import Lia.
From Verif Require Import Common TextModel TextProofs NumModel LexModel ParseModel EvalModel EvalSpec EvalParse EvalProofs EvalFlow EvalTask.
Open Scope nat_scope.


Section Limits.
Variable d : dict.
Variable w : words.
Variable sandbox : bool.
Variable ext : native -> calls -> addr -> list addr -> M addr.
Hypothesis Hext : forall p, tame (ext p).
Local Notation eval := (eval d w sandbox ext).
Local Notation send := (send d w sandbox ext).
Local Notation block_run := (block_run d w sandbox ext).
Local Notation run := (run d w sandbox ext).

Lemma step_cases s s' : step sandbox s = Done tt s' -> s' = s \/ exists k, s' = with_steps s k.
Proof. unfold step. destruct sandbox; [|intros [= <-]; auto]. destruct (_ <? _)%N; [discriminate|]. intros [= <-]. eauto. Qed.
Lemma fb_balanced Inv s s' : fb Inv 0 s s' -> balanced s s'.
Proof. intros []. split; auto. lia. Qed.
Lemma good_ready s : good s -> length (ctxs s) <= 300 -> ready (fun _ => True) s.
Proof. intros [] L. split; auto; lia. Qed.

Lemma after_weaken A (Inv Inv' : state -> Prop) (r : res A) (Q Q' : A -> state -> Prop) :
  after Inv r Q -> (forall s, Inv s -> Inv' s) -> (forall a s, Q a s -> Q' a s) -> after Inv' r Q'.
Proof. destruct r; cbn; firstorder. Qed.

Lemma eval_balanced n nd s : wf_node nd -> good s -> after (fun _ => True) (eval n nd s) (fun _ => balanced s).
Proof.
  intros W G. eapply after_weaken; [apply (proj1 (bb_frame d w sandbox ext _ (trivially sandbox) Hext n) nd s W (good_gd s G))|auto|].
  intros ? s'. apply fb_balanced.
Qed.
Lemma run_balanced n body s : Forall wf_node body -> good s -> after (fun _ => True) (run n body s) (fun _ => balanced s).
Proof.
  intros W G. eapply after_weaken; [apply (bb_frame d w sandbox ext _ (trivially sandbox) Hext n); auto; now apply good_gd|auto|].
  intros ? s'. apply fb_balanced.
Qed.
Lemma send_balanced n r k args s : good s -> after (fun _ => True) (send n r k args s) (fun _ => balanced s).
Proof.
  intros G. eapply after_weaken; [apply (bb_frame d w sandbox ext _ (trivially sandbox) Hext n); auto; now apply good_gd|auto|].
  intros ? s'. apply fb_balanced.
Qed.
Lemma task_balanced n b args my s : good s -> flow s = null -> after (fun _ => True) (block_run n b args my s) (fun _ => balanced s).
Proof.
  intros G F. assert (L : length (ctxs s) <= 300).
  { destruct (g_ctx _ G). destruct (Nat.eq_dec (length (ctxs s)) 301) as [E|E]; [|lia]. now apply (g_full _ G) in E. }
  eapply after_weaken; [apply (bb_frame d w sandbox ext _ (trivially sandbox) Hext n); auto; now apply good_ready|auto|].
  intros ? s'. apply fb_balanced.
Qed.
Lemma program_balanced n code o oo prog ps s : parse d code o oo = POk prog ps -> good s ->
  after (fun _ => True) (run_program d w sandbox ext n prog s) (fun _ => balanced s).
Proof.
  intros P G. apply parse_program_wf in P. pose proof (run_balanced n prog s P G) as R. unfold run_program, bind at 1.
  destruct (run n prog s) as [x s1| | |]; auto. cbn in R. destruct x; [exact R|].
  unfold end_of_program, bind at 1. unfold step. assert (X : forall k, balanced s (with_steps s1 k)) by (intros; destruct R; now split).
  destruct sandbox; [destruct (_ <? _)%N; [split; auto; discriminate|]|]; unfold bind at 1, get;
  destruct (_ && _); try destruct (trace_ok _ _); cbn; auto; split; auto; split; discriminate.
Qed.

Lemma run_good n body s x s' : Forall wf_node body -> good s -> run n body s = Done x s' -> good s'.
Proof.
  intros W G E. pose proof (proj2 (proj2 (proj2 (proj2 (proj2 (proj2 (proj2 (bb_frame d w sandbox ext _ (trivially sandbox) Hext n))))))) body s W (good_gd s G)) as H.
  rewrite E in H. cbn in H. eapply gd_good. eapply fb_good; [exact (trivially sandbox)|exact (good_gd s G)|exact H].
Qed.

(** ** Error mode *)
Lemma idb_idle s s' : idb 0 s s' -> idle s s'.
Proof. intros []. split; auto. lia. Qed.
Lemma eval_idle n nd s : wf_node nd -> flow s <> null -> after (fun _ => True) (eval n nd s) (fun _ => idle s).
Proof. intros W F. eapply after_weaken; [apply (proj1 (quiet d w sandbox ext n) nd s W F)|auto|]. intros ? s'. apply idb_idle. Qed.
Lemma run_idle n body s : Forall wf_node body -> flow s <> null -> after (fun _ => True) (run n body s) (fun _ => idle s).
Proof. intros W F. eapply after_weaken; [apply (quiet d w sandbox ext n); auto|auto|]. intros ? s'. apply idb_idle. Qed.

(** ** Restricted evaluation *)
Lemma data_listed p : data_method p = true -> In p data_ops.
Proof. destruct p; try discriminate; cbn; tauto. Qed.
Lemma locked_steady l0 : steady sandbox (locked l0).
Proof.
  unfold locked, only_data. split.
  - intros s s' (R & D) E1 _ E3. rewrite E1, E3. auto.
  - intros s s' (R & D) E. destruct (step_cases _ _ E) as [->|(k & ->)]; auto.
  - intros s s' e (R & new & D & F) E N. assert (R' : restricted s' = true /\ log s' = log s).
    { destruct (step_cases _ _ E) as [->|(k & ->)]; auto. } destruct R' as (R1 & R2). split; [exact R1|]. exists new. cbn [log with_log].
    rewrite R2. unfold natives in *. cbn [flat_map]. destruct e; try discriminate; auto.
  - intros s p (R & new & D & F) H. split; auto. exists (p :: new). cbn. unfold natives in *. cbn [log with_log flat_map app]. rewrite D. split; auto. constructor; auto. now apply data_listed, H.
  - intros s (R & _). congruence.
  - intros s s' (R & _). congruence.
Qed.
Lemma eval_locked n nd s : wf_node nd -> good s -> restricted s = true ->
  after (locked (log s)) (eval n nd s) (fun _ => locked (log s)).
Proof.
  intros W G R. assert (L : locked (log s) s) by (split; auto; exists []; auto).
  eapply after_weaken; [apply (proj1 (bb_frame d w sandbox ext _ (locked_steady (log s)) Hext n) nd s W)|auto|].
  - split; auto. - intros ? s' H. apply (f_inv _ _ _ _ H).
Qed.
Lemma only_refl l0 s : log s = l0 -> only_data l0 s. Proof. intros <-. now exists []. Qed.
Lemma string_eval_data n self s : good s -> restricted s = false ->
  after (only_data (log s)) (string_eval d w (mkCalls (send n) (block_run n) (eval n)) self s)
        (fun _ s' => only_data (log s) s' /\ restricted s' = false).
Proof.
  intros G R. unfold string_eval. unfold svalue. unfold bind at 1. unfold bind at 1. unfold deref.
  assert (OD : only_data (log s) s) by now apply only_refl.
  destruct self as [|a]; [cbn; repeat split; auto; discriminate|]. destruct (nth_error (heap s) (S a)) as [o|]; [|cbn; repeat split; auto; discriminate].
  destruct (o_val o); try (cbn; repeat split; auto; discriminate). cbn [ret]. unfold bind at 1, get.
  destruct (expr _ _ _ _) as [nd ps|ps| | |] eqn:E; try (cbn; repeat split; auto; discriminate).
  assert (W : wf_node nd) by (eapply (proj1 (parse_wf d _)); eauto).
  assert (X : forall s0, good s0 -> restricted s0 = false -> log s0 = log s ->
    after (only_data (log s)) ((put (fun s => with_restricted s true);; let! (r, _) := eval n nd in
      put (fun s => with_restricted s false);; put (fun s' => with_cs s' (cs s) (csw s'));; ret (if r =? null then a_nil else r)) s0)
     (fun _ s' => only_data (log s) s' /\ restricted s' = false)).
  { intros s0 G0 R0 L0. unfold bind at 1, put. unfold bind at 1. assert (G1 : good (with_restricted s0 true)) by (destruct G0; now split).
    pose proof (eval_locked n nd (with_restricted s0 true) W G1 eq_refl) as H. cbn in H. rewrite L0 in H.
    destruct (eval n nd (with_restricted s0 true)) as [(r & b) s1| | |]; cbn in H |- *; destruct H as (H & H1); auto; try (destruct H1; auto; fail). }
  destruct (err ps).
  - unfold bind at 1. unfold error, build_text, create. unfold bind at 1. unfold put at 1. cbn [c_expr]. apply X; auto.
    assert (13 <= length (heap s)) by apply (g_std _ G). destruct G. split; cbn; auto; rewrite ?app_length; cbn; try lia.
    + intros a0 o0 ps0 b0 N V. destruct (Nat.lt_ge_cases a0 (length (heap s))).
      * rewrite nth_error_app1 in N by auto. eauto.
      * rewrite nth_error_app2 in N by auto. destruct (a0 - length (heap s)) as [|[|]]; cbn in N; try discriminate. injection N as <-. discriminate.
    + destruct g_scopes as (ND & F). split; auto. eapply Forall_impl; [|exact F]. cbn. lia.
  - cbn [c_expr]. unfold bind at 1. cbn [ret]. now apply X.
Qed.
End Limits.

(** ** The limit of steps *)
Section Steps.
Variable d : dict.
Variable w : words.
Variable ext : native -> calls -> addr -> list addr -> M addr.
Hypothesis Hext : forall p, tame (ext p).
Lemma counts_app a b : counts (a ++ b) = counts a + counts b.
Proof. unfold counts. now rewrite filter_app, app_length. Qed.
Lemma step_true s s' : step true s = Done tt s' -> s' = with_steps s (steps s + 1)%N /\ (steps s + 1 <= 2000)%N.
Proof. unfold step, LIMIT. destruct (N.ltb_spec 2000 (steps s + 1)); [discriminate|]. intros [= <-]. auto. Qed.
Lemma metered_steady : steady true metered.
Proof.
  unfold metered. split.
  - intros s s' H _ E2 E3. now rewrite E2, E3.
  - intros s s' H E. apply step_true in E. destruct E as (-> & L). cbn [log steps with_steps]. lia.
  - intros s s' e H E N. apply step_true in E. destruct E as (-> & L). cbn [log steps with_steps with_log]. unfold counts in *. cbn [List.filter]. rewrite N. cbn [length]. lia.
  - intros s p H _. exact H.
  - auto.
  - intros s s' _ _ H. exact H.
Qed.
Lemma program_metered n prog s : Forall wf_node prog -> good s -> metered s ->
  after metered (run_program d w true ext n prog s) (fun _ => metered).
Proof.
  intros P G L. pose proof (proj2 (proj2 (proj2 (proj2 (proj2 (proj2 (proj2 (bb_frame d w true ext _ metered_steady Hext n))))))) prog s P ltac:(now split)) as R.
  unfold run_program, bind at 1. destruct (run d w true ext n prog s) as [x s1| | |]; auto. apply (fun H => f_inv _ _ _ _ H) in R.
  destruct x; [exact R|]. unfold end_of_program, bind at 1. destruct (step true s1) as [[] s2|s2|h s2|b s2] eqn:E.
  - pose proof (v_step _ _ metered_steady _ _ R E) as R2. unfold bind, get. destruct (_ && _); [destruct (trace_ok _ _)|]; cbn; auto.
    split; auto. split; discriminate.
  - unfold step in E. destruct (_ <? _)%N; discriminate.
  - unfold step in E. destruct (_ <? _)%N; [|discriminate]. injection E as <- <-. split; auto. discriminate.
  - unfold step in E. destruct (_ <? _)%N; discriminate.
Qed.
End Steps.
