(** Trees made by the parser are well formed. *)
From Verif Require Import Common TextModel LexModel ParseModel ParseProofs EvalSpec.
Open Scope nat_scope.

Section Wf.
Variable d : dict.
Lemma pbind_ok A B (o : pres A) (f : A -> pst -> pres B) b s' :
  pbind o f = POk b s' -> exists a s, o = POk a s /\ f a s = POk b s'.
Proof. destruct o; cbn; try discriminate. eauto. Qed.
Ltac inv H := let a := fresh "a" in let s1 := fresh "s" in let E := fresh "E" in
  apply pbind_ok in H; destruct H as (a & s1 & E & H); cbv beta in H.
Ltac brk H := match type of H with context[if ?b then _ else _] => destruct b eqn:? end.

Lemma ref_wf s r s' : parse_ref d s = POk r s' -> exists m k, r = NRef m k.
Proof.
  unfold parse_ref. intros H. inv H. destruct a as (t & v). inv H. destruct a as (m & v'). clear E E0.
  brk H; [|injection H as <- <-; eauto]. inv H. destruct a as (t' & v''). brk H; [|discriminate]. injection H as <- <-. eauto.
Qed.
Lemma parse_wf n :
  (forall mode s nd s', expr d n mode s = POk nd s' -> wf_node nd) /\
  (forall s nd s', receiver d n s = POk nd s' -> wf_node nd /\ simple nd) /\
  (forall acc s b s', block_body d n acc s = POk b s' -> Forall wf_node acc -> Forall wf_node b) /\
  (forall mode acc t s ms s', messages d n mode acc t s = POk ms s' -> Forall wf_msg acc ->
     ms = [MNone] \/ (ms <> [] /\ Forall wf_msg ms)) /\
  (forall mode s m s', message d n mode s = POk m s' -> m = MNone \/ wf_msg m) /\
  (forall name acc s m s', kw_args d n name acc s = POk m s' -> Forall wf_node acc -> wf_msg m).
Proof.
  induction n as [|n (IE & IR & IB & IL & IM & IK)].
  { split; [|split; [|split; [|split; [|split]]]]; discriminate. }
  assert (G : forall l (nd : node), Forall wf_node l -> wf_node nd -> Forall wf_node (l ++ [nd]))
    by (intros; apply Forall_app; auto).
  split; [|split; [|split; [|split; [|split]]]].
  - intros mode s nd s' H. rewrite expr_S in H. inv H. apply IR in E. destruct E as (W & S). inv H. destruct a0 as (t2 & ?).
    inv H. destruct a0 as (t3 & ?). clear E E0. cbv zeta in H. brk H; [now injection H as <- <-|].
    assert (K : forall r s1 (x : pres node) , (p! (t, _), s2 <- tokp d s1; p! ms, s3 <- messages d n mode [] t s2;
      match ms with MNone :: _ => p! _, s4 <- tokp d s3; POk r (putback s4) | _ => POk (NExpr r ms) s3 end) = POk nd s' ->
      wf_node r -> simple r -> wf_node nd).
    { intros r s5 _ H1 W1 S1. inv H1. destruct a0 as (t & ?). inv H1. apply IL in E0; auto.
      destruct E0 as [->|(NE & F)].
      - inv H1. now injection H1 as <- <-.
      - destruct a0 as [|m ms]; [contradiction|]. assert (NExpr r (m :: ms) = nd) as <-.
        { inversion F; subst. destruct m; try (now injection H1 as <- <-). inversion H3. }
        now constructor. }
    destruct t2; try discriminate H; try (now injection H as <- <-); try (eapply K; eauto using PFuel; fail).
    destruct a; try discriminate H. inv H. inv H. injection H as <- <-. constructor. eauto.
  - intros s nd s' H. rewrite receiver_S in H. inv H. destruct a as (t & ?). cbv zeta in H. clear E. destruct t; try discriminate H.
    + apply ref_wf in H. destruct H as (m & k & ->). now split; constructor.
    + unfold parse_string in H. inv H. clear E. destruct (readstr _ _ _) as [(v & r)| |]; try discriminate H. injection H as <- <-.
      now split; constructor.
    + unfold parse_number in H. inv H. clear E. destruct a. injection H as <- <-. now split; constructor.
    + inv H. clear E. inv H. apply IE in E. inv H. destruct a1. brk H; [|discriminate H]. injection H as <- <-. now split; constructor.
    + inv H. clear E. inv H. clear E. destruct a0. brk H; [discriminate H|]. inv H. clear E. inv H. apply IB in E; [|constructor].
      injection H as <- <-. now split; constructor.
  - intros acc s b s' H F. rewrite block_body_S in H. inv H. destruct a as (t & ?). brk H; [now injection H as <- <-|].
    cbv zeta in H. inv H. inv H. destruct a0 as (t' & ?). brk H; [|discriminate H]. apply IB in H; auto. apply G; auto.
    clear E1 H. brk E0; [|eauto]. inv E0. inv E0. injection E0 as <- <-. constructor. eauto.
  - intros mode acc t s ms s' H F. rewrite messages_S in H. brk H.
    + inv H. inv H. apply IM in E0. assert (K : forall m, a0 = m -> m <> MNone ->
        (p! (t0, _), s2 <- tokp d s1; messages d n mode (acc ++ [a0]) t0 s2) = POk ms s' ->
        ms = [MNone] \/ ms <> [] /\ Forall wf_msg ms).
      { intros m -> NE H1. destruct E0 as [|W]; [contradiction|]. inv H1. destruct a0. eapply IL; eauto. apply Forall_app; auto. }
      destruct a0; try (eapply K; eauto; discriminate). destruct acc.
      * injection H as <- <-. auto.
      * inv H. injection H as <- <-. right. split; [discriminate|auto].
    + cbv zeta in H. destruct acc; [discriminate H|]. injection H as <- <-. right. split; [discriminate|auto].
  - intros mode s m s' H. rewrite message_S in H. inv H. destruct a as (t & v). brk H; [discriminate H|].
    destruct (getutf8len v (length v)) as [u|]; [|discriminate H]. inv H. destruct a as (la & ?). cbv zeta in H.
    brk H; [injection H as <- <-; auto|]. brk H.
    { inv H. injection H as <- <-. right. constructor. eauto. }
    inv H. destruct a as (la' & ?). cbv zeta in H. brk H.
    + brk H; [injection H as <- <-; auto|]. brk H; [discriminate H|]. inv H. right. eapply IK; eauto.
    + injection H as <- <-. right. constructor.
  - intros name acc s m s' H F. rewrite kw_args_S in H. inv H. apply IE in E. inv H. destruct a0 as (t & v).
    destruct t; try (injection H as <- <-; constructor; now apply G); try (eapply IK; eauto; fail).
    brk H; [discriminate H|]. brk H; [discriminate H|]. inv H. destruct a0. cbv zeta in H. eapply IK; eauto.
Qed.
Lemma program_wf n : forall acc s b s', program d n acc s = POk b s' -> Forall wf_node acc -> Forall wf_node b.
Proof.
  induction n as [|n IH]; intros acc s b s' H F; [discriminate|]. cbn [program] in H. inv H. unfold statement in E. inv E.
  destruct a0 as (t & ?). cbv zeta in E. brk E.
  - inv E. injection E as <- <-. now injection H as <- <-.
  - inv E. assert (W : wf_node a0).
    { brk E1; [|eapply (proj1 (parse_wf n)); eauto]. inv E1. inv E1. injection E1 as <- <-. constructor. eapply (proj1 (parse_wf n)); eauto. }
    inv E. destruct a1. brk E; [|discriminate E]. injection E as <- <-. eapply IH; [exact H|]. apply Forall_app; auto.
Qed.
Lemma parse_program_wf code o oo b s' : parse d code o oo = POk b s' -> Forall wf_node b.
Proof. intros H. eapply program_wf; eauto. Qed.
End Wf.
