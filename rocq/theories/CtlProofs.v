(** Proofs about keys, the camera and clicks. *)
From Coq Require Import SpecFloat QArith Qabs Lqa Sorted.
From Verif Require Import Common FloatSpec FloatProofs NumModel NumSpec NumProofs PhysSpec PhysProofs CtlSpec CtlModel.
Local Open Scope Z_scope.

Lemma ok_inj {A} (a b : A) : Ok a = Ok b -> a = b. Proof. now intros [= ->]. Qed.

(** ** Keys *)
Definition flies (e : env) : bool := match player e with Some p => flying p | None => false end.
Definition away (e : env) : bool := focus e || negb (awake e) || match player e with Some _ => false | None => true end.
Definition word (ev : env * event) : option Z := heading_of (mode (fst ev)) (flies (fst ev)) (away (fst ev)) (snd ev).
Definition weighs (e : env) : Prop := forall p, player e = Some p -> gravity p <> S754_nan.

Lemma heavy_flying p : gravity p <> S754_nan -> heavy p = negb (flying p).
Proof.
  intros NN. unfold heavy, flying, SFltb, SFleb. rewrite (SFcompare_swap (of_Z 1) (gravity p)).
  assert (O : of_Z 1 <> S754_nan) by discriminate.
  destruct (SFcompare_some (of_Z 1) (gravity p) O NN) as [c ->]. now destruct c.
Qed.
Lemma turn_dir e s s' : turn e s = Ok s' -> mode e <> 4 -> s' = s.
Proof. unfold turn. intros H M. apply Z.eqb_neq in M. rewrite M in H. now apply ok_inj in H. Qed.
Lemma push_dir e s : dir (push e s) = dir s /\ rot (push e s) = rot s /\ jump (push e s) = jump s.
Proof. unfold push. destruct (player e) as [p|]; [destruct (-1 <? dir s)|]; auto. Qed.
Lemma take_off_dir e s s' : take_off e s = Ok s' -> dir s' = dir s /\ rot s' = rot s /\ pdir s' = pdir s /\ pmov s' = pmov s.
Proof.
  unfold take_off. destruct (player e) as [p|]; [destruct ((jump s =? 1) && negb (factor e =? 0))|].
  - destruct (in_int _); [|discriminate]. intros H. apply ok_inj in H. now subst.
  - intros H. apply ok_inj in H. now subst.
  - intros H. apply ok_inj in H. now subst.
Qed.
Lemma step_dir s ev s' : step s ev = Ok s' -> mode (fst ev) <> 4 -> weighs (fst ev) ->
  dir s' = match word ev with Some d => d | None => dir s end.
Proof.
  destruct ev as [e ev]. cbn [fst]. intros H M W. assert (M4 : (mode e =? 4) = false) by now apply Z.eqb_neq.
  unfold step in H. cbn [fst snd] in H. unfold word, heading_of. cbn [fst snd]. destruct ev as [[]|[]| | | |].
  - apply ok_inj in H. subst s'. unfold keydown_left, away. destruct (focus e); [reflexivity|]. destruct (player e); [|now rewrite orb_true_r].
    destruct (awake e); [|reflexivity]. cbn [negb orb andb]. destruct ((mode e =? 1) || (mode e =? 3)); [reflexivity|]. now rewrite M4.
  - apply ok_inj in H. subst s'. unfold keydown_right, away. destruct (focus e); [reflexivity|]. destruct (player e); [|now rewrite orb_true_r].
    destruct (awake e); [|reflexivity]. cbn [negb orb andb]. destruct ((mode e =? 1) || (mode e =? 3)); [reflexivity|]. now rewrite M4.
  - apply ok_inj in H. subst s'. unfold keydown_up, away, flies. destruct (focus e); [reflexivity|].
    destruct (player e) as [p|] eqn:P; [|now rewrite orb_true_r]. destruct (awake e); [|reflexivity]. cbn [negb orb andb].
    rewrite (heavy_flying p (W p P)). destruct (mode e =? 1) eqn:M1.
    + apply Z.eqb_eq in M1. rewrite M1. cbn [Z.eqb Pos.eqb andb orb]. destruct (flying p); cbn [negb andb orb]; [reflexivity|]. now destruct (jump s =? 0).
    + rewrite andb_false_r. cbn [andb orb]. destruct (mode e =? 2); [reflexivity|]. now rewrite M4.
  - apply ok_inj in H. subst s'. unfold keydown_down, away, flies. destruct (focus e); [reflexivity|].
    destruct (player e) as [p|] eqn:P; [|now rewrite orb_true_r]. destruct (awake e); [|reflexivity]. cbn [negb orb andb].
    destruct (flying p && _); [reflexivity|]. now rewrite M4.
  - apply ok_inj in H. subst s'. unfold keyup_right. now rewrite M4.
  - apply ok_inj in H. subst s'. unfold keyup_right. now rewrite M4.
  - apply ok_inj in H. subst s'. unfold keyup_down, flies. rewrite M4. destruct (player e) as [p|]; [|reflexivity]. now destruct (flying p).
  - apply ok_inj in H. subst s'. unfold keyup_down, flies. rewrite M4. destruct (player e) as [p|]; [|reflexivity]. now destruct (flying p).
  - apply ok_inj in H. now subst s'.
  - apply ok_inj in H. now subst s'.
  - destruct (selecting s); [destruct (focus e); [|discriminate]|]; apply ok_inj in H; now subst s'.
  - destruct (turn e s) as [s1|] eqn:T; [|discriminate]. cbn [obind] in H. apply (turn_dir _ _ _ T) in M. subst s1.
    apply take_off_dir in H. destruct H as [H _]. rewrite H. apply push_dir.
Qed.
Lemma heading_ok l s s' : run s l = Ok s' -> Forall (fun ev => mode (fst ev) <> 4) l -> Forall (fun ev => weighs (fst ev)) l ->
  latest (map word l) (dir s) (dir s').
Proof.
  revert s. induction l as [|ev l IH]; intros s H M W.
  - cbn [run] in H. apply ok_inj in H. subst. right. split; [constructor|reflexivity].
  - cbn [run] in H. destruct (step s ev) as [s1|] eqn:E; [|discriminate]. cbn [obind] in H. inversion M; subst. inversion W; subst.
    pose proof (step_dir _ _ _ E ltac:(assumption) ltac:(assumption)) as D. destruct (IH s1 H ltac:(assumption) ltac:(assumption)) as [(a & b & A & B)|[A B]].
    + left. exists (word ev :: a), b. cbn [map]. rewrite A. auto.
    + cbn [map]. rewrite B, D. destruct (word ev) as [d|] eqn:WE.
      * left. exists [], (map word l). auto.
      * right. split; [constructor; auto|reflexivity].
Qed.

Definition sane (s : ctl) : Prop := -1 <= dir s <= 359 /\ (rot s = -5 \/ rot s = 0 \/ rot s = 5) /\ 0 <= jump s <= 2.
Lemma step_sane s ev s' : sane s -> step s ev = Ok s' -> sane s'.
Proof.
  destruct ev as [e ev]. intros (D & R & J) H. unfold step in H. cbn [fst snd] in H. destruct ev as [[]|[]| | | |].
  - apply ok_inj in H. subst s'. unfold keydown_left. destruct (focus e), (player e), (awake e); unfold sane; auto.
    destruct ((mode e =? 1) || (mode e =? 3)); [|destruct (mode e =? 4)]; cbn [dir rot jump with_dir with_rot]; auto. repeat split; auto; lia.
  - apply ok_inj in H. subst s'. unfold keydown_right. destruct (focus e), (player e), (awake e); unfold sane; auto.
    destruct ((mode e =? 1) || (mode e =? 3)); [|destruct (mode e =? 4)]; cbn [dir rot jump with_dir with_rot]; auto. repeat split; auto; lia.
  - apply ok_inj in H. subst s'. unfold keydown_up. destruct (focus e), (player e) as [p|], (awake e); unfold sane; auto.
    destruct (heavy p && (mode e =? 1)); [destruct (jump s =? 0)|destruct ((mode e =? 1) || (mode e =? 2)); [|destruct (mode e =? 4)]];
      cbn [dir rot jump with_dir with_c4 with_jump]; auto; repeat split; auto; lia.
  - apply ok_inj in H. subst s'. unfold keydown_down. destruct (focus e), (player e) as [p|], (awake e); unfold sane; auto.
    destruct (flying p && _); [|destruct (mode e =? 4)]; cbn [dir rot jump with_dir with_c4]; auto. repeat split; auto; lia.
  - apply ok_inj in H. subst s'. unfold keyup_right, sane. destruct (mode e =? 4); cbn [dir rot jump with_dir with_rot]; repeat split; auto; lia.
  - apply ok_inj in H. subst s'. unfold keyup_right, sane. destruct (mode e =? 4); cbn [dir rot jump with_dir with_rot]; repeat split; auto; lia.
  - apply ok_inj in H. subst s'. unfold keyup_down, sane. destruct (mode e =? 4); [|destruct (player e) as [p|]; [destruct (flying p)|]];
      cbn [dir rot jump with_dir with_c4]; repeat split; auto; lia.
  - apply ok_inj in H. subst s'. unfold keyup_down, sane. destruct (mode e =? 4); [|destruct (player e) as [p|]; [destruct (flying p)|]];
      cbn [dir rot jump with_dir with_c4]; repeat split; auto; lia.
  - apply ok_inj in H. subst s'. unfold sane. auto.
  - apply ok_inj in H. subst s'. unfold sane. auto.
  - destruct (selecting s); [destruct (focus e); [|discriminate]|]; apply ok_inj in H; subst s'; unfold sane; auto.
  - destruct (turn e s) as [s1|] eqn:T; [|discriminate]. cbn [obind] in H.
    assert (S1 : sane s1).
    { unfold turn in T. destruct (mode e =? 4); apply ok_inj in T; subst s1; unfold sane; cbn [dir rot jump with_dir]; auto.
      split; [|auto]. destruct (359 <? dir s + rot s) eqn:E1; cbn [Z.ltb Z.compare]; [lia|]. apply Z.ltb_ge in E1.
      destruct (dir s + rot s <? 0) eqn:E2; [lia|]. apply Z.ltb_ge in E2. lia. }
    destruct S1 as (D1 & R1 & J1). destruct (push_dir e s1) as (D2 & R2 & J2).
    destruct (take_off_dir _ _ _ H) as (D3 & R3 & _). unfold sane. rewrite D3, R3, D2, R2. split; [exact D1|]. split; [exact R1|].
    unfold take_off in H. destruct (player e) as [p|]; [destruct ((jump (push e s1) =? 1) && negb (factor e =? 0))|];
      [destruct (in_int _); [|discriminate]| |]; apply ok_inj in H; subst s'; cbn [jump with_jump]; lia.
Qed.
Lemma run_app l1 l2 s : run s (l1 ++ l2) = obind (run s l1) (fun s1 => run s1 l2).
Proof. revert s. induction l1 as [|ev l1 IH]; intros s; [reflexivity|]. cbn [app run]. destruct (step s ev); [cbn [obind]; apply IH|reflexivity]. Qed.
Lemma run_sane l s s' : sane s -> run s l = Ok s' -> sane s'.
Proof.
  revert s. induction l as [|ev l IH]; intros s S H; cbn [run] in H; [apply ok_inj in H; now subst|].
  destruct (step s ev) as [s1|] eqn:E; [|discriminate]. exact (IH s1 (step_sane _ _ _ S E) H).
Qed.
Lemma start_sane : sane start. Proof. unfold sane, start. cbn. lia. Qed.

(** *** The speed *)
Lemma fmin_le a b : a <> S754_nan -> SFleb (fmin a b) a = true /\ fmin a b <> S754_nan.
Proof.
  intros NA. assert (RA : SFleb a a = true).
  { unfold SFleb. destruct (SFcompare_some a a NA NA) as [c C]. pose proof (SFcompare_swap a a) as X. rewrite C in X.
    injection X as X. rewrite C. destruct c; [reflexivity|reflexivity|discriminate]. }
  destruct (SFltb b a) eqn:E.
  - assert (NB : b <> S754_nan) by (intros ->; destruct a; discriminate).
    assert (F : fmin a b = b) by (unfold fmin; destruct a, b; try reflexivity; try (now elim NA); try (now elim NB); now rewrite E). rewrite F. split; [|exact NB].
    unfold SFltb in E. unfold SFleb. destruct (SFcompare b a) as [[]|]; congruence.
  - assert (F : fmin a b = a) by (unfold fmin; destruct a, b; try reflexivity; try (now elim NA); now rewrite E). rewrite F. auto.
Qed.
Lemma fmax_zero s b : b <> S754_nan -> SFleb (S754_zero false) s = true -> SFleb b s = true ->
  SFleb (S754_zero false) (fmax (S754_zero false) b) = true /\ SFleb (fmax (S754_zero false) b) s = true.
Proof.
  intros NB Z L. destruct (SFltb (S754_zero false) b) eqn:E.
  - assert (F : fmax (S754_zero false) b = b) by (unfold fmax; destruct b; try reflexivity; try (now elim NB); now rewrite E). rewrite F.
    split; [|exact L]. unfold SFltb in E. unfold SFleb. destruct (SFcompare _ b) as [[]|]; congruence.
  - assert (F : fmax (S754_zero false) b = S754_zero false) by (unfold fmax; destruct b; try reflexivity; try (now elim NB); now rewrite E). rewrite F.
    split; [reflexivity|exact Z].
Qed.
Lemma driven_ok l e p s : run start (l ++ [(e, Frame)]) = Ok s -> player e = Some p -> 0 <= dir s -> SFleb (of_Z 0) (speed p) = true ->
  pdir s = of_Z (dir s) /\ SFleb (of_Z 0) (pmov s) = true /\ SFleb (pmov s) (speed p) = true.
Proof.
  intros H P D V. rewrite run_app in H. destruct (run start l) as [s0|]; [|discriminate]. cbn [obind run] in H.
  destruct (step s0 (e, Frame)) as [s1|] eqn:E; [|discriminate]. cbn [obind] in H. apply ok_inj in H. subst s1.
  unfold step in E. cbn [fst snd] in E. destruct (turn e s0) as [s1|]; [|discriminate]. cbn [obind] in E.
  destruct (take_off_dir _ _ _ E) as (D1 & _ & P1 & M1). destruct (push_dir e s1) as (D2 & _). rewrite P1, M1, D1, D2. rewrite D1, D2 in D.
  unfold push. rewrite P. assert (L : (-1 <? dir s1) = true) by (apply Z.ltb_lt; lia). rewrite L. cbn [pdir pmov dir with_player].
  split; [reflexivity|]. change (of_Z 0) with (S754_zero false) in *.
  assert (NV : speed p <> S754_nan) by (intros X; rewrite X in V; discriminate V).
  destruct (fmin_le (speed p) (add64 (pmov s1) (mul64 (mul64 (speed p) (accel p)) (of_Z (if mode e =? 4 then c4 s1 else 1)))) NV) as [A B].
  exact (fmax_zero _ _ B V A).
Qed.
(** *** A frame in mode 4 *)
Lemma turned_ok l s0 e s : run start l = Ok s0 -> step s0 (e, Frame) = Ok s -> mode e = 4 -> 0 <= dir s <= 359 /\
  (dir s = dir s0 + rot s0 \/ (dir s0 + rot s0 < 0 /\ dir s = 359) \/ (359 < dir s0 + rot s0 /\ dir s = 0)).
Proof.
  intros L E M. destruct (run_sane _ _ _ start_sane L) as (D & R & _). unfold step in E. cbn [fst snd] in E.
  destruct (turn e s0) as [s1|] eqn:T; [|discriminate]. cbn [obind] in E.
  destruct (take_off_dir _ _ _ E) as (D1 & _). destruct (push_dir e s1) as (D2 & _). rewrite D1, D2.
  unfold turn in T. rewrite M in T. cbn [Z.eqb Pos.eqb] in T. apply ok_inj in T. subst s1. cbn [dir with_dir].
  destruct (359 <? dir s0 + rot s0) eqn:E1; cbn [Z.ltb Z.compare].
  - apply Z.ltb_lt in E1. lia.
  - apply Z.ltb_ge in E1. destruct (dir s0 + rot s0 <? 0) eqn:E2; [apply Z.ltb_lt in E2|apply Z.ltb_ge in E2]; lia.
Qed.
(** *** Jumps *)
Lemma jump_ok s ev s' : step s ev = Ok s' -> jump s <> 1 -> jump s' = 1 ->
  snd ev = Down KUp /\ jump s = 0 /\ mode (fst ev) = 1 /\ focus (fst ev) = false /\ awake (fst ev) = true /\
  exists p, player (fst ev) = Some p /\ SFleb (of_Z 1) (gravity p) = true.
Proof.
  destruct ev as [e ev]. intros H N J. unfold step in H. cbn [fst snd] in *.
  destruct ev as [[]|[]| | | |].
  - apply ok_inj in H. subst s'. elim N. rewrite <- J. unfold keydown_left. destruct (focus e), (player e), (awake e), ((mode e =? 1) || (mode e =? 3)), (mode e =? 4); reflexivity.
  - apply ok_inj in H. subst s'. elim N. rewrite <- J. unfold keydown_right. destruct (focus e), (player e), (awake e), ((mode e =? 1) || (mode e =? 3)), (mode e =? 4); reflexivity.
  - apply ok_inj in H. subst s'. unfold keydown_up in J. destruct (focus e); [now elim N|]. destruct (player e) as [p|]; [|now elim N].
    destruct (awake e); [|now elim N]. destruct (heavy p && (mode e =? 1)) eqn:HM.
    + apply andb_prop in HM. destruct HM as [H1 H2]. apply Z.eqb_eq in H2. destruct (jump s =? 0) eqn:J0; [|now elim N].
      apply Z.eqb_eq in J0. repeat split; auto. exists p. auto.
    + destruct ((mode e =? 1) || (mode e =? 2)), (mode e =? 4); now elim N.
  - apply ok_inj in H. subst s'. elim N. rewrite <- J. unfold keydown_down. destruct (focus e), (player e) as [p|], (awake e); try reflexivity.
    destruct (flying p && _), (mode e =? 4); reflexivity.
  - apply ok_inj in H. subst s'. elim N. rewrite <- J. unfold keyup_right. now destruct (mode e =? 4).
  - apply ok_inj in H. subst s'. elim N. rewrite <- J. unfold keyup_right. now destruct (mode e =? 4).
  - apply ok_inj in H. subst s'. elim N. rewrite <- J. unfold keyup_down. destruct (mode e =? 4), (player e) as [p|]; try reflexivity. now destruct (flying p).
  - apply ok_inj in H. subst s'. elim N. rewrite <- J. unfold keyup_down. destruct (mode e =? 4), (player e) as [p|]; try reflexivity. now destruct (flying p).
  - apply ok_inj in H. subst s'. now elim N.
  - apply ok_inj in H. subst s'. now elim N.
  - destruct (selecting s); [destruct (focus e); [|discriminate]|]; apply ok_inj in H; subst s'; now elim N.
  - destruct (turn e s) as [s1|] eqn:T; [|discriminate]. cbn [obind] in H. elim N.
    assert (J1 : jump s1 = jump s) by (unfold turn in T; destruct (mode e =? 4); apply ok_inj in T; now subst s1).
    destruct (push_dir e s1) as (_ & _ & J2). unfold take_off in H.
    destruct (player e) as [p|]; [destruct ((jump (push e s1) =? 1) && negb (factor e =? 0))|];
      [destruct (in_int _); [|discriminate]| |]; apply ok_inj in H; subst s'; [discriminate J|congruence|congruence].
Qed.
(** *** No crash *)
Definition harmless (ev : env * event) : Prop :=
  (snd ev = ButtonUp -> focus (fst ev) = true) /\
  (forall p, player (fst ev) = Some p -> - 2147483648 <= height p * factor (fst ev) <= 2147483647).
Lemma safe_ok l s : Forall harmless l -> exists s', run s l = Ok s'.
Proof.
  revert s. induction l as [|[e ev] l IH]; intros s H; [exists s; reflexivity|]. inversion H as [|? ? [B C] T]; subst. cbn [fst snd] in *.
  assert (X : exists s1, step s (e, ev) = Ok s1).
  { unfold step. cbn [fst snd]. destruct ev as [[]|[]| | | |]; eauto.
    - destruct (selecting s); [rewrite B by reflexivity|]; eauto.
    - assert (TT : exists s1, turn e s = Ok s1) by (unfold turn; destruct (mode e =? 4); eauto). destruct TT as [s1 ->]. cbn [obind].
      unfold take_off. destruct (player e) as [p|]; [|eauto]. destruct (_ && _); [|eauto].
      assert (I : in_int (height p * factor e) = true) by (apply in_int_iff, C; reflexivity). rewrite I. eauto. }
  destruct X as [s1 E]. cbn [run]. rewrite E. cbn [obind]. apply IH, T.
Qed.

(** ** The camera *)
Lemma i32_ok z z' : i32 z = Ok z' -> z' = z.
Proof. unfold i32. destruct (in_int z); [|discriminate]. now intros [= ->]. Qed.
Lemma i32_in z : - 2147483648 <= z <= 2147483647 -> i32 z = Ok z.
Proof. intros H. unfold i32. apply in_int_iff in H. now rewrite H. Qed.
Lemma follow_bounds c size b win p c' : follow c size b win p = Ok c' -> 0 <= c <= Z.max 0 (win - size) ->
  0 <= c' <= Z.max 0 (win - size) /\ Z.abs (c' - c) <= 1.
Proof.
  unfold follow. intros H B. destruct (i32 (c + b)) as [lo|] eqn:E1; [|discriminate]. cbn [obind] in H.
  destruct (i32 (c + size - b)) as [hi|] eqn:E2; [|discriminate]. cbn [obind] in H.
  destruct (i32 (win - size)) as [free|] eqn:E3; [|discriminate]. cbn [obind] in H. apply ok_inj in H.
  apply i32_ok in E3. subst free. destruct ((hi <? p) && (c <? win - size)) eqn:T1.
  - apply andb_prop in T1. destruct T1 as [_ T1]. apply Z.ltb_lt in T1. destruct ((p <? lo) && (0 <? c + 1)) eqn:T2; lia.
  - destruct ((p <? lo) && (0 <? c)) eqn:T2; [|lia]. apply andb_prop in T2. destruct T2 as [_ T2]. apply Z.ltb_lt in T2. lia.
Qed.
Lemma camera_bounds cam init cw ch ww wh px py cam' : camera cam init cw ch ww wh px py = Ok cam' ->
  0 <= fst cam <= Z.max 0 (ww - cw) -> 0 <= snd cam <= Z.max 0 (wh - ch) ->
  0 <= fst cam' <= Z.max 0 (ww - cw) /\ 0 <= snd cam' <= Z.max 0 (wh - ch) /\
  (init = true -> Z.abs (fst cam' - fst cam) <= 1 /\ Z.abs (snd cam' - snd cam) <= 1).
Proof.
  unfold camera. intros H X Y. destruct (border_of cw) as [b|]; [|discriminate]. cbn [obind] in H.
  destruct (follow (fst cam) cw b ww px) as [cx|] eqn:E1; [|discriminate]. cbn [obind] in H.
  destruct (follow (snd cam) ch b wh py) as [cy|] eqn:E2; [|discriminate]. cbn [obind] in H. apply ok_inj in H.
  apply follow_bounds in E1; [|exact X]. apply follow_bounds in E2; [|exact Y].
  destruct init; subst cam'; cbn [fst snd]; repeat split; try lia; discriminate.
Qed.

(** *** The border is less than half the camera *)
Lemma border_ok cw : 0 <= cw <= 2147483647 -> exists b, border_of cw = Ok b /\ 0 <= b /\ 3 * cw - 10 <= 10 * b <= 3 * cw.
Proof.
  intros B. unfold border_of. set (t := div64 (of_Z 3) (of_Z 10)).
  assert (FT : finite t) by (unfold t; vm_compute; split; [reflexivity|discriminate]).
  assert (T0 : (0 <= SF2Q t)%Q) by (unfold t; vm_compute; discriminate).
  assert (T1 : (SF2Q t <= 3 # 10)%Q) by (unfold t; vm_compute; discriminate).
  assert (T2 : ((3 # 10) - (1 # 100000000000000) <= SF2Q t)%Q) by (unfold t; vm_compute; discriminate).
  clearbody t. destruct (of_Z_ok cw ltac:(lia)) as [FC VC].
  assert (C0 : (0 <= inject_Z cw)%Q) by (change 0%Q with (inject_Z 0); rewrite <- Zle_Qle; lia).
  assert (C1 : (inject_Z cw <= inject_Z 2147483647)%Q) by (rewrite <- Zle_Qle; lia).
  assert (P0 : (0 <= SF2Q (of_Z cw) * SF2Q t)%Q) by (rewrite VC; apply Qmult_le_0_compat; assumption).
  assert (P1 : (SF2Q (of_Z cw) * SF2Q t <= inject_Z cw * (3 # 10))%Q).
  { rewrite VC. setoid_rewrite Qmult_comm. apply Qmult_le_compat_r; assumption. }
  assert (P2 : (inject_Z cw * (3 # 10) - (1 # 10000) <= SF2Q (of_Z cw) * SF2Q t)%Q).
  { rewrite VC. assert (A : (inject_Z cw * ((3 # 10) - (1 # 100000000000000)) <= inject_Z cw * SF2Q t)%Q).
    { setoid_rewrite Qmult_comm. apply Qmult_le_compat_r; assumption. }
    change (inject_Z 2147483647) with (2147483647 # 1)%Q in C1. lra. }
  assert (BL : below (SF2Q (of_Z cw) * SF2Q t)).
  { unfold below. rewrite Qabs_pos by exact P0. eapply Qle_lt_trans; [exact P1|].
    apply Qle_lt_trans with (inject_Z 2147483647); [|vm_compute; reflexivity].
    setoid_replace (inject_Z cw * (3 # 10))%Q with (inject_Z cw - inject_Z cw * (7 # 10))%Q by ring.
    assert (0 <= inject_Z cw * (7 # 10))%Q by (apply Qmult_le_0_compat; [assumption|discriminate]). lra. }
  destruct (SFmul_rounded (of_Z cw) t FC FT BL) as [FR NR]. fold (mul64 (of_Z cw) t) in FR, NR.
  set (r := mul64 (of_Z cw) t) in *. set (v := (SF2Q (of_Z cw) * SF2Q t)%Q) in *. clearbody r v.
  assert (R0 : (0 <= SF2Q r)%Q).
  { apply Qnot_lt_le. intros L. specialize (NR (S754_zero false) I). cbn [SF2Q] in NR.
    rewrite (Qabs_neg (SF2Q r - v)) in NR by lra. rewrite (Qabs_neg (0 - v)) in NR by lra. lra. }
  set (u := 3 * cw * 16 / 10 + 1).
  assert (U1 : u * 10 <= 48 * cw + 10) by (unfold u; pose proof (Z.mul_div_le (3 * cw * 16) 10 ltac:(lia)); lia).
  assert (U2 : 48 * cw <= u * 10) by (unfold u; pose proof (Z.mul_succ_div_gt (3 * cw * 16) 10 ltac:(lia)); lia).
  clearbody u. destruct (representable u (-4) ltac:(lia) ltac:(lia) ltac:(lia)) as (h & FH & VH).
  assert (VH2 : (SF2Q h == inject_Z u * (1 # 16))%Q) by (rewrite VH; unfold QZ; cbn; reflexivity).
  assert (Q1 : (inject_Z u * 10 <= 48 * inject_Z cw + 10)%Q).
  { change 10%Q with (inject_Z 10). change 48%Q with (inject_Z 48). rewrite <- !inject_Z_mult, <- inject_Z_plus, <- Zle_Qle. exact U1. }
  assert (Q2 : (48 * inject_Z cw <= inject_Z u * 10)%Q).
  { change 10%Q with (inject_Z 10). change 48%Q with (inject_Z 48). rewrite <- !inject_Z_mult, <- Zle_Qle. exact U2. }
  assert (R1 : (SF2Q r <= inject_Z cw * (3 # 10) + (1 # 16))%Q).
  { apply Qnot_lt_le. intros L. specialize (NR h FH). rewrite VH2 in NR.
    rewrite (Qabs_pos (SF2Q r - v)) in NR by lra. rewrite (Qabs_pos (inject_Z u * (1 # 16) - v)) in NR by lra. lra. }
  assert (R2 : (inject_Z cw * (3 # 10) - (7 # 100) <= SF2Q r)%Q).
  { apply Qnot_lt_le. intros L. specialize (NR h FH). rewrite VH2 in NR.
    rewrite (Qabs_neg (SF2Q r - v)) in NR by lra. rewrite (Qabs_pos (inject_Z u * (1 # 16) - v)) in NR by lra. lra. }
  destruct (trunc_spec r FR) as (b & T & IS). exists b. unfold is_trunc in IS.
  rewrite (Qabs_pos (SF2Q r) R0) in IS. destruct IS as (I1 & I2 & I3).
  assert (B0 : 0 <= b).
  { destruct (Z.le_gt_cases 0 b) as [|G]; [assumption|exfalso]. assert (X : (inject_Z b <= -1)%Q) by (change (-1)%Q with (inject_Z (-1)); rewrite <- Zle_Qle; lia).
    rewrite (Qabs_neg (inject_Z b)) in I1 by lra. assert (SF2Q r * inject_Z b <= SF2Q r * -1)%Q.
    { setoid_rewrite Qmult_comm. apply Qmult_le_compat_r; assumption. } lra. }
  assert (Y : (0 <= inject_Z b)%Q) by (change 0%Q with (inject_Z 0); rewrite <- Zle_Qle; lia).
  rewrite (Qabs_pos (inject_Z b) Y) in I1.
  assert (B2 : 10 * b < 3 * cw + 1).
  { rewrite Zlt_Qlt, inject_Z_plus, !inject_Z_mult. change (inject_Z 10) with 10%Q. change (inject_Z 3) with 3%Q. change (inject_Z 1) with 1%Q. lra. }
  rewrite (Qabs_pos (inject_Z b) Y) in I2.
  assert (B3 : 3 * cw < 10 * b + 11).
  { rewrite Zlt_Qlt, inject_Z_plus, !inject_Z_mult. change (inject_Z 10) with 10%Q. change (inject_Z 3) with 3%Q. change (inject_Z 11) with 11%Q. lra. }
  unfold c_int. rewrite T. assert (II : in_int b = true) by (apply in_int_iff; lia). rewrite II. split; [reflexivity|]. lia.
Qed.

(** *** A player who stands still comes into view *)
Fixpoint follows (n : nat) (c size b win p : Z) : outcome Z :=
  match n with O => Ok c | S n => do c1 <- follow c size b win p; follows n c1 size b win p end.
Section Axis.
Variables size b win p : Z.
Hypothesis HB : 0 <= b.
Hypothesis HS : 2 * b <= size.
Hypothesis HSZ : 0 <= size <= win.
Hypothesis HW : win <= 2147483647.
Lemma follow_eq c : 0 <= c <= win - size -> follow c size b win p =
  Ok (if (c + size - b <? p) && (c <? win - size) then c + 1 else if (p <? c + b) && (0 <? c) then c - 1 else c).
Proof.
  intros H. unfold follow. rewrite !i32_in by lia. cbn [obind]. f_equal.
  destruct (c + size - b <? p) eqn:E1; [|reflexivity]. apply Z.ltb_lt in E1.
  assert (E2 : (p <? c + b) = false) by (apply Z.ltb_ge; lia). rewrite E2. cbn [andb]. now destruct (c <? win - size).
Qed.
Definition settled (c : Z) : Prop := in_view c size b p \/ (p < c + b /\ c = 0) \/ (c + size - b < p /\ c = win - size).
Lemma settled_stays c : 0 <= c <= win - size -> settled c -> follow c size b win p = Ok c.
Proof.
  intros H D. rewrite (follow_eq c H). f_equal. unfold settled, in_view in D.
  destruct (Z.ltb_spec (c + size - b) p), (Z.ltb_spec c (win - size)), (Z.ltb_spec p (c + b)), (Z.ltb_spec 0 c); cbn [andb]; lia.
Qed.
Lemma comes k : forall c, 0 <= c <= win - size ->
  (Z.to_nat (Z.max (p - (c + size - b)) 0 + Z.max (c + b - p) 0) <= k)%nat ->
  exists n c', follows n c size b win p = Ok c' /\ 0 <= c' <= win - size /\ settled c'.
Proof.
  induction k as [|k IH]; intros c H M.
  - exists 0%nat, c. split; [reflexivity|]. split; [exact H|]. left. unfold in_view. lia.
  - destruct (Z.ltb_spec (c + size - b) p) as [E1|E1].
    + destruct (Z.ltb_spec c (win - size)) as [E2|E2].
      * destruct (IH (c + 1) ltac:(lia) ltac:(lia)) as (n & c' & F & R). exists (S n), c'. split; [|exact R]. cbn [follows].
        rewrite (follow_eq c H). apply Z.ltb_lt in E1, E2. rewrite E1, E2. exact F.
      * exists 0%nat, c. split; [reflexivity|]. split; [exact H|]. right. right. lia.
    + destruct (Z.ltb_spec p (c + b)) as [E2|E2].
      * destruct (Z.ltb_spec 0 c) as [E3|E3].
        -- destruct (IH (c - 1) ltac:(lia) ltac:(lia)) as (n & c' & F & R). exists (S n), c'. split; [|exact R]. cbn [follows].
           rewrite (follow_eq c H). apply Z.ltb_ge in E1. apply Z.ltb_lt in E2, E3. rewrite E1, E2, E3. exact F.
        -- exists 0%nat, c. split; [reflexivity|]. split; [exact H|]. right. left. lia.
      * exists 0%nat, c. split; [reflexivity|]. split; [exact H|]. left. unfold in_view. lia.
Qed.
End Axis.
Lemma follows_app n m c size b win p c' : follows n c size b win p = Ok c' -> follows (n + m) c size b win p = follows m c' size b win p.
Proof.
  revert c. induction n as [|n IH]; intros c H; cbn [follows Nat.add] in *; [apply ok_inj in H; now subst|].
  destruct (follow c size b win p) as [c1|]; [|discriminate]. exact (IH c1 H).
Qed.
(** both directions at once *)
Fixpoint cameras (n : nat) (cam : Z * Z) (cw ch ww wh px py : Z) : outcome (Z * Z) :=
  match n with O => Ok cam | S n => do c1 <- camera cam true cw ch ww wh px py; cameras n c1 cw ch ww wh px py end.
Lemma cameras_split n b : forall cam cw ch ww wh px py x y, border_of cw = Ok b ->
  follows n (fst cam) cw b ww px = Ok x -> follows n (snd cam) ch b wh py = Ok y -> cameras n cam cw ch ww wh px py = Ok (x, y).
Proof.
  induction n as [|n IH]; intros cam cw ch ww wh px py x y B X Y; cbn [follows cameras] in *.
  - apply ok_inj in X. apply ok_inj in Y. subst. now destruct cam.
  - unfold camera. rewrite B. cbn [obind]. destruct (follow (fst cam) cw b ww px) as [x1|]; [|discriminate]. cbn [obind] in *.
    destruct (follow (snd cam) ch b wh py) as [y1|]; [|discriminate]. cbn [obind] in *. apply IH; assumption.
Qed.
Lemma stays_on n c size b win p : follow c size b win p = Ok c -> follows n c size b win p = Ok c.
Proof. intros H. induction n as [|n IH]; [reflexivity|]. cbn [follows]. rewrite H. exact IH. Qed.
Lemma found_ok cam cw ch ww wh px py :
  0 <= cw <= ww -> 0 <= ch <= wh -> 3 * cw <= 5 * ch -> ww <= 2147483647 -> wh <= 2147483647 ->
  0 <= fst cam <= ww - cw -> 0 <= snd cam <= wh - ch ->
  exists b n cam', 0 <= b /\ 3 * cw - 10 <= 10 * b <= 3 * cw /\
    (forall m, (n <= m)%nat -> cameras m cam cw ch ww wh px py = Ok cam') /\
    (in_view (fst cam') cw b px \/ (px < fst cam' + b /\ fst cam' = 0) \/ (fst cam' + cw - b < px /\ fst cam' = ww - cw)) /\
    (in_view (snd cam') ch b py \/ (py < snd cam' + b /\ snd cam' = 0) \/ (snd cam' + ch - b < py /\ snd cam' = wh - ch)).
Proof.
  intros W1 H1 SQ W2 H2 X Y. destruct (border_ok cw ltac:(lia)) as (b & B & B0 & B1).
  destruct (comes cw b ww px B0 ltac:(lia) ltac:(lia) ltac:(lia) _ _ X (Nat.le_refl _)) as (nx & cx & FX & RX & SX).
  destruct (comes ch b wh py B0 ltac:(lia) ltac:(lia) ltac:(lia) _ _ Y (Nat.le_refl _)) as (ny & cy & FY & RY & SY).
  exists b, (nx + ny)%nat, (cx, cy). split; [exact B0|]. split; [exact B1|]. split; [|split; assumption].
  intros m M. apply (cameras_split m b _ _ _ _ _ _ _ _ _ B).
  - replace m with (nx + (m - nx))%nat by lia. rewrite (follows_app _ _ _ _ _ _ _ _ FX). apply stays_on, settled_stays; auto; lia.
  - replace m with (ny + (m - ny))%nat by lia. rewrite (follows_app _ _ _ _ _ _ _ _ FY). apply stays_on, settled_stays; auto; lia.
Qed.

(** *** Images out of view *)
Lemma culled_ok cam cw ch vx vy r px py : covers r px py -> shows (fst cam) cw px -> shows (snd cam) ch py ->
  covers (on_screen cam cw ch vx vy r) (px - fst cam + vx) (py - snd cam + vy) /\
  rw (on_screen cam cw ch vx vy r) = rw r /\ rh (on_screen cam cw ch vx vy r) = rh r.
Proof.
  unfold covers, shows, on_screen. intros [A1 A2] B C. cbv zeta.
  destruct (cw <? rx r - fst cam) eqn:E1; [apply Z.ltb_lt in E1; lia|].
  destruct (rx r - fst cam + rw r <? 0) eqn:E2; [apply Z.ltb_lt in E2; lia|].
  destruct (ch <? ry r - snd cam) eqn:E3; [apply Z.ltb_lt in E3; lia|].
  destruct (ry r - snd cam + rh r <? 0) eqn:E4; [apply Z.ltb_lt in E4; lia|]. cbn [orb rx ry rw rh]. lia.
Qed.
Lemma drawn_ok cam cw ch vx vy r px py : covers (on_screen cam cw ch vx vy r) px py -> covers r (px - vx + fst cam) (py - vy + snd cam).
Proof.
  unfold covers, on_screen. cbv zeta. destruct (_ || _ || _ || _); cbn [rx ry rw rh]; lia.
Qed.

(** ** Clicks *)
Lemma lt_pos a ka b kb : at_pos a ka -> at_pos b kb -> SFltb a b = true <-> ka < kb.
Proof. intros [FA VA] [FB VB]. rewrite (SFltb_Q a b FA FB), VA, VB. apply QZ_lt. Qed.
(** Strictly inside: not in the first column and row *)
Definition inside (r : rect) (kx ky bx by_ : Z) : Prop :=
  kx < bx * K /\ bx * K < kx + rw r * K /\ ky < by_ * K /\ by_ * K < ky + rh r * K.
Lemma clicked_ok m r bx by_ : shape_at (px m) (py m) (pw m) (frames m) (ph m) r -> Z.abs bx <= 2147483648 -> Z.abs by_ <= 2147483648 ->
  exists kx ky, at_pos (px m) kx /\ at_pos (py m) ky /\ r = mkR (pixel kx) (pixel ky) (pw m / frames m) (ph m) /\
    (clicked bx by_ m = true <-> inside r kx ky bx by_ /\ there m = true).
Proof.
  intros (kx & ky & PX & PY & MX & MY & N1 & W & HH & ->) BX BY. exists kx, ky. split; [exact PX|]. split; [exact PY|]. split; [reflexivity|].
  assert (WD : 0 <= pw m / frames m <= 2 ^ 29).
  { split; [apply Z.div_pos; lia|]. apply Z.le_trans with (pw m); [|lia]. apply Z.div_le_upper_bound; [lia|]. nia. }
  unfold clicked, inside. cbn [rw rh]. assert (F0 : (frames m =? 0) = false) by (apply Z.eqb_neq; lia). rewrite F0.
  rewrite Z.quot_div_nonneg by lia. rewrite !andb_true_iff.
  rewrite (lt_pos _ _ _ _ PX (at_whole bx ltac:(clear -BX; lia))).
  rewrite (lt_pos _ _ _ _ PY (at_whole by_ ltac:(clear -BY; lia))).
  rewrite (lt_pos _ _ _ _ (at_whole bx ltac:(clear -BX; lia)) (at_add_w _ _ (pw m / frames m) PX MX WD)).
  rewrite (lt_pos _ _ _ _ (at_whole by_ ltac:(clear -BY; lia)) (at_add_w _ _ (ph m) PY MY ltac:(clear -HH; lia))).
  tauto.
Qed.
Section Told.
Variables (listener : nat -> bool) (bx by_ : Z).
Lemma told_from l : forall i j, In j (mouse_down listener bx by_ l i) -> exists m, nth_error l (j - i) = Some m /\ (i <= j)%nat /\ clicked bx by_ m = true.
Proof.
  induction l as [|m l IH]; intros i j H; [destruct H|]. cbn [mouse_down] in H.
  assert (NX : In j (mouse_down listener bx by_ l (S i)) -> exists m', nth_error (m :: l) (j - i) = Some m' /\ (i <= j)%nat /\ clicked bx by_ m' = true).
  { intros I. destruct (IH _ _ I) as (m' & A & B & C). exists m'. split; [|split; [lia|exact C]]. now replace (j - i)%nat with (S (j - S i)) by lia. }
  destruct (clicked bx by_ m) eqn:C; [|exact (NX H)]. destruct H as [<-|H].
  - exists m. rewrite Nat.sub_diag. auto.
  - destruct (listener i); [destruct H|exact (NX H)].
Qed.
Lemma told_sorted l : forall i, StronglySorted lt (mouse_down listener bx by_ l i).
Proof.
  induction l as [|m l IH]; intros i; cbn [mouse_down]; [constructor|]. destruct (clicked bx by_ m); [|apply IH].
  destruct (listener i); [repeat constructor|]. constructor; [apply IH|]. apply Forall_forall. intros j H. destruct (told_from _ _ _ H) as (_ & _ & B & _). lia.
Qed.
Lemma told_all l : forall i k m, nth_error l k = Some m -> clicked bx by_ m = true -> (forall j, (i <= j < i + k)%nat -> listener j = false) ->
  In (i + k)%nat (mouse_down listener bx by_ l i).
Proof.
  induction l as [|a l IH]; intros i k m N C L; [now destruct k|]. destruct k as [|k]; cbn [nth_error mouse_down] in *.
  - injection N as ->. rewrite C, Nat.add_0_r. now left.
  - assert (X : In (i + S k)%nat (mouse_down listener bx by_ l (S i))).
    { rewrite <- Nat.add_succ_comm. apply (IH _ _ m N C). intros j J. apply L. lia. }
    destruct (clicked bx by_ a); [|exact X]. right. rewrite L by lia. exact X.
Qed.
Lemma told_stop l : forall k i j, In i (mouse_down listener bx by_ l k) -> listener i = true -> In j (mouse_down listener bx by_ l k) -> (j <= i)%nat.
Proof.
  induction l as [|m l IH]; intros k i j I E J; cbn [mouse_down] in *; [destruct I|]. destruct (clicked bx by_ m); [|exact (IH _ _ _ I E J)].
  destruct (listener k) eqn:K.
  - destruct I as [<-|[]], J as [<-|[]]. lia.
  - destruct I as [<-|I]; [congruence|]. destruct J as [<-|J]; [|exact (IH _ _ _ I E J)]. destruct (told_from _ _ _ I) as (_ & _ & B & _). lia.
Qed.
End Told.
Lemma told_ok listener bx by_ l j :
  StronglySorted lt (mouse_down listener bx by_ l 0) /\
  (In j (mouse_down listener bx by_ l 0) -> exists m, nth_error l j = Some m /\ clicked bx by_ m = true) /\
  (forall m, nth_error l j = Some m -> clicked bx by_ m = true -> (forall i, (i < j)%nat -> listener i = false) ->
     In j (mouse_down listener bx by_ l 0)) /\
  (forall i, In i (mouse_down listener bx by_ l 0) -> listener i = true -> In j (mouse_down listener bx by_ l 0) -> (j <= i)%nat).
Proof.
  split; [apply told_sorted|]. split.
  - intros H. destruct (told_from _ _ _ _ _ _ H) as (m & A & _ & B). rewrite Nat.sub_0_r in A. eauto.
  - split; [intros m N C L; apply (told_all listener bx by_ l 0 j m N C); intros i I; apply L; lia|].
    intros i. apply told_stop.
Qed.
Lemma inside_ok m r bx by_ : shape_at (px m) (py m) (pw m) (frames m) (ph m) r -> Z.abs bx <= 2147483648 -> Z.abs by_ <= 2147483648 ->
  (clicked bx by_ m = true <-> there m = true /\
    (SF2Q (px m) < inject_Z bx /\ inject_Z bx < SF2Q (px m) + inject_Z (rw r) /\
     SF2Q (py m) < inject_Z by_ /\ inject_Z by_ < SF2Q (py m) + inject_Z (rh r))%Q).
Proof.
  intros H BX BY. destruct (clicked_ok m r bx by_ H BX BY) as (kx & ky & [_ PX] & [_ PY] & -> & C). rewrite C. unfold inside. cbn [rw rh].
  rewrite PX, PY, !inject_K, !QZ_add, !QZ_lt. tauto.
Qed.
