(** Proofs about the motion of images. *)
From Coq Require Import SpecFloat QArith Qabs Lqa.
From Verif Require Import Common FloatSpec FloatProofs NumModel NumSpec NumProofs PhysSpec PhysModel PhysProofs.
Local Open Scope Z_scope.

(** ** Comparison and rounding *)
Lemma not_lt_le a b : a <> S754_nan -> b <> S754_nan -> lt a b = false -> le b a = true.
Proof.
  intros NA NB. unfold lt, le, SFltb, SFleb. rewrite (SFcompare_swap a b). destruct (SFcompare_some a b NA NB) as [c ->]. now destruct c.
Qed.
Lemma of_Z_not_nan z : Z.abs z <= 2 ^ 53 -> of_Z z <> S754_nan.
Proof. intros H E. destruct (of_Z_ok z H) as [F _]. rewrite E in F. exact F. Qed.
Lemma le_of_Z a b : Z.abs a <= 2 ^ 53 -> Z.abs b <= 2 ^ 53 -> le (of_Z a) (of_Z b) = true <-> a <= b.
Proof.
  intros A B. destruct (of_Z_ok a A) as [FA VA]. destruct (of_Z_ok b B) as [FB VB]. unfold le. rewrite (SFleb_Q _ _ FA FB), VA, VB.
  now rewrite <- Zle_Qle.
Qed.
Lemma is_round_mono q q' z z' : is_round q z -> is_round q' z' -> (q <= q')%Q -> z <= z'.
Proof.
  intros [A1 A2] [B1 B2] L. destruct (Z.le_gt_cases z z') as [|G]; [assumption|exfalso].
  apply Qabs_Qle_condition in A1. apply Qabs_Qle_condition in B1.
  assert (X : (inject_Z z' + 1 <= inject_Z z)%Q) by (change 1%Q with (inject_Z 1); rewrite <- inject_Z_plus, <- Zle_Qle; lia).
  assert (E1 : (q == inject_Z z - (1 # 2))%Q) by lra.
  assert (E2 : (q' == inject_Z z' + (1 # 2))%Q) by lra.
  assert (E3 : (inject_Z z' + 1 == inject_Z z)%Q) by lra.
  assert (Y1 : (Qabs q < Qabs (inject_Z z))%Q).
  { apply A2. setoid_replace (q - inject_Z z)%Q with (- (1 # 2))%Q by (rewrite E1; ring). reflexivity. }
  assert (Y2 : (Qabs q' < Qabs (inject_Z z'))%Q).
  { apply B2. setoid_replace (q' - inject_Z z')%Q with (1 # 2)%Q by (rewrite E2; ring). reflexivity. }
  destruct (Z.le_gt_cases 0 z') as [P|P].
  - assert (0 <= inject_Z z')%Q by (change 0%Q with (inject_Z 0); rewrite <- Zle_Qle; lia).
    rewrite (Qabs_pos (inject_Z z')) in Y2 by assumption. rewrite Qabs_pos in Y2 by lra. lra.
  - assert (inject_Z z' <= -1)%Q by (change (-1)%Q with (inject_Z (-1)); rewrite <- Zle_Qle; lia).
    assert (inject_Z z <= 0)%Q by lra.
    rewrite (Qabs_neg (inject_Z z)) in Y1 by assumption. rewrite Qabs_neg in Y1 by lra. lra.
Qed.
Lemma c_round_mono a b : finite a -> finite b -> (SF2Q a <= SF2Q b)%Q -> le (c_round a) (c_round b) = true.
Proof.
  intros FA FB L. destruct (c_round_spec a FA) as (GA & za & VA & RA). destruct (c_round_spec b FB) as (GB & zb & VB & RB).
  unfold le. rewrite (SFleb_Q _ _ GA GB), VA, VB, <- Zle_Qle. exact (is_round_mono _ _ _ _ RA RB L).
Qed.
Lemma c_round_near a b : finite a -> finite b -> le (c_round a) (c_round b) = true -> (SF2Q a <= SF2Q b + 1)%Q.
Proof.
  intros FA FB L. destruct (c_round_spec a FA) as (GA & za & VA & RA & _). destruct (c_round_spec b FB) as (GB & zb & VB & RB & _).
  unfold le in L. rewrite (SFleb_Q _ _ GA GB), VA, VB in L. apply Qabs_Qle_condition in RA. apply Qabs_Qle_condition in RB. lra.
Qed.
Lemma between_iff t a b : finite t -> finite a -> finite b ->
  ((SF2Q a <= SF2Q t <= SF2Q b)%Q \/ (SF2Q b <= SF2Q t <= SF2Q a)%Q -> between t a b = true) /\
  (between t a b = true -> (SF2Q a - 1 <= SF2Q t <= SF2Q b + 1)%Q \/ (SF2Q b - 1 <= SF2Q t <= SF2Q a + 1)%Q).
Proof.
  intros FT FA FB. unfold between. split.
  - intros [[A B]|[A B]]; rewrite orb_true_iff, !andb_true_iff; [left|right]; split; apply c_round_mono; assumption.
  - rewrite orb_true_iff, !andb_true_iff. intros [[A B]|[A B]]; apply c_round_near in A, B; try assumption; [left|right]; split; lra.
Qed.

Local Ltac ok H := match type of H with obind _ _ = Ok _ => let a := fresh "v" in let E := fresh "E" in apply bind_ok in H; destruct H as (a & E & H) end.

Lemma some_inj {A} (a b : A) : Some a = Some b -> a = b.
Proof. congruence. Qed.
Lemma ok_inj {A} (a b : A) : Ok a = Ok b -> a = b.
Proof. congruence. Qed.

(** ** The window *)
Definition keeps (g g' : game) : Prop := player g' = player g /\ mode g' = mode g /\ winw g' = winw g /\ winh g' = winh g.
Lemma keeps_refl g : keeps g g.
Proof. repeat split. Qed.
Lemma keeps_trans a b c : keeps a b -> keeps b c -> keeps a c.
Proof. unfold keeps. intros (A1 & A2 & A3 & A4) (B1 & B2 & B3 & B4). repeat split; congruence. Qed.

Section Move.
Variables (cosf sinf logf : num -> num) (powf : num -> num -> num) (pi_180 pi : num).
Variable on_hit : game -> nat -> nat -> list img.
Variable on_arrival : game -> nat -> list img.
Notation jumping := (jumping logf powf).
Notation moving := (moving cosf sinf pi on_arrival).
Notation carried := (carried cosf sinf pi).
Notation motion := (motion cosf sinf logf powf pi on_arrival).

Lemma jumping_keeps g i dt g' : jumping g i dt = Ok g' -> keeps g g'.
Proof.
  unfold PhysModel.jumping. destruct (_ && _); intros H; [|injection H as <-; apply keeps_refl].
  ok H. ok H. destruct (_ <? _); injection H as <-; repeat split.
Qed.
Lemma falling_keeps g i dt g' : falling g i dt = Ok g' -> keeps g g'.
Proof.
  unfold falling. intros H. ok H. ok H. destruct (_ && _).
  - destruct (le (int_num 1) (gravity v)).
    + destruct (contact g); [|apply ok_inj in H; subst g'; repeat split]. destruct (is_player g i); [|apply ok_inj in H; subst g'; repeat split].
      ok H. ok H. destruct v2; apply ok_inj in H; subst g'; repeat split.
    + destruct (le _ _); apply ok_inj in H; subst g'; repeat split.
  - apply ok_inj in H; subst g'. destruct (is_player g i); repeat split.
Qed.
Lemma moving_keeps g i dt g' : moving g i dt = Ok g' -> keeps g g'.
Proof.
  unfold PhysModel.moving. intros H. ok H. destruct (_ && _); [|apply ok_inj in H; subst g'; repeat split].
  destruct (_ && _); apply ok_inj in H; subst g'; repeat split.
Qed.
Lemma carried_keeps g i dt g' : carried g i dt = Ok g' -> keeps g g'.
Proof.
  unfold PhysModel.carried. intros H. destruct (_ && _); [|apply ok_inj in H; subst g'; repeat split].
  destruct (contact g); [|apply ok_inj in H; subst g'; repeat split]. ok H. ok H. destruct (_ && _); apply ok_inj in H; subst g'; repeat split.
Qed.
(** from [0] to [hi], or [0] if there is no room *)
Definition in_range (v : num) (hi : Z) : Prop := SFleb zero64 v = true /\ (0 <= hi -> SFleb v (of_Z hi) = true).
Lemma clamp v hi : in_int hi = true -> v <> S754_nan ->
  in_range (let a := if lt (int_num hi) v then int_num hi else v in if lt a (int_num 0) then int_num 0 else a) hi.
Proof.
  intros H N. apply in_int_iff in H. cbv zeta. unfold int_num. change zero64 with (of_Z 0).
  assert (B : Z.abs hi <= 2 ^ 53) by lia. assert (B0 : Z.abs 0 <= 2 ^ 53) by lia.
  set (a := if lt (of_Z hi) v then of_Z hi else v).
  assert (A : a <> S754_nan /\ le a (of_Z hi) = true).
  { unfold a. destruct (lt (of_Z hi) v) eqn:L; [split; [now apply of_Z_not_nan|apply le_of_Z; lia]|].
    split; [exact N|]. apply not_lt_le; [now apply of_Z_not_nan|exact N|exact L]. }
  clearbody a. destruct A as [A1 A2]. unfold in_range. change zero64 with (of_Z 0). destruct (lt a (of_Z 0)) eqn:L.
  - split; [now apply (proj2 (le_of_Z 0 0 B0 B0))|]. intros P. apply (proj2 (le_of_Z 0 hi B0 B)). exact P.
  - split; [apply not_lt_le; [exact A1|now apply of_Z_not_nan|exact L]|]. intros _. exact A2.
Qed.
Lemma clamp_upper v hi : in_int hi = true -> v <> S754_nan ->
  SFleb (if lt (int_num hi) v then int_num hi else v) (of_Z hi) = true.
Proof.
  intros H N. apply in_int_iff in H. unfold int_num. destruct (lt (of_Z hi) v) eqn:L; [apply le_of_Z; lia|].
  apply not_lt_le; [apply of_Z_not_nan; lia|exact N|exact L].
Qed.
Lemma nan_clamp v hi : in_int hi = true ->
  (let a := if lt (int_num hi) v then int_num hi else v in if lt a (int_num 0) then int_num 0 else a) <> S754_nan -> v <> S754_nan.
Proof.
  intros H N E. apply N. subst v. unfold lt, SFltb. destruct (int_num hi); reflexivity.
Qed.
Lemma nan_upper v hi : (if lt (int_num hi) v then int_num hi else v) <> S754_nan -> v <> S754_nan.
Proof. intros N E. apply N. subst v. unfold lt, SFltb. destruct (int_num hi); reflexivity. Qed.
Theorem motion_inside g i dt g' m' : motion g i dt = Ok g' -> player g = Some i -> mode g < 5 -> nth_error (imgs g') i = Some m' ->
  anims m' <> 0 /\
  (x m' <> S754_nan -> in_range (x m') (winw g - Z.quot (w m') (anims m'))) /\
  (y m' <> S754_nan -> SFleb (y m') (of_Z (winh g - h m')) = true \/ y m' = of_Z 0) /\
  (y m' <> S754_nan -> mode g <> 1 \/ jump g' = 0 -> in_range (y m') (winh g - h m')).
Proof.
  unfold PhysModel.motion. intros H P MO M. ok H. ok H. ok H. ok H. ok H.
  apply jumping_keeps in E. apply falling_keeps in E1. apply moving_keeps in E2. apply carried_keeps in E3.
  assert (KP : keeps g v3).
  { eapply keeps_trans; [exact E|]. eapply keeps_trans; [|eapply keeps_trans; [exact E1|eapply keeps_trans; [exact E2|exact E3]]]. repeat split. }
  clear E E0 E1 E2 E3. destruct KP as (K1 & K2 & K3 & K4). unfold kept_inside in H.
  assert (IP : is_player v3 i = true) by (apply is_player_iff; congruence). rewrite IP in H. cbn [andb] in H.
  replace (mode v3 <? 5) with true in H by (symmetry; apply Z.ltb_lt; congruence). ok H. ok H. ok H. ok H. apply img_at_inv in E.
  unfold idiv in E0. destruct (Z.eqb_spec (anims v4) 0) as [|NA]; [discriminate|].
  assert (U : forall a b, i32 a = Ok b -> b = a /\ in_int a = true) by (unfold i32; intros a b; destruct (in_int a); [intros X; injection X as <-; auto|discriminate]).
  apply U in E0, E1, E2. destruct E0 as [-> _]. destruct E1 as [-> I1]. destruct E2 as [-> I2].
  apply ok_inj in H; subst g'. rewrite (put_same v3 i _ v4 E) in M. apply some_inj in M. subst m'. cbn [anims x y w h at_xy]. rewrite <- K3, <- K4, <- K2.
  split; [exact NA|]. split; [|split].
  - intros N. apply clamp; [exact I1|exact (nan_clamp _ _ I1 N)].
  - destruct (negb (mode v3 =? 1) || (jump v3 =? 0)).
    + intros N. pose proof (nan_clamp _ _ I2 N) as NV. pose proof (clamp_upper (y v4) _ I2 NV) as CU. set (a := if lt (int_num (winh v3 - h v4)) (y v4) then int_num (winh v3 - h v4) else y v4) in *. clearbody a. destruct (lt a (int_num 0)); [right; reflexivity|left; exact CU].
    + intros N. left. apply clamp_upper; [exact I2|exact (nan_upper _ _ N)].
  - intros N MJ. cbn [put with_imgs jump] in MJ.
    assert (C : negb (mode v3 =? 1) || (jump v3 =? 0) = true).
    { rewrite orb_true_iff, negb_true_iff, Z.eqb_neq, Z.eqb_eq. exact MJ. }
    rewrite C in *. apply clamp; [exact I2|exact (nan_clamp _ _ I2 N)].
Qed.

(** ** Friction *)
Theorem slower_ok m : finite (mov m) -> finite (fric m) -> (0 <= SF2Q (mov m))%Q -> (0 < SF2Q (fric m))%Q -> (SF2Q (mov m) < Qpower 2 1023)%Q ->
  finite (mov (slower m)) /\ (0 <= SF2Q (mov (slower m)) <= SF2Q (mov m))%Q /\ (SF2Q (mov m) <= SF2Q (fric m) -> SF2Q (mov (slower m)) == 0)%Q.
Proof.
  intros FM FF P F0 BM. unfold slower.
  assert (Z : finite zero64) by exact I.
  assert (L1 : lt zero64 (fric m) = true) by (apply (SFltb_Q _ _ Z FF); exact F0). rewrite L1. cbn [andb].
  destruct (lt zero64 (mov m)) eqn:L2.
  2: { assert (E : (SF2Q (mov m) == 0)%Q).
       { apply Qle_antisym; [|exact P]. apply Qnot_lt_le. intros C. assert (lt zero64 (mov m) = true) by (apply (SFltb_Q _ _ Z FM); exact C). congruence. }
       split; [exact FM|]. rewrite E. split; [split; apply Qle_refl|reflexivity]. }
  destruct (lt (mov m) (fric m)) eqn:L3; cbn [mov with_mov].
  - split; [exact I|]. split; [split; [apply Qle_refl|exact P]|reflexivity].
  - assert (LE : (SF2Q (fric m) <= SF2Q (mov m))%Q).
    { apply Qnot_lt_le. intros C. assert (lt (mov m) (fric m) = true) by (apply (SFltb_Q _ _ FM FF); exact C). congruence. }
    set (v := (SF2Q (mov m) - SF2Q (fric m))%Q).
    assert (B : below v).
    { unfold below. rewrite Qabs_pos by (unfold v; lra). unfold v. lra. }
    destruct (SFsub_rounded (mov m) (fric m) FM FF B) as [R1 R2]. fold v in R2. split; [exact R1|].
    assert (V0 : (0 <= v)%Q) by (unfold v; lra). assert (V1 : (v <= SF2Q (mov m))%Q) by (unfold v; lra).
    pose proof (R2 zero64 Z) as N0. pose proof (R2 (mov m) FM) as N1. change (SF2Q zero64) with 0%Q in N0. unfold sub64.
    set (q := SF2Q (SFsub 53 1024 (mov m) (fric m))) in *. split; [split|].
    + apply Qnot_lt_le. intros C. rewrite Qabs_neg in N0 by lra. rewrite (Qabs_neg (0 - v)) in N0 by lra. lra.
    + apply Qnot_lt_le. intros C. rewrite Qabs_pos in N1 by lra. rewrite (Qabs_pos (SF2Q (mov m) - v)) in N1 by lra. lra.
    + intros G.  unfold q.
      rewrite (near_exact _ v zero64 R2 Z); [unfold v; lra|]. change (SF2Q zero64) with 0%Q. unfold v. lra.
Qed.

(** ** Arrival *)
Theorem moving_arrives g i dt m g' : nth_error (imgs g) i = Some m -> moving g i dt = Ok g' ->
  lt zero64 (mov m) = true -> lt (int_num (-1)) (dir m) = true ->
  exists nx ny,
    nx = (if SFeqb (x m) (tx m) then x m else add64 (x m) (mul64 (mul64 dt (mov m)) (cos_deg cosf pi (dir m)))) /\
    ny = (if SFeqb (y m) (ty m) then y m else sub64 (y m) (mul64 (mul64 dt (mov m)) (sin_deg sinf pi (dir m)))) /\
    (finite nx -> finite ny -> finite (ox m) -> finite (oy m) -> finite (tx m) -> finite (ty m) ->
     let between q a b := ((a <= q <= b)%Q \/ (b <= q <= a)%Q) in
     let near q a b := ((a - 1 <= q <= b + 1)%Q \/ (b - 1 <= q <= a + 1)%Q) in
     (between (SF2Q (tx m)) (SF2Q (ox m)) (SF2Q nx) -> between (SF2Q (ty m)) (SF2Q (oy m)) (SF2Q ny) -> sent g' = Arrived i :: sent g) /\
     (sent g' <> sent g -> near (SF2Q (tx m)) (SF2Q (ox m)) (SF2Q nx) /\ near (SF2Q (ty m)) (SF2Q (oy m)) (SF2Q ny))) /\
    (sent g' = sent g \/ sent g' = Arrived i :: sent g /\ imgs g' = on_arrival (put g i (with_dir (at_xy m nx ny) (int_num (-1)))) i) /\
    (sent g' = sent g -> g' = put g i (at_xy m nx ny)).
Proof.
  intros M H L1 L2. unfold PhysModel.moving in H. rewrite (img_at_ok _ _ _ M) in H. cbn [obind] in H. rewrite L1, L2 in H. cbn [andb] in H.
  set (nx := if SFeqb (x m) (tx m) then _ else _) in *. set (ny := if SFeqb (y m) (ty m) then _ else _) in *.
  exists nx, ny. split; [reflexivity|]. split; [reflexivity|]. clearbody nx ny. cbn [tx ty ox oy x y at_xy] in H. split.
  - intros FX FY FO FP FT FU. cbv zeta. destruct (between_iff (tx m) (ox m) nx FT FO FX) as [B1 B2].
    destruct (between_iff (ty m) (oy m) ny FU FP FY) as [C1 C2]. split.
    + intros P Q. rewrite (B1 P), (C1 Q) in H. cbn [andb] in H. injection H as <-. reflexivity.
    + destruct (between (tx m) (ox m) nx); [|cbn [andb] in H; injection H as <-; intros C; now destruct C].
      destruct (between (ty m) (oy m) ny); [|cbn [andb] in H; injection H as <-; intros C; now destruct C]. auto.
  - destruct (_ && _); injection H as <-.
    + split; [right; split; reflexivity|]. cbn [sent with_imgs with_sent put]. intros C. exfalso.
      assert (X : length (Arrived i :: sent g) = length (sent g)) by now rewrite C. cbn [length] in X. lia.
    + split; [now left|reflexivity].
Qed.
(** An image without a direction or without speed does not move by itself. *)
Theorem moving_rests g i dt m : nth_error (imgs g) i = Some m -> lt zero64 (mov m) = false \/ lt (int_num (-1)) (dir m) = false -> moving g i dt = Ok g.
Proof.
  intros M H. unfold PhysModel.moving. rewrite (img_at_ok _ _ _ M). cbn [obind]. destruct H as [->| ->]; [reflexivity|]. now rewrite andb_false_r.
Qed.
End Move.
