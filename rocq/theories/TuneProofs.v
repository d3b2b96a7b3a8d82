(** Proofs about settings of images and about sending images somewhere. *)
From Coq Require Import QArith Qabs Lqa SpecFloat Lia List Bool.
From Verif Require Import Common FloatSpec FloatProofs NumModel NumProofs PhysSpec PhysModel PhysProofs ReelSpec ReelProofs TuneSpec TuneModel.
Import ListNotations.
Local Open Scope Z_scope.

Definition settings (m : img) := (solid m, collidable m, bounce m, fixed m, ghost m, visible m, (gravity m, speed m, fric m, accel m)).
(** What frames leave alone: the settings of every image, the player and how it is controlled *)
Definition kept (g : game) := (map settings (imgs g), player g, mode g).
Lemma split_at {A} (l : list A) i m : nth_error l i = Some m -> l = firstn i l ++ m :: skipn (S i) l.
Proof.
  revert i. induction l as [|a l IH]; intros [|i] E; cbn in *; try discriminate; [congruence|]. f_equal. now apply IH.
Qed.
Lemma img_at_ok g i m : img_at g i = Ok m -> nth_error (imgs g) i = Some m.
Proof. unfold img_at. destruct (nth_error (imgs g) i); congruence. Qed.
Lemma put_kept g i m m' : img_at g i = Ok m -> settings m' = settings m -> kept (put g i m') = kept g.
Proof.
  intros H S. apply img_at_ok in H. unfold kept, put, with_imgs. cbn [imgs player mode]. f_equal. f_equal.
  rewrite (split_at _ _ _ H) at 3. rewrite !map_app. cbn [map]. now rewrite S.
Qed.
Lemma set_kept g g' : imgs g' = imgs g -> player g' = player g -> mode g' = mode g -> kept g' = kept g.
Proof. unfold kept. now intros -> -> ->. Qed.

Lemma jheight_kept g j : kept (with_jheight g j) = kept g. Proof. reflexivity. Qed.
Lemma jump_kept g j : kept (with_jump g j) = kept g. Proof. reflexivity. Qed.
Lemma contact_kept g j : kept (with_contact g j) = kept g. Proof. reflexivity. Qed.
Lemma ok_inj {A} (a b : A) : Ok a = Ok b -> a = b. Proof. congruence. Qed.
Ltac okinj H := apply ok_inj in H; match type of H with ?t = ?v => subst v end.
Ltac unbind H :=
  match type of H with
  | obind ?o _ = Ok _ => let E := fresh "E" in destruct o eqn:E; cbn [obind] in H; [|discriminate H]
  | (if ?b then _ else _) = Ok _ => destruct b
  | (let (_, _) := ?p in _) = Ok _ => destruct p
  | Ok ?a = Ok ?b => okinj H
  end.

Section Kept.
Variables (cosf sinf logf : num -> num) (powf : num -> num -> num) (pi_180 pi : num).
Variable on_hit : game -> nat -> nat -> list img.
Variable on_arrival : game -> nat -> list img.
(** Listeners that send no messages *)
Definition quiet_listeners : Prop :=
  (forall g i j, map settings (on_hit g i j) = map settings (imgs g)) /\ (forall g i, map settings (on_arrival g i) = map settings (imgs g)).
Hypothesis Q : quiet_listeners.

Lemma resolve1_kept m r r2 a b m' : resolve1 m r r2 a b = Ok m' -> settings m' = settings m.
Proof. unfold resolve1. intros H. repeat (unbind H; try reflexivity). Qed.
Lemma resolve_kept g i j g' : resolve cosf sinf pi_180 g i j = Ok g' -> kept g' = kept g.
Proof.
  unfold resolve. intros H. unbind H. rename E into M. do 9 unbind H.
  destruct (shifted g i a a0).
  - okinj H. now apply put_kept with (m := a).
  - unbind H. unbind H. okinj H. apply put_kept with (m := a); [exact M|].
    etransitivity; [eapply resolve1_kept; eassumption|eapply resolve1_kept; eassumption].
Qed.
Lemma run_into_kept g i j g' : run_into cosf sinf pi_180 g i j = Ok g' -> kept g' = kept g.
Proof.
  unfold run_into. intros H. unbind H. rename E into M. do 4 unbind H. rename E2 into G1.
  assert (K1 : kept a3 = kept g).
  { destruct (lands a a0 a1 a2).
    - okinj G1. destruct (is_player g i); [rewrite contact_kept|]; now apply put_kept with (m := a).
    - unbind G1. unbind G1. okinj G1. rewrite <- (resolve_kept _ _ _ _ E2). eapply put_kept; [eassumption|reflexivity]. }
  match type of H with obind (img_at ?g2 i) _ = _ => assert (K2 : kept g2 = kept a3) by (destruct (is_player g i); cbn [andb]; [|reflexivity]; destruct (jump a3 =? 2); [reflexivity|destruct (jump a3 =? 3); reflexivity]); remember g2 as gg eqn:EG end.
  unbind H. destruct (bounce a4); [|okinj H; congruence].
  unbind H. okinj H. rewrite <- K1, <- K2. eapply put_kept; [eassumption|].
  unfold bounced in E3. repeat unbind E3. reflexivity.
Qed.
Lemma tell_kept g a b : kept (tell on_hit g a b) = kept g.
Proof. destruct Q as [Q1 _]. unfold kept, tell, with_imgs, with_sent. cbn [imgs player mode]. now rewrite Q1. Qed.
Lemma meet_kept g i r j g' : meet cosf sinf pi_180 on_hit g i r j = Ok g' -> kept g' = kept g.
Proof.
  unfold meet. intros H. unbind H. unbind H. destruct (Nat.eqb i j || fixed a || fixed a0 || negb (alive a) || negb (alive a0)); [congruence|].
  do 4 unbind H. destruct a4; [|congruence]. unbind H.
  assert (K1 : kept a4 = kept g) by (destruct (solid a0 && negb (solid a) && negb (ghost a)); [eapply run_into_kept; eassumption|congruence]).
  unbind H. unbind H. okinj H. destruct (collidable a6); destruct (collidable a5); rewrite ?tell_kept; exact K1.
Qed.
Lemma meet_all_kept r js i : forall g g', meet_all cosf sinf pi_180 on_hit g i r js = Ok g' -> kept g' = kept g.
Proof.
  induction js as [|j js IH]; cbn [meet_all]; intros g g' H; [congruence|]. unbind H. etransitivity; [apply IH; exact H|eapply meet_kept; eassumption].
Qed.
Lemma faster_settings g i m : settings (slower (faster g i m)) = settings m.
Proof.
  unfold slower. destruct (lt zero64 (fric (faster g i m)) && lt zero64 (mov (faster g i m))); cbn; unfold faster;
    destruct (lt (mov m) (speed m) && negb (is_player g i)); reflexivity.
Qed.
Lemma motion_kept g i dt g' : motion cosf sinf logf powf pi on_arrival g i dt = Ok g' -> kept g' = kept g.
Proof.
  unfold motion. intros H. do 5 unbind H. rename E0 into M.
  assert (K1 : kept a = kept g).
  { unfold jumping in E. destruct (is_player g i && (jump g =? 2)); [|congruence]. do 2 unbind E. okinj E.
    destruct (a5 <? 1); rewrite ?jheight_kept, ?jump_kept; (eapply put_kept; [eassumption|reflexivity]). }
  assert (K2 : kept (PhysModel.put a i (slower (faster a i a0))) = kept a) by (eapply put_kept; [eassumption|apply faster_settings]).
  assert (K3 : kept a1 = kept (PhysModel.put a i (slower (faster a i a0)))).
  { revert E1. generalize (PhysModel.put a i (slower (faster a i a0))). intros gg E1. unfold falling in E1. do 2 unbind E1.
    destruct (negb (ghost a4) && lt zero64 (gravity a4) && lt (y a4) (int_num a5)).
    - destruct (le (int_num 1) (gravity a4)).
      + destruct (contact gg).
        * destruct (is_player gg i).
          -- do 2 unbind E1. okinj E1. destruct a7; [|rewrite contact_kept]; (eapply put_kept; [eassumption|reflexivity]).
          -- okinj E1. eapply put_kept; [eassumption|reflexivity].
        * okinj E1. eapply put_kept; [eassumption|reflexivity].
      + destruct (le (div64 (int_num 1) (int_num 10)) (gravity a4)); okinj E1; [|reflexivity]. eapply put_kept; [eassumption|reflexivity].
    - okinj E1. destruct (is_player gg i); [rewrite <- (jump_kept gg 0)|]; (eapply put_kept; [eassumption|reflexivity]). }
  assert (K4 : kept a2 = kept a1).
  { unfold moving in E2. unbind E2. destruct (lt zero64 (mov a4) && lt (int_num (-1)) (dir a4)); [|congruence].
    cbv zeta in E2.
    match type of E2 with (if ?c then _ else _) = _ => destruct c end.
    - okinj E2. destruct Q as [_ Q2]. unfold kept, with_imgs, with_sent at 1. cbn [imgs player mode]. rewrite Q2.
      match goal with |- context [PhysModel.put a1 i ?m] => change (kept (PhysModel.put a1 i m) = kept a1) end. eapply put_kept; [eassumption|reflexivity].
    - okinj E2. eapply put_kept; [eassumption|reflexivity]. }
  assert (K5 : kept a3 = kept a2).
  { unfold carried in E3. destruct (is_player a2 i && (mode a2 =? 1)); [|congruence]. destruct (contact a2); [|congruence].
    do 2 unbind E3. destruct (nonzero (mov a4) && lt (int_num (-1)) (dir a4)); okinj E3; [|reflexivity]. eapply put_kept; [eassumption|reflexivity]. }
  assert (K6 : kept g' = kept a3).
  { unfold kept_inside in H. destruct (is_player a3 i && (mode a3 <? 5)); [|congruence]. do 4 unbind H. okinj H. eapply put_kept; [eassumption|reflexivity]. }
  congruence.
Qed.
Lemma one_image_kept g i dt g' : one_image cosf sinf logf powf pi_180 pi on_hit on_arrival g i dt = Ok g' -> kept g' = kept g.
Proof.
  unfold one_image. intros H. unbind H. destruct (visible a); [|congruence]. do 5 unbind H. okinj H.
  transitivity (kept a3); [eapply put_kept; [eassumption|reflexivity]|].
  transitivity (kept a0); [eapply meet_all_kept; eassumption|eapply motion_kept; eassumption].
Qed.
Lemma frame_kept g dt g' : frame cosf sinf logf powf pi_180 pi on_hit on_arrival g dt = Ok g' -> kept g' = kept g.
Proof.
  unfold frame. generalize (seq 0 (length (imgs g))). intros js. revert g. induction js as [|i js IH]; cbn [all_images]; intros g H; [congruence|].
  unbind H. etransitivity; [apply IH; exact H|eapply one_image_kept; eassumption].
Qed.

(** * What was said last *)
Variable atan2f : num -> num -> num.
Notation happen := (happen atan2f cosf sinf logf powf pi_180 pi on_hit on_arrival).
Notation story := (story atan2f cosf sinf logf powf pi_180 pi on_hit on_arrival).
Definition said (es : list event) : list (nat * setting) := flat_map (fun e => match e with Say i s => [(i, s)] | _ => [] end) es.
Section Field.
Variables (A : Type) (P : img -> A) (f : setting -> option A) (d : A).
Hypothesis Pset : forall m m', settings m' = settings m -> P m' = P m.
Hypothesis Psay : forall m t, P (say m t) = match f t with Some v => v | None => P m end.
Hypothesis Pnew : forall a b, P (img_new a b) = d.
Definition prj (s : state) (i : nat) : A := match nth_error (imgs (game_of s)) i with Some m => P m | None => d end.
Lemma prj_kept s s' i : kept (game_of s') = kept (game_of s) -> prj s' i = prj s i.
Proof.
  unfold kept. intros K. injection K as K _ _. unfold prj.
  assert (N : option_map settings (nth_error (imgs (game_of s')) i) = option_map settings (nth_error (imgs (game_of s)) i)) by now rewrite <- !nth_error_map, K.
  destruct (nth_error (imgs (game_of s')) i), (nth_error (imgs (game_of s)) i); cbn in N; try discriminate; [|reflexivity]. apply Pset. congruence.
Qed.
Lemma nth_put g i m m' j : img_at g i = Ok m -> nth_error (imgs (PhysModel.put g i m')) j = if Nat.eqb j i then Some m' else nth_error (imgs g) j.
Proof.
  intros H. apply img_at_ok in H. assert (L : (i < length (imgs g))%nat) by (apply nth_error_Some; congruence). unfold PhysModel.put, with_imgs. cbn [imgs].
  destruct (Nat.eqb_spec j i) as [->|NE].
  - rewrite nth_error_app2; rewrite firstn_length, Nat.min_l by lia; [|lia]. now rewrite Nat.sub_diag.
  - rewrite (split_at _ _ _ H) at 3. destruct (Nat.lt_ge_cases j i).
    + rewrite !nth_error_app1 by (rewrite firstn_length; lia). reflexivity.
    + rewrite !nth_error_app2; rewrite firstn_length, Nat.min_l by lia; try lia. destruct (j - i)%nat eqn:Z; [lia|reflexivity].
Qed.
Lemma happen_prj s e s' i : happen s e = Ok s' -> prj s' i = latest f i (prj s i) (said [e]).
Proof.
  destruct e; cbn [happen said flat_map app latest]; intros H.
  - okinj H. unfold prj. cbn [game_of with_game with_imgs imgs].
    destruct (Nat.lt_ge_cases i (length (imgs (game_of s)))).
    + now rewrite nth_error_app1.
    + rewrite nth_error_app2 by lia. replace (nth_error (imgs (game_of s)) i) with (@None img) by (symmetry; apply nth_error_None; lia).
      destruct (i - length (imgs (game_of s)))%nat as [|k]; cbn; [apply Pnew|now destruct k].
  - unfold to_image in H. unbind H. cbn [obind] in H. okinj H. unfold prj. cbn [game_of with_game].
    rewrite (nth_put _ _ _ _ _ E). destruct (Nat.eqb_spec i i0) as [->|NE]; [|now destruct (f s0)].
    rewrite (img_at_ok _ _ _ E). apply Psay.
  - unfold to_image in H. unbind H. unbind H. okinj H. apply prj_kept. cbn [game_of with_game]. eapply put_kept; [eassumption|].
    unfold img_xy in E0. do 2 unbind E0. okinj E0. reflexivity.
  - unfold to_image in H. unbind H. cbn [obind] in H. okinj H. apply prj_kept. cbn [game_of with_game]. eapply put_kept; [eassumption|reflexivity].
  - unbind H. unfold img_controllable in H. unbind H. okinj H. reflexivity.
  - unbind H. okinj H. reflexivity.
  - unbind H. unfold img_jump_height in H. unbind H. okinj H. reflexivity.
  - unbind H. okinj H. apply prj_kept. cbn [game_of with_game]. eapply frame_kept; eassumption.
Qed.
Lemma latest_app (g : setting -> option A) i l1 l2 : forall v, latest g i v (l1 ++ l2) = latest g i (latest g i v l1) l2.
Proof. induction l1 as [|[j t] l1 IH]; intros v; cbn; [reflexivity|apply IH]. Qed.
Lemma story_prj es : forall s s' i, story s es = Ok s' -> prj s' i = latest f i (prj s i) (said es).
Proof.
  induction es as [|e es IH]; cbn [TuneModel.story]; intros s s' i H; [okinj H; reflexivity|].
  unbind H. change (said (e :: es)) with (said ([e] ++ es)). unfold said. rewrite flat_map_app, latest_app. fold (said es). fold (said [e]).
  rewrite (IH _ _ _ H). f_equal. eapply happen_prj. eassumption.
Qed.
Lemma story_field es s ww wh i m : story (start ww wh) es = Ok s -> nth_error (imgs (game_of s)) i = Some m -> P m = latest f i d (said es).
Proof.
  intros H N. pose proof (story_prj es _ _ i H) as X. unfold prj in X. rewrite N in X. cbn [start game_of imgs] in X. rewrite X. now destruct i.
Qed.
End Field.
End Kept.

(** * Player, freezing *)
Section Globals.
Variables (atan2f : num -> num -> num) (cosf sinf logf : num -> num) (powf : num -> num -> num) (pi_180 pi : num).
Variable on_hit : game -> nat -> nat -> list img.
Variable on_arrival : game -> nat -> list img.
Notation happen := (happen atan2f cosf sinf logf powf pi_180 pi on_hit on_arrival).
Notation story := (story atan2f cosf sinf logf powf pi_180 pi on_hit on_arrival).
Hypothesis Q : quiet_listeners on_hit on_arrival.
Definition player_event (e : event) : option (option (nat * Z)) :=
  match e with Controllable i v => match c_int v with Ok c => Some (Some (i, c)) | UB => None end | _ => None end.
Definition freeze_event (e : event) : option bool := match e with Freeze _ b => Some b | _ => None end.
Definition controls (s : state) : option (nat * Z) := option_map (fun i => (i, mode (game_of s))) (player (game_of s)).
Lemma happen_globals s e s' : happen s e = Ok s' ->
  controls s' = last_some player_event (controls s) [e] /\ frozen s' = last_some freeze_event (frozen s) [e].
Proof.
  unfold controls. destruct e; cbn [happen last_some player_event freeze_event]; intros H; try (unfold to_image in H).
  - okinj H. auto.
  - unbind H. cbn [obind] in H. okinj H. auto.
  - unbind H. unbind H. okinj H. auto.
  - unbind H. cbn [obind] in H. okinj H. auto.
  - unbind H. unfold img_controllable in H. destruct (c_int v); cbn [obind] in H; [|discriminate]. okinj H. auto.
  - unbind H. okinj H. auto.
  - unbind H. unfold img_jump_height in H. unbind H. okinj H. auto.
  - unbind H. okinj H. pose proof (frame_kept _ _ _ _ _ _ _ _ Q _ _ _ E) as K. unfold kept in K. injection K as _ K1 K2. cbn [game_of with_game frozen].
    now rewrite K1, K2.
Qed.
Lemma story_globals es : forall s s', story s es = Ok s' ->
  controls s' = last_some player_event (controls s) es /\ frozen s' = last_some freeze_event (frozen s) es.
Proof.
  induction es as [|e es IH]; cbn [TuneModel.story]; intros s s' H; [okinj H; auto|].
  unbind H. destruct (happen_globals _ _ _ E) as [A B]. destruct (IH _ _ H) as [A' B']. cbn [last_some] in *. now rewrite A', B', A, B.
Qed.
End Globals.

(** * Places *)
Lemma place_ok m a b px py : is_whole a px -> is_whole b py -> - 2147483648 <= px <= 2147483647 -> - 2147483648 <= py <= 2147483647 ->
  exists m', img_xy m a b = Ok m' /\ is_whole (img_x m') px /\ (exists v, img_y m' = Ok v /\ is_whole v py) /\
    ox m' = x m' /\ oy m' = y m' /\ settings m' = settings m /\ dir m' = dir m /\ mov m' = mov m /\ tx m' = tx m /\ ty m' = ty m.
Proof.
  intros [FA VA] [FB VB] RA RB. unfold img_xy. rewrite (c_int_whole a px FA VA RA), (c_int_whole b py FB VB RB). cbn [obind].
  eexists. split; [reflexivity|]. destruct (of_Z_ok px) as [F1 V1]; [lia|]. destruct (of_Z_ok py) as [F2 V2]; [lia|].
  unfold img_x, img_y. cbn [x y ox oy dir mov tx ty settings]. rewrite (c_int_whole _ py F2 V2 RB). cbn [obind].
  split; [now split|]. split; [exists (of_Z py); split; [reflexivity|now split]|]. repeat split.
Qed.

(** * Directions *)
Lemma value_same s m e s' m' e' : finite (S754_finite s m e) -> finite (S754_finite s' m' e') ->
  (SF2Q (S754_finite s m e) == SF2Q (S754_finite s' m' e'))%Q -> S754_finite s m e = S754_finite s' m' e'.
Proof.
  intros F F' V. pose proof (SFcompare_Q _ _ F F') as C. assert (X : (SF2Q (S754_finite s m e) ?= SF2Q (S754_finite s' m' e'))%Q = Eq) by now apply Qeq_alt.
  rewrite X in C. cbn [SFcompare] in C. clear V X F F'.
  destruct s, s'; try discriminate; destruct (Z.compare_spec e e') as [->| |]; try discriminate; injection C as C.
  - f_equal. apply Pos.compare_eq. change (Pos.compare_cont Eq m m') with (Pos.compare m m') in C. destruct (Pos.compare m m'); cbn in C; congruence.
  - f_equal. apply Pos.compare_eq. exact C.
Qed.
Lemma same_finite q c : finite q -> finite c -> (SF2Q q == SF2Q c)%Q -> ~ (SF2Q c == 0)%Q -> q = c.
Proof.
  intros F FC E NZ. destruct q as [sq|sq| |sq mq eq]; [exfalso; apply NZ; now rewrite <- E|destruct F|destruct F|].
  destruct c as [sc|sc| |sc mc ec]; [exfalso; apply NZ; reflexivity|destruct FC|destruct FC|]. now apply value_same.
Qed.
Lemma zero_of v : at_pos v 0 -> exists s, v = S754_zero s.
Proof.
  intros [F V]. destruct v as [s|s| |s m e]; cbn in F; try contradiction; [now exists s|]. exfalso. cbn [SF2Q] in V. unfold QZ in V.
  assert (P : (0 < Qpower 2 e)%Q) by apply pow2_pos. change (inject_Z 0) with 0%Q in V.
  assert (E : (inject_Z (cond_Zopp s (Zpos m)) * Qpower 2 e == 0)%Q) by (rewrite V; lra).
  apply Qmult_integral in E. destruct E as [E|E]; [|lra]. change 0%Q with (inject_Z 0) in E. apply inject_Z_injective in E. destruct s; discriminate.
Qed.
Lemma near_mono r v r' v' : finite r -> finite r' -> near r v -> near r' v' -> (v < v')%Q -> (SF2Q r <= SF2Q r')%Q.
Proof.
  intros F F' N N' L. destruct (Qlt_le_dec (SF2Q r') (SF2Q r)) as [C|]; [|assumption]. exfalso.
  specialize (N r' F'). specialize (N' r F).
  assert (A : (SF2Q r' + SF2Q r <= 2 * v)%Q).
  { destruct (Qlt_le_dec v (SF2Q r)) as [X|X]; [|lra]. rewrite (Qabs_pos (SF2Q r - v)) in N by lra. revert N. apply Qabs_case; intros; lra. }
  assert (B : (2 * v' <= SF2Q r' + SF2Q r)%Q).
  { destruct (Qlt_le_dec (SF2Q r') v') as [X|X]; [|lra]. rewrite (Qabs_neg (SF2Q r' - v')) in N' by lra. revert N'. apply Qabs_case; intros; lra. }
  lra.
Qed.
Definition per_rad : num := div64 (of_Z 180) pi64.
Lemma per_rad_fin : finite per_rad. Proof. vm_compute. intuition congruence. Qed.
Lemma per_rad_pos : (57 < SF2Q per_rad < 58)%Q. Proof. split; vm_compute; reflexivity. Qed.
Lemma below_small v : (Qabs v <= 1000)%Q -> below v.
Proof. intros H. unfold below. eapply Qle_lt_trans; [exact H|]. eapply Qlt_trans; [|exact pow_1023]. vm_compute. reflexivity. Qed.
Lemma deg_rounded q : finite q -> (-4 <= SF2Q q <= 4)%Q -> rounded (mul64 q per_rad) (SF2Q q * SF2Q per_rad)%Q.
Proof.
  intros F B. apply SFmul_rounded; [exact F|exact per_rad_fin|]. apply below_small. rewrite Qabs_Qmult.
  pose proof per_rad_pos as P. rewrite (Qabs_pos (SF2Q per_rad)) by lra.
  assert (Qabs (SF2Q q) <= 4)%Q by (apply Qabs_case; lra). pose proof (Qabs_nonneg (SF2Q q)).
  apply Qle_trans with (4 * SF2Q per_rad)%Q; [apply Qmult_le_compat_r; lra|lra].
Qed.
(** multiplying keeps the order, against constants *)
Lemma deg_le q c : finite q -> (-4 <= SF2Q q <= 4)%Q -> finite c -> (-4 <= SF2Q c <= 4)%Q -> (SF2Q q <= SF2Q c)%Q -> ~ (SF2Q c == 0)%Q ->
  (SF2Q (mul64 q per_rad) <= SF2Q (mul64 c per_rad))%Q.
Proof.
  intros F B FC BC L NZ. destruct (deg_rounded q F B) as [F1 N1]. destruct (deg_rounded c FC BC) as [F2 N2]. pose proof per_rad_pos as P.
  destruct (Qlt_le_dec (SF2Q q) (SF2Q c)) as [X|X].
  - apply (near_mono _ _ _ _ F1 F2 N1 N2). apply Qmult_lt_compat_r; [lra|exact X].
  - assert (E : (SF2Q q == SF2Q c)%Q) by lra. rewrite (same_finite q c F FC E NZ). apply Qle_refl.
Qed.
Lemma deg_ge q c : finite q -> (-4 <= SF2Q q <= 4)%Q -> finite c -> (-4 <= SF2Q c <= 4)%Q -> (SF2Q c <= SF2Q q)%Q -> ~ (SF2Q c == 0)%Q ->
  (SF2Q (mul64 c per_rad) <= SF2Q (mul64 q per_rad))%Q.
Proof.
  intros F B FC BC L NZ. destruct (deg_rounded q F B) as [F1 N1]. destruct (deg_rounded c FC BC) as [F2 N2]. pose proof per_rad_pos as P.
  destruct (Qlt_le_dec (SF2Q c) (SF2Q q)) as [X|X].
  - apply (near_mono _ _ _ _ F2 F1 N2 N1). apply Qmult_lt_compat_r; [lra|exact X].
  - assert (E : (SF2Q q == SF2Q c)%Q) by lra. rewrite (same_finite q c F FC E NZ). apply Qle_refl.
Qed.
Lemma deg_sign q : finite q -> (-4 <= SF2Q q <= 4)%Q -> ((0 <= SF2Q q)%Q -> (0 <= SF2Q (mul64 q per_rad))%Q) /\ ((SF2Q q <= 0)%Q -> (SF2Q (mul64 q per_rad) <= 0)%Q).
Proof.
  intros F B. destruct (deg_rounded q F B) as [F1 N1]. pose proof per_rad_pos as P. split; intros S.
  - apply (near_ge _ _ (S754_zero false) N1 I). cbn [SF2Q]. apply Qmult_le_0_compat; lra.
  - apply (near_le _ _ (S754_zero false) N1 I). cbn [SF2Q]. setoid_replace 0%Q with (0 * SF2Q per_rad)%Q by ring. apply Qmult_le_compat_r; lra.
Qed.
Lemma minus_one v k : at_pos v k -> Z.abs k < 2 ^ 53 -> at_pos (mul64 (of_Z (-1)) v) (- k).
Proof.
  intros [F V] B. destruct (of_Z_ok (-1)) as [F1 V1]; [lia|].
  assert (E : (SF2Q (of_Z (-1)) * SF2Q v == QZ (- k) (-20))%Q).
  { rewrite V1, V. setoid_replace (QZ (- k) (-20))%Q with (- QZ k (-20))%Q by (rewrite !PhysProofs.QZ_pos, inject_Z_opp; ring). change (inject_Z (-1)) with (-1)%Q. ring. }
  assert (BL : below (SF2Q (of_Z (-1)) * SF2Q v)) by (eapply below_ext; [symmetry; exact E|apply below_pos; lia]).
  pose proof (SFmul_rounded _ _ F1 F BL) as R. destruct (representable (- k) (-20)) as (w & FW & VW); [lia|lia|lia|].
  split; [exact (proj1 R)|]. rewrite (rounded_exact _ _ w R FW); [exact E|]. rewrite VW. now symmetry.
Qed.
Lemma positive v k : at_pos v k -> 0 < k -> SFltb (S754_zero false) v = true.
Proof. intros [F V] P. apply SFltb_Q; [exact I|exact F|]. cbn [SF2Q]. rewrite V. rewrite PhysProofs.QZ_pos. rewrite Zlt_Qlt in P. change (inject_Z 0) with 0%Q in P. lra. Qed.
Lemma negative v k : at_pos v k -> k < 0 -> SFltb v (S754_zero false) = true.
Proof. intros [F V] P. apply SFltb_Q; [exact F|exact I|]. cbn [SF2Q]. rewrite V. rewrite PhysProofs.QZ_pos. rewrite Zlt_Qlt in P. change (inject_Z 0) with 0%Q in P. lra. Qed.
Definition deg_of (q : num) : num := let deg := mul64 q per_rad in if SFltb deg (of_Z 0) then add64 (of_Z 360) deg else deg.
Lemma heading_def at2 dx dy : heading_of at2 dx dy = deg_of (at2 (mul64 (of_Z (-1)) dy) dx).
Proof. reflexivity. Qed.
Lemma whole_by v z : v = of_Z z -> Z.abs z <= 2 ^ 53 -> is_whole v z.
Proof. intros -> B. now destruct (of_Z_ok z B). Qed.
Section Heading.
Variable at2 : num -> num -> num.
Lemma heading_axes dx dy kx ky : axes at2 -> at_pos dx kx -> at_pos dy ky -> Z.abs kx < 2 ^ 53 -> Z.abs ky < 2 ^ 53 ->
  (ky = 0 -> 0 < kx -> is_whole (heading_of at2 dx dy) 0) /\ (kx = 0 -> ky < 0 -> is_whole (heading_of at2 dx dy) 90) /\
  (ky = 0 -> kx < 0 -> is_whole (heading_of at2 dx dy) 180) /\ (kx = 0 -> 0 < ky -> is_whole (heading_of at2 dx dy) 270).
Proof.
  intros (A1 & A2 & A3 & A4) X Y BX BY. rewrite heading_def. pose proof (minus_one dy ky Y BY) as N. split; [|split; [|split]]; intros Z P.
  - subst. destruct (zero_of _ N) as (s & ->). rewrite A1 by (now apply positive with (k := kx)). destruct s; (split; [exact I|vm_compute; reflexivity]).
  - subst. destruct (zero_of _ X) as (s & ->). rewrite A3 by (apply positive with (k := - ky); [exact N|lia]). apply whole_by; [vm_compute; reflexivity|lia].
  - subst. destruct (zero_of _ N) as (s & ->). rewrite A2 by (now apply negative with (k := kx)). apply whole_by; [destruct s; vm_compute; reflexivity|lia].
  - subst. destruct (zero_of _ X) as (s & ->). rewrite A4 by (apply negative with (k := - ky); [exact N|lia]). apply whole_by; [vm_compute; reflexivity|lia].
Qed.
Lemma c_half : finite half_pi64 /\ (0 < SF2Q half_pi64 <= 2)%Q. Proof. split; [vm_compute; intuition congruence|]. split; vm_compute; congruence. Qed.
Lemma c_pi : finite pi64 /\ (0 < SF2Q pi64 <= 4)%Q. Proof. split; [vm_compute; intuition congruence|]. split; vm_compute; congruence. Qed.
Lemma c_nhalf : finite (neg half_pi64) /\ (-2 <= SF2Q (neg half_pi64) < 0)%Q. Proof. split; [vm_compute; intuition congruence|]. split; vm_compute; congruence. Qed.
Lemma c_npi : finite (neg pi64) /\ (-4 <= SF2Q (neg pi64) < 0)%Q. Proof. split; [vm_compute; intuition congruence|]. split; vm_compute; congruence. Qed.
Lemma deg_half : mul64 half_pi64 per_rad = of_Z 90. Proof. vm_compute. reflexivity. Qed.
Lemma deg_pi : mul64 pi64 per_rad = of_Z 180. Proof. vm_compute. reflexivity. Qed.
Lemma deg_nhalf : mul64 (neg half_pi64) per_rad = of_Z (-90). Proof. vm_compute. reflexivity. Qed.
Lemma deg_npi : mul64 (neg pi64) per_rad = of_Z (-180). Proof. vm_compute. reflexivity. Qed.
Lemma deg_up q : finite q -> (0 <= SF2Q q <= 4)%Q -> deg_of q = mul64 q per_rad.
Proof.
  intros F B. destruct (deg_rounded q F ltac:(lra)) as [F1 _]. destruct (deg_sign q F ltac:(lra)) as [S _]. unfold deg_of.
  destruct (SFltb (mul64 q per_rad) (of_Z 0)) eqn:L; [|reflexivity]. apply SFltb_Q in L; [|exact F1|exact I]. exfalso.
  specialize (S ltac:(lra)). change (SF2Q (of_Z 0)) with 0%Q in L. lra.
Qed.
Lemma plus_360 d lo hi : finite d -> -360 <= lo -> lo <= hi -> hi <= 0 -> (inject_Z lo <= SF2Q d <= inject_Z hi)%Q ->
  finite (add64 (of_Z 360) d) /\ (inject_Z (360 + lo) <= SF2Q (add64 (of_Z 360) d) <= inject_Z (360 + hi))%Q.
Proof.
  intros F B1 B2 B3 B. destruct (of_Z_ok 360) as [F3 V3]; [lia|].
  assert (H1 : (inject_Z (-360) <= inject_Z lo)%Q) by (rewrite <- Zle_Qle; lia). assert (H2 : (inject_Z hi <= inject_Z 0)%Q) by (rewrite <- Zle_Qle; lia).
  change (inject_Z (-360)) with (-360)%Q in H1. change (inject_Z 0) with 0%Q in H2.
  assert (BL : below (SF2Q (of_Z 360) + SF2Q d)).
  { apply below_small. rewrite V3. change (inject_Z 360) with 360%Q. apply Qabs_case; lra. }
  destruct (SFadd_rounded _ _ F3 F BL) as [FR NR]. split; [exact FR|].
  destruct (of_Z_ok (360 + lo)) as [FL VL]; [lia|]. destruct (of_Z_ok (360 + hi)) as [FH VH]; [lia|].
  rewrite <- VL, <- VH. split.
  - apply (near_ge _ _ _ NR FL). rewrite VL, V3, inject_Z_plus. lra.
  - apply (near_le _ _ _ NR FH). rewrite VH, V3, inject_Z_plus. lra.
Qed.
Definition within (v : num) (lo hi : Z) : Prop := finite v /\ (inject_Z lo <= SF2Q v <= inject_Z hi)%Q.
Lemma heading_quarters dx dy kx ky : quarters at2 -> at_pos dx kx -> at_pos dy ky -> Z.abs kx < 2 ^ 53 -> Z.abs ky < 2 ^ 53 ->
  let d := heading_of at2 dx dy in
  (ky < 0 -> 0 <= kx -> within d 0 90) /\ (ky < 0 -> kx <= 0 -> within d 90 180) /\
  (0 < ky -> kx <= 0 -> within d 180 270) /\ (0 < ky -> 0 <= kx -> within d 270 360 \/ is_whole d 0).
Proof.
  intros QS X Y BX BY d. unfold d. rewrite heading_def. clear d. pose proof (minus_one dy ky Y BY) as [FN VN]. destruct X as [FX VX].
  set (ny := mul64 (of_Z (-1)) dy) in *. destruct (QS ny dx FN FX) as (FQ & Q1 & Q2 & Q3 & Q4). set (q := at2 ny dx) in *.
  assert (SY1 : ky < 0 -> (0 < SF2Q ny)%Q) by (intros H; rewrite VN, PhysProofs.QZ_pos; assert (Z : 0 < - ky) by lia; rewrite Zlt_Qlt in Z; change (inject_Z 0) with 0%Q in Z; lra).
  assert (SY2 : 0 < ky -> (SF2Q ny < 0)%Q) by (intros H; rewrite VN, PhysProofs.QZ_pos; assert (Z : - ky < 0) by lia; rewrite Zlt_Qlt in Z; change (inject_Z 0) with 0%Q in Z; lra).
  assert (SX1 : 0 <= kx -> (0 <= SF2Q dx)%Q) by (intros H; rewrite VX, PhysProofs.QZ_pos; rewrite Zle_Qle in H; change (inject_Z 0) with 0%Q in H; lra).
  assert (SX2 : kx <= 0 -> (SF2Q dx <= 0)%Q) by (intros H; rewrite VX, PhysProofs.QZ_pos; rewrite Zle_Qle in H; change (inject_Z 0) with 0%Q in H; lra).
  destruct c_half as [FH BH]. destruct c_pi as [FP BP]. destruct c_nhalf as [FH' BH']. destruct c_npi as [FP' BP'].
  split; [|split; [|split]]; intros HY HX.
  - specialize (Q1 (SY1 HY) (SX1 HX)). rewrite (deg_up q FQ) by lra. destruct (deg_rounded q FQ ltac:(lra)) as [FD _]. split; [exact FD|]. split.
    + destruct (deg_sign q FQ ltac:(lra)) as [S _]. change (inject_Z 0) with 0%Q. apply S. lra.
    + pose proof (deg_le q half_pi64 FQ ltac:(lra) FH ltac:(lra) ltac:(lra) ltac:(lra)) as L. rewrite deg_half in L. destruct (of_Z_ok 90) as [_ V]; [lia|]. rewrite V in L. exact L.
  - specialize (Q2 (SY1 HY) (SX2 HX)). rewrite (deg_up q FQ) by lra. destruct (deg_rounded q FQ ltac:(lra)) as [FD _]. split; [exact FD|]. split.
    + pose proof (deg_ge q half_pi64 FQ ltac:(lra) FH ltac:(lra) ltac:(lra) ltac:(lra)) as L. rewrite deg_half in L. destruct (of_Z_ok 90) as [_ V]; [lia|]. rewrite V in L. exact L.
    + pose proof (deg_le q pi64 FQ ltac:(lra) FP ltac:(lra) ltac:(lra) ltac:(lra)) as L. rewrite deg_pi in L. destruct (of_Z_ok 180) as [_ V]; [lia|]. rewrite V in L. exact L.
  - specialize (Q3 (SY2 HY) (SX2 HX)). destruct (deg_rounded q FQ ltac:(lra)) as [FD _].
    pose proof (deg_ge q (neg pi64) FQ ltac:(lra) FP' ltac:(lra) ltac:(lra) ltac:(lra)) as L1. rewrite deg_npi in L1. destruct (of_Z_ok (-180)) as [_ V1]; [lia|]. rewrite V1 in L1.
    pose proof (deg_le q (neg half_pi64) FQ ltac:(lra) FH' ltac:(lra) ltac:(lra) ltac:(lra)) as L2. rewrite deg_nhalf in L2. destruct (of_Z_ok (-90)) as [_ V2]; [lia|]. rewrite V2 in L2.
    unfold deg_of. assert (T : SFltb (mul64 q per_rad) (of_Z 0) = true).
    { apply SFltb_Q; [exact FD|exact I|]. change (SF2Q (of_Z 0)) with 0%Q. change (inject_Z (-90)) with (-90)%Q in L2. lra. }
    rewrite T. apply (plus_360 _ (-180) (-90) FD); [lia|lia|lia|]. split; assumption.
  - specialize (Q4 (SY2 HY) (SX1 HX)). destruct (deg_rounded q FQ ltac:(lra)) as [FD _].
    pose proof (deg_ge q (neg half_pi64) FQ ltac:(lra) FH' ltac:(lra) ltac:(lra) ltac:(lra)) as L1. rewrite deg_nhalf in L1. destruct (of_Z_ok (-90)) as [_ V1]; [lia|]. rewrite V1 in L1.
    destruct (deg_sign q FQ ltac:(lra)) as [_ S]. specialize (S ltac:(lra)).
    unfold deg_of. destruct (SFltb (mul64 q per_rad) (of_Z 0)) eqn:T.
    + left. apply (plus_360 _ (-90) 0 FD); [lia|lia|lia|]. split; [assumption|exact S].
    + right. split; [exact FD|]. destruct (Qlt_le_dec (SF2Q (mul64 q per_rad)) 0) as [L|L].
      * exfalso. assert (SFltb (mul64 q per_rad) (of_Z 0) = true) by (apply SFltb_Q; [exact FD|exact I|exact L]). congruence.
      * change (inject_Z 0) with 0%Q. lra.
Qed.
End Heading.

(** Sending an image somewhere *)
Lemma send_ok at2 m a b kx ky ka kb : at_pos (x m) kx -> at_pos (y m) ky -> at_pos a ka -> at_pos b kb ->
  on_map kx -> on_map ky -> on_map ka -> on_map kb ->
  at_pos (sub64 a (x m)) (ka - kx) /\ at_pos (sub64 b (y m)) (kb - ky) /\ Z.abs (ka - kx) < 2 ^ 53 /\ Z.abs (kb - ky) < 2 ^ 53 /\
  dir (img_mov_set at2 m a b) = heading_of at2 (sub64 a (x m)) (sub64 b (y m)).
Proof.
  unfold on_map. intros PX PY PA PB BX BY BA BB. assert (A1 : Z.abs (ka - kx) < 2 ^ 53) by lia. assert (A2 : Z.abs (kb - ky) < 2 ^ 53) by lia.
  split; [now apply at_sub|]. split; [now apply at_sub|]. auto.
Qed.
Lemma send_axes at2 m a b kx ky ka kb : axes at2 -> at_pos (x m) kx -> at_pos (y m) ky -> at_pos a ka -> at_pos b kb ->
  on_map kx -> on_map ky -> on_map ka -> on_map kb -> let d := dir (img_mov_set at2 m a b) in
  (kb = ky -> kx < ka -> is_whole d 0) /\ (ka = kx -> kb < ky -> is_whole d 90) /\
  (kb = ky -> ka < kx -> is_whole d 180) /\ (ka = kx -> ky < kb -> is_whole d 270).
Proof.
  intros AX PX PY PA PB BX BY BA BB d. destruct (send_ok at2 m a b kx ky ka kb PX PY PA PB BX BY BA BB) as (DX & DY & LX & LY & E).
  unfold d. rewrite E. destruct (heading_axes at2 _ _ _ _ AX DX DY LX LY) as (H1 & H2 & H3 & H4).
  split; [|split; [|split]]; intros P Q.
  - apply H1; lia.
  - apply H2; lia.
  - apply H3; lia.
  - apply H4; lia.
Qed.
Lemma send_quarters at2 m a b kx ky ka kb : quarters at2 -> at_pos (x m) kx -> at_pos (y m) ky -> at_pos a ka -> at_pos b kb ->
  on_map kx -> on_map ky -> on_map ka -> on_map kb -> let d := dir (img_mov_set at2 m a b) in
  (kb < ky -> kx <= ka -> within d 0 90) /\ (kb < ky -> ka <= kx -> within d 90 180) /\
  (ky < kb -> ka <= kx -> within d 180 270) /\ (ky < kb -> kx <= ka -> within d 270 360 \/ is_whole d 0).
Proof.
  intros AX PX PY PA PB BX BY BA BB d. destruct (send_ok at2 m a b kx ky ka kb PX PY PA PB BX BY BA BB) as (DX & DY & LX & LY & E).
  unfold d. rewrite E. destruct (heading_quarters at2 _ _ _ _ AX DX DY LX LY) as (H1 & H2 & H3 & H4).
  split; [|split; [|split]]; intros P Q.
  - apply H1; lia.
  - apply H2; lia.
  - apply H3; lia.
  - apply H4; lia.
Qed.
Lemma send_keeps at2 m a b : let m' := img_mov_set at2 m a b in
  tx m' = a /\ ty m' = b /\ x m' = x m /\ y m' = y m /\ mov m' = mov m /\ settings m' = settings m.
Proof. cbn. auto 10. Qed.

(** A crude [atan2] with the properties asked for *)
Definition crude (dy dx : num) : num :=
  if SFltb (S754_zero false) dy then half_pi64 else if SFltb dy (S754_zero false) then neg half_pi64
  else match dy with
  | S754_zero s => if SFltb (S754_zero false) dx then S754_zero s else if SFltb dx (S754_zero false) then (if s then neg pi64 else pi64) else S754_zero s
  | _ => S754_zero false
  end.
Lemma crude_axes : axes crude.
Proof.
  unfold axes, crude. split; [|split; [|split]]; intros s v H.
  - rewrite H. now destruct s.
  - rewrite H. assert (H2 : SFltb (S754_zero false) v = false) by (destruct v as [| [] | |[]]; try reflexivity; discriminate H). rewrite H2. now destruct s.
  - now rewrite H.
  - assert (H2 : SFltb (S754_zero false) v = false) by (destruct v as [| [] | |[]]; try reflexivity; discriminate H). now rewrite H2, H.
Qed.
Lemma crude_quarters : quarters crude.
Proof.
  intros dy dx FY FX. assert (Z0 : finite (S754_zero false)) by exact I.
  pose proof (proj1 c_half) as C1. pose proof (proj2 c_half) as B1. pose proof (proj1 c_pi) as C2. pose proof (proj2 c_pi) as B2.
  pose proof (proj1 c_nhalf) as C3. pose proof (proj2 c_nhalf) as B3. pose proof (proj1 c_npi) as C4. pose proof (proj2 c_npi) as B4.
  assert (O1 : (SF2Q half_pi64 <= SF2Q pi64)%Q) by (vm_compute; congruence). assert (O2 : (SF2Q (neg pi64) <= SF2Q (neg half_pi64))%Q) by (vm_compute; congruence).
  unfold crude. destruct (SFltb (S754_zero false) dy) eqn:P.
  { apply SFltb_Q in P; auto. change (SF2Q (S754_zero false)) with 0%Q in P. split; [exact C1|]. cbv zeta. set (q := SF2Q half_pi64) in *.
    split; [|split; [|split]]; intros; try lra; split; lra. }
  destruct (SFltb dy (S754_zero false)) eqn:P'.
  { apply SFltb_Q in P'; auto. change (SF2Q (S754_zero false)) with 0%Q in P'. split; [exact C3|]. cbv zeta. set (q := SF2Q (neg half_pi64)) in *.
    split; [|split; [|split]]; intros; try lra; split; lra. }
  assert (N1 : ~ (0 < SF2Q dy)%Q) by (intros H; change 0%Q with (SF2Q (S754_zero false)) in H; apply SFltb_Q in H; auto; congruence).
  assert (N2 : ~ (SF2Q dy < 0)%Q) by (intros H; change 0%Q with (SF2Q (S754_zero false)) in H; apply SFltb_Q in H; auto; congruence).
  split.
  - destruct dy as [s| | |]; try exact I. destruct (SFltb (S754_zero false) dx); [exact I|]. destruct (SFltb dx (S754_zero false)); [now destruct s|exact I].
  - cbv zeta. split; [|split; [|split]]; intros; contradiction.
Qed.

(** * All settings *)
Ltac one_field := eapply story_field; [eassumption| | | |eassumption|eassumption]; [intros ? ? E; unfold settings in E; congruence|intros ? []; reflexivity|reflexivity].
Lemma settings_story at2 cosf sinf logf powf p180 p on_hit on_arrival es s ww wh i m : quiet_listeners on_hit on_arrival ->
  story at2 cosf sinf logf powf p180 p on_hit on_arrival (start ww wh) es = Ok s -> nth_error (imgs (game_of s)) i = Some m ->
  solid m = latest (fun t => match t with Wall b => Some b | _ => None end) i false (said es) /\
  collidable m = latest (fun t => match t with Active b => Some b | _ => None end) i false (said es) /\
  bounce m = latest (fun t => match t with Bounce b => Some b | _ => None end) i false (said es) /\
  fixed m = latest (fun t => match t with Static b => Some b | _ => None end) i false (said es) /\
  ghost m = latest (fun t => match t with Ghost b => Some b | _ => None end) i false (said es) /\
  visible m = latest (fun t => match t with Visible b => Some b | _ => None end) i true (said es) /\
  gravity m = latest (fun t => match t with Gravity v => Some v | _ => None end) i (of_Z 0) (said es) /\
  speed m = latest (fun t => match t with Speed v => Some v | _ => None end) i (of_Z 1) (said es) /\
  fric m = latest (fun t => match t with Friction v => Some v | _ => None end) i (of_Z 0) (said es) /\
  accel m = latest (fun t => match t with Accelerate v => Some v | _ => None end) i (of_Z 1) (said es).
Proof.
  intros Q H N. split; [one_field|]. split; [one_field|]. split; [one_field|]. split; [one_field|]. split; [one_field|]. split; [one_field|]. split; [one_field|].
  split; [one_field|]. split; [one_field|]. one_field.
Qed.
Lemma globals_story at2 cosf sinf logf powf p180 p on_hit on_arrival es s ww wh : quiet_listeners on_hit on_arrival ->
  story at2 cosf sinf logf powf p180 p on_hit on_arrival (start ww wh) es = Ok s ->
  controls s = last_some player_event None es /\ frozen s = last_some freeze_event false es.
Proof. intros Q H. exact (story_globals at2 cosf sinf logf powf p180 p on_hit on_arrival Q es (start ww wh) s H). Qed.
