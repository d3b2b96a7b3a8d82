(** Proofs about film strips and directions. *)
From Coq Require Import QArith Qabs SpecFloat Lia Lqa ZArith List Bool.
From Verif Require Import Common FloatSpec FloatProofs NumSpec NumModel NumProofs NumFacts PhysSpec PhysModel ReelSpec ReelModel.
Import ListNotations.
Local Open Scope Z_scope.

Lemma near_le r v w : near r v -> finite w -> (v <= SF2Q w)%Q -> (SF2Q r <= SF2Q w)%Q.
Proof.
  intros N F H. specialize (N w F). rewrite (Qabs_pos (SF2Q w - v)) in N by lra.
  apply Qabs_Qle_condition in N. lra.
Qed.
Lemma near_ge r v w : near r v -> finite w -> (SF2Q w <= v)%Q -> (SF2Q w <= SF2Q r)%Q.
Proof.
  intros N F H. specialize (N w F). rewrite (Qabs_neg (SF2Q w - v)) in N by lra.
  apply Qabs_Qle_condition in N. lra.
Qed.
Lemma floor_int x z : finite x -> is_floor (SF2Q x) z -> int_range z -> c_int (c_floor x) = Ok z.
Proof.
  intros F [A B] R. destruct (c_floor_spec x F) as (FC & z' & V & C & D).
  assert (z' = z).
  { assert (inject_Z z' < inject_Z (z + 1))%Q by (rewrite inject_Z_plus; change (inject_Z 1) with 1%Q; lra).
    assert (inject_Z z < inject_Z (z' + 1))%Q by (rewrite inject_Z_plus; change (inject_Z 1) with 1%Q; lra).
    rewrite <- Zlt_Qlt in *. lia. }
  subst. apply c_int_whole; auto.
Qed.
Lemma floor_whole z : int_range z -> c_int (c_floor (of_Z z)) = Ok z.
Proof.
  intros R. assert (B : Z.abs z <= 2 ^ 53) by (unfold int_range in R; lia).
  destruct (of_Z_ok z B) as [F V]. apply floor_int; auto. unfold is_floor. rewrite V. split; lra.
Qed.
Lemma walk_floor x k s : at_pos x k -> 0 <= k <= 2 ^ 49 -> 1 <= s <= 2147483647 ->
  c_int (c_floor (div64 x (of_Z s))) = Ok (k / (s * 2 ^ 20)).
Proof.
  intros [F V] HK HS. destruct (of_Z_ok s ltac:(lia)) as [FS VS].
  set (D := s * 2 ^ 20). assert (DP : 0 < D) by (unfold D; lia).
  assert (VQ : (SF2Q x / SF2Q (of_Z s) == k # Z.to_pos D)%Q).
  { rewrite V, VS, QZ_neg by lia. change (- -20) with 20. unfold D.
    assert (SP : ~ (inject_Z s == 0)%Q) by (unfold Qeq, inject_Z; simpl; lia).
    apply (Qmult_inj_r _ _ (inject_Z s) SP). unfold Qdiv. rewrite <- Qmult_assoc, (Qmult_comm (/ inject_Z s)), Qmult_inv_r by exact SP.
    unfold Qeq, Qmult, inject_Z. cbn [Qnum Qden]. rewrite !Pos2Z.inj_mul, !Z2Pos.id by lia. ring. }
  set (n := k / D). pose proof (Z.div_mod k D ltac:(lia)) as DM. pose proof (Z.mod_pos_bound k D DP) as MB. fold n in DM.
  assert (N0 : 0 <= n) by (apply Z.div_pos; lia).
  assert (N1 : n <= 2 ^ 29).
  { unfold n. apply Z.div_le_upper_bound; [lia|]. unfold D. nia. }
  destruct (SFdiv_rounded x (of_Z s) F FS) as [FR NR].
  { rewrite VS. unfold Qeq, inject_Z. simpl. lia. }
  { eapply below_ext; [symmetry; exact VQ|]. unfold below. eapply Qle_lt_trans; [|exact pow_1023].
    unfold Qabs, Qle, inject_Z. cbn [Qnum Qden]. rewrite Z2Pos.id by lia. rewrite Z.abs_eq by lia.
    assert (1 <= D) by lia. nia. }
  fold (div64 x (of_Z s)) in *. eapply near_ext in NR; [|exact VQ].
  apply floor_int; [exact FR| |split; lia]. split.
  - destruct (of_Z_ok n ltac:(lia)) as [FN VN]. rewrite <- VN. apply (near_ge _ _ _ NR FN). rewrite VN.
    unfold Qle, inject_Z. cbn [Qnum Qden]. rewrite Z2Pos.id by lia. nia.
  - set (j := 20 + Z.log2_up s). assert (J0 : 0 <= Z.log2_up s) by apply Z.log2_up_nonneg.
    assert (P2 : s <= 2 ^ Z.log2_up s /\ 2 ^ Z.log2_up s <= 2 * s).
    { destruct (Z.eq_dec s 1) as [->|NE]; [cbn; lia|].
      pose proof (Z.log2_up_spec s ltac:(lia)) as [A B]. split; [exact B|].
      replace (Z.log2_up s) with (Z.succ (Z.pred (Z.log2_up s))) by lia. rewrite Z.pow_succ_r by (pose proof (Z.log2_up_pos s ltac:(lia)); lia). lia. }
    assert (JE : 2 ^ j = 2 ^ 20 * 2 ^ Z.log2_up s) by (unfold j; apply Z.pow_add_r; lia).
    assert (J1 : 0 < 2 ^ j) by (apply Z.pow_pos_nonneg; unfold j; lia).
    assert (LJ : Z.log2_up s <= 31).
    { apply Z.log2_up_le_pow2; [lia|]. lia. }
    assert (SB : n * s <= 2 ^ 29).
    { unfold D in *. nia. }
    destruct (representable ((n + 1) * 2 ^ j - 1) (- j)) as (u & FU & VU).
    { rewrite Z.abs_eq by nia. rewrite JE. nia. }
    { unfold j. lia. }
    { unfold j. lia. }
    rewrite QZ_neg in VU by (unfold j; lia). rewrite Z.opp_involutive in VU.
    eapply Qle_lt_trans; [apply (near_le _ _ _ NR FU)|]; rewrite VU.
    + unfold Qle. cbn [Qnum Qden]. rewrite !Z2Pos.id by lia.
      assert (k <= (n + 1) * D - 1) by lia. assert (D <= 2 ^ j) by (rewrite JE; unfold D; nia). nia.
    + change 1%Q with (inject_Z 1). rewrite <- inject_Z_plus. unfold Qlt, inject_Z. cbn [Qnum Qden]. rewrite !Z2Pos.id by lia. lia.
Qed.

(** ** Frames *)
Lemma in_int_ok z : int_range z -> in_int z = true. Proof. intros H. now apply in_int_iff. Qed.
Lemma idiv_ok a b : 0 <= a <= 2147483647 -> 1 <= b -> idiv a b = Ok (a / b).
Proof.
  intros A B. unfold idiv, i32. destruct (Z.eqb_spec b 0); [lia|]. rewrite Z.quot_div_nonneg by lia.
  assert (0 <= a / b <= a) by (split; [apply Z.div_pos; lia|apply Z.div_le_upper_bound; nia]).
  now rewrite in_int_ok by (unfold int_range; lia).
Qed.
Lemma imod_ok a b : 0 <= a <= 2147483647 -> 1 <= b -> imod a b = Ok (a mod b).
Proof.
  intros A B. unfold imod. destruct (Z.eqb_spec b 0); [lia|]. rewrite Z.quot_div_nonneg, Z.rem_mod_nonneg by lia.
  assert (0 <= a / b <= a) by (split; [apply Z.div_pos; lia|apply Z.div_le_upper_bound; nia]).
  now rewrite in_int_ok by (unfold int_range; lia).
Qed.
Lemma frame_inside n i w h : 1 <= n -> n <= w -> 0 <= i < n -> 0 <= h -> inside (frame_rect n i w h) w h.
Proof.
  intros. unfold inside, frame_rect. cbn [rx ry rw rh]. pose proof (Z.mul_div_le w n ltac:(lia)).
  assert (0 <= w / n) by (apply Z.div_pos; lia). nia.
Qed.
Lemma period_pos r : 10 <= period r <= 1000. Proof. unfold period. lia. Qed.

(** the part of the computation that is the same for all *)
Definition frames_from (m : sprite) (step : outcome Z) : outcome (Z * Z * rect) :=
  do fw <- idiv (pw m) (if panims m =? 0 then 1 else panims m);
  do s <- step;
  do rw <- (if (0 <? panims m) && (panims m <? pw m) then idiv (pw m) (panims m) else Ok (pw m));
  do sx <- i32 (fw * s);
  Ok (rw, ph m, mkR sx 0 fw (ph m)).
Lemma frames_ok m i : 1 <= panims m -> panims m < pw m <= 2147483647 -> 0 <= i < panims m ->
  frames_from m (Ok i) = Ok (pw m / panims m, ph m, frame_rect (panims m) i (pw m) (ph m)).
Proof.
  intros A W I. unfold frames_from. destruct (Z.eqb_spec (panims m) 0); [lia|]. rewrite idiv_ok by lia. cbn [obind].
  destruct (Z.ltb_spec 0 (panims m)); [|lia]. destruct (Z.ltb_spec (panims m) (pw m)); [|lia]. cbn [andb obind].
  pose proof (Z.mul_div_le (pw m) (panims m) ltac:(lia)). assert (0 <= pw m / panims m) by (apply Z.div_pos; lia).
  unfold i32. rewrite in_int_ok by (unfold int_range; nia). cbn [obind]. unfold frame_rect. now rewrite (Z.mul_comm i).
Qed.
Lemma film_shows t m : pnodirani m = 2 -> 1 <= panims m -> panims m < pw m <= 2147483647 -> 0 <= t < 2 ^ 31 ->
  anim_frames t m = Ok (pw m / panims m, ph m, frame_rect (panims m) (film_frame (panims m) (prate m) t) (pw m) (ph m)).
Proof.
  intros E A W T. pose proof (period_pos (prate m)) as PP.
  rewrite <- (frames_ok m (film_frame (panims m) (prate m) t)) by (auto; apply Z.mod_pos_bound; lia).
  unfold anim_frames. rewrite E. cbn [Z.eqb Pos.eqb].
  set (s1 := if 100 <=? prate m then 99 else prate m). set (s2 := if s1 <? 0 then 0 else s1).
  assert (S2 : 1000 - s2 * 10 = period (prate m)).
  { unfold s2, s1, period. destruct (Z.leb_spec 100 (prate m)); [change (99 <? 0) with false; cbv iota; lia|]. destruct (Z.ltb_spec (prate m) 0); lia. }
  rewrite S2. unfold media_time. rewrite (Z.mod_small t) by lia. destruct (Z.ltb_spec t (2 ^ 31)); [|lia].
  rewrite (idiv_ok t (period (prate m))) by lia. cbn [obind].
  assert (0 <= t / period (prate m) <= t) by (split; [apply Z.div_pos; lia|apply Z.div_le_upper_bound; nia]).
  rewrite floor_whole by (unfold int_range; lia). cbn [obind]. rewrite imod_ok by lia. reflexivity.
Qed.
Lemma walk_shows t m k : pnodirani m <> 2 -> nonzero (pmov m) = true -> at_pos (px m) k -> 0 <= k <= 2 ^ 49 ->
  1 <= prate m <= 2147483647 -> 1 <= panims m -> panims m < pw m <= 2147483647 ->
  anim_frames t m = Ok (pw m / panims m, ph m, frame_rect (panims m) (walk_frame (panims m) (prate m) k) (pw m) (ph m)).
Proof.
  intros E MV P K R A W.
  rewrite <- (frames_ok m (walk_frame (panims m) (prate m) k)) by (auto; apply Z.mod_pos_bound; lia).
  unfold anim_frames. destruct (Z.eqb_spec (pnodirani m) 2); [contradiction|]. rewrite MV.
  rewrite (walk_floor _ k) by auto. cbn [obind].
  assert (0 <= k / (prate m * 2 ^ 20) <= 2 ^ 29).
  { split; [apply Z.div_pos; lia|]. apply Z.div_le_upper_bound; nia. }
  rewrite imod_ok by lia. reflexivity.
Qed.
Lemma still_shows t m : pnodirani m <> 2 -> nonzero (pmov m) = false -> 1 <= panims m -> panims m < pw m <= 2147483647 ->
  anim_frames t m = Ok (pw m / panims m, ph m, frame_rect (panims m) 0 (pw m) (ph m)).
Proof.
  intros E MV A W. rewrite <- (frames_ok m 0) by lia.
  unfold anim_frames. destruct (Z.eqb_spec (pnodirani m) 2); [contradiction|]. now rewrite MV.
Qed.
Lemma film_next n r t : 1 <= n -> 0 <= t -> film_frame n r (t + period r) = (film_frame n r t + 1) mod n.
Proof.
  intros N T. unfold film_frame. pose proof (period_pos r).
  replace (t + period r) with (t + 1 * period r) by ring. rewrite Z.div_add by lia. now rewrite Zplus_mod_idemp_l.
Qed.
Lemma film_stays n r t u : 0 <= t <= u -> u < (t / period r + 1) * period r -> film_frame n r u = film_frame n r t.
Proof.
  intros T U. unfold film_frame. pose proof (period_pos r). f_equal. symmetry. apply Z.div_unique_pos with (r := u - t / period r * period r); [|ring].
  pose proof (Z.mul_div_le t (period r) ltac:(lia)). lia.
Qed.

(** ** Directions *)
Lemma whole_of_Z z : Z.abs z <= 2 ^ 53 -> is_whole (of_Z z) z. Proof. exact (of_Z_ok z). Qed.
Lemma whole_cmp x y a b : is_whole x a -> is_whole y b -> SFltb x y = (a <? b) /\ SFeqb x y = (a =? b).
Proof. intros [FX EX] [FY EY]. now apply SF2Q_whole_lt. Qed.
Lemma whole_lt x a z : is_whole x a -> Z.abs z <= 2 ^ 53 -> SFltb (of_Z z) x = (z <? a).
Proof. intros W H. apply (whole_cmp _ _ z a); auto using whole_of_Z. Qed.
Lemma whole_eq x a z : is_whole x a -> Z.abs z <= 2 ^ 53 -> SFeqb x (of_Z z) = (a =? z).
Proof. intros W H. apply (whole_cmp _ _ a z); auto using whole_of_Z. Qed.
Lemma whole_int x a : is_whole x a -> int_range a -> c_int x = Ok a.
Proof. intros [F V] R. now apply c_int_whole. Qed.

Lemma render_pose mode pl v t r m s m' : render_image mode pl v t r m = Ok (Some s, m') ->
  pose mode pl m = Ok (angle s, mirrored s, m') /\ exists w h, anim_frames t m = Ok (w, h, part s).
Proof.
  unfold render_image. destruct (anim_frames t m) as [[[w h] p]|]; [|discriminate]. cbn [obind].
  match goal with |- context [if ?c then _ else _] => match c with (_ =? 0) || _ => destruct c end end; [discriminate|].
  destruct (pose mode pl m) as [[[a b] m1]|]; [|discriminate]. cbn [obind]. intros E. injection E as <- <-. cbn [angle mirrored part].
  split; [reflexivity|]. now exists w, h.
Qed.

(** an image that may be turned *)
Definition turns (m : sprite) : Prop := psolid m = false /\ pnodirani m = 0.
Lemma pose_topdown pl m d : turns m -> nonzero (pgrav m) = false -> is_whole (pdir m) d -> 0 <= d < 360 ->
  pose 1 pl m = Ok (pdir m, (d =? 90) || (d =? 270), m).
Proof.
  intros [S N] G W D. unfold pose. rewrite S, N, G. rewrite (whole_lt _ d), !(whole_eq _ d) by (auto; lia).
  destruct (Z.ltb_spec (-1) d); [|lia]. destruct (Z.eqb_spec d (-1)); [lia|]. reflexivity.
Qed.
Lemma pose_racing pl m : turns m -> finite (pdir m) -> (0 <= SF2Q (pdir m) <= 360)%Q ->
  exists a, pose 4 pl m = Ok (a, false, m) /\ rounded a (360 - SF2Q (pdir m)).
Proof.
  intros [S N] F [A B]. exists (sub64 (of_Z 360) (pdir m)).
  destruct (of_Z_ok 360 ltac:(lia)) as [F3 V3]. destruct (of_Z_ok (-1) ltac:(lia)) as [F1 V1]. split.
  - unfold pose. rewrite S, N.
    assert (Q : SFeqb (pdir m) (of_Z (-1)) = false).
    { apply not_true_iff_false. rewrite (SFeqb_Q _ _ F F1), V1. intros E. rewrite E in A. revert A. unfold Qle, inject_Z. cbn. lia. }
    rewrite Q. destruct (SFltb (of_Z (-1)) (pdir m)); reflexivity.
  - assert (E : (SF2Q (of_Z 360) - SF2Q (pdir m) == 360 - SF2Q (pdir m))%Q) by (rewrite V3; reflexivity).
    destruct (SFsub_rounded (of_Z 360) (pdir m) F3 F) as [FR NR].
    { eapply below_ext; [symmetry; exact E|]. unfold below. eapply Qle_lt_trans; [|exact pow_1023].
      rewrite Qabs_pos by lra. apply (Qle_trans _ 360); [lra|]. unfold Qle, inject_Z. cbn. lia. }
    split; [exact FR|]. eapply near_ext; [|exact NR]. exact E.
Qed.
Lemma pose_platform pl m d : turns m -> finite (pgrav m) /\ (1 <= SF2Q (pgrav m))%Q -> is_whole (pdir m) d -> 0 <= d < 360 ->
  pose 1 pl m = Ok (of_Z 0, (180 <=? d) && (d <=? 270), m).
Proof.
  intros [S N] G W D. unfold pose. rewrite S, N. rewrite (whole_lt _ d) by (auto; lia).
  assert (G1 : nonzero (pgrav m) = true /\ SFltb (pgrav m) (of_Z 1) = false).
  { destruct (of_Z_ok 1 ltac:(lia)) as [F1 V1]. destruct G as [F G]. split.
    - unfold nonzero. apply negb_true_iff, not_true_iff_false. rewrite (SFeqb_Q _ zero64 F I). cbn [SF2Q zero64]. lra.
    - apply not_true_iff_false. rewrite (SFltb_Q _ _ F F1), V1. change (inject_Z 1) with 1%Q. lra. }
  destruct G1 as [-> ->]. destruct (Z.ltb_spec (-1) d); [|lia]. cbn [andb negb Z.eqb].
  rewrite (whole_int _ d) by (auto; unfold int_range; lia). reflexivity.
Qed.
(** the remembered direction and what it stands for *)
Definition recalls (last : num) (o : option bool) : Prop :=
  match o with None => is_whole last (-1) | Some true => is_whole last 180 | Some false => is_whole last 0 end.
Definition side_after (o : option bool) (ds : list Z) : option bool := match last_side ds with Some b => Some b | None => o end.
Definition hovers (m : sprite) : Prop := turns m /\ finite (pgrav m) /\ ~ (SF2Q (pgrav m) == 0)%Q /\ (SF2Q (pgrav m) < 1)%Q.
Lemma hovers_b m : hovers m -> nonzero (pgrav m) = true /\ SFltb (pgrav m) (of_Z 1) = true.
Proof.
  intros (_ & F & Z0 & L). destruct (of_Z_ok 1 ltac:(lia)) as [F1 V1]. split.
  - unfold nonzero. apply negb_true_iff, not_true_iff_false. rewrite (SFeqb_Q _ zero64 F I). exact Z0.
  - rewrite (SFltb_Q _ _ F F1), V1. exact L.
Qed.
Lemma pose_hover m d last o : hovers m -> is_whole (pdir m) d -> 0 <= d < 360 -> recalls last o ->
  exists b m', pose 1 true (with_last m last) = Ok (of_Z 0, b, m') /\ recalls (plast m') (side_after o [d]) /\
    (b = true <-> side_after o [d] = Some true).
Proof.
  intros HH W D R. destruct (hovers_b _ HH) as [G G1]. destruct HH as ([S N] & _). unfold pose.
  change (pdir (with_last m last)) with (pdir m). change (psolid (with_last m last)) with (psolid m).
  change (pnodirani (with_last m last)) with (pnodirani m). change (pgrav (with_last m last)) with (pgrav m).
  rewrite S, N, G, G1. rewrite (whole_lt _ d), !(whole_eq (pdir m) d) by (auto; lia).
  destruct (Z.ltb_spec (-1) d); [|lia]. cbn [andb negb Z.eqb].
  rewrite (whole_int _ d) by (auto; unfold int_range; lia). cbn [obind]. unfold side_after. cbn [last_side].
  destruct (Z.eqb_spec d 180) as [->|D1].
  - cbn [orb negb]. rewrite andb_false_r. cbn [obind]. eexists _, _. split; [reflexivity|].
    cbn [with_last plast recalls]. split; [exact W|]. cbn. tauto.
  - destruct (Z.eqb_spec d 0) as [->|D0].
    + cbn [orb negb]. rewrite andb_false_r. cbn [obind]. eexists _, _. split; [reflexivity|].
      cbn [with_last plast recalls]. split; [exact W|]. cbn. split; discriminate.
    + cbn [orb negb]. rewrite andb_true_r. change (plast (with_last m last)) with last. destruct o as [[]|]; cbn [recalls] in R.
      * rewrite (whole_eq _ _ (-1) R) by lia. cbn [Z.eqb negb]. rewrite (whole_int _ _ R) by (unfold int_range; lia). cbn [obind].
        eexists _, _. split; [reflexivity|]. split; [exact R|]. cbn. tauto.
      * rewrite (whole_eq _ _ (-1) R) by lia. cbn [Z.eqb negb]. rewrite (whole_int _ _ R) by (unfold int_range; lia). cbn [obind].
        eexists _, _. split; [reflexivity|]. split; [exact R|]. cbn. split; discriminate.
      * rewrite (whole_eq _ _ (-1) R) by lia. cbn [Z.eqb Pos.eqb negb obind].
        eexists _, _. split; [reflexivity|]. split; [exact R|]. destruct (Z.eqb_spec d 180); [contradiction|]. split; discriminate.
Qed.
Definition hover_round (f : round) (d : Z) : Prop := hovers (looks f) /\ is_whole (pdir (looks f)) d /\ 0 <= d < 360.
Lemma side_after_cons o d ds : side_after o (d :: ds) = side_after (side_after o [d]) ds.
Proof. unfold side_after. cbn [last_side]. destruct (last_side ds) as [b|]; [reflexivity|]. destruct (d =? 180), (d =? 0); reflexivity. Qed.
Lemma film_hover l : forall ds last o shots last', Forall2 hover_round l ds -> recalls last o ->
  film 1 true last l = Ok (map Some shots, last') ->
  forall i s, nth_error shots i = Some s -> (mirrored s = true <-> side_after o (firstn (S i) ds) = Some true) /\ angle s = of_Z 0.
Proof.
  induction l as [|f r IH]; intros ds last o shots last' H R F i s NI.
  - cbn in F. injection F as F _. destruct shots; [|discriminate]. destruct i; discriminate.
  - inversion H as [|? d ? ds' HR HF]; subst. cbn [film] in F.
    destruct (render_image 1 true (seen f) (now f) (where_ f) (with_last (looks f) last)) as [[a m1]|] eqn:RI; [|discriminate]. cbn [obind fst snd] in F.
    destruct (film 1 true (plast m1) r) as [[b e]|] eqn:FR; [|discriminate]. cbn [obind fst snd] in F. injection F as F <-.
    destruct shots as [|s0 shots]; [discriminate|]. cbn [map] in F. injection F as -> ->.
    destruct (render_pose _ _ _ _ _ _ _ _ RI) as [P _]. destruct HR as (HV & W & D).
    destruct (pose_hover (looks f) d last o HV W D R) as (b & m' & P' & RC & BI). rewrite P in P'. injection P' as A B C. rewrite C in *.
    destruct i as [|i]; cbn [nth_error] in NI.
    + injection NI as <-. cbn [firstn]. rewrite B. auto.
    + change (firstn (S (S i)) (d :: ds')) with (d :: firstn (S i) ds'). rewrite side_after_cons. exact (IH ds' _ _ _ _ HF RC FR i s NI).
Qed.
Lemma pose_plain mode pl m : pnodirani m <> 0 \/ psolid m = true \/ (mode <> 1 /\ mode <> 4) ->
  pose mode pl m = Ok (of_Z 0, false, m).
Proof.
  intros H. unfold pose. destruct H as [H|[H|[H H']]].
  - destruct (Z.eqb_spec (pnodirani m) 0); [contradiction|]. now rewrite !andb_false_r.
  - rewrite H. cbn [negb]. now rewrite !andb_false_r.
  - destruct (Z.eqb_spec mode 1); [contradiction|]. destruct (Z.eqb_spec mode 4); [contradiction|]. now rewrite andb_false_r.
Qed.

(** ** What is drawn *)
Lemma film_order t m fw h f : pnodirani m = 2 -> 1 <= panims m -> panims m < pw m <= 2147483647 ->
  0 <= t -> t + period (prate m) < 2 ^ 31 -> anim_frames t m = Ok (fw, h, f) ->
  exists i, 0 <= i < panims m /\ f = frame_rect (panims m) i (pw m) (ph m) /\
    (forall u, t <= u < (t / period (prate m) + 1) * period (prate m) -> anim_frames u m = Ok (fw, h, f)) /\
    anim_frames (t + period (prate m)) m = Ok (fw, h, frame_rect (panims m) ((i + 1) mod panims m) (pw m) (ph m)).
Proof.
  intros E A W T0 T1 F. pose proof (period_pos (prate m)) as PP. rewrite film_shows in F by (auto; lia). injection F as <- <- <-.
  exists (film_frame (panims m) (prate m) t). split; [apply Z.mod_pos_bound; lia|]. split; [reflexivity|]. split.
  - intros u U. pose proof (Z.mul_div_le t (period (prate m)) ltac:(lia)).
    rewrite film_shows by (auto; lia). rewrite (film_stays _ _ t u) by lia. reflexivity.
  - rewrite film_shows by (auto; lia). rewrite film_next by lia. reflexivity.
Qed.
Lemma no_frames r h w t : 1 <= w <= 2147483647 -> anim_frames t (img_autoplay (with_reel (fresh_sprite w h) 0 r) true) = UB.
Proof.
  intros W. unfold anim_frames. cbn [img_autoplay with_nodirani with_reel fresh_sprite pw panims pnodirani prate Z.eqb Pos.eqb].
  rewrite idiv_ok by lia. cbn [obind].
  match goal with |- context [idiv ?a ?b] => destruct (idiv a b) as [q|]; [|reflexivity] end. cbn [obind].
  destruct (c_int (c_floor (of_Z q))); reflexivity.
Qed.
Lemma above_faces pl v t r m d s m' : turns m -> nonzero (pgrav m) = false -> is_whole (pdir m) d ->
  (d = 0 \/ d = 90 \/ d = 180 \/ d = 270) -> render_image 1 pl v t r m = Ok (Some s, m') ->
  exists a, is_whole (angle s) a /\ heading a (mirrored s) = d.
Proof.
  intros T G W D R. destruct (render_pose _ _ _ _ _ _ _ _ R) as [P _].
  rewrite (pose_topdown pl m d T G W) in P by lia. injection P as <- <- _. exists d. split; [exact W|].
  destruct D as [->|[->|[->| ->]]]; reflexivity.
Qed.
Lemma racing_faces pl v t r m s m' : turns m -> finite (pdir m) -> (0 <= SF2Q (pdir m) <= 360)%Q ->
  render_image 4 pl v t r m = Ok (Some s, m') ->
  mirrored s = false /\ rounded (angle s) (360 - SF2Q (pdir m)) /\
  forall d, is_whole (pdir m) d -> is_whole (angle s) (360 - d) /\ heading (360 - d) (mirrored s) = d mod 360.
Proof.
  intros T F B R. destruct (render_pose _ _ _ _ _ _ _ _ R) as [P _].
  destruct (pose_racing pl m T F B) as (a & P' & RO). rewrite P in P'. injection P' as -> -> _. split; [reflexivity|]. split; [exact RO|].
  intros d [FD VD]. assert (DB : 0 <= d <= 360).
  { rewrite VD in B. change 0%Q with (inject_Z 0) in B. change 360%Q with (inject_Z 360) in B. rewrite <- !Zle_Qle in B. exact B. }
  split.
  - split; [exact (proj1 RO)|]. destruct (of_Z_ok (360 - d) ltac:(lia)) as [FA VA].
    assert (E : (360 - SF2Q (pdir m) == inject_Z (360 - d))%Q).
    { rewrite VD. change 360%Q with (inject_Z 360). unfold Qminus. now rewrite <- inject_Z_opp, <- inject_Z_plus. }
    rewrite <- E. apply (rounded_exact _ _ (of_Z (360 - d)) RO FA). now rewrite VA, E.
  - unfold heading. replace (0 - (360 - d)) with (d + (-1) * 360) by ring. apply Z.mod_add. lia.
Qed.
Lemma platform_faces pl v t r m d s m' : turns m -> finite (pgrav m) /\ (1 <= SF2Q (pgrav m))%Q -> is_whole (pdir m) d ->
  rightward d \/ (leftward d /\ 180 <= d) -> render_image 1 pl v t r m = Ok (Some s, m') ->
  angle s = of_Z 0 /\ (mirrored s = true <-> leftward d).
Proof.
  intros T G W D R. destruct (render_pose _ _ _ _ _ _ _ _ R) as [P _]. unfold rightward, leftward in *.
  rewrite (pose_platform pl m d T G W) in P by lia. injection P as <- <- _. split; [reflexivity|].
  rewrite andb_true_iff, !Z.leb_le. lia.
Qed.
Lemma hover_faces l ds shots last' : Forall2 hover_round l ds -> film 1 true (of_Z (-1)) l = Ok (map Some shots, last') ->
  forall i s, nth_error shots i = Some s -> (mirrored s = true <-> last_side (firstn (S i) ds) = Some true) /\ angle s = of_Z 0.
Proof.
  intros H F i s N. destruct (film_hover l ds (of_Z (-1)) None shots last' H (whole_of_Z (-1) ltac:(lia)) F i s N) as [A B].
  split; [|exact B]. rewrite A. unfold side_after. destruct (last_side (firstn (S i) ds)); tauto.
Qed.
Lemma plain_faces mode pl v t r m s m' : pnodirani m <> 0 \/ psolid m = true \/ (mode <> 1 /\ mode <> 4) ->
  render_image mode pl v t r m = Ok (Some s, m') -> angle s = of_Z 0 /\ mirrored s = false.
Proof.
  intros H R. destruct (render_pose _ _ _ _ _ _ _ _ R) as [P _]. rewrite (pose_plain mode pl m H) in P. now injection P as <- <- _.
Qed.
Lemma pose_keeps mode pl m a b m' : pose mode pl m = Ok (a, b, m') -> m' = m \/ m' = with_last m (pdir m).
Proof.
  unfold pose. intros H.
  repeat match type of H with
  | context [if ?c then _ else _] => destruct c
  | context [obind (c_int ?x) _] => destruct (c_int x); cbn [obind] in H
  | context [obind (Ok _) _] => cbn [obind] in H
  end; try discriminate; try (injection H as _ _ <-; auto).
Qed.
Lemma render_keeps mode pl v t r m o m' : render_image mode pl v t r m = Ok (o, m') -> m' = m \/ m' = with_last m (pdir m).
Proof.
  unfold render_image. destruct (anim_frames t m) as [[[w h] p]|]; [|discriminate]. cbn [obind].
  match goal with |- context [if ?c then _ else _] => match c with (_ =? 0) || _ => destruct c end end; [injection 1 as _ <-; auto|].
  destruct (pose mode pl m) as [[[a b] m1]|] eqn:P; [|discriminate]. cbn [obind]. intros E. injection E as _ <-. exact (pose_keeps _ _ _ _ _ _ P).
Qed.
Lemma shown_inside t m k : 1 <= panims m -> panims m < pw m <= 2147483647 -> 0 <= ph m ->
  (pnodirani m = 2 /\ 0 <= t < 2 ^ 31) \/ (pnodirani m <> 2 /\ at_pos (px m) k /\ 0 <= k <= 2 ^ 49 /\ 1 <= prate m <= 2147483647) ->
  exists f, anim_frames t m = Ok (pw m / panims m, ph m, f) /\ inside f (pw m) (ph m) /\ rw f = pw m / panims m /\ rh f = ph m.
Proof.
  intros A W H D. assert (X : exists i, 0 <= i < panims m /\ anim_frames t m = Ok (pw m / panims m, ph m, frame_rect (panims m) i (pw m) (ph m))).
  { destruct D as [[E T]|(E & P & K & R)].
    - exists (film_frame (panims m) (prate m) t). split; [apply Z.mod_pos_bound; lia|]. now apply film_shows.
    - destruct (nonzero (pmov m)) eqn:MV.
      + exists (walk_frame (panims m) (prate m) k). split; [apply Z.mod_pos_bound; lia|]. now apply walk_shows.
      + exists 0. split; [lia|]. now apply still_shows. }
  destruct X as (i & I & E). exists (frame_rect (panims m) i (pw m) (ph m)). split; [exact E|]. split; [apply frame_inside; lia|]. split; reflexivity.
Qed.
Lemma render_place mode pl v t r m o m' w h f : anim_frames t m = Ok (w, h, f) -> 1 <= w -> 1 <= h -> render_image mode pl v t r m = Ok (o, m') ->
  let camera := (0 <? vw v) && (0 <? vh v) && negb (pfixed m) in
  let x := if camera then fst r - fst (vcam v) else fst r in
  let y := if camera then snd r - snd (vcam v) else snd r in
  match o with
  | Some s => part s = f /\ place s = mkR (if camera then x + vx v else x) (if camera then y + vy v else y) w h
  | None => camera = true /\ m' = m /\ forall px py, covers (mkR x y w h) px py -> ~ (0 <= px < vw v /\ 0 <= py < vh v)
  end.
Proof.
  intros E W H R. cbv zeta. unfold render_image in R. rewrite E in R. cbn [obind] in R. revert R.
  destruct ((0 <? vw v) && (0 <? vh v) && negb (pfixed m)).
  - unfold CtlModel.on_screen. cbn [rx ry rw rh].
    match goal with |- context [if ?c then mkR _ _ 0 0 else _] => destruct c eqn:C end; cbn [rx ry rw rh].
    + cbn [Z.eqb orb]. intros R. injection R as <- <-. split; [reflexivity|]. split; [reflexivity|].
      intros qx qy (A & B) (P & Q). cbn [rx ry rw rh] in A, B. apply orb_true_iff in C. destruct C as [C|C].
      * apply orb_true_iff in C. destruct C as [C|C].
        -- apply orb_true_iff in C. destruct C as [C|C]; apply Z.ltb_lt in C; lia.
        -- apply Z.ltb_lt in C. lia.
      * apply Z.ltb_lt in C. lia.
    + destruct (Z.eqb_spec w 0); [lia|]. destruct (Z.eqb_spec h 0); [lia|]. cbn [orb].
      destruct (pose mode pl m) as [[[a b] m1]|]; [|discriminate]. cbn [obind]. intros R. injection R as <- <-. cbn [part place]. auto.
  - cbn [rx ry rw rh]. destruct (Z.eqb_spec w 0); [lia|]. destruct (Z.eqb_spec h 0); [lia|]. cbn [orb].
    destruct (pose mode pl m) as [[[a b] m1]|]; [|discriminate]. cbn [obind]. intros R. injection R as <- <-. cbn [part place]. auto.
Qed.
Lemma asked_plain mode pl v t r m s m' b : b = img_nodirani m true \/ b = img_autoplay m true ->
  render_image mode pl v t r b = Ok (Some s, m') -> angle s = of_Z 0 /\ mirrored s = false.
Proof. intros [->| ->]; apply plain_faces; left; discriminate. Qed.
Lemma asked_film m0 m n r k r' t : is_whole n k -> is_whole r r' -> int_range r' -> 1 <= k -> k < pw m0 <= 2147483647 -> 0 <= t < 2 ^ 31 ->
  img_reel m0 n r = Ok m -> pw m = pw m0 /\ ph m = ph m0 /\
  anim_frames t (img_autoplay m true) = Ok (pw m / k, ph m, frame_rect k (film_frame k r' t) (pw m) (ph m)).
Proof.
  intros N R I K W T. unfold img_reel. rewrite (whole_int _ _ N), (whole_int _ _ R) by (auto; unfold int_range; lia). cbn [obind].
  intros E. injection E as <-. split; [reflexivity|]. split; [reflexivity|]. apply (film_shows t (img_autoplay (with_reel m0 k r') true)); auto.
Qed.
