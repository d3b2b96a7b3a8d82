(** Proofs about images that move and collide. *)
From Coq Require Import SpecFloat QArith Qabs Lqa.
From Verif Require Import Common FloatSpec FloatProofs NumModel NumSpec NumProofs PhysSpec PhysModel.
Local Open Scope Z_scope.

(** ** Positions *)
Definition K := 1048576.
Lemma QZ_pos k : (QZ k (-20) == inject_Z k * (1 # 1048576))%Q.
Proof. reflexivity. Qed.
Lemma QZ_inj a b : (QZ a (-20) == QZ b (-20))%Q -> a = b.
Proof. rewrite !QZ_pos. intros H. apply inject_Z_injective. lra. Qed.
Lemma inject_K z : (inject_Z z == QZ (z * K) (-20))%Q.
Proof. rewrite QZ_pos, inject_Z_mult. change (inject_Z K) with (1048576 # 1). ring_simplify. lra. Qed.
Lemma QZ_le a b : (QZ a (-20) <= QZ b (-20))%Q <-> a <= b.
Proof. rewrite !QZ_pos, Zle_Qle. split; intros; lra. Qed.
Lemma QZ_lt a b : (QZ a (-20) < QZ b (-20))%Q <-> a < b.
Proof. rewrite !QZ_pos, Zlt_Qlt. split; intros; lra. Qed.
Lemma QZ_add a b : (QZ a (-20) + QZ b (-20) == QZ (a + b) (-20))%Q.
Proof. rewrite !QZ_pos, inject_Z_plus. ring. Qed.
Lemma QZ_sub a b : (QZ a (-20) - QZ b (-20) == QZ (a - b) (-20))%Q.
Proof. rewrite !QZ_pos. unfold Z.sub. rewrite inject_Z_plus, inject_Z_opp. ring. Qed.
Lemma at_whole z : Z.abs z <= 2 ^ 53 -> at_pos (of_Z z) (z * K).
Proof. intros H. destruct (of_Z_ok z H) as [F V]. split; [exact F|]. now rewrite V, inject_K. Qed.
Lemma below_pos k : Z.abs k < 2 ^ 53 -> below (QZ k (-20)).
Proof.
  intros H. unfold below. eapply Qle_lt_trans; [|exact pow_1023]. rewrite QZ_pos, Qabs_Qmult.
  change (Qabs (1 # 1048576)) with (1 # 1048576). rewrite inj_abs.
  assert (A : (inject_Z (Z.abs k) <= inject_Z (2 ^ 53))%Q) by (rewrite <- Zle_Qle; lia).
  assert (B : (inject_Z (2 ^ 53) * (1 # 1048576) <= inject_Z (2 ^ 60))%Q) by (vm_compute; discriminate).
  lra.
Qed.
Lemma at_sub a ka b kb : at_pos a ka -> at_pos b kb -> Z.abs (ka - kb) < 2 ^ 53 -> at_pos (sub64 a b) (ka - kb).
Proof.
  intros [FA VA] [FB VB] H. destruct (representable (ka - kb) (-20) H ltac:(lia) ltac:(lia)) as (w & FW & VW).
  assert (E : (SF2Q a - SF2Q b == QZ (ka - kb) (-20))%Q) by (rewrite VA, VB; apply QZ_sub).
  pose proof (SFsub_rounded a b FA FB (below_ext _ _ (Qeq_sym _ _ E) (below_pos _ H))) as R.
  split; [apply R|]. rewrite <- E. apply (rounded_exact _ _ w R FW). now rewrite VW, E.
Qed.
Lemma at_add a ka b kb : at_pos a ka -> at_pos b kb -> Z.abs (ka + kb) < 2 ^ 53 -> at_pos (add64 a b) (ka + kb).
Proof.
  intros [FA VA] [FB VB] H. destruct (representable (ka + kb) (-20) H ltac:(lia) ltac:(lia)) as (w & FW & VW).
  assert (E : (SF2Q a + SF2Q b == QZ (ka + kb) (-20))%Q) by (rewrite VA, VB; apply QZ_add).
  pose proof (SFadd_rounded a b FA FB (below_ext _ _ (Qeq_sym _ _ E) (below_pos _ H))) as R.
  split; [apply R|]. rewrite <- E. apply (rounded_exact _ _ w R FW). now rewrite VW, E.
Qed.
Lemma inject_K1 z : (inject_Z z + 1 == QZ (z * K + K) (-20))%Q.
Proof. rewrite <- QZ_add, <- inject_K. rewrite (QZ_pos K). change (inject_Z K) with (1048576 # 1). lra. Qed.
Lemma inject_K2 z : (inject_Z z - 1 == QZ (z * K - K) (-20))%Q.
Proof. rewrite <- QZ_sub, <- inject_K. rewrite (QZ_pos K). change (inject_Z K) with (1048576 # 1). lra. Qed.
Lemma at_add_w a k d : at_pos a k -> Z.abs k <= 2 ^ 49 -> 0 <= d <= 2 ^ 29 -> at_pos (add64 a (of_Z d)) (k + d * K).
Proof. intros P H D. apply at_add; [exact P|apply at_whole; clear -D; lia|clear -D H; unfold K; lia]. Qed.
Lemma at_floor a k : at_pos a k -> at_pos (c_floor a) (k / K * K).
Proof.
  intros [F V]. destruct (c_floor_spec a F) as (F2 & z & V2 & Z2). split; [exact F2|].
  rewrite V2, inject_K. unfold is_floor in Z2. rewrite V, inject_K1, inject_K in Z2. destruct Z2 as [A B].
  apply (proj1 (QZ_le _ _)) in A. apply (proj1 (QZ_lt _ _)) in B. assert (z = k / K) by (apply (Z.div_unique k K z (k - K * z)); unfold K in *; clear -A B; lia).
  subst. reflexivity.
Qed.
Lemma at_ceil a k : at_pos a k -> at_pos (c_ceil a) (- ((- k) / K) * K).
Proof.
  intros [F V]. destruct (c_ceil_spec a F) as (F2 & z & V2 & Z2). split; [exact F2|].
  rewrite V2, inject_K. unfold is_ceil in Z2. rewrite V, inject_K2, inject_K in Z2. destruct Z2 as [A B].
  apply (proj1 (QZ_le _ _)) in B. apply (proj1 (QZ_lt _ _)) in A. assert (- z = - k / K) by (apply (Z.div_unique (- k) K (- z) (- k - K * - z)); unfold K in *; clear -A B; lia).
  rewrite <- H, Z.opp_involutive. reflexivity.
Qed.
Lemma trunc_pixel q z k : (q == QZ k (-20))%Q -> is_trunc q z -> z = pixel k.
Proof.
  intros V (A & B & C). unfold pixel. change (2 ^ 20) with K. rewrite V in *.
  assert (E : (QZ k (-20) * inject_Z z == inject_Z (k * z) * (1 # 1048576))%Q) by (rewrite QZ_pos, inject_Z_mult; ring).
  rewrite E in C.
  assert (C' : 0 <= k * z) by (rewrite Zle_Qle; change (inject_Z 0) with 0%Q; lra).
  rewrite QZ_pos, Qabs_Qmult, !inj_abs in A, B. change (Qabs (1 # 1048576)) with (1 # 1048576) in A, B.
  rewrite <- QZ_pos in A, B. rewrite inject_K1 in B. rewrite inject_K in A. apply (proj1 (QZ_le _ _)) in A. apply (proj1 (QZ_lt _ _)) in B.
  clear -A B C'. unfold K in *.
  destruct (Z.eq_dec z 0) as [->|NZ].
  - symmetry. apply Z.quot_small_iff; lia.
  - assert (0 <= k /\ 0 < z \/ k <= 0 /\ z < 0) as [[P1 P2]|[P1 P2]] by nia.
    + rewrite Z.quot_div_nonneg by lia. Z.to_euclidean_division_equations; lia.
    + replace k with (- (- k)) by lia. rewrite Z.quot_opp_l by lia. rewrite Z.quot_div_nonneg by lia. Z.to_euclidean_division_equations; lia.
Qed.
Lemma pixel_bound k B : Z.abs k <= B * K -> 0 <= B -> Z.abs (pixel k) <= B.
Proof.
  intros H HB. unfold pixel. change (2 ^ 20) with K. rewrite <- Z.quot_abs by (unfold K; lia). rewrite Z.quot_div_nonneg by (unfold K; lia).
  change (Z.abs K) with K. apply Z.div_le_upper_bound; unfold K in *; lia.
Qed.
Lemma at_int a k : at_pos a k -> Z.abs k <= 2 ^ 50 -> c_int a = Ok (pixel k).
Proof.
  intros [F V] H. destruct (trunc_spec a F) as (z & T & IS). unfold c_int. rewrite T.
  rewrite (trunc_pixel _ _ _ V IS). assert (P := pixel_bound k (2 ^ 30) ltac:(unfold K; lia) ltac:(lia)).
  replace (in_int (pixel k)) with true; [reflexivity|]. symmetry. apply in_int_iff. lia.
Qed.

(** ** Rectangles *)
Definition okr (r : rect) : Prop := Z.abs (rx r) <= 2 ^ 29 /\ Z.abs (ry r) <= 2 ^ 29 /\ 1 <= rw r <= 2 ^ 29 /\ 1 <= rh r <= 2 ^ 29.
Lemma overlap_iff a b : overlap a b <-> Z.max (rx a) (rx b) < Z.min (rx a + rw a) (rx b + rw b) /\ Z.max (ry a) (ry b) < Z.min (ry a + rh a) (ry b + rh b).
Proof.
  split.
  - intros (px & py & [A1 A2] & [B1 B2]). lia.
  - intros [A B]. exists (Z.max (rx a) (rx b)), (Z.max (ry a) (ry b)). unfold covers. lia.
Qed.
Lemma has_intersection_ok a b : okr a -> okr b -> exists t, has_intersection a b = Ok t /\ (t = true <-> overlap a b).
Proof.
  intros (A1 & A2 & A3 & A4) (B1 & B2 & B3 & B4). unfold has_intersection, emptyb, fitsb.
  replace (rw a <=? 0) with false by lia. replace (rh a <=? 0) with false by lia.
  replace (rw b <=? 0) with false by lia. replace (rh b <=? 0) with false by lia.
  rewrite !(proj2 (in_int_iff _)) by lia. cbn [orb andb]. eexists. split; [reflexivity|].
  rewrite overlap_iff, andb_true_iff, !Z.ltb_lt. tauto.
Qed.

(** ** Pushing back *)
Definition xdepth (right : bool) (r r2 : rect) : Z :=
  if right then (if rx r2 <? rx r then rx r - rx r2 else 0) + common_w r r2
  else (if rx r + rw r <? rx r2 + rw r2 then (rx r2 + rw r2) - (rx r + rw r) else 0) + common_w r r2.
Definition ydepth (down : bool) (r r2 : rect) : Z :=
  if down then (if ry r2 <? ry r then ry r - ry r2 else 0) + common_h r r2
  else (if ry r + rh r <? ry r2 + rh r2 then (ry r2 + rh r2) - (ry r + rh r) else 0) + common_h r r2.
Definition back (neg : bool) (k d : Z) : Z := if neg then (k - d * K) / K * K else - (- (k + d * K) / K) * K.
Lemma back_pixel (neg : bool) k d : if neg then pixel (back neg k d) <= pixel k - d else pixel k + d <= pixel (back neg k d).
Proof.
  unfold back, pixel. change (2 ^ 20) with K. destruct neg.
  - replace (k - d * K) with (k + (- d) * K) by lia. rewrite Z.div_add by (unfold K; lia). rewrite Z.quot_mul by (unfold K; lia).
    enough (k / K <= Z.quot k K) by lia. unfold K. clear. Z.to_euclidean_division_equations. lia.
  - replace (- (k + d * K)) with (- k + (- d) * K) by lia. rewrite Z.div_add by (unfold K; lia). rewrite Z.quot_mul by (unfold K; lia).
    enough (Z.quot k K <= - (- k / K)) by lia. unfold K. clear. Z.to_euclidean_division_equations. lia.
Qed.
Lemma back_bound neg k d B : Z.abs k <= B -> 0 <= d <= 2 ^ 30 -> Z.abs (back neg k d) <= B + 2 ^ 50 + 2 ^ 20.
Proof.
  intros H D. unfold back. destruct neg.
  - pose proof (Z.mul_div_le (k - d * K) K ltac:(unfold K; lia)). pose proof (Z.mul_succ_div_gt (k - d * K) K ltac:(unfold K; lia)).
    rewrite (Z.mul_comm (_ / _)). remember ((k - d * K) / K) as q. clear Heqq. unfold K in *. lia.
  - pose proof (Z.mul_div_le (- (k + d * K)) K ltac:(unfold K; lia)). pose proof (Z.mul_succ_div_gt (- (k + d * K)) K ltac:(unfold K; lia)).
    remember (- (k + d * K) / K) as q. clear Heqq. unfold K in *. lia.
Qed.
Lemma at_back (neg : bool) a k d : at_pos a k -> Z.abs k <= 2 ^ 51 -> 0 <= d <= 2 ^ 30 ->
  at_pos (if neg then c_floor (sub64 a (int_num d)) else c_ceil (add64 a (int_num d))) (back neg k d).
Proof.
  intros P H D. unfold back, int_num. destruct neg.
  - apply at_floor. apply at_sub; [exact P|apply at_whole; lia|unfold K; lia].
  - apply at_ceil. apply at_add; [exact P|apply at_whole; lia|unfold K; lia].
Qed.
Lemma depth_bound right down r r2 : okr r -> okr r2 -> overlap r r2 ->
  1 <= xdepth right r r2 <= 2 ^ 30 /\ 1 <= ydepth down r r2 <= 2 ^ 30.
Proof.
  intros (A1 & A2 & A3 & A4) (B1 & B2 & B3 & B4) O. apply overlap_iff in O. unfold xdepth, ydepth, common_w, common_h.
  destruct right, down; repeat match goal with |- context [if ?a <? ?b then _ else _] => destruct (Z.ltb_spec a b) end; lia.
Qed.
(** nothing but the place and the speed of the fall *)
Definition rest (m m' : img) : Prop := exists g, m' = with_gspeed (at_xy m (x m') (y m')) g.
Lemma rest_refl m : rest m m.
Proof. exists (gspeed m). now destruct m. Qed.
Lemma rest_trans a b c : rest a b -> rest b c -> rest a c.
Proof. intros [g E] [g' E']. exists g'. rewrite E' at 1. rewrite E. reflexivity. Qed.
Lemma resolve1_ok m kx ky r r2 right down : at_pos (x m) kx -> at_pos (y m) ky -> Z.abs kx <= 2 ^ 51 -> Z.abs ky <= 2 ^ 51 ->
  okr r -> okr r2 ->
  exists m', resolve1 m r r2 right down = Ok m' /\ rest m m' /\
    ((~ overlap r r2 /\ at_pos (x m') kx /\ at_pos (y m') ky) \/
     (overlap r r2 /\ xdepth right r r2 <= ydepth down r r2 /\ at_pos (x m') (back right kx (xdepth right r r2)) /\ at_pos (y m') ky) \/
     (overlap r r2 /\ ydepth down r r2 < xdepth right r r2 /\ at_pos (x m') kx /\ at_pos (y m') (back down ky (ydepth down r r2)))).
Proof.
  intros PX PY BX BY O1 O2. destruct (has_intersection_ok r r2 O1 O2) as (t & HT & T). unfold resolve1. rewrite HT. cbn [obind].
  destruct t.
  2: { exists m. split; [reflexivity|]. split; [apply rest_refl|]. left. split; [|now split]. intros O. apply T in O. discriminate. }
  assert (O : overlap r r2) by now apply T. destruct (depth_bound right down r r2 O1 O2 O) as [D1 D2].
  assert (E1 : (if right then i32 ((if rx r2 <? rx r then rx r - rx r2 else 0) + common_w r r2)
                  else i32 ((if rx r + rw r <? rx r2 + rw r2 then (rx r2 + rw r2) - (rx r + rw r) else 0) + common_w r r2)) = Ok (xdepth right r r2)).
  { unfold i32. destruct right; cbn [xdepth] in *; rewrite (proj2 (in_int_iff _)) by lia; reflexivity. }
  assert (E2 : (if down then i32 ((if ry r2 <? ry r then ry r - ry r2 else 0) + common_h r r2)
                  else i32 ((if ry r + rh r <? ry r2 + rh r2 then (ry r2 + rh r2) - (ry r + rh r) else 0) + common_h r r2)) = Ok (ydepth down r r2)).
  { unfold i32. destruct down; cbn [ydepth] in *; rewrite (proj2 (in_int_iff _)) by lia; reflexivity. }
  rewrite E1. cbn [obind]. rewrite E2. cbn [obind].
  pose proof (at_back right (x m) kx _ PX BX (conj (Z.le_trans _ _ _ Z.le_0_1 (proj1 D1)) (proj2 D1))) as AX.
  pose proof (at_back down (y m) ky _ PY BY (conj (Z.le_trans _ _ _ Z.le_0_1 (proj1 D2)) (proj2 D2))) as AY.
  destruct (Z.leb_spec (xdepth right r r2) (ydepth down r r2)) as [L|L].
  - destruct right; (eexists; split; [reflexivity|]; split; [exists (gspeed m); destruct m; reflexivity|]; right; left; repeat split; try assumption; try apply AX; try apply PY).
  - destruct down; (eexists; split; [reflexivity|]; split; [eexists; destruct m; reflexivity|]; right; right; repeat split; try assumption; try apply AY; try apply PX).
Qed.
Lemma pushed_apart kx ky w h rold r2 yold (right down : bool) kx1 ky1 kx2 ky2 :
  let r := mkR (pixel kx) (pixel ky) w h in
  let ra := mkR (pixel kx) yold w h in
  1 <= w -> 1 <= h -> 1 <= rw r2 -> 1 <= rh r2 ->
  (right = true <-> from_left rold r2) -> (down = true <-> from_above rold r2) ->
  not_through rold r r2 ->
  ((~ overlap ra r2 /\ kx1 = kx /\ ky1 = ky) \/
   (overlap ra r2 /\ kx1 = back right kx (xdepth right ra r2) /\ ky1 = ky) \/
   (overlap ra r2 /\ kx1 = kx /\ ky1 = back down ky (ydepth down ra r2))) ->
  ((~ overlap r r2 /\ kx2 = kx1 /\ ky2 = ky1) \/
   (overlap r r2 /\ kx2 = back right kx1 (xdepth right r r2) /\ ky2 = ky1) \/
   (overlap r r2 /\ kx2 = kx1 /\ ky2 = back down ky1 (ydepth down r r2))) ->
  ~ overlap (mkR (pixel kx2) (pixel ky2) w h) r2.
Proof.
  intros r ra W H W2 H2 RI DO (N1 & N2 & N3 & N4) C1 C2.
  assert (G : forall q : rect, overlap q r2 -> 1 <= xdepth right q r2 /\ 1 <= ydepth down q r2).
  { clear. intros q O. apply overlap_iff in O. unfold xdepth, ydepth, common_w, common_h.
    destruct right, down; repeat match goal with |- context [if ?a <? ?b then _ else _] => destruct (Z.ltb_spec a b) end; lia. }
  (* the first push goes away from the wall *)
  assert (P1 : if right then pixel kx1 <= pixel kx else pixel kx <= pixel kx1).
  { destruct C1 as [(_ & -> & _)|[(O & -> & _)|(O & -> & _)]]; try (destruct right; lia).
    destruct (G _ O). pose proof (back_pixel right kx (xdepth right ra r2)) as B. destruct right; lia. }
  assert (P2 : if down then pixel ky1 <= pixel ky else pixel ky <= pixel ky1).
  { destruct C1 as [(_ & _ & ->)|[(O & _ & ->)|(O & _ & ->)]]; try (destruct down; lia).
    destruct (G _ O). pose proof (back_pixel down ky (ydepth down ra r2)) as B. destruct down; lia. }
  assert (X : if right then rx r + rw r <= rx r2 + rw r2 else rx r2 <= rx r).
  { destruct right; [apply N1; now apply RI|apply N2; intros F; apply RI in F; discriminate]. }
  assert (Y : if down then ry r + rh r <= ry r2 + rh r2 else ry r2 <= ry r).
  { destruct down; [apply N3; now apply DO|apply N4; intros F; apply DO in F; discriminate]. }
  clear RI DO N1 N2 N3 N4 C1. intros F. apply overlap_iff in F. cbn [rx ry rw rh] in F.
  destruct C2 as [(O & -> & ->)|[(O & -> & ->)|(O & -> & ->)]].
  - apply O. apply overlap_iff. subst r. cbn [rx ry rw rh] in *. destruct right, down; lia.
  - pose proof (back_pixel right kx1 (xdepth right r r2)) as B. apply overlap_iff in O. unfold xdepth, common_w in *. subst r. cbn [rx ry rw rh] in *.
    destruct right; match type of B with context [if ?a <? ?b then _ else _] => destruct (Z.ltb_spec a b) end; lia.
  - pose proof (back_pixel down ky1 (ydepth down r r2)) as B. apply overlap_iff in O. unfold ydepth, common_h in *. subst r. cbn [rx ry rw rh] in *.
    destruct down; match type of B with context [if ?a <? ?b then _ else _] => destruct (Z.ltb_spec a b) end; lia.
Qed.

(** ** The images of a game *)
Lemma put_same g i m m0 : nth_error (imgs g) i = Some m0 -> nth_error (imgs (put g i m)) i = Some m.
Proof.
  intros H. assert (L := nth_error_Some (imgs g) i). rewrite H in L. assert (I : (i < length (imgs g))%nat) by (apply L; discriminate).
  cbn [imgs put with_imgs]. rewrite nth_error_app2; rewrite firstn_length_le by lia; [|lia]. now rewrite Nat.sub_diag.
Qed.
Lemma put_other g i m m0 k : nth_error (imgs g) i = Some m0 -> k <> i -> nth_error (imgs (put g i m)) k = nth_error (imgs g) k.
Proof.
  intros H D. assert (L := nth_error_Some (imgs g) i). rewrite H in L. assert (I : (i < length (imgs g))%nat) by (apply L; discriminate).
  cbn [imgs put with_imgs]. destruct (Nat.lt_ge_cases k i) as [C|C].
  - rewrite nth_error_app1 by (rewrite firstn_length_le; lia). rewrite <- (firstn_skipn i (imgs g)) at 2.
    now rewrite nth_error_app1 by (rewrite firstn_length_le; lia).
  - rewrite nth_error_app2 by (rewrite firstn_length_le; lia). rewrite firstn_length_le by lia.
    destruct (k - i)%nat as [|q] eqn:Q; [lia|]. cbn [nth_error].
    rewrite <- (firstn_skipn (S i) (imgs g)) at 2. rewrite nth_error_app2 by (rewrite firstn_length_le; lia).
    rewrite firstn_length_le by lia. f_equal. lia.
Qed.
Lemma put_length g i m m0 : nth_error (imgs g) i = Some m0 -> length (imgs (put g i m)) = length (imgs g).
Proof.
  intros H. assert (L := nth_error_Some (imgs g) i). rewrite H in L. assert (I : (i < length (imgs g))%nat) by (apply L; discriminate).
  cbn [imgs put with_imgs]. rewrite app_length. cbn [length]. rewrite firstn_length_le, skipn_length by lia. lia.
Qed.
Lemma img_at_ok g i m : nth_error (imgs g) i = Some m -> img_at g i = Ok m.
Proof. unfold img_at. now intros ->. Qed.
Lemma img_at_inv g i m : img_at g i = Ok m -> nth_error (imgs g) i = Some m.
Proof. unfold img_at. destruct (nth_error (imgs g) i); congruence. Qed.

(** Shapes are not turned: neither control mode 4 nor mode 1 without gravity. *)
Definition flat (g : game) : Prop :=
  (forall p, player g = Some p -> exists m, nth_error (imgs g) p = Some m) /\
  ((mode g <> 1 /\ mode g <> 4) \/
   (mode g = 1 /\ exists p m, player g = Some p /\ nth_error (imgs g) p = Some m /\ nonzero (gravity m) = true)).
Definition nframes (m : img) : Z := Z.max 1 (anims m).
(** the pixels of an image *)
Definition shape (m : img) (r : rect) : Prop := 0 <= anims m /\ shape_at (x m) (y m) (w m) (nframes m) (h m) r.
Definition old_shape (m : img) (r : rect) : Prop := 0 <= anims m /\ shape_at (ox m) (oy m) (w m) (nframes m) (h m) r.
Definition new_shape (m : img) (r : rect) : Prop := shape_any (x m) (y m) (w m) (nframes m) (h m) r.

Lemma flat_upright g : flat g -> upright g = Ok true.
Proof.
  intros [P F]. unfold upright. destruct (player g) as [p|] eqn:EP.
  - destruct (P p eq_refl) as [m M]. rewrite (img_at_ok _ _ _ M). cbn [obind]. f_equal.
    destruct F as [[A B]|[A (p' & m' & E' & M' & G)]].
    + apply Z.eqb_neq in A, B. rewrite A, B. reflexivity.
    + assert (p' = p) by congruence. subst p'. assert (m' = m) by congruence. subst m'. rewrite A, G. reflexivity.
  - destruct F as [[A B]|[A (p' & m' & E' & M' & G)]]; [|discriminate]. apply Z.eqb_neq in A, B. rewrite A, B. reflexivity.
Qed.
Lemma flat_put g i m m' : flat g -> nth_error (imgs g) i = Some m -> gravity m' = gravity m -> flat (put g i m').
Proof.
  intros [P F] M G. split.
  - intros p EP. destruct (P p EP) as [q Q]. destruct (Nat.eq_dec p i) as [->|D].
    + eexists. eapply put_same. exact M.
    + exists q. now rewrite (put_other g i m' m p M D).
  - destruct F as [A|[A (p' & mp & E' & M' & GG)]]; [now left|]. right. split; [exact A|].
    destruct (Nat.eq_dec p' i) as [->|D].
    + exists i, m'. assert (mp = m) by congruence. subst mp. rewrite G. split; [exact E'|]. split; [eapply put_same; exact M|exact GG].
    + exists p', mp. rewrite (put_other g i m' m p' M D). auto.
Qed.
Lemma frame_w_ok m r : shape m r -> frame_w m = Ok (rw r).
Proof.
  intros [A (kx & ky & _ & _ & _ & _ & N & W & _ & ->)]. cbn [rw]. unfold frame_w, idiv.
  assert (E : (if anims m =? 0 then 1 else anims m) = nframes m) by (unfold nframes; destruct (Z.eqb_spec (anims m) 0); lia).
  rewrite E. replace (nframes m =? 0) with false by lia. rewrite Z.quot_div_nonneg by lia. unfold i32.
  rewrite (proj2 (in_int_iff _)); [reflexivity|]. split; [transitivity 0; [lia|apply Z.div_pos; lia]|].
  transitivity (w m); [apply Z.div_le_upper_bound; nia|lia].
Qed.
Lemma shape_okr m r : shape m r -> okr r.
Proof.
  intros [A (kx & ky & _ & _ & B1 & B2 & N & W & H & ->)]. unfold okr, on_map in *. cbn [rx ry rw rh].
  split; [apply pixel_bound; unfold K; lia|]. split; [apply pixel_bound; unfold K; lia|]. split; [|lia].
  split; [apply Z.div_le_lower_bound; lia|]. transitivity (w m); [apply Z.div_le_upper_bound; nia|lia].
Qed.
Lemma old_shape_shape m r : old_shape m r -> shape (at_xy m (ox m) (oy m)) r.
Proof. intros H. exact H. Qed.

Section Game.
Variables (cosf sinf : num -> num) (pi_180 : num).
Notation maprect := (maprect cosf sinf pi_180).
Notation resolve := (resolve cosf sinf pi_180).
Lemma maprect_ok g m r : flat g -> shape m r -> maprect g m = Ok r.
Proof.
  intros F S. unfold PhysModel.maprect. pose proof (frame_w_ok m r S) as W. destruct S as [A (kx & ky & PX & PY & B1 & B2 & N & _ & H & ->)].
  unfold on_map in *. rewrite (at_int _ _ PX), (at_int _ _ PY) by lia. cbn [obind]. rewrite W. cbn [obind]. rewrite (flat_upright g F). reflexivity.
Qed.
Lemma middle_ok p s : Z.abs p <= 2 ^ 29 -> 1 <= s <= 2 ^ 29 -> i32 (p + Z.quot s 2) = Ok (p + Z.quot s 2).
Proof. intros A B. unfold i32. rewrite (proj2 (in_int_iff _)); [reflexivity|]. Z.to_euclidean_division_equations; lia. Qed.
Theorem resolve_ok g i j m m2 r rold r2 : flat g -> i <> j -> nth_error (imgs g) i = Some m -> nth_error (imgs g) j = Some m2 ->
  shape m r -> old_shape m rold -> shape m2 r2 -> shifted g i m m2 = false -> not_through rold r r2 ->
  exists m' r', resolve g i j = Ok (put g i m') /\ rest m m' /\ new_shape m' r' /\ ~ overlap r' r2.
Proof.
  intros F D M M2 S SO S2 SH NT.
  pose proof (shape_okr m r S) as O1. pose proof (shape_okr m2 r2 S2) as O2. pose proof (shape_okr _ _ (old_shape_shape _ _ SO)) as O3.
  unfold PhysModel.resolve. rewrite (img_at_ok _ _ _ M), (img_at_ok _ _ _ M2). cbn [obind].
  rewrite (maprect_ok g m r F S). cbn [obind].
  rewrite (img_at_ok _ i (at_xy m (ox m) (oy m))) by (eapply put_same; exact M). cbn [obind].
  rewrite (maprect_ok _ _ rold (flat_put g i m (at_xy m (ox m) (oy m)) F M eq_refl) (old_shape_shape _ _ SO)). cbn [obind].
  rewrite (maprect_ok g m2 r2 F S2). cbn [obind].
  rewrite !middle_ok by (unfold okr in *; tauto). cbn [obind]. rewrite SH.
  set (right := rx rold + Z.quot (rw rold) 2 <? rx r2 + Z.quot (rw r2) 2). set (down := ry rold + Z.quot (rh rold) 2 <? ry r2 + Z.quot (rh r2) 2).
  assert (RI : right = true <-> from_left rold r2) by apply Z.ltb_lt.
  assert (DO : down = true <-> from_above rold r2) by apply Z.ltb_lt.
  pose proof S as S'. destruct S' as [_ (kx & ky & PX & PY & B1 & B2 & N & W & H & ER)]. unfold on_map in *.
  set (ra := mkR (rx r) (ry rold) (rw r) (rh r)).
  assert (OA : okr ra) by (unfold okr, ra in *; cbn [rx ry rw rh]; tauto).
  destruct (resolve1_ok m kx ky ra r2 right down PX PY ltac:(lia) ltac:(lia) OA O2) as (m1 & E1 & R1 & C1).
  rewrite E1. cbn [obind].
  assert (Q1 : exists kx1 ky1, at_pos (x m1) kx1 /\ at_pos (y m1) ky1 /\ Z.abs kx1 <= 2 ^ 51 /\ Z.abs ky1 <= 2 ^ 51 /\
    ((~ overlap ra r2 /\ kx1 = kx /\ ky1 = ky) \/
     (overlap ra r2 /\ kx1 = back right kx (xdepth right ra r2) /\ ky1 = ky) \/
     (overlap ra r2 /\ kx1 = kx /\ ky1 = back down ky (ydepth down ra r2)))).
  { destruct C1 as [(O & X & Y)|[(O & L & X & Y)|(O & L & X & Y)]].
    - exists kx, ky. repeat split; try apply X; try apply Y; try lia. left. auto.
    - exists (back right kx (xdepth right ra r2)), ky. destruct (depth_bound right down ra r2 OA O2 O) as [D1 D2].
      pose proof (back_bound right kx (xdepth right ra r2) (2 ^ 49) B1 ltac:(lia)).
      repeat split; try apply X; try apply Y; try lia. right. left. auto.
    - exists kx, (back down ky (ydepth down ra r2)). destruct (depth_bound right down ra r2 OA O2 O) as [D1 D2].
      pose proof (back_bound down ky (ydepth down ra r2) (2 ^ 49) B2 ltac:(lia)).
      repeat split; try apply X; try apply Y; try lia. right. right. auto. }
  destruct Q1 as (kx1 & ky1 & PX1 & PY1 & BX1 & BY1 & C1').
  destruct (resolve1_ok m1 kx1 ky1 r r2 right down PX1 PY1 BX1 BY1 O1 O2) as (m' & E2 & R2 & C2).
  rewrite E2. cbn [obind].
  assert (RR : rest m m') by (eapply rest_trans; eassumption).
  assert (Q2 : exists kx2 ky2, at_pos (x m') kx2 /\ at_pos (y m') ky2 /\
    ((~ overlap r r2 /\ kx2 = kx1 /\ ky2 = ky1) \/
     (overlap r r2 /\ kx2 = back right kx1 (xdepth right r r2) /\ ky2 = ky1) \/
     (overlap r r2 /\ kx2 = kx1 /\ ky2 = back down ky1 (ydepth down r r2)))).
  { destruct C2 as [(O & X & Y)|[(O & L & X & Y)|(O & L & X & Y)]]; do 2 eexists; (split; [exact X|]); (split; [exact Y|]); auto. }
  destruct Q2 as (kx2 & ky2 & PX2 & PY2 & C2').
  exists m', (mkR (pixel kx2) (pixel ky2) (rw r) (rh r)). split; [reflexivity|]. split; [exact RR|]. split.
  - exists kx2, ky2. split; [exact PX2|]. split; [exact PY2|]. destruct RR as [gs ->]. subst r. reflexivity.
  - destruct O1 as (U1 & U2 & U3 & U4). destruct O2 as (V1 & V2 & V3 & V4).
    apply (pushed_apart kx ky (rw r) (rh r) rold r2 (ry rold) right down kx1 ky1 kx2 ky2); try lia; try assumption.
    + subst r. exact NT.
    + subst r. exact C1'.
    + subst r. exact C2'.
Qed.

(** Out of the way of a moving platform *)
Theorem resolve_shifted g i j m m2 r rold r2 : flat g -> i <> j -> nth_error (imgs g) i = Some m -> nth_error (imgs g) j = Some m2 ->
  shape m r -> old_shape m rold -> shape m2 r2 -> shifted g i m m2 = true -> rw r <= rx r2 ->
  exists m' r', resolve g i j = Ok (put g i m') /\ rest m m' /\ new_shape m' r' /\ ~ overlap r' r2.
Proof.
  intros F D M M2 S SO S2 SH IN.
  pose proof (shape_okr m r S) as O1. pose proof (shape_okr m2 r2 S2) as O2. pose proof (shape_okr _ _ (old_shape_shape _ _ SO)) as O3.
  unfold PhysModel.resolve. rewrite (img_at_ok _ _ _ M), (img_at_ok _ _ _ M2). cbn [obind].
  rewrite (maprect_ok g m r F S). cbn [obind].
  rewrite (img_at_ok _ i (at_xy m (ox m) (oy m))) by (eapply put_same; exact M). cbn [obind].
  rewrite (maprect_ok _ _ rold (flat_put g i m (at_xy m (ox m) (oy m)) F M eq_refl) (old_shape_shape _ _ SO)). cbn [obind].
  rewrite (maprect_ok g m2 r2 F S2). cbn [obind].
  rewrite !middle_ok by (unfold okr in *; tauto). cbn [obind]. rewrite SH.
  destruct S as [A1 (kx & ky & PX & PY & B1 & B2 & N & W & H & ER)]. destruct S2 as [A2 (lx & ly & QX & QY & C1 & C2 & N2 & W2 & H2 & ER2)].
  unfold on_map in *. destruct O1 as (U1 & U2 & U3 & U4). destruct O2 as (V1 & V2 & V3 & V4).
  assert (L0 : rx r2 = lx / K /\ rw r * K <= lx).
  { assert (E : rx r2 = Z.quot lx K) by (subst r2; reflexivity). rewrite E in *. clear -IN U3. unfold K in *.
    assert (0 <= lx) by (Z.to_euclidean_division_equations; lia). rewrite Z.quot_div_nonneg in * by lia. Z.to_euclidean_division_equations; lia. }
  destruct L0 as [L0 L1].
  destruct (lt (x m) (int_num (rx r2 + Z.quot (rw r2) 2))).
  - eexists. exists (mkR (rx r2 - rw r) (ry r) (rw r) (rh r)). split; [reflexivity|]. split; [exists (gspeed m); destruct m; reflexivity|]. split.
    + exists (lx - rw r * K), ky. split; [|split].
      * cbn [x at_xy]. apply at_sub; [exact QX|apply at_whole; clear -U3; lia|clear -C1 U3; unfold K; lia].
      * exact PY.
      * assert (EP : pixel (lx - rw r * K) = rx r2 - rw r).
        { unfold pixel. change (2 ^ 20) with K. rewrite Z.quot_div_nonneg by (unfold K in *; lia). replace (lx - rw r * K) with (lx + (- rw r) * K) by lia.
          rewrite Z.div_add by (unfold K; lia). lia. }
        rewrite EP. subst r. reflexivity.
    + intros O. apply overlap_iff in O. cbn [rx ry rw rh] in O. clear -O. lia.
  - eexists. exists (mkR (rx r2 + rw r2) (ry r) (rw r) (rh r)). split; [reflexivity|]. split; [exists (gspeed m); destruct m; reflexivity|]. split.
    + exists (lx + rw r2 * K), ky. split; [|split].
      * cbn [x at_xy]. apply at_add; [exact QX|apply at_whole; clear -V3; lia|clear -C1 V3; unfold K; lia].
      * exact PY.
      * assert (EP : pixel (lx + rw r2 * K) = rx r2 + rw r2).
        { unfold pixel. change (2 ^ 20) with K. rewrite Z.quot_div_nonneg by (unfold K in *; lia).
          rewrite Z.div_add by (unfold K; lia). lia. }
        rewrite EP. subst r. reflexivity.
    + intros O. apply overlap_iff in O. cbn [rx ry rw rh] in O. clear -O. lia.
Qed.

(** ** Running into a wall *)
Definition stands (m m2 : img) : Prop :=
  nonzero (gravity m) = true /\ (SF2Q (y m) + inject_Z (h m) <= SF2Q (y m2) + inject_Z (h m / 2))%Q.
Lemma le_at a ka b kb : at_pos a ka -> at_pos b kb -> le a b = true <-> ka <= kb.
Proof. intros [FA VA] [FB VB]. unfold le. rewrite (SFleb_Q a b FA FB), VA, VB. apply QZ_le. Qed.
Lemma lands_iff m m2 r r2 : shape m r -> shape m2 r2 -> (0 <= SF2Q (x m))%Q -> (0 <= SF2Q (x m2))%Q -> overlap r r2 ->
  lands m m2 (rw r) (rw r2) = true <-> stands m m2.
Proof.
  intros S S2 X0 X2 O. pose proof (shape_okr m r S) as O1. pose proof (shape_okr m2 r2 S2) as O2.
  destruct S as [A1 (kx & ky & PX & PY & B1 & B2 & N & W & H & ER)]. destruct S2 as [A2 (lx & ly & QX & QY & C1 & C2 & N2 & W2 & H2 & ER2)].
  unfold on_map in *. destruct O1 as (U1 & U2 & U3 & U4). destruct O2 as (V1 & V2 & V3 & V4).
  assert (K0 : 0 <= kx).
  { destruct PX as [_ V]. rewrite V in X0. apply (proj1 (QZ_le 0 kx)). eapply Qle_trans; [|exact X0]. vm_compute; discriminate. }
  assert (L0 : 0 <= lx).
  { destruct QX as [_ V]. rewrite V in X2. apply (proj1 (QZ_le 0 lx)). eapply Qle_trans; [|exact X2]. vm_compute; discriminate. }
  assert (E1 : rx r = kx / K) by (subst r; cbn [rx]; unfold pixel; change (2 ^ 20) with K; apply Z.quot_div_nonneg; unfold K; lia).
  assert (E2 : rx r2 = lx / K) by (subst r2; cbn [rx]; unfold pixel; change (2 ^ 20) with K; apply Z.quot_div_nonneg; unfold K; lia).
  apply overlap_iff in O. unfold lands, stands, int_num.
  assert (T1 : le (x m2) (add64 (x m) (of_Z (rw r))) = true).
  { apply (le_at _ lx _ (kx + rw r * K)); [exact QX|apply at_add_w; [exact PX|exact B1|clear -U3; lia]|].
    rewrite E1, E2 in O. clear -O. unfold K in *. Z.to_euclidean_division_equations; lia. }
  assert (T2 : le (x m) (add64 (x m2) (of_Z (rw r2))) = true).
  { apply (le_at _ kx _ (lx + rw r2 * K)); [exact PX|apply at_add_w; [exact QX|exact C1|clear -V3; lia]|].
    rewrite E1, E2 in O. clear -O. unfold K in *. Z.to_euclidean_division_equations; lia. }
  rewrite T1, T2, !andb_true_r, andb_true_iff. apply and_iff_compat_l.
  rewrite Z.quot_div_nonneg by (clear -H; lia). assert (HB : 0 <= h m / 2 <= h m) by (clear -H; Z.to_euclidean_division_equations; lia).
  rewrite (le_at _ (ky + h m * K) _ (ly + h m / 2 * K)).
  - destruct PY as [_ VY]. destruct QY as [_ VY2]. rewrite VY, VY2, !inject_K, !QZ_add. symmetry. apply QZ_le.
  - apply at_add_w; [exact PY|exact B2|clear -H; lia].
  - apply at_add_w; [exact QY|exact C2|clear -H HB; lia].
Qed.

Notation run_into := (run_into cosf sinf pi_180).
Definition next_jump (g : game) (i : nat) : Z :=
  if is_player g i then (if jump g =? 2 then 3 else if jump g =? 3 then 0 else jump g) else jump g.
Definition next_dir (m : img) (kd : Z) : num := if bounce m then int_num (Z.rem (pixel kd + 145) 360) else dir m.
(** what follows the landing or the push *)
Definition after (g g1 : game) (i : nat) : outcome game :=
  let g2 := if is_player g i && (jump g1 =? 2) then with_jump g1 3
            else if is_player g i && (jump g1 =? 3) then with_jump g1 0 else g1 in
  do m2' <- img_at g2 i;
  if bounce m2' then do m3 <- bounced m2'; Ok (put g2 i m3) else Ok g2.
Lemma after_ok g g1 i m1 kd : player g1 = player g -> nth_error (imgs g1) i = Some m1 -> at_pos (dir m1) kd -> on_map kd ->
  exists g', after g g1 i = Ok g' /\ nth_error (imgs g') i = Some (with_dir m1 (next_dir m1 kd)) /\
    (forall k, k <> i -> nth_error (imgs g') k = nth_error (imgs g1) k) /\
    jump g' = next_jump g1 i /\ contact g' = contact g1 /\ sent g' = sent g1 /\ player g' = player g1 /\ mode g' = mode g1 /\
    length (imgs g') = length (imgs g1).
Proof.
  intros EP M PD BD. unfold after, on_map in *.
  assert (IP : is_player g i = is_player g1 i) by (unfold is_player; now rewrite EP). rewrite IP.
  set (g2 := if is_player g1 i && (jump g1 =? 2) then with_jump g1 3 else if is_player g1 i && (jump g1 =? 3) then with_jump g1 0 else g1).
  assert (G2 : imgs g2 = imgs g1 /\ jump g2 = next_jump g1 i /\ contact g2 = contact g1 /\ sent g2 = sent g1 /\ player g2 = player g1 /\ mode g2 = mode g1).
  { unfold g2, next_jump. destruct (is_player g1 i), (jump g1 =? 2); cbn [andb]; try (destruct (jump g1 =? 3)); repeat split; reflexivity. }
  clearbody g2. destruct G2 as (I2 & J2 & C2 & S2 & P2 & O2).
  assert (M2 : nth_error (imgs g2) i = Some m1) by now rewrite I2.
  rewrite (img_at_ok _ _ _ M2). cbn [obind]. unfold next_dir. destruct (bounce m1) eqn:B.
  - unfold bounced. rewrite (at_int _ _ PD) by lia. cbn [obind]. pose proof (pixel_bound kd (2 ^ 29) ltac:(unfold K; lia) ltac:(lia)).
    unfold i32. rewrite (proj2 (in_int_iff _)) by lia. cbn [obind]. eexists. split; [reflexivity|].
    split; [eapply put_same; exact M2|]. split; [intros k D; rewrite (put_other _ _ _ _ k M2 D); now rewrite I2|].
    cbn [put with_imgs jump contact sent player mode]. rewrite <- I2 at 1. repeat split; try assumption.
    rewrite (put_length _ _ _ _ M2). now rewrite I2.
  - exists g2. split; [reflexivity|]. rewrite I2. split; [rewrite M; now destruct m1|]. repeat split; try assumption; try reflexivity.
Qed.
Lemma run_into_after g i j : run_into g i j =
  (do m <- img_at g i;
   do m2 <- img_at g j;
   do ww <- frame_w m;
   do w2 <- frame_w m2;
   do g1 <- (if lands m m2 ww w2 then
              let g' := put g i (with_gspeed (at_xy m (x m) (add64 (sub64 (y m2) (int_num (h m))) (int_num 1))) zero64) in
              Ok (if is_player g i then with_contact g' (Some j) else g')
            else
              do g' <- resolve g i j;
              do m' <- img_at g' i;
              Ok (put g' i (with_mov m' zero64)));
   after g g1 i).
Proof. reflexivity. Qed.
Lemma put_put g i a b m : nth_error (imgs g) i = Some m -> put (put g i a) i b = put g i b.
Proof.
  intros H. unfold put, with_imgs. cbn [imgs player mode jump jheight contact winw winh sent]. f_equal.
  assert (L := nth_error_Some (imgs g) i). rewrite H in L. assert (I : (i < length (imgs g))%nat) by (apply L; discriminate).
  f_equal.
  - rewrite firstn_app, firstn_firstn, firstn_length_le, Nat.min_id, Nat.sub_diag by lia. cbn [firstn]. apply app_nil_r.
  - f_equal. rewrite skipn_app, firstn_length_le by lia. replace (S i - i)%nat with 1%nat by lia.
    rewrite (skipn_all2 (n := S i) (firstn i (imgs g))) by (rewrite firstn_length_le; lia). reflexivity.
Qed.
Lemma is_player_iff g i : is_player g i = true <-> player g = Some i.
Proof. unfold is_player. destruct (player g); [rewrite Nat.eqb_eq; split; congruence|split; discriminate]. Qed.
Theorem run_into_ok g i j m m2 r rold r2 kd : flat g -> i <> j -> nth_error (imgs g) i = Some m -> nth_error (imgs g) j = Some m2 ->
  shape m r -> old_shape m rold -> shape m2 r2 -> overlap r r2 -> at_pos (dir m) kd -> on_map kd ->
  (0 <= SF2Q (x m))%Q -> (0 <= SF2Q (x m2))%Q ->
  not_through rold r r2 -> (player g = Some i -> mode g = 1 -> rw r <= rx r2) -> rh r <= ry r2 ->
  exists g' m' r', run_into g i j = Ok g' /\ nth_error (imgs g') i = Some m' /\
    (forall k, k <> i -> nth_error (imgs g') k = nth_error (imgs g) k) /\ new_shape m' r' /\
    jump g' = next_jump g i /\ sent g' = sent g /\ dir m' = next_dir m kd /\
    (stands m m2 -> r' = mkR (rx r) (ry r2 - rh r + 1) (rw r) (rh r) /\ gspeed m' = zero64 /\ mov m' = mov m /\
       contact g' = if is_player g i then Some j else contact g) /\
    (~ stands m m2 -> ~ overlap r' r2 /\ mov m' = zero64 /\ contact g' = contact g).
Proof.
  intros F D M M2 S SO S2 O PD BD X0 X2 NT SH HI. rewrite run_into_after.
  rewrite (img_at_ok _ _ _ M), (img_at_ok _ _ _ M2). cbn [obind]. rewrite (frame_w_ok m r S), (frame_w_ok m2 r2 S2). cbn [obind].
  pose proof (lands_iff m m2 r r2 S S2 X0 X2 O) as LI.
  destruct (lands m m2 (rw r) (rw r2)).
  - assert (ST : stands m m2) by now apply LI. cbn [obind].
    set (m1 := with_gspeed (at_xy m (x m) (add64 (sub64 (y m2) (int_num (h m))) (int_num 1))) zero64).
    set (g1 := if is_player g i then with_contact (put g i m1) (Some j) else put g i m1).
    assert (G1 : imgs g1 = imgs (put g i m1) /\ jump g1 = jump g /\ player g1 = player g /\ sent g1 = sent g /\ contact g1 = if is_player g i then Some j else contact g).
    { unfold g1. destruct (is_player g i); repeat split; reflexivity. }
    clearbody g1. destruct G1 as (I1 & J1 & P1 & T1 & C1).
    assert (N1 : nth_error (imgs g1) i = Some m1) by (rewrite I1; eapply put_same; exact M).
    destruct (after_ok g g1 i m1 kd P1 N1 PD BD) as (g' & E & NI & OT & JJ & CC & SS & PP & OO & LL).
    exists g', (with_dir m1 (next_dir m1 kd)), (mkR (rx r) (ry r2 - rh r + 1) (rw r) (rh r)). split; [exact E|]. split; [exact NI|].
    split; [intros k DK; rewrite (OT k DK), I1; exact (put_other g i m1 m k M DK)|].
    split.
    { pose proof S as S'. pose proof S2 as S2'. destruct S' as [A1 (kx & ky & PX & PY & B1 & B2 & N & W & H & ER)].
      destruct S2' as [A2 (lx & ly & QX & QY & C1' & C2 & N2 & W2 & H2 & ER2)]. unfold on_map in *.
      assert (ERH : rh r = h m) by (subst r; reflexivity).
      exists kx, (ly - h m * K + 1 * K). split; [exact PX|]. split.
      - cbn [y with_dir with_gspeed m1 at_xy]. apply at_add.
        + apply at_sub; [exact QY|apply at_whole; clear -H; lia|clear -H C2; unfold K; lia].
        + apply (at_whole 1). clear. lia.
        + clear -H C2. unfold K. lia.
      - assert (EP : pixel (ly - h m * K + 1 * K) = ry r2 - rh r + 1).
        { rewrite ERH in *. subst r2. cbn [ry] in *. unfold pixel in *. change (2 ^ 20) with K in *. clear -HI H.
          assert (L0 : 0 <= ly) by (unfold K in *; Z.to_euclidean_division_equations; lia).
          rewrite (Z.quot_div_nonneg ly) in HI |- * by (unfold K; lia).
          rewrite Z.quot_div_nonneg by (unfold K in *; Z.to_euclidean_division_equations; lia).
          replace (ly - h m * K + 1 * K) with (ly + (1 - h m) * K) by lia. rewrite Z.div_add by (unfold K; lia). lia. }
        rewrite EP. subst r. reflexivity. }
    split; [rewrite JJ; unfold next_jump, is_player; now rewrite P1, J1|]. split; [now rewrite SS|]. split; [reflexivity|]. split.
    + intros _. repeat split; try reflexivity. now rewrite CC.
    + intros NS. now destruct NS.
  - assert (NS : ~ stands m m2) by (intros C; apply LI in C; discriminate).
    assert (R : exists m' r', resolve g i j = Ok (put g i m') /\ rest m m' /\ new_shape m' r' /\ ~ overlap r' r2).
    { destruct (shifted g i m m2) eqn:ES.
      - apply (resolve_shifted g i j m m2 r rold r2); try assumption. unfold shifted in ES. rewrite !andb_true_iff in ES. apply SH.
        + apply is_player_iff. tauto.
        + apply Z.eqb_eq. tauto.
      - apply (resolve_ok g i j m m2 r rold r2); assumption. }
    destruct R as (mr & r' & ER & RR & SR & AR). rewrite ER. cbn [obind].
    rewrite (img_at_ok _ i mr) by (eapply put_same; exact M). cbn [obind]. rewrite (put_put g i mr (with_mov mr zero64) m M).
    set (m1 := with_mov mr zero64). set (g1 := put g i m1).
    assert (N1 : nth_error (imgs g1) i = Some m1) by (eapply put_same; exact M).
    assert (DM : dir m1 = dir m /\ bounce m1 = bounce m) by (destruct RR as [gs RE]; unfold m1; rewrite RE; now split).
    destruct (after_ok g g1 i m1 kd eq_refl N1) as (g' & E & NI & OT & JJ & CC & SS & PP & OO & LL);
      [destruct DM as [-> _]; exact PD|exact BD|].
    exists g', (with_dir m1 (next_dir m1 kd)), r'. split; [exact E|]. split; [exact NI|].
    split; [intros k DK; rewrite (OT k DK); exact (put_other g i m1 m k M DK)|].
    split; [exact SR|]. split; [exact JJ|]. split; [exact SS|]. split.
    { cbn [dir with_dir]. unfold next_dir. destruct DM as [-> ->]. reflexivity. }
    split; [intros C; contradiction|]. intros _. split; [exact AR|]. split; [reflexivity|exact CC].
Qed.

(** ** Who is told *)
Definition kind (m m' : img) : Prop :=
  fixed m' = fixed m /\ alive m' = alive m /\ collidable m' = collidable m /\ gravity m' = gravity m /\ solid m' = solid m /\
  ghost m' = ghost m /\ bounce m' = bounce m /\ visible m' = visible m /\ w m' = w m /\ h m' = h m /\ anims m' = anims m.
Lemma kind_refl m : kind m m.
Proof. repeat split. Qed.
Lemma kind_trans a b c : kind a b -> kind b c -> kind a c.
Proof. unfold kind. intros (A1&A2&A3&A4&A5&A6&A7&A8&A9&A10&A11) (B1&B2&B3&B4&B5&B6&B7&B8&B9&B10&B11). repeat split; congruence. Qed.
Lemma rest_kind m m' : rest m m' -> kind m m'.
Proof. intros [gs E]. rewrite E. repeat split. Qed.
Lemma bind_ok {A B} (o : outcome A) (f : A -> outcome B) b : obind o f = Ok b -> exists a, o = Ok a /\ f a = Ok b.
Proof. destruct o; cbn [obind]; [eauto|discriminate]. Qed.
Ltac ok H := match type of H with obind _ _ = Ok _ => let a := fresh "v" in let E := fresh "E" in apply bind_ok in H; destruct H as (a & E & H) end.
Lemma resolve1_rest m r r2 right down m' : resolve1 m r r2 right down = Ok m' -> rest m m'.
Proof.
  unfold resolve1. intros H. ok H. destruct v; [|injection H as <-; apply rest_refl]. ok H. ok H.
  assert (G : forall a b, rest m (at_xy m a b)) by (intros; exists (gspeed m); destruct m; reflexivity).
  assert (G2 : forall a b c, rest m (at_xy (with_gspeed m c) a b)) by (intros; eexists; destruct m; reflexivity).
  destruct (_ <=? _); [destruct right|destruct down]; injection H as <-; auto.
Qed.
(** the game [g'] differs from [g] at most in image [i], and there not in what it is *)
Definition only (i : nat) (g g' : game) : Prop :=
  (forall k, k <> i -> nth_error (imgs g') k = nth_error (imgs g) k) /\ length (imgs g') = length (imgs g) /\
  (exists m m', nth_error (imgs g) i = Some m /\ nth_error (imgs g') i = Some m' /\ kind m m') /\
  player g' = player g /\ mode g' = mode g.
Lemma only_trans i a b c : only i a b -> only i b c -> only i a c.
Proof.
  intros (A1 & A2 & (m & m' & A3 & A4 & A5) & A6 & A7) (B1 & B2 & (n & n' & B3 & B4 & B5) & B6 & B7).
  split; [intros k D; rewrite (B1 k D); now apply A1|]. split; [congruence|]. split; [|split; congruence].
  exists m, n'. assert (n = m') by congruence. subst n. repeat split; try assumption; try (eapply kind_trans; eassumption).
Qed.
Lemma only_put i g m m' : nth_error (imgs g) i = Some m -> kind m m' -> only i g (put g i m').
Proof.
  intros M KI. split; [intros k D; exact (put_other g i m' m k M D)|]. split; [exact (put_length g i m' m M)|]. split; [|split; reflexivity].
  exists m, m'. split; [exact M|]. split; [eapply put_same; exact M|exact KI].
Qed.
Lemma only_refl i g m : nth_error (imgs g) i = Some m -> only i g g.
Proof. intros M. split; [reflexivity|]. split; [reflexivity|]. split; [|split; reflexivity]. exists m, m. auto using kind_refl. Qed.
Lemma only_same i g g1 g2 : only i g g1 -> imgs g2 = imgs g1 -> player g2 = player g1 -> mode g2 = mode g1 -> only i g g2.
Proof. intros O A B C. unfold only in *. rewrite A, B, C. exact O. Qed.
Lemma resolve_rest g i j g' : resolve g i j = Ok g' -> exists m m', nth_error (imgs g) i = Some m /\ g' = put g i m' /\ rest m m'.
Proof.
  unfold PhysModel.resolve. intros H. do 10 ok H. apply img_at_inv in E. rename v into m.
  assert (G : forall a b, rest m (at_xy m a b)) by (intros; exists (gspeed m); destruct m; reflexivity).
  destruct (shifted g i m v0).
  - injection H as <-. do 2 eexists. split; [exact E|]. split; [reflexivity|]. apply G.
  - ok H. ok H. injection H as <-. do 2 eexists. split; [exact E|]. split; [reflexivity|].
    eapply rest_trans; eapply resolve1_rest; eassumption.
Qed.
Lemma bounced_kind m m' : bounced m = Ok m' -> kind m m'.
Proof. unfold bounced. intros H. ok H. ok H. injection H as <-. repeat split. Qed.
Lemma after_only g g1 i g' : nth_error (imgs g1) i <> None -> after g g1 i = Ok g' -> only i g1 g' /\ sent g' = sent g1.
Proof.
  unfold after. intros N H.
  set (g2 := if is_player g i && (jump g1 =? 2) then with_jump g1 3 else if is_player g i && (jump g1 =? 3) then with_jump g1 0 else g1) in *.
  assert (G2 : imgs g2 = imgs g1 /\ sent g2 = sent g1 /\ player g2 = player g1 /\ mode g2 = mode g1).
  { unfold g2. destruct (is_player g i && (jump g1 =? 2)); [|destruct (is_player g i && (jump g1 =? 3))]; repeat split; reflexivity. }
  clearbody g2. destruct G2 as (I2 & S2 & P2 & O2). ok H. apply img_at_inv in E.
  assert (O : only i g1 g2).
  { rewrite I2 in E. eapply only_same; [eapply only_refl; exact E| | |]; assumption. }
  destruct (bounce v).
  - ok H. injection H as <-. split; [|exact S2]. eapply only_trans; [exact O|]. eapply only_put; [exact E|now apply bounced_kind].
  - injection H as <-. auto.
Qed.
Lemma run_into_only g i j g' : run_into g i j = Ok g' -> only i g g' /\ sent g' = sent g.
Proof.
  rewrite run_into_after. intros H. ok H. ok H. ok H. ok H. ok H. apply img_at_inv in E.
  assert (O : only i g v3 /\ sent v3 = sent g).
  { destruct (lands v v0 v1 v2).
    - injection E3 as <-. assert (O : only i g (put g i (with_gspeed (at_xy v (x v) (add64 (sub64 (y v0) (int_num (h v))) (int_num 1))) zero64)))
        by (eapply only_put; [exact E|repeat split]).
      destruct (is_player g i); (split; [|reflexivity]); [eapply only_same; [exact O|reflexivity..]|exact O].
    - ok E3. ok E3. injection E3 as <-. destruct (resolve_rest _ _ _ _ E4) as (m & m' & M & -> & R). apply img_at_inv in E5.
      split; [|reflexivity]. eapply only_trans; [exact (only_put i g m m' M (rest_kind _ _ R))|].
      eapply only_put; [exact E5|repeat split]. }
  destruct O as [O S]. destruct (after_only g v3 i g') as [O2 S2]; [|exact H|].
  - destruct O as (_ & _ & (a & b & _ & B & _) & _). rewrite B. discriminate.
  - split; [eapply only_trans; eassumption|congruence].
Qed.
Lemma flat_only i g g' : flat g -> only i g g' -> flat g'.
Proof.
  intros [P F] (A1 & A2 & (m & m' & A3 & A4 & A5) & A6 & A7). split.
  - rewrite A6. intros p EP. destruct (Nat.eq_dec p i) as [->|D]; [eauto|]. rewrite (A1 p D). now apply P.
  - rewrite A7, A6. destruct F as [F|[F (p & mp & EP & M & G)]]; [now left|]. right. split; [exact F|].
    destruct (Nat.eq_dec p i) as [->|D].
    + exists i, m'. assert (mp = m) by congruence. subst mp. split; [exact EP|]. split; [exact A4|]. destruct A5 as (_ & _ & _ & -> & _). exact G.
    + exists p, mp. rewrite (A1 p D). auto.
Qed.

Variable on_hit : game -> nat -> nat -> list img.
Notation meet := (meet cosf sinf pi_180 on_hit).
Notation meet_all := (meet_all cosf sinf pi_180 on_hit).
Notation detect := (detect cosf sinf pi_180 on_hit).
(** Listeners that leave the images alone *)
Definition passive : Prop := forall g a b, on_hit g a b = imgs g.
Definition notes (i j : nat) (m mj : img) (r rj : rect) : list note :=
  if negb (fixed m) && negb (fixed mj) && alive m && alive mj && overlapb r rj
  then (if collidable m then [Hit i j] else []) ++ (if collidable mj then [Hit j i] else []) else [].
Lemma overlapb_iff a b : overlapb a b = true <-> overlap a b.
Proof. unfold overlapb. rewrite !andb_true_iff, !Z.ltb_lt, overlap_iff. lia. Qed.
Lemma meet_told g i r j m mj rj g' : passive -> flat g -> okr r -> i <> j -> nth_error (imgs g) i = Some m -> nth_error (imgs g) j = Some mj ->
  (fixed mj = false -> alive mj = true -> shape mj rj) -> meet g i r j = Ok g' ->
  only i g g' /\ sent g' = rev (notes i j m mj r rj) ++ sent g.
Proof.
  intros PA F OR D M MJ SJ H. unfold PhysModel.meet in H. rewrite (img_at_ok _ _ _ M), (img_at_ok _ _ _ MJ) in H. cbn [obind] in H.
  apply Nat.eqb_neq in D. rewrite D in H. apply Nat.eqb_neq in D. cbn [orb] in H.
  pose proof (only_refl i g m M) as O0. unfold notes.
  destruct (fixed m); [injection H as <-; now split|]. destruct (fixed mj); [injection H as <-; now split|].
  destruct (alive m); [|injection H as <-; now split]. destruct (alive mj); [|injection H as <-; now split]. cbn [orb negb andb] in *.
  specialize (SJ eq_refl eq_refl). ok H. ok H. rewrite (maprect_ok g mj rj F SJ) in H. cbn [obind] in H.
  destruct (has_intersection_ok r rj OR (shape_okr mj rj SJ)) as (t & HT & T). rewrite HT in H. cbn [obind] in H.
  assert (ET : t = overlapb r rj).
  { pose proof (overlapb_iff r rj) as OB. destruct t, (overlapb r rj); try reflexivity.
    - assert (false = true) by (apply OB, T; reflexivity). discriminate.
    - assert (false = true) by (apply T, OB; reflexivity). discriminate. }
  rewrite <- ET. destruct t; [|injection H as <-; now split]. ok H.
  assert (G1 : only i g v1 /\ sent v1 = sent g).
  { destruct (solid mj && negb (solid m) && negb (ghost m)); [now apply run_into_only in E1|injection E1 as <-; now split]. }
  destruct G1 as [O1 S1]. pose proof O1 as O1'. destruct O1' as (X1 & X2 & (m0 & m1 & X3 & X4 & X5) & X6 & X7).
  assert (m0 = m) by congruence. subst m0. rewrite (img_at_ok _ _ _ X4) in H. cbn [obind] in H. destruct X5 as (_ & _ & CO & _). rewrite CO in H. clear CO.
  assert (D' : j <> i) by congruence.
  assert (MJ1 : nth_error (imgs v1) j = Some mj) by now rewrite (X1 j D').
  assert (TE : forall a b, imgs (tell on_hit v1 a b) = imgs v1) by (intros; unfold tell; cbn [imgs with_imgs]; apply PA).
  destruct (collidable m); cbn [app].
  - rewrite (img_at_ok _ j mj) in H by (rewrite TE; exact MJ1). cbn [obind] in H.
    destruct (collidable mj); injection H as <-.
    + split; [eapply only_same; [exact O1|unfold tell; cbn [imgs with_imgs]; rewrite PA; cbn [imgs with_imgs with_sent]; apply PA|reflexivity..]|].
      cbn [tell sent with_imgs with_sent rev app]. now rewrite S1.
    + split; [eapply only_same; [exact O1|apply TE|reflexivity..]|]. cbn [tell sent with_imgs with_sent rev app]. now rewrite S1.
  - rewrite (img_at_ok _ j mj MJ1) in H. cbn [obind] in H. destruct (collidable mj); injection H as <-.
    + split; [eapply only_same; [exact O1|apply TE|reflexivity..]|]. cbn [tell sent with_imgs with_sent rev app]. now rewrite S1.
    + split; [exact O1|]. exact S1.
Qed.
Lemma meet_self g i r m : nth_error (imgs g) i = Some m -> meet g i r i = Ok g.
Proof. intros M. unfold PhysModel.meet. rewrite (img_at_ok _ _ _ M). cbn [obind]. now rewrite Nat.eqb_refl. Qed.
Definition told (g : game) (i : nat) (r : rect) (rs : nat -> rect) (j : nat) : list note :=
  if Nat.eqb i j then [] else match nth_error (imgs g) i, nth_error (imgs g) j with Some m, Some mj => notes i j m mj r (rs j) | _, _ => [] end.
Lemma meet_all_told g0 i r rs js : passive -> okr r ->
  (forall j mj, j <> i -> nth_error (imgs g0) j = Some mj -> fixed mj = false -> alive mj = true -> shape mj (rs j)) ->
  Forall (fun j => (j < length (imgs g0))%nat) js ->
  forall g g', flat g -> only i g0 g -> meet_all g i r js = Ok g' ->
  only i g0 g' /\ sent g' = rev (flat_map (told g0 i r rs) js) ++ sent g.
Proof.
  intros PA OR SH. induction js as [|j js IH]; intros FJ g g' F O H.
  - injection H as <-. now split.
  - cbn [PhysModel.meet_all] in H. ok H. inversion FJ as [|? ? J1 J2]; subst.
    pose proof O as (X1 & X2 & (m0 & m & X3 & X4 & X5) & X6 & X7).
    assert (ST : only i g0 v /\ flat v /\ sent v = rev (told g0 i r rs j) ++ sent g).
    { unfold told. destruct (Nat.eqb_spec i j) as [<-|D].
      - rewrite (meet_self g i r m X4) in E. injection E as <-. auto.
      - assert (D' : j <> i) by congruence. destruct (nth_error (imgs g0) j) as [mj|] eqn:MJ.
        2: { apply nth_error_None in MJ. lia. }
        assert (MJ1 : nth_error (imgs g) j = Some mj) by now rewrite (X1 j D').
        destruct (meet_told g i r j m mj (rs j) v PA F OR D X4 MJ1 (SH j mj D' MJ) E) as [O1 S1].
        split; [eapply only_trans; eassumption|]. split; [eapply flat_only; eassumption|]. rewrite S1, X3. unfold notes.
        destruct X5 as (-> & -> & -> & _). reflexivity. }
    destruct ST as (O1 & F1 & S1). destruct (IH J2 v g' F1 O1 H) as [O2 S2]. split; [exact O2|].
    rewrite S2, S1. cbn [flat_map]. rewrite rev_app_distr. now rewrite app_assoc.
Qed.
Theorem detect_told g i m r rs g' : passive -> okr r -> flat g -> nth_error (imgs g) i = Some m ->
  (forall j mj, j <> i -> nth_error (imgs g) j = Some mj -> fixed mj = false -> alive mj = true -> shape mj (rs j)) ->
  detect g i r = Ok g' ->
  (forall k, k <> i -> nth_error (imgs g') k = nth_error (imgs g) k) /\
  sent g' = rev (flat_map (told g i r rs) (seq 0 (length (imgs g)))) ++ sent g.
Proof.
  intros PA OR F M SH H. unfold PhysModel.detect in H.
  destruct (meet_all_told g i r rs (seq 0 (length (imgs g))) PA OR SH) with (g := g) (g' := g') as [O S]; try assumption.
  - apply Forall_forall. intros j J. apply in_seq in J. lia.
  - eapply only_refl; exact M.
  - split; [apply O|exact S].
Qed.
End Game.
