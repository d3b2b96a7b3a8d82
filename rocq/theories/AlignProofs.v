(** Proofs about the place of a text on an image. *)
From Coq Require Import ZArith Lia.
From Verif Require Import Common FloatSpec NumModel NumProofs PhysSpec PhysProofs EditSpec EditModel EditProofs AlignSpec AlignModel.
Local Open Scope Z_scope.

Lemma ok_inj {A} (a b : A) : Ok a = Ok b -> a = b.
Proof. now inversion 1. Qed.
Lemma c_int_in a z : c_int a = Ok z -> - 2 ^ 31 <= z < 2 ^ 31.
Proof. unfold c_int. destruct (trunc a) as [t|]; [|discriminate]. destruct (NumModel.in_int t) eqn:E; [|discriminate]. intros H. apply ok_inj in H. subst. apply in_int_iff in E. lia. Qed.
Lemma sets_ok x y l : forall b, sets (made x y) l = Ok b -> bx b = x /\ by_ b = y /\ (exists p q, aligned l p q /\ - 2 ^ 31 <= p < 2 ^ 31 /\ - 2 ^ 31 <= q < 2 ^ 31 /\ padx b = to_size p /\ pady b = to_size q) /\
  high l (lh b) /\ 1 <= lh b <= 100.
Proof.
  induction l as [|s l IH]; cbn [sets aligned high]; intros b H.
  - apply ok_inj in H. subst b. cbn. repeat split; try lia. exists 0, 0. repeat split; lia.
  - destruct (sets (made x y) l) as [b1|]; cbn [obind] in H; [|discriminate]. destruct (IH b1 eq_refl) as (X & Y & (p & q & A & P & Q & E1 & E2) & G & L). destruct s; cbn [set] in H.
    + unfold text_align in H. destruct (c_int a) as [p'|] eqn:Ea; cbn [obind] in H; [|discriminate]. destruct (c_int b0) as [q'|] eqn:Eb; cbn [obind] in H; [|discriminate]. apply ok_inj in H. subst b. cbn [bx by_ padx pady lh].
      repeat split; try assumption; try lia. exists p', q'. pose proof (c_int_in _ _ Ea). pose proof (c_int_in _ _ Eb). auto 10.
    + unfold lineheight in H. destruct (c_int a) as [z|] eqn:Ea; cbn [obind] in H; [|discriminate]. apply ok_inj in H. subst b. cbn [bx by_ padx pady lh].
      assert (E : (if z <? 1 then 1 else if 100 <? z then 100 else z) = Z.max 1 (Z.min 100 z)).
      { destruct (Z.ltb_spec z 1); [lia|]. destruct (Z.ltb_spec 100 z); lia. }
      rewrite E. repeat split; try assumption; try lia; eauto 10.
Qed.
Lemma aligned_fun l : forall p q p' q', aligned l p q -> aligned l p' q' -> p = p' /\ q = q'.
Proof. induction l as [|[a b|a] l IH]; cbn [aligned]; intros p q p' q' H H'; [lia| |eauto]. destruct H as [A B], H' as [C D]. split; congruence. Qed.
Lemma high_fun l : forall h h', high l h -> high l h' -> h = h'.
Proof. induction l as [|[a b|a] l IH]; cbn [high]; intros h h' H H'; [lia|eauto|]. destruct H as (z & A & ->), H' as (z' & A' & ->). rewrite A in A'. apply ok_inj in A'. now subst. Qed.
Lemma size_int_of p : - 2 ^ 31 <= p < 2 ^ 31 -> size_int (to_size p) = p.
Proof. intros H. unfold size_int, to_size. Z.to_euclidean_division_equations; lia. Qed.

Lemma settings_ok x y l b p q h : sets (made x y) l = Ok b -> aligned l p q -> high l h -> pen b = (p, q) /\ lh b = h /\ 1 <= h <= 100 /\ bx b = x /\ by_ b = y.
Proof.
  intros H A G. apply sets_ok in H as (X & Y & (p' & q' & A' & P & Q & E1 & E2) & G' & L). destruct (aligned_fun _ _ _ _ _ A A') as [<- <-]. pose proof (high_fun _ _ _ G G'). subst h.
  unfold pen. rewrite E1, E2, !size_int_of by assumption. auto.
Qed.

Lemma kept l b x y p q : sets (made x y) l = Ok b -> aligned l p q -> 0 <= p -> 0 <= q -> padx b = p /\ pady b = q.
Proof.
  intros H A P Q. apply sets_ok in H as (_ & _ & (p' & q' & A' & P' & Q' & E1 & E2) & _). destruct (aligned_fun _ _ _ _ _ A A') as [<- <-].
  rewrite E1, E2. unfold to_size. rewrite !Z.mod_small by lia. auto.
Qed.
Lemma pixel_whole z : pixel (z * K) = z.
Proof. unfold pixel. change (2 ^ 20) with K. apply Z.quot_mul. discriminate. Qed.
Lemma sub_whole x X p : near x -> near X -> near p -> c_int (sub64 (sub64 (dbl x) (of_Z X)) (dbl p)) = Ok (x - X - p).
Proof.
  unfold near, dbl. intros A B C. rewrite <- (pixel_whole (x - X - p)). apply at_int; [|unfold K; lia].
  replace ((x - X - p) * K) with ((x * K - X * K) - p * K) by ring. apply at_sub; [apply at_sub|apply at_whole; lia|unfold K; lia]; [apply at_whole; lia|apply at_whole; lia|unfold K; lia].
Qed.
Lemma add_whole x X p : near x -> near X -> near p -> c_int (add64 (add64 (of_Z X) (dbl x)) (dbl p)) = Ok (X + x + p).
Proof.
  unfold near, dbl. intros A B C. rewrite <- (pixel_whole (X + x + p)). apply at_int; [|unfold K; lia].
  replace ((X + x + p) * K) with ((X * K + x * K) + p * K) by ring. apply at_add; [apply at_add|apply at_whole; lia|unfold K; lia]; [apply at_whole; lia|apply at_whole; lia|unfold K; lia].
Qed.
Lemma int_of_ok z : Z.abs z < 2 ^ 31 -> int_of z = Ok z.
Proof. intros H. unfold int_of. replace (NumModel.in_int z) with true; [reflexivity|]. symmetry. apply in_int_iff. lia. Qed.
Lemma quot_near a h : 1 <= h -> Z.abs (Z.quot a h) <= Z.abs a.
Proof. intros H. rewrite <- Z.quot_abs by lia. rewrite (Z.abs_eq h) by lia. rewrite Z.quot_div_nonneg by lia. apply Z.div_le_upper_bound; nia. Qed.
Lemma spot_ok X Y l b p q h off x y : sets (made (of_Z X) (of_Z Y)) l = Ok b -> aligned l p q -> high l h -> 0 <= p -> 0 <= q ->
  near X -> near Y -> near p -> near q -> near x -> near y -> near off ->
  spot b off x y = Ok (x - X - p, off + Z.quot (y - Y - q) h).
Proof.
  intros H A G P Q NX NY NP NQ Nx Ny No. destruct (settings_ok _ _ _ _ _ _ _ H A G) as (_ & Eh & L & EX & EY). destruct (kept _ _ _ _ _ _ H A P Q) as [Ep Eq].
  unfold spot. rewrite EX, EY, Ep, Eq, Eh, sub_whole, sub_whole by assumption. cbn [obind]. destruct (Z.eqb_spec h 0); [lia|].
  pose proof (quot_near (y - Y - q) h ltac:(lia)). unfold near in *. rewrite int_of_ok by lia. cbn [obind]. rewrite int_of_ok by lia. reflexivity.
Qed.
Lemma row_ok top h r y : 1 <= h -> 0 <= r -> in_row top h r y -> Z.quot (y - top) h = r.
Proof. unfold in_row. intros H R [A B]. rewrite Z.quot_div_nonneg by nia. symmetry. apply (Z.div_unique _ _ _ (y - top - r * h)); nia. Qed.
Lemma clicked_ok X Y l b p q h off k m us width x y r : sets (made (of_Z X) (of_Z Y)) l = Ok b -> aligned l p q -> high l h -> 0 <= p -> 0 <= q ->
  near X -> near Y -> near p -> near q -> near x -> near y -> near off -> shows k m ([], us) -> 0 <= r -> in_row (Y + q) h r y ->
  let d := line_at (Z.to_nat (off + r)) us in
  exists j, click b off m width x y = Ok (Z.of_nat (length (before (along j d)))) /\ (j <= length (the_line d))%nat /\
    (widening width (the_line d) -> gap width (the_line d) 1 < x - X - p -> nearest width (the_line d) (x - X - p) j).
Proof.
  intros H A G P Q NX NY NP NQ Nx Ny No Sh R I d. destruct (settings_ok _ _ _ _ _ _ _ H A G) as (_ & Eh & L & _).
  destruct (infer_ok k m us width (x - X - p) (off + r) Sh) as (j & E & B & N). exists j. split; [|split; assumption].
  unfold click. destruct (ln m =? 0) eqn:Z0; [unfold infer in E; rewrite Z0 in E; exact E|].
  rewrite (spot_ok X Y l b p q h off x y) by assumption. cbn [obind fst snd].
  replace (y - Y - q) with (y - (Y + q)) by ring. rewrite (row_ok (Y + q) h r y) by (assumption || lia). exact E.
Qed.
Lemma cursor_ok X Y l b p q h w r : sets (made (of_Z X) (of_Z Y)) l = Ok b -> aligned l p q -> high l h -> 0 <= p -> 0 <= q ->
  near X -> near Y -> near p -> near q -> near w -> 0 <= r -> near ((r + 1) * h) ->
  cursor b w r = Ok (X + p + w, Y + q + r * h, (X + p + w, Y + q + (r + 1) * h)).
Proof.
  intros H A G P Q NX NY NP NQ Nw R Nr. destruct (settings_ok _ _ _ _ _ _ _ H A G) as (_ & Eh & L & EX & EY). destruct (kept _ _ _ _ _ _ H A P Q) as [Ep Eq].
  assert (N1 : near (r * h)) by (unfold near in *; nia). unfold cursor. rewrite EX, EY, Ep, Eq, Eh. rewrite int_of_ok by (unfold near in *; lia). cbn [obind].
  replace (r * h + h) with ((r + 1) * h) by ring. rewrite int_of_ok by (unfold near in *; lia). cbn [obind]. rewrite !add_whole by assumption. cbn [obind].
  replace (X + p + w) with (X + w + p) by ring. replace (Y + q + r * h) with (Y + r * h + q) by ring. replace (Y + q + (r + 1) * h) with (Y + (r + 1) * h + q) by ring. reflexivity.
Qed.
Lemma back_ok X Y l b p q h off w r x1 y1 x2 y2 d : sets (made (of_Z X) (of_Z Y)) l = Ok b -> aligned l p q -> high l h -> 0 <= p -> 0 <= q ->
  near X -> near Y -> near p -> near q -> near w -> 0 <= r -> near ((r + 1) * h) -> near off -> cursor b w r = Ok (x1, y1, (x2, y2)) ->
  near x1 -> near y1 -> near y2 -> y1 <= d < y2 -> spot b off x1 d = Ok (w, off + r).
Proof.
  intros H A G P Q NX NY NP NQ Nw R Nr No C N1 N2 N3 D. rewrite (cursor_ok X Y l b p q h w r) in C by assumption. apply ok_inj in C. injection C as <- <- <- <-.
  destruct (settings_ok _ _ _ _ _ _ _ H A G) as (_ & Eh & L & _).
  rewrite (spot_ok X Y l b p q h) by (assumption || (unfold near in *; lia)). f_equal. f_equal; [ring|]. f_equal. replace (d - Y - q) with (d - (Y + q)) by ring. apply row_ok; [lia|exact R|]. unfold in_row. lia.
Qed.
