(** Proofs about the native types of the Media plug-in. *)
From Coq Require Import String SpecFloat QArith Lqa.
From Verif Require Import Common Txt FloatProofs NumModel NumSpec NumProofs ListModel BlobSpec BlobModel BlobProofs.
Require Import ZifyBool ZifyNat ZifyN.
Local Open Scope Z_scope.
Local Notation length := List.length.

(** ** Bytes *)
Lemma le_bytes_length k n : length (le_bytes k n) = k.
Proof. revert n; induction k; intros n; cbn; [reflexivity|]. now rewrite IHk. Qed.
Lemma le_bytes_lt k n : Forall (fun b => (b < 256)%N) (le_bytes k n).
Proof. revert n; induction k; intros n; cbn [le_bytes]; constructor; [|apply IHk]. apply N.mod_lt. lia. Qed.
Lemma pow256_S k : (256 ^ N.of_nat (S k) = 256 * 256 ^ N.of_nat k)%N.
Proof. rewrite Nat2N.inj_succ, N.pow_succ_r'. reflexivity. Qed.
Lemma le_value_bytes k : forall n, (n < 256 ^ N.of_nat k)%N -> le_value (le_bytes k n) = n.
Proof.
  induction k; intros n H; cbn [le_bytes le_value]; [change (256 ^ N.of_nat 0)%N with 1%N in H; lia|].
  rewrite pow256_S in H. rewrite IHk; [|apply N.div_lt_upper_bound; lia]. pose proof (N.div_mod' n 256). lia.
Qed.
Lemma le_value_spec bs : Z.of_N (le_value bs) = value_of bs.
Proof. induction bs; cbn [le_value value_of]; [reflexivity|]. rewrite <- IHbs. lia. Qed.
Lemma le_Z_length k z : length (le_Z k z) = k.
Proof. apply le_bytes_length. Qed.
Lemma le_Z_value k z : Z.of_N (le_value (le_Z k z)) = z mod 256 ^ Z.of_nat k.
Proof.
  unfold le_Z. assert (P : 0 < 256 ^ Z.of_nat k) by (apply Z.pow_pos_nonneg; lia). pose proof (Z.mod_pos_bound z _ P).
  rewrite le_value_bytes; [rewrite Z2N.id; lia|]. apply N2Z.inj_lt. rewrite Z2N.id by lia. rewrite N2Z.inj_pow. rewrite nat_N_Z. lia.
Qed.
Lemma le_Z_for k z : bytes_for z (le_Z k z).
Proof. split; [apply le_bytes_lt|]. rewrite le_Z_length, <- le_value_spec. symmetry. apply le_Z_value. Qed.
Lemma bytes_unique bs : forall bs', length bs = length bs' -> Forall (fun b => (b < 256)%N) bs -> Forall (fun b => (b < 256)%N) bs' ->
  value_of bs = value_of bs' -> bs = bs'.
Proof.
  induction bs as [|b r IH]; intros [|b' r'] L F F' E; try discriminate; [reflexivity|]. inversion F; inversion F'; subst.
  cbn [value_of] in E. assert (b = b') by lia. subst. f_equal. apply IH; auto; lia.
Qed.
Lemma bytes_of_unique z bs : bytes_for z bs -> bs = le_Z (length bs) z.
Proof.
  intros [F V]. destruct (le_Z_for (length bs) z) as [F' V']. rewrite le_Z_length in V'. apply bytes_unique; auto; [now rewrite le_Z_length|congruence].
Qed.

(** ** Whole number types *)
Lemma pow256 k : 256 ^ Z.of_nat k = 2 ^ (8 * Z.of_nat k).
Proof. change 256 with (2 ^ 8). now rewrite <- Z.pow_mul_r by lia. Qed.
Lemma as_signed_back k z : (0 < k)%nat -> int_lo true k <= z <= int_hi true k -> as_signed k (z mod 256 ^ Z.of_nat k) = z.
Proof.
  intros K H. unfold as_signed, int_lo, int_hi in *. rewrite pow256.
  assert (E : 2 ^ (8 * Z.of_nat k) = 2 * 2 ^ (8 * Z.of_nat k - 1)).
  { rewrite <- Z.pow_succ_r by lia. f_equal. lia. }
  rewrite E. set (h := 2 ^ (8 * Z.of_nat k - 1)) in *. assert (0 < h) by (apply Z.pow_pos_nonneg; lia). clearbody h.
  destruct (Z.le_gt_cases 0 z).
  - rewrite Z.mod_small by lia. destruct (Z.ltb_spec z h); lia.
  - rewrite <- (Z_mod_plus_full z 1 (2 * h)), Z.mod_small by lia. destruct (Z.ltb_spec (z + 1 * (2 * h)) h); lia.
Qed.
Lemma unsigned_back k z : int_lo false k <= z <= int_hi false k -> z mod 256 ^ Z.of_nat k = z.
Proof. intros H. unfold int_lo, int_hi in H. rewrite pow256. apply Z.mod_small. lia. Qed.

Lemma SFopp_number x z : is_number x z -> is_number (SFopp x) (- z).
Proof.
  intros [F V]. split.
  - destruct x; cbn in *; auto.
  - rewrite inject_Z_opp, <- V. destruct x as [| | |s m e]; cbn [SFopp SF2Q]; try reflexivity.
    destruct s; cbn [negb cond_Zopp]; unfold QZ.
    + change (Zneg m) with (- Zpos m). rewrite !inject_Z_opp. ring.
    + rewrite !inject_Z_opp. ring.
Qed.
(** A whole number that is a double is built exactly, however large *)
Lemma of_Z_number x z : is_number x z -> is_number (of_Z z) z.
Proof.
  intros H. destruct (Z.eq_dec z 0) as [->|N]; [split; [exact I|reflexivity]|].
  destruct (Z.le_gt_cases 0 z) as [P|P].
  - pose proof (whole_ok false z P (ex_intro (fun w => is_number w z) x H)) as W. unfold whole in W. destruct (Z.eqb_spec z 0); [lia|]. exact W.
  - pose proof (whole_ok true (- z) ltac:(lia) (ex_intro (fun w => is_number w (- z)) _ (SFopp_number _ _ H))) as W. unfold whole in W.
    destruct (Z.eqb_spec (- z) 0); [lia|]. cbn [cond_Zopp] in W. rewrite Z.opp_involutive in W. exact W.
Qed.

Section Native.
Variable addr : ptr -> N.
Lemma byte_map bs : map (byte_of addr) (map Byte bs) = bs.
Proof. rewrite map_map. apply map_id. Qed.
Lemma int_there s sg k a z : (0 < k)%nat -> trunc (tonum a) = Some z -> int_lo sg k <= z <= int_hi sg k ->
  convert_value s (FInt sg k) a = Ok (map Byte (le_Z k z), false).
Proof. intros K T R. cbn [convert_value]. unfold c_range. rewrite T. replace ((_ <=? z) && (z <=? _)) with true by lia. reflexivity. Qed.
Lemma int_back sg k z x : (0 < k)%nat -> int_lo sg k <= z <= int_hi sg k -> is_number x z ->
  exists y, convert_back addr (FInt sg k) (map Byte (le_Z k z)) = Ok (BNum y) /\ is_number y z.
Proof.
  intros K R X. unfold convert_back. cbn [fsize]. rewrite map_length, le_Z_length. rewrite (proj2 (Nat.ltb_ge k k) (Nat.le_refl k)).
  rewrite (firstn_all2 (map Byte (le_Z k z))) by (rewrite map_length, le_Z_length; lia).
  unfold cells_value. rewrite byte_map, le_Z_value.
  destruct sg; eexists; (split; [reflexivity|]).
  - rewrite as_signed_back by auto. now apply of_Z_number with x.
  - rewrite unsigned_back by auto. now apply of_Z_number with x.
Qed.

(** ** Real types *)
Lemma enc_dec prec emax s m e : 2 <= prec -> 2 <= emax ->
  (e = 3 - emax - prec /\ Zpos m < 2 ^ (prec - 1)) \/
  (3 - emax - prec <= e <= emax - prec /\ 2 ^ (prec - 1) <= Zpos m < 2 * 2 ^ (prec - 1)) ->
  decode prec emax (encode prec emax (S754_finite s m e)) = S754_finite s m e /\
  0 <= encode prec emax (S754_finite s m e) < 4 * emax * 2 ^ (prec - 1).
Proof.
  intros HP HE H. unfold decode, encode. set (P := 2 ^ (prec - 1)) in *. assert (PP : 0 < P) by (apply Z.pow_pos_nonneg; lia).
  clearbody P. set (emin := 3 - emax - prec) in *.
  set (mag := if P <=? Zpos m then (e - emin + 1) * P + (Zpos m - P) else Zpos m).
  set (b := if P <=? Zpos m then e - emin + 1 else 0). set (f := if P <=? Zpos m then Zpos m - P else Zpos m).
  assert (MB : mag = b * P + f) by (unfold mag, b, f; destruct (P <=? Zpos m); lia).
  assert (FB : 0 <= f < P) by (unfold f; destruct (Z.leb_spec P (Zpos m)); lia).
  assert (BB : 0 <= b <= 2 * emax - 2) by (unfold b; destruct (Z.leb_spec P (Zpos m)); lia).
  assert (MR : 0 <= mag < 2 * emax * P) by nia.
  assert (R : ((if s then 2 * emax * P else 0) + mag) mod (2 * emax * P) = mag).
  { destruct s; [rewrite Z.add_comm, <- (Z.mul_1_l (2 * emax * P)) at 1; rewrite Z_mod_plus_full|cbn [Z.add]]; apply Z.mod_small; lia. }
  assert (S : (2 * emax * P <=? (if s then 2 * emax * P else 0) + mag) = s) by (destruct s; lia).
  rewrite R, S. split; [|destruct s; nia].
  assert (D : mag / P = b) by (rewrite MB, Z.div_add_l, Z.div_small by lia; lia).
  assert (M : mag mod P = f) by (rewrite MB, Z.add_comm, Z_mod_plus_full, Z.mod_small; lia).
  rewrite D, M. unfold b, f. destruct (Z.leb_spec P (Zpos m)).
  - destruct (Z.eqb_spec (e - emin + 1) 0); [lia|]. destruct (Z.eqb_spec (e - emin + 1) (2 * emax - 1)); [lia|].
    f_equal; [|lia]. replace (Zpos m - P + P) with (Zpos m) by lia. reflexivity.
  - cbn [Z.eqb]. f_equal. lia.
Qed.
Lemma double_roundtrip x : valid_binary 53 1024 x = true ->
  decode 53 1024 (encode 53 1024 x) = x /\ 0 <= encode 53 1024 x < 2 ^ 64.
Proof.
  destruct x as [s|s| |s m e]; intros V.
  - destruct s; split; vm_compute; intuition congruence.
  - destruct s; split; vm_compute; intuition congruence.
  - split; vm_compute; intuition congruence.
  - assert (F : finite (S754_finite s m e)).
    { apply finite_valid. split; [exact V|]. split; intros; discriminate. }
    destruct F as [C L]. apply canon_iff in C. change (2 ^ 64) with (4 * 1024 * 2 ^ (53 - 1)).
    apply enc_dec; [lia|lia|]. change (2 ^ (53 - 1)) with (2 ^ 52). change (2 ^ 53) with (2 * 2 ^ 52) in C.
    destruct (Z.lt_ge_cases (Zpos m) (2 ^ 52)); [left|right]; lia.
Qed.
Lemma double_there_and_back s a x : tonum a = x -> valid_binary 53 1024 x = true ->
  exists cells, convert_value s FDouble a = Ok (cells, false) /\ length cells = 8%nat /\ convert_back addr FDouble cells = Ok (BNum x).
Proof.
  intros <- V. destruct (double_roundtrip _ V) as [D R]. cbn [convert_value]. eexists. split; [reflexivity|].
  split; [now rewrite map_length, le_Z_length|]. unfold convert_back. rewrite map_length, le_Z_length. cbn [fsize Nat.ltb Nat.leb].
  rewrite (firstn_all2 (n := 8)) by (rewrite map_length, le_Z_length; lia). unfold cells_value. rewrite byte_map, le_Z_value.
  change (256 ^ Z.of_nat 8) with (2 ^ 64). rewrite Z.mod_small by exact R. now rewrite D.
Qed.

(** *** Floats *)
Definition canon24 (m : positive) (e : Z) : Prop := fexp 24 128 (Zpos (digits2_pos m) + e) = e.
Lemma canon24_iff m e : canon24 m e <-> (e = -149 /\ Zpos m < 2 ^ 24) \/ (-149 < e /\ 2 ^ 23 <= Zpos m < 2 ^ 24).
Proof.
  unfold canon24. change (fexp 24 128 (Zpos (digits2_pos m) + e)) with (Z.max (Zpos (digits2_pos m) + e - 24) (-149)). split.
  - intros E. pose proof (digits_bounds m) as [A B].
    destruct (Z.eq_dec e (-149)) as [->|N].
    + left. split; auto. eapply Z.lt_le_trans; [exact B|]. apply Z.pow_le_mono_r; lia.
    + right. split; [lia|]. assert (D : Zpos (digits2_pos m) = 24) by lia. rewrite D in A, B. lia.
  - intros [[-> L]|[L [A B]]].
    + pose proof (digits_le m 24 ltac:(lia) L). lia.
    + rewrite (digits_unique m 24) by lia. lia.
Qed.
Lemma round24_aux s m e m0 e0 : canon24 m0 e0 -> e0 <= 104 -> e <= e0 -> Zpos m = Zpos m0 * 2 ^ (e0 - e) ->
  binary_round_aux 24 128 s (Zpos m) e loc_Exact = S754_finite s m0 e0.
Proof.
  intros C B LE E. assert (D : Zpos (digits2_pos m) = Zpos (digits2_pos m0) + (e0 - e)) by (apply digits_shift; [lia|auto]).
  unfold binary_round_aux, shr_fexp. cbn [Zdigits2]. rewrite D.
  replace (Zpos (digits2_pos m0) + (e0 - e) + e) with (Zpos (digits2_pos m0) + e0) by lia. unfold canon24 in C. rewrite C.
  destruct (shr_inb (shr_record_of_loc (Zpos m) loc_Exact) e (e0 - e) (Zpos m) 1) as (r & R & IN); [|lia|].
  { apply inbr_of_loc. unfold inb. lia. }
  rewrite R. rewrite Z.mul_1_r in IN. unfold inbr, inb in IN. destruct IN as (M0 & P2 & RG & LO). rewrite E in RG, LO.
  assert (SM : shr_m r = Zpos m0) by nia. rewrite SM in *.
  assert (LX : loc_of_shr_record r = loc_Exact). { destruct (loc_of_shr_record r); [reflexivity|]. destruct LO as [LO _]. congruence. }
  rewrite LX. cbn [round_nearest_even]. replace (e + (e0 - e)) with e0 by lia.
  cbn [Zdigits2]. rewrite C, Z.sub_diag. cbn [shr shr_record_of_loc shr_m]. destruct (Z.leb_spec e0 (128 - 24)); [reflexivity|lia].
Qed.
Lemma round24 s m e m0 e0 : canon24 m0 e0 -> e0 <= 104 ->
  (forall L, L <= e -> L <= e0 -> Zpos m * 2 ^ (e - L) = Zpos m0 * 2 ^ (e0 - L)) ->
  binary_round 24 128 s m e = S754_finite s m0 e0.
Proof.
  intros C B V. unfold binary_round, shl_align.
  assert (D : Zpos (digits2_pos m) + e = Zpos (digits2_pos m0) + e0).
  { destruct (Z.le_ge_cases e e0) as [H|H].
    - specialize (V e ltac:(lia) H). rewrite Z.sub_diag, Z.mul_1_r in V.
      rewrite (digits_shift m0 m (e0 - e)) by (auto; lia). lia.
    - specialize (V e0 H ltac:(lia)). rewrite Z.sub_diag, Z.mul_1_r in V.
      rewrite (digits_shift m m0 (e - e0)) by (auto; lia). lia. }
  rewrite D. unfold canon24 in C. rewrite C.
  destruct (e0 - e) as [|p|p] eqn:X.
  - apply round24_aux; auto; [lia|]. specialize (V e ltac:(lia) ltac:(lia)). rewrite Z.sub_diag, Z.mul_1_r in V. exact V.
  - apply round24_aux; auto; [lia|]. specialize (V e ltac:(lia) ltac:(lia)). rewrite Z.sub_diag, Z.mul_1_r in V. exact V.
  - apply round24_aux; auto; [lia|]. specialize (V e0 ltac:(lia) ltac:(lia)). rewrite Z.sub_diag, Z.mul_1_r in V.
    rewrite shift_pos_val, Z.sub_diag, Z.mul_1_r. rewrite <- V. do 2 f_equal. lia.
Qed.
Lemma canon24_of m e : Zpos m < 2 ^ 24 -> -149 <= e <= 104 -> exists m0 e0, canon24 m0 e0 /\ e0 <= 104 /\
  forall L, L <= e -> L <= e0 -> Zpos m * 2 ^ (e - L) = Zpos m0 * 2 ^ (e0 - L).
Proof.
  intros M E. pose proof (digits_bounds m) as [A B]. set (d := Zpos (digits2_pos m)) in *. assert (D0 : 0 < d) by (unfold d; lia).
  assert (D : d <= 24) by (apply digits_le; lia).
  set (k := Z.min (24 - d) (e + 149)). assert (K : 0 <= k) by lia.
  assert (P : 0 < 2 ^ k) by (apply Z.pow_pos_nonneg; lia).
  exists (Z.to_pos (Zpos m * 2 ^ k)), (e - k). assert (V : Zpos (Z.to_pos (Zpos m * 2 ^ k)) = Zpos m * 2 ^ k) by (rewrite Z2Pos.id; nia).
  split; [|split; [lia|]].
  - apply canon24_iff. rewrite V. destruct (Z.le_gt_cases (24 - d) (e + 149)) as [C|C].
    + assert (KE : k = 24 - d) by lia. rewrite KE.
      assert (B1 : 2 ^ 23 <= Zpos m * 2 ^ (24 - d)).
      { replace (2 ^ 23) with (2 ^ (d - 1) * 2 ^ (24 - d)) by (rewrite <- Z.pow_add_r by lia; f_equal; lia). apply Z.mul_le_mono_nonneg_r; [apply Z.pow_nonneg; lia|lia]. }
      assert (B2 : Zpos m * 2 ^ (24 - d) < 2 ^ 24).
      { replace (2 ^ 24) with (2 ^ d * 2 ^ (24 - d)) by (rewrite <- Z.pow_add_r by lia; f_equal; lia). apply Z.mul_lt_mono_pos_r; [apply Z.pow_pos_nonneg; lia|lia]. }
      destruct (Z.eq_dec (e - (24 - d)) (-149)); [left|right]; lia.
    + left. assert (KE : k = e + 149) by lia. split; [lia|]. rewrite KE.
      assert (Zpos m * 2 ^ (e + 149) < 2 ^ d * 2 ^ (e + 149)) by (apply Z.mul_lt_mono_pos_r; [apply Z.pow_pos_nonneg; lia|lia]).
      rewrite <- Z.pow_add_r in H by lia. assert (2 ^ (d + (e + 149)) <= 2 ^ 24) by (apply Z.pow_le_mono_r; lia). lia.
  - intros L L1 L2. rewrite V, <- Z.mul_assoc, <- Z.pow_add_r by lia. do 2 f_equal. lia.
Qed.
Lemma QZ_zero z e : (QZ z e == 0)%Q -> z = 0.
Proof.
  intros H. unfold QZ in H. pose proof (pow2_pos e) as P. destruct (Qmult_integral _ _ H) as [Z|Z]; [|lra].
  unfold Qeq in Z. cbn in Z. lia.
Qed.
Lemma float_exact x : float_holds x -> exists y, to_float x = y /\
  (exists s, y = S754_zero s /\ x = y \/ exists m e m1 e1, y = S754_finite s m e /\ canon24 m e /\ e <= 104 /\ x = S754_finite s m1 e1 /\
    forall L, L <= e -> L <= e1 -> Zpos m * 2 ^ (e - L) = Zpos m1 * 2 ^ (e1 - L)).
Proof.
  intros (F & z & e & Zb & Eb & V). destruct x as [s|s| |s m1 e1]; try contradiction.
  { exists (S754_zero s). split; [reflexivity|]. exists s. now left. }
  cbn [SF2Q] in V.
  assert (HZ : exists m, z = cond_Zopp s (Zpos m)).
  { destruct z as [|m|m].
    - exfalso. assert (Q0 : (QZ (cond_Zopp s (Zpos m1)) e1 == 0)%Q) by (rewrite V; unfold QZ; ring). apply QZ_zero in Q0. destruct s; discriminate.
    - exists m. destruct s; [|reflexivity]. exfalso. cbn [cond_Zopp] in V. rewrite QZ_opp in V.
      assert (0 < QZ (Zpos m1) e1)%Q by (unfold QZ; apply Qmult_lt_0_compat; [reflexivity|apply pow2_pos]).
      assert (0 < QZ (Zpos m) e)%Q by (unfold QZ; apply Qmult_lt_0_compat; [reflexivity|apply pow2_pos]). lra.
    - exists m. destruct s; [reflexivity|]. exfalso. cbn [cond_Zopp] in V. change (Zneg m) with (- Zpos m) in V. rewrite QZ_opp in V.
      assert (0 < QZ (Zpos m1) e1)%Q by (unfold QZ; apply Qmult_lt_0_compat; [reflexivity|apply pow2_pos]).
      assert (0 < QZ (Zpos m) e)%Q by (unfold QZ; apply Qmult_lt_0_compat; [reflexivity|apply pow2_pos]). lra. }
  destruct HZ as (m & ->).
  assert (V' : (QZ (Zpos m1) e1 == QZ (Zpos m) e)%Q).
  { destruct s; cbn [cond_Zopp] in V; [|exact V]. rewrite !QZ_opp in V. lra. }
  assert (EQ : forall L, L <= e -> L <= e1 -> Zpos m * 2 ^ (e - L) = Zpos m1 * 2 ^ (e1 - L)).
  { intros L L1 L2. symmetry. now apply (QZ_eq _ _ _ _ L). }
  destruct (canon24_of m e) as (m0 & e0 & C & B & W); [destruct s; cbn [cond_Zopp] in Zb; lia|lia|].
  assert (EQ2 : forall L, L <= e0 -> L <= e1 -> Zpos m0 * 2 ^ (e0 - L) = Zpos m1 * 2 ^ (e1 - L)).
  { intros L L1 L2. set (K := Z.min L e). specialize (W K ltac:(lia) ltac:(lia)). specialize (EQ K ltac:(lia) ltac:(lia)).
    assert (P : 0 < 2 ^ (L - K)) by (apply Z.pow_pos_nonneg; lia). apply (Z.mul_reg_r _ _ (2 ^ (L - K))); [lia|].
    rewrite <- !Z.mul_assoc, <- !Z.pow_add_r by lia. replace (e0 - L + (L - K)) with (e0 - K) by lia.
    replace (e1 - L + (L - K)) with (e1 - K) by lia. congruence. }
  exists (S754_finite s m0 e0). split.
  - cbn [to_float]. assert (R : forall s', binary_round 24 128 s' m1 e1 = S754_finite s' m0 e0).
    { intros s'. apply round24; auto. intros L L1 L2. symmetry. now apply EQ2. }
    destruct s; cbn [cond_Zopp Z.opp binary_normalize]; apply R.
  - exists s. right. exists m0, e0, m1, e1. repeat (split; [auto|]). exact EQ2.
Qed.
Lemma float_there_and_back s a : float_holds (tonum a) ->
  exists cells, convert_value s FFloat a = Ok (cells, false) /\ length cells = 4%nat /\ convert_back addr FFloat cells = Ok (BNum (tonum a)).
Proof.
  intros H. pose proof H as (F & _). destruct (float_exact _ H) as (y & TF & sg & Y). cbn [convert_value]. eexists. split; [reflexivity|].
  split; [now rewrite map_length, le_Z_length|]. unfold convert_back. rewrite map_length, le_Z_length. cbn [fsize Nat.ltb Nat.leb].
  rewrite (firstn_all2 (n := 4)) by (rewrite map_length, le_Z_length; lia). unfold cells_value. rewrite byte_map, le_Z_value, TF.
  do 2 f_equal. destruct Y as [[-> X]|(m & e & m1 & e1 & -> & C & B & X & EQ)].
  - rewrite X. destruct sg; reflexivity.
  - apply canon24_iff in C.
    destruct (enc_dec 24 128 sg m e) as [D R]; [lia|lia| |].
    { change (2 ^ (24 - 1)) with (2 ^ 23). change (2 ^ 24) with (2 * 2 ^ 23) in C. destruct (Z.lt_ge_cases (Zpos m) (2 ^ 23)); [left|right]; lia. }
    change (4 * 128 * 2 ^ (24 - 1)) with (256 ^ Z.of_nat 4) in R. rewrite Z.mod_small by exact R. rewrite D. cbn [of_float].
    rewrite X in F |- *. destruct F as [C1 B1].
    assert (R1 : forall s', binary_round 53 1024 s' m e = S754_finite s' m1 e1) by (intros s'; now apply round_exact).
    destruct sg; cbn [cond_Zopp Z.opp binary_normalize]; apply R1.
Qed.

(** ** Pointers *)
Lemma ptr_eqb_refl p : ptr_eqb p p = true.
Proof. destruct p; cbn; auto. rewrite Nat.eqb_refl, Z.eqb_refl. reflexivity. Qed.
Lemma cells_ptr_cells p : cells_ptr (ptr_cells p) = p.
Proof.
  destruct p as [|b o|]; [reflexivity| |reflexivity]. unfold ptr_cells, cells_ptr. cbn [map seq forallb is_zero andb].
  cbn [frags]. rewrite ptr_eqb_refl. reflexivity.
Qed.
Lemma ptr_cells_length p : length (ptr_cells p) = 8%nat.
Proof. destruct p; reflexivity. Qed.
Lemma pointer_back p : convert_back addr FPointer (ptr_cells p) = Ok (BBlob p).
Proof.
  unfold convert_back. rewrite ptr_cells_length. cbn [fsize Nat.ltb Nat.leb]. rewrite firstn_all2 by (rewrite ptr_cells_length; lia).
  now rewrite cells_ptr_cells.
Qed.
End Native.

(** ** Names *)
Lemma text_eqb_eq : forall a b, text_eqb a b = true -> a = b.
Proof.
  induction a as [|x a IH]; intros [|y b] H; cbn [text_eqb] in H; try discriminate; [reflexivity|].
  apply andb_true_iff in H. destruct H as (H1 & H2). apply N.eqb_eq in H1. rewrite H1, (IH b H2). reflexivity.
Qed.
Lemma text_eqb_lit (d : text) s : text_eqb d (lit s) = true -> d = lit s.
Proof. apply text_eqb_eq. Qed.
Lemma c_type_size name lo hi k : In (name, (lo, hi, k)) c_types ->
  exists sg, map_type (lit name) = Some (FInt sg k) /\ lo = int_lo sg k /\ hi = int_hi sg k /\ (0 < k)%nat.
Proof.
  intros H. unfold c_types in H. cbn [In] in H.
  repeat (destruct H as [[= <- <- <- <-]|H]; [first [exists false; vm_compute; repeat split; lia|exists true; vm_compute; repeat split; lia]|]).
  contradiction.
Qed.
Lemma map_type_names d t : map_type d = Some t -> In d (map lit (map fst c_types ++ real_types ++ other_types)).
Proof.
  unfold map_type. intros H.
  repeat match type of H with (if ?c then _ else _) = _ => let E := fresh "E" in destruct c eqn:E; [apply text_eqb_lit in E; subst d; clear H|] end;
  try discriminate; cbn [map fst c_types real_types other_types app In]; intuition.
Qed.

(** ** Blobs of a type *)
Section Typed.
Variable addr : ptr -> N.
Variable room : Z.
Lemma load_n_ok n : forall m k l off, blk m k l -> 0 <= off -> off + Z.of_nat n <= Z.of_nat (length l) ->
  load_n m (PAddr k off) n = Ok (firstn n (skipn (Z.to_nat off) l)).
Proof.
  induction n as [|n IH]; intros m k l off B O L; cbn [load_n]; [reflexivity|].
  destruct (nth_error l (Z.to_nat off)) as [v|] eqn:V; [|apply nth_error_None in V; lia].
  rewrite (load_ok m k l off v B O V). cbn [obind padd]. rewrite (IH m k l (off + 1)) by (auto; lia). cbn [obind].
  rewrite (skipn_nth l _ v V). cbn [firstn]. replace (Z.to_nat (off + 1)) with (S (Z.to_nat off)) by lia. reflexivity.
Qed.
Lemma typed_new s a d t cells e r : map_type (filter (fun c => negb (c =? 0)%N) d) = Some t -> convert_value s t a = Ok (cells, e) -> length cells = fsize t ->
  blob_new_type room s a d = r -> r = Ok None \/ exists s' b, r = Ok (Some (s', b, e)) /\ b = length (s_blobs s) /\
  (forall one n1, is_number (tonum one) 1 -> is_number (tonum n1) (Z.of_nat (fsize t)) ->
     blob_read addr s' b one n1 = Ok (map (shown addr) cells)) /\
  (forall p, cells = ptr_cells p -> exists s'', blob_deref s' b = Ok s'' /\ s_mem s'' = s_mem s' /\ s_blobs s'' = s_blobs s ++ [Some p]) /\
  (inside s -> forall b', (b' < b)%nat -> apart s' b b' /\
     (forall from len, blob_read addr s' b' from len = blob_read addr s b' from len) /\ blob_text addr s' b' = blob_text addr s b').
Proof.
  intros MT CV LC <-. unfold blob_new_type. rewrite MT, CV. cbn [obind].
  assert (FS : (0 < fsize t)%nat). { destruct t; cbn; try lia. unfold map_type in MT. repeat (match type of MT with (if ?c then _ else _) = _ => destruct c; [first [discriminate MT|injection MT; lia]|] end). discriminate MT. }
  assert (FB : (fsize t <= 8)%nat). { destruct t; cbn; try lia. unfold map_type in MT. repeat (match type of MT with (if ?c then _ else _) = _ => destruct c; [first [discriminate MT|injection MT; lia]|] end). discriminate MT. }
  destruct (alloc room (s_mem s) (Z.of_nat (fsize t))) as [[m p]|] eqn:AL; [|now left]. right.
  destruct (alloc_ok addr room _ _ _ _ AL ltac:(lia)) as (-> & SM & w & z & -> & LW & ZN). destruct s as [m bl]. cbn [s_mem s_blobs] in *.
  set (l := w ++ repeat (Byte 0) z). assert (LL : length l = (8 + z)%nat) by (unfold l; rewrite app_length, repeat_length; lia).
  rewrite (store_all_ok _ _ (length m) l) by (try apply blk_app; lia).
  cbn [obind]. set (l' := patch l (Z.to_nat 8) cells).
  assert (B : blk (set_nth (m ++ [Some l]) (length m) (Some l')) (length m) l') by (apply blk_set with l, blk_app).
  assert (LL' : length l' = (8 + z)%nat) by (unfold l'; rewrite patch_length; [exact LL|change (Z.to_nat 8) with 8%nat; lia]).
  assert (M : set_nth (m ++ [Some l]) (length m) (Some l') = m ++ [Some l']).
  { unfold set_nth. rewrite firstn_app, firstn_all, Nat.sub_diag. cbn [firstn]. rewrite app_nil_r. rewrite skipn_all2 by (rewrite app_length; cbn; lia). reflexivity. }
  rewrite M in *. clear M.
  assert (SK : exists rest, skipn 8 l' = cells ++ rest).
  { unfold l', patch. change (Z.to_nat 8) with 8%nat. eexists. rewrite skipn_exact by (rewrite firstn_length; lia). reflexivity. }
  destruct SK as (rest & SK).
  eexists _, _. split; [reflexivity|]. split; [reflexivity|]. split; [|split].
  - intros one n1 I1 In.
    rewrite (blob_read_ok addr _ (length bl) (PAddr (length m) 8) (length m) 8 l' one n1 1 (Z.of_nat (fsize t)));
        [|apply (new_ptr addr)|reflexivity|exact B|exact I1|exact In|lia|lia|lia|lia|lia].
    f_equal. change (Z.to_nat (8 + 1 - 1)) with 8%nat. rewrite SK, Nat2Z.id, <- LC. rewrite firstn_app, Nat.sub_diag.
    rewrite firstn_all. cbn [firstn]. now rewrite app_nil_r.
  - intros p EC. assert (F8 : fsize t = 8%nat) by now rewrite <- LC, EC, ptr_cells_length. unfold blob_deref. rewrite (new_ptr addr). cbn [obind s_mem].
    rewrite (load_n_ok 8 _ (length m) l' 8) by (auto; lia). cbn [obind]. eexists. split; [reflexivity|]. split; [reflexivity|].
    cbn [s_blobs]. change (Z.to_nat 8) with 8%nat. rewrite SK. rewrite firstn_app, LC, F8, Nat.sub_diag. change (firstn 0 rest) with (@nil mval). rewrite app_nil_r.
    rewrite firstn_all2 by lia. rewrite EC, cells_ptr_cells. unfold set_nth. rewrite firstn_app, firstn_all, Nat.sub_diag. cbn [firstn].
    rewrite skipn_all2 by (rewrite app_length; cbn; lia). now rewrite app_nil_r.
  - intros IS b' L. split.
    + intros k o k' o' P P'. rewrite (new_ptr addr) in P. injection P as <- <-. apply blob_ptr_nth in P'. cbn [s_blobs] in P'.
      rewrite nth_error_app1 in P' by auto. specialize (IS b' k' o' P'). cbn [s_mem] in IS. lia.
    + apply frame_app; auto. intros k o H. exact (IS b' k o H).
Qed.

Lemma char_signed b : (b < 256)%N -> signed_byte b (char_value b).
Proof.
  intros H. split; [exact H|]. unfold char_value. destruct (N.ltb_spec b 128); split; try lia; Z.to_euclidean_division_equations; lia.
Qed.
Lemma typed_bytes s a name lo hi k z r : In (name, (lo, hi, k)) c_types -> is_number (tonum a) z -> lo <= z <= hi ->
  blob_new_type room s a (lit name) = r -> r = Ok None \/ exists s' b bs, r = Ok (Some (s', b, false)) /\ bytes_for z bs /\ length bs = k /\
  (forall one n1, is_number (tonum one) 1 -> is_number (tonum n1) (Z.of_nat k) -> exists ys,
     blob_read addr s' b one n1 = Ok ys /\ Forall2 (fun y c => exists v, signed_byte c v /\ is_number y v) ys bs).
Proof.
  intros I N R H.
  assert (FL : filter (fun c => negb (c =? 0)%N) (lit name) = lit name).
  { clear - I. unfold c_types in I. cbn [In] in I. repeat (destruct I as [[= <- <- <- <-]|I]; [reflexivity|]). contradiction. }
  destruct (c_type_size _ _ _ _ I) as (sg & MT & -> & -> & K).
  rewrite <- FL in MT. destruct N as [F V].
  pose proof (int_there s sg k a z K (trunc_whole _ _ F V) R) as CV.
  destruct (typed_new s a (lit name) _ _ _ r MT CV) as [->|(s' & b & -> & Eb & RD & _)]; [now rewrite map_length, le_Z_length|exact H|now left|].
  right. exists s', b, (le_Z k z). split; [reflexivity|]. split; [apply le_Z_for|]. split; [apply le_Z_length|].
  intros one n1 I1 In. eexists. split; [apply RD; auto|]. destruct (le_Z_for k z) as [FA _]. clear - FA.
  induction FA as [|c l C _ IH]; cbn [map]; constructor; [|exact IH]. exists (char_value c). split; [now apply char_signed|].
  unfold shown. cbn [byte_of]. apply is_number_of_Z. unfold char_value. destruct (c <? 128)%N; lia.
Qed.
Lemma pointer_deref s b0 p r : blob_ptr s b0 = Ok p -> inside s -> blob_new_type room s (ABlob b0) (lit "pointer") = r ->
  r = Ok None \/ exists s' b s'', r = Ok (Some (s', b, false)) /\ b <> b0 /\ blob_deref s' b = Ok s'' /\
  (forall from len, blob_read addr s'' b from len = blob_read addr s b0 from len) /\ blob_text addr s'' b = blob_text addr s b0.
Proof.
  intros P IS H. assert (LB : (b0 < length (s_blobs s))%nat) by (apply blob_ptr_nth in P; apply nth_error_Some; congruence).
  destruct (typed_new s (ABlob b0) (lit "pointer") FPointer (ptr_cells p) false r eq_refl) as [->|(s' & b & -> & Eb & _ & DR & FR)];
    [cbn [convert_value]; rewrite P; reflexivity|apply ptr_cells_length|exact H|now left|].
  right. destruct (DR p eq_refl) as (s'' & D & M & BL). exists s', b, s''. split; [reflexivity|]. split; [lia|]. split; [exact D|].
  destruct (FR IS b0 ltac:(lia)) as (_ & RD & TX).
  assert (PB : blob_ptr s'' b = Ok p). { apply blob_ptr_nth. rewrite BL, Eb, nth_error_app2, Nat.sub_diag by lia. reflexivity. }
  assert (P0 : blob_ptr s' b0 = Ok p).
  { clear RD TX DR D M BL PB. unfold blob_new_type in H. cbn in H. rewrite P in H. cbn [obind] in H.
    destruct (alloc room (s_mem s) 8) as [[m q]|]; [|discriminate]. destruct (store_all m q (ptr_cells p)) as [m'|]; [|discriminate].
    cbn [obind] in H. injection H as <- _. apply blob_ptr_nth in P. apply blob_ptr_nth. cbn [s_blobs]. now rewrite nth_error_app1. }
  split.
  - intros from len. rewrite <- RD. unfold blob_read. rewrite PB, P0, M. reflexivity.
  - rewrite <- TX. unfold blob_text. rewrite PB, P0, M. reflexivity.
Qed.
End Typed.
