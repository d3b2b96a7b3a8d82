(** Facts about the standard library's specification of binary64 arithmetic
    (Coq.Floats.SpecFloat): values as rationals, comparison, exactness, rounding error. *)
From Coq Require Import ZArith List Lia Bool QArith Qpower Qabs SpecFloat Lqa.
From Verif Require Export FloatSpec.
Import ListNotations.
Open Scope Z_scope.

Notation fexp64 := (fexp 53 1024).
Lemma fexp64_eq e : fexp64 e = Z.max (e - 53) (-1074).
Proof. reflexivity. Qed.

(** ** Digits *)
Lemma digits_bounds m : 2 ^ (Zpos (digits2_pos m) - 1) <= Zpos m < 2 ^ (Zpos (digits2_pos m)).
Proof.
  induction m; cbn [digits2_pos].
  - rewrite Pos2Z.inj_succ. unfold Z.succ.
    replace (Zpos (digits2_pos m) + 1 - 1) with (Zpos (digits2_pos m) - 1 + 1) by lia.
    rewrite !Z.pow_add_r by lia. change (2 ^ 1) with 2. lia.
  - rewrite Pos2Z.inj_succ. unfold Z.succ.
    replace (Zpos (digits2_pos m) + 1 - 1) with (Zpos (digits2_pos m) - 1 + 1) by lia.
    rewrite !Z.pow_add_r by lia. change (2 ^ 1) with 2. lia.
  - simpl. lia.
Qed.
Lemma digits_unique m d : 0 < d -> 2 ^ (d - 1) <= Zpos m < 2 ^ d -> Zpos (digits2_pos m) = d.
Proof.
  intros D [A B]. pose proof (digits_bounds m) as [C E].
  assert (d - 1 < Zpos (digits2_pos m)) by (apply (Z.pow_lt_mono_r_iff 2); lia).
  assert (Zpos (digits2_pos m) - 1 < d) by (apply (Z.pow_lt_mono_r_iff 2); lia).
  lia.
Qed.
Lemma digits_le m d : 0 <= d -> Zpos m < 2 ^ d -> Zpos (digits2_pos m) <= d.
Proof.
  intros D B. pose proof (digits_bounds m) as [C E].
  assert (Zpos (digits2_pos m) - 1 < d) by (apply (Z.pow_lt_mono_r_iff 2); lia). lia.
Qed.
Lemma digits_ge m d : 0 <= d -> 2 ^ d <= Zpos m -> d < Zpos (digits2_pos m).
Proof.
  intros D B. pose proof (digits_bounds m) as [C E]. apply (Z.pow_lt_mono_r_iff 2); lia.
Qed.
Lemma digits_shift m m' k : 0 <= k -> Zpos m' = Zpos m * 2 ^ k ->
  Zpos (digits2_pos m') = Zpos (digits2_pos m) + k.
Proof.
  intros K E. apply digits_unique; [lia|]. pose proof (digits_bounds m) as [A B]. rewrite E.
  replace (Zpos (digits2_pos m) + k - 1) with (Zpos (digits2_pos m) - 1 + k) by lia.
  rewrite !Z.pow_add_r by lia. split; [apply Z.mul_le_mono_nonneg_r; lia|].
  apply Z.mul_lt_mono_pos_r; lia.
Qed.
Lemma shift_pos_val d m : Zpos (shift_pos d m) = Zpos m * 2 ^ Zpos d.
Proof. rewrite shift_pos_correct, Z.pow_pos_fold. lia. Qed.

(** ** Right shifts *)
Lemma iter_pos_add {A} (f : A -> A) p x : iter_pos f p x = Pos.iter f x p.
Proof.
  revert x. induction p; intros x; simpl.
  - rewrite !IHp. rewrite <- !Pos.iter_swap. reflexivity.
  - rewrite !IHp. reflexivity.
  - reflexivity.
Qed.

(** What a mantissa with location says about the number [a/b]. *)
Definition inb (m : Z) (l : location) (a b : Z) : Prop :=
  0 <= m /\ 0 < b /\ m * b <= a < (m + 1) * b /\
  match l with
  | loc_Exact => a = m * b
  | loc_Inexact c => a <> m * b /\ Z.compare (2 * (a - m * b)) b = c
  end.
Definition inbr (r : shr_record) (a b : Z) : Prop := inb (shr_m r) (loc_of_shr_record r) a b.

Lemma inbr_of_loc m l a b : inb m l a b -> inbr (shr_record_of_loc m l) a b.
Proof. unfold inbr. destruct l as [|[]]; simpl; auto. Qed.

Lemma shr_1_inb r a b : inbr r a b -> inbr (shr_1 r) a (2 * b).
Proof.
  unfold inbr, inb. destruct r as [m r s]. intros (M & B & R & L).
  assert (H : exists m' x, m = 2 * m' + x /\ 0 <= m' /\ (x = 0 \/ x = 1) /\
            shr_1 (Build_shr_record m r s) = Build_shr_record m' (x =? 1) (r || s)).
  { destruct m as [|[p|p|]|p].
    - exists 0, 0. repeat split; try reflexivity; lia.
    - exists (Zpos p), 1. repeat split; try reflexivity; lia.
    - exists (Zpos p), 0. repeat split; try reflexivity; lia.
    - exists 0, 1. repeat split; try reflexivity; lia.
    - cbn [shr_m] in M. lia. }
  destruct H as (m' & x & E & M' & X & ->). cbn [shr_m loc_of_shr_record orb] in *. subst m.
  split; [auto|]. split; [lia|]. split; [nia|].
  destruct X; subst x; cbn [Z.eqb Pos.eqb].
  - destruct r, s; cbn [shr_m loc_of_shr_record orb] in *.
    + destruct L as [L1 L2]. rewrite Z.compare_gt_iff in L2. split; [nia|]. rewrite Z.compare_lt_iff. nia.
    + destruct L as [L1 L2]. rewrite Z.compare_eq_iff in L2. split; [nia|]. rewrite Z.compare_lt_iff. nia.
    + destruct L as [L1 L2]. rewrite Z.compare_lt_iff in L2. split; [nia|]. rewrite Z.compare_lt_iff. nia.
    + nia.
  - destruct r, s; cbn [shr_m loc_of_shr_record orb] in *.
    + destruct L as [L1 L2]. rewrite Z.compare_gt_iff in L2. split; [nia|]. rewrite Z.compare_gt_iff. nia.
    + destruct L as [L1 L2]. rewrite Z.compare_eq_iff in L2. split; [nia|]. rewrite Z.compare_gt_iff. nia.
    + destruct L as [L1 L2]. rewrite Z.compare_lt_iff in L2. split; [nia|]. rewrite Z.compare_gt_iff. nia.
    + split; [nia|]. rewrite Z.compare_eq_iff. nia.
Qed.

Lemma shr_iter_inb p : forall r a b, inbr r a b -> inbr (Pos.iter shr_1 r p) a (2 ^ Zpos p * b).
Proof.
  induction p using Pos.peano_ind; intros r a b I.
  - simpl Pos.iter. change (2 ^ 1) with 2. now apply shr_1_inb.
  - rewrite Pos.iter_succ. rewrite Pos2Z.inj_succ, Z.pow_succ_r by lia.
    rewrite <- Z.mul_assoc. apply shr_1_inb. auto.
Qed.
Lemma shr_inb r e n a b : inbr r a b -> 0 <= n ->
  exists r', shr r e n = (r', e + n) /\ inbr r' a (2 ^ n * b).
Proof.
  intros I N. destruct n as [|p|p]; [| |lia].
  - exists r. split; [simpl; f_equal; lia|]. change (2 ^ 0) with 1. now rewrite Z.mul_1_l.
  - eexists. split; [reflexivity|]. rewrite iter_pos_add. now apply shr_iter_inb.
Qed.
Lemma shr_neg r e n : n <= 0 -> shr r e n = (r, e).
Proof. destruct n; [reflexivity|lia|reflexivity]. Qed.


Lemma inb_digits m l a b n : inb m l a b -> 0 <= n -> a < 2 ^ n * b -> m < 2 ^ n.
Proof. intros (A & B & C & _) N L. nia. Qed.

Lemma zdigits_bounds m : 0 < m -> 2 ^ (Zdigits2 m - 1) <= m < 2 ^ Zdigits2 m.
Proof. destruct m; [lia| |lia]. intros _. apply digits_bounds. Qed.

Lemma rne_error m l a b : inb m l a b ->
  0 <= round_nearest_even m l /\ m <= round_nearest_even m l <= m + 1 /\
  2 * Z.abs (round_nearest_even m l * b - a) <= b.
Proof.
  intros (A & B & C & D). unfold round_nearest_even. destruct l as [|[]].
  - subst a. lia.
  - destruct D as [D1 D2]. apply Z.compare_eq_iff in D2. destruct (Z.even m); lia.
  - destruct D as [D1 D2]. rewrite Z.compare_lt_iff in D2. lia.
  - destruct D as [D1 D2]. rewrite Z.compare_gt_iff in D2. lia.
Qed.


Lemma canon_iff m e : canon m e <->
  (e = -1074 /\ Zpos m < 2 ^ 53) \/ (-1074 < e /\ 2 ^ 52 <= Zpos m < 2 ^ 53).
Proof.
  unfold canon. rewrite fexp64_eq. split.
  - intros E. pose proof (digits_bounds m) as [A B].
    destruct (Z.eq_dec e (-1074)) as [->|N].
    + left. split; auto. eapply Z.lt_le_trans; [exact B|]. apply Z.pow_le_mono_r; lia.
    + right. split; [lia|].
      assert (D : Zpos (digits2_pos m) = 53) by lia. rewrite D in A, B. lia.
  - intros [[-> L]|[L [A B]]].
    + pose proof (digits_le m 53 ltac:(lia) L). lia.
    + rewrite (digits_unique m 53) by lia. lia.
Qed.

(** Rounding: the result is the integer [r1] (times [2^e1]) nearest to the number [a/b] (times
    [2^e]), in canonical form. *)
Lemma round_aux_spec s m e l a b : inb m l a b -> e <= fexp64 (Zdigits2 m + e) ->
  let e1 := fexp64 (Zdigits2 m + e) in
  exists r1, 0 <= r1 /\ 2 * Z.abs (r1 * (2 ^ (e1 - e) * b) - a) <= 2 ^ (e1 - e) * b /\
    ((r1 = 0 /\ binary_round_aux 53 1024 s m e l = S754_zero s) \/
     (exists m' e', canon m' e' /\ e1 <= e' /\ Zpos m' * 2 ^ (e' - e1) = r1 /\
        binary_round_aux 53 1024 s m e l =
        if Zle_bool e' 971 then S754_finite s m' e' else S754_infinity s)).
Proof.
  intros I LE e1. unfold binary_round_aux, shr_fexp. fold e1.
  destruct (shr_inb (shr_record_of_loc m l) e (e1 - e) a b (inbr_of_loc _ _ _ _ I)) as (r' & E & I'); [lia|].
  rewrite E. replace (e + (e1 - e)) with e1 by lia. unfold inbr in I'.
  set (m1 := shr_m r') in *. set (l1 := loc_of_shr_record r') in *.
  destruct (rne_error _ _ _ _ I') as (R0 & R1 & R2).
  set (r1 := round_nearest_even m1 l1) in *.
  exists r1. split; [exact R0|]. split; [exact R2|].
  (* bounds on m1 *)
  assert (E1 : e1 = Z.max (Zdigits2 m + e - 53) (-1074)) by reflexivity.
  assert (M0 : 0 <= m) by apply I.
  assert (AB : a < (m + 1) * b) by apply I.
  assert (B0 : 0 < b) by apply I.
  assert (D0 : 0 <= Zdigits2 m) by (destruct m; simpl; lia).
  assert (MU : m + 1 <= 2 ^ Zdigits2 m).
  { destruct (Z.eq_dec m 0) as [->|N]; [simpl; lia|]. pose proof (zdigits_bounds m ltac:(lia)). lia. }
  assert (P : 0 < 2 ^ (e1 - e)) by (apply Z.pow_pos_nonneg; lia).
  assert (U : m1 < 2 ^ 53).
  { assert (m1 * (2 ^ (e1 - e) * b) <= a) by apply I'.
    assert (2 ^ Zdigits2 m <= 2 ^ (53 + (e1 - e))) by (apply Z.pow_le_mono_r; lia).
    rewrite Z.pow_add_r in H0 by lia.
    assert (m1 * (2 ^ (e1 - e) * b) < 2 ^ 53 * (2 ^ (e1 - e) * b)) by nia.
    apply Z.mul_lt_mono_pos_r in H1; nia. }
  assert (Lw : -1074 < e1 -> 2 ^ 52 <= m1).
  { intros G. assert (Zdigits2 m + e - 53 = e1) by lia.
    assert (0 < m). { destruct (Z.eq_dec m 0) as [->|]; [simpl in *; lia|lia]. }
    pose proof (zdigits_bounds m ltac:(lia)) as [LB _].
    replace (Zdigits2 m - 1) with (52 + (e1 - e)) in LB by lia.
    rewrite Z.pow_add_r in LB by lia.
    assert (m * b <= a) by apply I.
    assert (a < (m1 + 1) * (2 ^ (e1 - e) * b)) by apply I'.
    assert (2 ^ 52 * (2 ^ (e1 - e) * b) < (m1 + 1) * (2 ^ (e1 - e) * b)) by nia.
    apply Z.mul_lt_mono_pos_r in H3; nia. }
  clear I' E. clearbody r1.
  destruct r1 as [|p|p]; [left; split; auto| |lia].
  { simpl Zdigits2. rewrite fexp64_eq. rewrite shr_neg by lia. reflexivity. }
  right.
  destruct (Z.eq_dec (Zpos p) (2 ^ 53)) as [E53|N53].
  - exists (2 ^ 52)%positive, (e1 + 1).
    assert (C : canon (2 ^ 52) (e1 + 1)). { apply canon_iff. right. split; [lia|]. vm_compute. split; congruence. }
    split; [exact C|]. split; [lia|]. split. { replace (e1 + 1 - e1) with 1 by lia. rewrite E53. reflexivity. }
    assert (p = 2 ^ 53)%positive by (apply (f_equal Z.to_pos) in E53; exact E53). subst p.
    change (Zdigits2 (Zpos (2 ^ 53))) with 54. rewrite fexp64_eq.
    replace (Z.max (54 + e1 - 53) (-1074) - e1) with 1 by lia.
    reflexivity.
  - exists p, e1.
    assert (C : canon p e1). { apply canon_iff. destruct (Z.eq_dec e1 (-1074)); [left|right]; lia. }
    split; [exact C|]. split; [lia|]. split. { rewrite Z.sub_diag. lia. }
    simpl Zdigits2. unfold canon in C. rewrite C, Z.sub_diag. reflexivity.
Qed.

Lemma canon_unique m e m' e' : canon m e -> canon m' e' -> forall L, L <= e -> L <= e' ->
  Zpos m * 2 ^ (e - L) = Zpos m' * 2 ^ (e' - L) -> m = m' /\ e = e'.
Proof.
  assert (G : forall m e m' e', canon m e -> canon m' e' -> forall L, L <= e -> e < e' ->
                Zpos m * 2 ^ (e - L) < Zpos m' * 2 ^ (e' - L)).
  { clear. intros m e m' e' C C' L A B. apply canon_iff in C. apply canon_iff in C'.
    assert (M : Zpos m < 2 ^ 53) by lia. assert (M' : 2 ^ 52 <= Zpos m') by lia.
    replace (e' - L) with ((e - L) + 1 + (e' - e - 1)) by lia.
    rewrite !Z.pow_add_r by lia.
    assert (0 < 2 ^ (e - L)) by (apply Z.pow_pos_nonneg; lia).
    assert (0 < 2 ^ (e' - e - 1)) by (apply Z.pow_pos_nonneg; lia).
    change (2 ^ 1) with 2. assert (2 ^ 53 = 2 * 2 ^ 52) by reflexivity. 
    assert (Zpos m * 2 ^ (e - L) < 2 ^ 53 * 2 ^ (e - L)) by nia.
    assert (2 ^ 52 * (2 ^ (e - L) * 2 * 2 ^ (e' - e - 1)) <= Zpos m' * (2 ^ (e - L) * 2 * 2 ^ (e' - e - 1))).
    { apply Z.mul_le_mono_nonneg_r; [|lia]. nia. }
    nia. }
  intros C C' L A B E.
  destruct (Z.lt_trichotomy e e') as [H|[H|H]].
  - pose proof (G _ _ _ _ C C' L A H). lia.
  - subst e'. split; auto. assert (0 < 2 ^ (e - L)) by (apply Z.pow_pos_nonneg; lia).
    apply Z.mul_reg_r in E; [congruence|lia].
  - pose proof (G _ _ _ _ C' C L B H). lia.
Qed.

(** Exactness: a number that has a canonical form is left alone. *)
Lemma round_aux_exact s m e m0 e0 : canon m0 e0 -> e0 <= 971 -> e <= e0 ->
  Zpos m = Zpos m0 * 2 ^ (e0 - e) ->
  binary_round_aux 53 1024 s (Zpos m) e loc_Exact = S754_finite s m0 e0.
Proof.
  intros C B LE E.
  assert (D : Zpos (digits2_pos m) = Zpos (digits2_pos m0) + (e0 - e)).
  { apply digits_shift; [lia|auto]. }
  assert (F : fexp64 (Zdigits2 (Zpos m) + e) = e0).
  { simpl Zdigits2. rewrite D. replace (Zpos (digits2_pos m0) + (e0 - e) + e) with (Zpos (digits2_pos m0) + e0) by lia.
    exact C. }
  destruct (round_aux_spec s (Zpos m) e loc_Exact (Zpos m) 1) as (r1 & R0 & RE & H).
  { unfold inb. lia. } { rewrite F. lia. }
  cbv zeta in H, RE. rewrite F in *. rewrite Z.mul_1_r in RE. rewrite E in RE.
  assert (P : 0 < 2 ^ (e0 - e)) by (apply Z.pow_pos_nonneg; lia).
  assert (r1 = Zpos m0).
  { rewrite <- Z.mul_sub_distr_r, Z.abs_mul, (Z.abs_eq (2 ^ _)) in RE by lia. nia. }
  subst r1. destruct H as [[H _]|(m' & e' & C' & LE' & V & ->)]; [lia|].
  destruct (canon_unique m' e' m0 e0 C' C e0) as [-> ->]; [lia|lia| |].
  { rewrite V, Z.sub_diag. lia. }
  rewrite (proj2 (Z.leb_le e0 971)) by lia. reflexivity.
Qed.

Lemma round_exact s m e m0 e0 : canon m0 e0 -> e0 <= 971 ->
  (forall L, L <= e -> L <= e0 -> Zpos m * 2 ^ (e - L) = Zpos m0 * 2 ^ (e0 - L)) ->
  binary_round 53 1024 s m e = S754_finite s m0 e0.
Proof.
  intros C B V. unfold binary_round, shl_align.
  assert (D : Zpos (digits2_pos m) + e = Zpos (digits2_pos m0) + e0).
  { destruct (Z.le_ge_cases e e0) as [H|H].
    - specialize (V e ltac:(lia) H). rewrite Z.sub_diag, Z.mul_1_r in V.
      rewrite (digits_shift m0 m (e0 - e)) by (auto; lia). lia.
    - specialize (V e0 H ltac:(lia)). rewrite Z.sub_diag, Z.mul_1_r in V.
      rewrite (digits_shift m m0 (e - e0)) by (auto; lia). lia. }
  rewrite D. unfold canon in C. rewrite C.
  destruct (e0 - e) as [|p|p] eqn:X.
  - apply round_aux_exact; auto; [lia|].
    specialize (V e ltac:(lia) ltac:(lia)). rewrite Z.sub_diag, Z.mul_1_r in V. exact V.
  - apply round_aux_exact; auto; [lia|].
    specialize (V e ltac:(lia) ltac:(lia)). rewrite Z.sub_diag, Z.mul_1_r in V. exact V.
  - apply round_aux_exact; auto; [lia|].
    specialize (V e0 ltac:(lia) ltac:(lia)). rewrite Z.sub_diag, Z.mul_1_r in V.
    rewrite shift_pos_val, Z.sub_diag, Z.mul_1_r. rewrite <- V. do 2 f_equal. lia.
Qed.

(** ** Values as rationals *)

Lemma finite_valid x : finite x <->
  valid_binary 53 1024 x = true /\ x <> S754_nan /\ (forall s, x <> S754_infinity s).
Proof.
  destruct x as [s|s| |s m e]; simpl.
  - split; auto. intros _. repeat split; congruence.
  - split; [tauto|]. intros (_ & _ & H). elim (H s eq_refl).
  - split; [tauto|]. intros (_ & H & _). congruence.
  - split.
    + intros [C B]. split; [|split; [congruence|congruence]]. unfold bounded, canonical_mantissa.
      unfold canon in C. rewrite C. apply andb_true_iff. split; [apply Zeq_is_eq_bool; reflexivity|].
      apply Z.leb_le. lia.
    + intros (V & _). unfold bounded, canonical_mantissa in V. apply andb_true_iff in V. destruct V as [A B].
      apply Zeq_is_eq_bool in A. apply Z.leb_le in B. split; [exact A|lia].
Qed.

Lemma pow2_pos e : (0 < Qpower 2 e)%Q.
Proof. apply Qpower_0_lt. reflexivity. Qed.
Lemma QZ_align z e L : L <= e -> (QZ z e == QZ (z * 2 ^ (e - L)) L)%Q.
Proof.
  intros H. unfold QZ. rewrite inject_Z_mult. rewrite <- Qmult_assoc. apply Qmult_comp; [reflexivity|].
  replace e with ((e - L) + L) at 1 by lia. rewrite Qpower_plus by (unfold Qeq; simpl; lia).
  apply Qmult_comp; [|reflexivity].
  rewrite (Zpower_Qpower 2 (e - L)) by lia. reflexivity.
Qed.
Lemma QZ_cmp z z' e : (QZ z e ?= QZ z' e)%Q = (z ?= z').
Proof.
  unfold QZ. destruct (Z.compare_spec z z') as [->|L|L].
  - apply Qeq_alt. reflexivity.
  - apply Qlt_alt. apply Qmult_lt_compat_r; [apply pow2_pos|]. now rewrite <- Zlt_Qlt.
  - apply Qgt_alt. apply Qmult_lt_compat_r; [apply pow2_pos|]. now rewrite <- Zlt_Qlt.
Qed.
Lemma QZ_compare z e z' e' L : L <= e -> L <= e' ->
  (QZ z e ?= QZ z' e')%Q = (z * 2 ^ (e - L) ?= z' * 2 ^ (e' - L)).
Proof.
  intros A B. rewrite <- (QZ_cmp _ _ L). apply Qcompare_comp; apply QZ_align; auto.
Qed.
Lemma QZ_eq z e z' e' L : L <= e -> L <= e' ->
  ((QZ z e == QZ z' e')%Q <-> z * 2 ^ (e - L) = z' * 2 ^ (e' - L)).
Proof.
  intros A B. rewrite Qeq_alt, (QZ_compare z e z' e' L A B). apply Z.compare_eq_iff.
Qed.
Lemma QZ_opp z e : (QZ (- z) e == - QZ z e)%Q.
Proof. unfold QZ. rewrite inject_Z_opp. ring. Qed.

Lemma canon_lt m e m' e' L : canon m e -> canon m' e' -> L <= e -> e < e' ->
  Zpos m * 2 ^ (e - L) < Zpos m' * 2 ^ (e' - L).
Proof.
  intros C C' A B. apply canon_iff in C. apply canon_iff in C'.
  assert (M : Zpos m < 2 ^ 53) by lia. assert (M' : 2 ^ 52 <= Zpos m') by lia.
  replace (e' - L) with ((e - L) + 1 + (e' - e - 1)) by lia.
  rewrite !Z.pow_add_r by lia.
  assert (0 < 2 ^ (e - L)) by (apply Z.pow_pos_nonneg; lia).
  assert (0 < 2 ^ (e' - e - 1)) by (apply Z.pow_pos_nonneg; lia).
  change (2 ^ 1) with 2. assert (2 ^ 53 = 2 * 2 ^ 52) by reflexivity.
  assert (Zpos m * 2 ^ (e - L) < 2 ^ 53 * 2 ^ (e - L)) by nia.
  assert (2 ^ 52 * (2 ^ (e - L) * 2 * 2 ^ (e' - e - 1)) <= Zpos m' * (2 ^ (e - L) * 2 * 2 ^ (e' - e - 1))).
  { apply Z.mul_le_mono_nonneg_r; [|lia]. nia. }
  nia.
Qed.

(** Comparison of doubles is comparison of their values. *)
Lemma SFcompare_Q x y : finite x -> finite y -> SFcompare x y = Some (SF2Q x ?= SF2Q y)%Q.
Proof.
  assert (Z0e : forall e, (QZ 0 e == 0)%Q) by (intros; unfold QZ; ring).
  assert (ZP : forall m e, (0 < QZ (Zpos m) e)%Q).
  { intros m e. unfold QZ. apply Qmult_lt_0_compat; [reflexivity|apply pow2_pos]. }
  assert (ZN : forall m e, (QZ (Zneg m) e < 0)%Q).
  { intros m e. change (Zneg m) with (- Zpos m). rewrite QZ_opp. specialize (ZP m e). lra. }
  assert (CP : forall m e m' e', canon m e -> canon m' e' ->
            (QZ (Zpos m) e ?= QZ (Zpos m') e')%Q =
            match Z.compare e e' with Lt => Lt | Gt => Gt | Eq => Pcompare m m' Eq end).
  { intros m e m' e' C C'. rewrite (QZ_compare _ _ _ _ (Z.min e e')) by lia.
    destruct (Z.compare_spec e e') as [->|H|H].
    - rewrite Z.min_id, Z.sub_diag, !Z.mul_1_r. reflexivity.
    - apply Z.compare_lt_iff. apply canon_lt; auto; lia.
    - apply Z.compare_gt_iff. apply canon_lt; auto; lia. }
  intros FX FY. destruct x as [sx|sx| |sx mx ex], y as [sy|sy| |sy my ey]; simpl in FX, FY; try contradiction;
    cbn [SFcompare SF2Q cond_Zopp].
  - f_equal.
  - f_equal. destruct sy; cbn [cond_Zopp Z.opp]; symmetry.
    + apply Qgt_alt. apply ZN.
    + apply Qlt_alt. apply ZP.
  - f_equal. destruct sx; cbn [cond_Zopp Z.opp]; symmetry.
    + apply Qlt_alt. apply ZN.
    + apply Qgt_alt. apply ZP.
  - f_equal. destruct FX as [CX BX], FY as [CY BY]. destruct sx, sy; cbn [cond_Zopp Z.opp].
    + change (Zneg mx) with (- Zpos mx). change (Zneg my) with (- Zpos my).
      rewrite (Qcompare_comp _ _ (QZ_opp (Zpos mx) ex) _ _ (QZ_opp (Zpos my) ey)).
      assert (O : forall p q, ((- p ?= - q) = (q ?= p))%Q).
      { intros [a b] [c d]. unfold Qcompare, Qopp; simpl. rewrite !Z.mul_opp_l.
        rewrite Z.compare_opp. reflexivity. }
      rewrite O, CP by auto. rewrite (Z.compare_antisym ex ey).
      destruct (ex ?= ey); simpl; auto. symmetry. apply Pos.compare_antisym.
    + symmetry. apply Qlt_alt. eapply Qlt_trans; [apply ZN|apply ZP].
    + symmetry. apply Qgt_alt. eapply Qlt_trans; [apply ZN|apply ZP].
    + symmetry. apply CP; auto.
Qed.

(** ** Nearest results *)
(** [r] is at least as close to [v] as any double. *)

Definition QB (b : positive) (L n : Z) : Q := ((n # b) * Qpower 2 L)%Q.
Lemma QB_sub b L x y : (QB b L x - QB b L y == QB b L (x - y))%Q.
Proof.
  unfold QB. setoid_replace ((x - y) # b)%Q with ((x # b) - (y # b))%Q; [ring|].
  unfold Qeq, Qminus, Qplus, Qopp. simpl. rewrite Pos2Z.inj_mul. ring.
Qed.
Lemma QB_abs b L x : (Qabs (QB b L x) == QB b L (Z.abs x))%Q.
Proof.
  unfold QB. rewrite Qabs_Qmult. rewrite (Qabs_pos (Qpower 2 L)).
  - reflexivity.
  - apply Qlt_le_weak, pow2_pos.
Qed.
Lemma QB_le b L x y : x <= y -> (QB b L x <= QB b L y)%Q.
Proof.
  intros H. unfold QB. apply Qmult_le_compat_r; [|apply Qlt_le_weak, pow2_pos].
  unfold Qle. simpl. nia.
Qed.
Lemma QB_of_QZ b L z e : L <= e -> (QZ z e == QB b L (z * 2 ^ (e - L) * Zpos b))%Q.
Proof.
  intros H. rewrite (QZ_align z e L H). unfold QZ, QB. apply Qmult_comp; [|reflexivity].
  unfold Qeq, inject_Z. simpl. ring.
Qed.
Lemma QB_shift b L n e : L <= e -> ((n # b) * Qpower 2 e == QB b L (n * 2 ^ (e - L)))%Q.
Proof.
  intros H. unfold QB. replace e with ((e - L) + L) at 1 by lia.
  rewrite Qpower_plus by (unfold Qeq; simpl; lia). rewrite Qmult_assoc. apply Qmult_comp; [|reflexivity].
  rewrite <- (Zpower_Qpower 2 (e - L)) by lia. unfold Qeq, Qmult, inject_Z. cbn [Qnum Qden].
  rewrite Pos.mul_1_r. reflexivity.
Qed.

(** The nearest multiple of [2^e1] is nearest among all doubles. *)
Lemma near_int r1 e1 e a b w ew L : 0 <= r1 -> 0 < b -> 0 <= a -> e <= e1 -> L <= e -> L <= ew -> -1074 <= ew ->
  2 * Z.abs (r1 * (2 ^ (e1 - e) * b) - a) <= 2 ^ (e1 - e) * b ->
  (e1 = -1074 \/ 2 ^ (52 + (e1 - e)) * b <= a) -> w < 2 ^ 53 ->
  Z.abs (r1 * 2 ^ (e1 - L) * b - a * 2 ^ (e - L)) <= Z.abs (w * 2 ^ (ew - L) * b - a * 2 ^ (e - L)).
Proof.
  intros R0 B0 A0 LE LL LW EW ER NORM WB.
  set (p := 2 ^ (e - L)). assert (P : 0 < p) by (apply Z.pow_pos_nonneg; lia).
  set (u := 2 ^ (e1 - e) * b) in *.
  assert (U : 0 < u) by (apply Z.mul_pos_pos; [apply Z.pow_pos_nonneg; lia|lia]).
  assert (E1 : 2 ^ (e1 - L) = 2 ^ (e1 - e) * p).
  { unfold p. rewrite <- Z.pow_add_r by lia. f_equal. lia. }
  rewrite E1. replace (r1 * (2 ^ (e1 - e) * p) * b - a * p) with ((r1 * u - a) * p) by (unfold u; ring).
  rewrite Z.abs_mul, (Z.abs_eq p) by lia.
  (* the nearest multiple of u *)
  assert (NM : forall k, Z.abs (r1 * u - a) <= Z.abs (k * u - a)).
  { intros k. destruct (Z.eq_dec k r1) as [->|N]; [lia|].
    assert (u <= Z.abs (k * u - r1 * u)).
    { rewrite <- Z.mul_sub_distr_r, Z.abs_mul, (Z.abs_eq u) by lia. nia. }
    lia. }
  destruct (Z.le_gt_cases e1 ew) as [H|H].
  - assert (EW2 : 2 ^ (ew - L) = 2 ^ (ew - e1) * (2 ^ (e1 - e) * p)).
    { unfold p. rewrite <- !Z.pow_add_r by lia. f_equal. lia. }
    rewrite EW2. replace (w * (2 ^ (ew - e1) * (2 ^ (e1 - e) * p)) * b - a * p)
      with ((w * 2 ^ (ew - e1) * u - a) * p) by (unfold u; ring).
    rewrite Z.abs_mul, (Z.abs_eq p) by lia.
    apply Z.mul_le_mono_nonneg_r; [lia|]. apply NM.
  - destruct NORM as [NORM|NORM]; [lia|].
    (* w is below the binade of a *)
    specialize (NM (2 ^ 52)).
    assert (E52 : 2 ^ (52 + (e1 - e)) * b = 2 ^ 52 * u).
    { unfold u. rewrite Z.pow_add_r by lia. ring. }
    rewrite E52 in NORM.
    assert (W : w * 2 ^ (ew - L) * b <= 2 ^ 52 * u * p).
    { assert (X : 2 ^ 53 * 2 ^ (ew - L) <= 2 ^ 52 * (2 ^ (e1 - e) * p)).
      { unfold p. rewrite <- !Z.pow_add_r by lia. apply Z.pow_le_mono_r; lia. }
      assert (Y : 0 < 2 ^ (ew - L)) by (apply Z.pow_pos_nonneg; lia).
      assert (w * 2 ^ (ew - L) <= 2 ^ 53 * 2 ^ (ew - L)) by nia.
      unfold u. nia. }
    assert (Z.abs (r1 * u - a) * p <= (a - 2 ^ 52 * u) * p).
    { apply Z.mul_le_mono_nonneg_r; lia. }
    nia.
Qed.

Lemma SF2Q_opp s m e : (SF2Q (S754_finite s m e) == (if s then -1 else 1) * QZ (Zpos m) e)%Q.
Proof. simpl. destruct s; cbn [cond_Zopp]. - rewrite QZ_opp. ring. - ring. Qed.

Lemma Qabs_opp_sub x y : (Qabs (- x - - y) == Qabs (x - y))%Q.
Proof. setoid_replace (- x - - y)%Q with (- (x - y))%Q by ring. apply Qabs_opp. Qed.

Lemma round_aux_near s m e l a b : inb m l a (Zpos b) -> e <= fexp64 (Zdigits2 m + e) ->
  (forall s', binary_round_aux 53 1024 s m e l <> S754_infinity s') ->
  finite (binary_round_aux 53 1024 s m e l) /\
  near (binary_round_aux 53 1024 s m e l) ((cond_Zopp s a # b) * Qpower 2 e)%Q.
Proof.
  intros I LE NI.
  destruct (round_aux_spec s m e l a (Zpos b) I LE) as (r1 & R0 & ER & H).
  set (e1 := fexp64 (Zdigits2 m + e)) in *. cbv zeta in *.
  assert (A0 : 0 <= a). { destruct I as (X & Y & Z & _). nia. }
  assert (NORM : e1 = -1074 \/ 2 ^ (52 + (e1 - e)) * Zpos b <= a).
  { destruct (Z.eq_dec e1 (-1074)); [auto|]. right.
    assert (E1 : e1 = Z.max (Zdigits2 m + e - 53) (-1074)) by reflexivity.
    assert (0 <= m) by apply I.
    assert (0 < m). { destruct (Z.eq_dec m 0) as [->|]; [simpl in *; lia|lia]. }
    pose proof (zdigits_bounds m ltac:(lia)) as [LB _].
    replace (Zdigits2 m - 1) with (52 + (e1 - e)) in LB by lia.
    assert (m * Zpos b <= a) by apply I. nia. }
  assert (V : exists r, binary_round_aux 53 1024 s m e l = r /\ finite r /\
            (SF2Q r == (if s then -1 else 1) * QZ r1 e1)%Q).
  { destruct H as [[-> H]|(m' & e' & C & LE' & EQ & H)].
    - exists (S754_zero s). split; auto. split; [exact Logic.I|]. simpl. unfold QZ. destruct s; ring.
    - destruct (Zle_bool e' 971) eqn:G.
      + exists (S754_finite s m' e'). split; auto. split.
        * simpl. split; auto. now apply Z.leb_le.
        * rewrite SF2Q_opp. apply Qmult_comp; [reflexivity|].
          apply (QZ_eq _ _ _ _ e1); [lia|lia|]. rewrite Z.sub_diag, Z.mul_1_r. exact EQ.
      + elim (NI s). exact H. }
  destruct V as (r & -> & F & V). split; [exact F|].
  (* compare with an arbitrary double, signs factored out *)
  assert (POS : forall w ew L, L <= e -> L <= ew -> -1074 <= ew -> w < 2 ^ 53 ->
    (Qabs (QZ r1 e1 - (a # b) * Qpower 2 e) <= Qabs (QZ w ew - (a # b) * Qpower 2 e))%Q).
  { intros w ew L L1 L2 L3 W.
    assert (e <= e1) by exact LE.
    rewrite (QB_of_QZ b L r1 e1) by lia. rewrite (QB_of_QZ b L w ew) by lia.
    rewrite (QB_shift b L a e) by lia. rewrite !QB_sub, !QB_abs. apply QB_le.
    eapply near_int; eauto; lia. }
  intros w FW.
  destruct w as [sw|sw| |sw mw ew]; simpl in FW; try contradiction.
  - assert (Z0 : (SF2Q (S754_zero sw) == QZ 0 (-1074))%Q) by (simpl; unfold QZ; ring).
    specialize (POS 0 (-1074) (Z.min e (-1074)) ltac:(lia) ltac:(lia) ltac:(lia) ltac:(lia)).
    rewrite Z0, V. destruct s; cbn [cond_Zopp].
    + setoid_replace ((- a # b) * Qpower 2 e)%Q with (- ((a # b) * Qpower 2 e))%Q.
      2:{ change (- a # b)%Q with (- (a # b))%Q. ring. }
      setoid_replace (QZ 0 (-1074)) with (- QZ 0 (-1074))%Q at 1 by (unfold QZ; ring).
      setoid_replace (-1 * QZ r1 e1)%Q with (- QZ r1 e1)%Q by ring.
      rewrite !Qabs_opp_sub. exact POS.
    + setoid_replace (1 * QZ r1 e1)%Q with (QZ r1 e1) by ring. exact POS.
  - destruct FW as [C B]. apply canon_iff in C.
    rewrite V. destruct s; cbn [cond_Zopp].
    + specialize (POS (cond_Zopp (negb sw) (Zpos mw)) ew (Z.min e ew) ltac:(lia) ltac:(lia) ltac:(lia)).
      setoid_replace ((- a # b) * Qpower 2 e)%Q with (- ((a # b) * Qpower 2 e))%Q.
      2:{ change (- a # b)%Q with (- (a # b))%Q. ring. }
      setoid_replace (SF2Q (S754_finite sw mw ew)) with (- QZ (cond_Zopp (negb sw) (Zpos mw)) ew)%Q.
      2:{ simpl. rewrite <- QZ_opp. destruct sw; reflexivity. }
      setoid_replace (-1 * QZ r1 e1)%Q with (- QZ r1 e1)%Q by ring.
      rewrite !Qabs_opp_sub. apply POS. destruct sw; simpl; lia.
    + specialize (POS (cond_Zopp sw (Zpos mw)) ew (Z.min e ew) ltac:(lia) ltac:(lia) ltac:(lia)).
      setoid_replace (1 * QZ r1 e1)%Q with (QZ r1 e1) by ring. apply POS. destruct sw; simpl; lia.
Qed.

Lemma near_ext r v v' : (v == v')%Q -> near r v -> near r v'.
Proof. intros E N w F. specialize (N w F). rewrite <- E. exact N. Qed.


Lemma round_near s m e : not_inf (binary_round 53 1024 s m e) ->
  finite (binary_round 53 1024 s m e) /\ near (binary_round 53 1024 s m e) (QZ (cond_Zopp s (Zpos m)) e).
Proof.
  unfold binary_round. set (f := fexp64 (Zpos (digits2_pos m) + e)).
  destruct (shl_align m e f) as [mz ez] eqn:SA. intros NI.
  assert (H : (QZ (Zpos mz) ez == QZ (Zpos m) e)%Q /\ ez <= fexp64 (Zdigits2 (Zpos mz) + ez)).
  { unfold shl_align in SA. destruct (f - e) as [|p|p] eqn:X; injection SA as <- <-.
    - split; [reflexivity|]. simpl Zdigits2. fold f. lia.
    - split; [reflexivity|]. simpl Zdigits2. fold f. lia.
    - assert (E : Zpos (shift_pos p m) = Zpos m * 2 ^ (e - f)).
      { rewrite shift_pos_val. do 2 f_equal. lia. }
      split.
      + apply (QZ_eq _ _ _ _ f); [lia|lia|]. rewrite Z.sub_diag, Z.mul_1_r. exact E.
      + simpl Zdigits2. rewrite (digits_shift m _ (e - f)) by (auto; lia).
        replace (Zpos (digits2_pos m) + (e - f) + f) with (Zpos (digits2_pos m) + e) by lia. fold f. lia. }
  destruct H as [V LE].
  destruct (round_aux_near s (Zpos mz) ez loc_Exact (Zpos mz) 1) as [F N]; auto.
  { unfold inb. lia. }
  split; [exact F|]. eapply near_ext; [|exact N].
  change (QZ (cond_Zopp s (Zpos mz)) ez == QZ (cond_Zopp s (Zpos m)) e)%Q.
  destruct s; cbn [cond_Zopp]; [|exact V]. rewrite !QZ_opp, V. reflexivity.
Qed.
Lemma near_refl x : finite x -> near x (SF2Q x).
Proof.
  intros F w FW. setoid_replace (SF2Q x - SF2Q x)%Q with 0%Q by ring. apply Qabs_nonneg.
Qed.
Lemma normalize_near z e sz : not_inf (binary_normalize 53 1024 z e sz) ->
  finite (binary_normalize 53 1024 z e sz) /\ near (binary_normalize 53 1024 z e sz) (QZ z e).
Proof.
  destruct z as [|p|p]; simpl; intros NI.
  - split; [exact I|]. eapply near_ext; [|apply near_refl; exact I]. simpl. unfold QZ. ring.
  - apply (round_near false p e NI).
  - apply (round_near true p e NI).
Qed.

(** A result that is nearest to a value some double has is that value. *)
Lemma near_exact r v z : near r v -> finite z -> (SF2Q z == v)%Q -> (SF2Q r == v)%Q.
Proof.
  intros N F E. specialize (N z F). rewrite E in N.
  setoid_replace (v - v)%Q with 0%Q in N by ring. change (Qabs 0) with 0%Q in N.
  assert (Z : (Qabs (SF2Q r - v) == 0)%Q) by (apply Qle_antisym; [exact N|apply Qabs_nonneg]).
  apply Qabs_Qle_condition in N. destruct N as [N1 N2]. 
  apply Qle_antisym.
  - apply Qle_minus_iff. setoid_replace (v + - SF2Q r)%Q with (- (SF2Q r - v))%Q by ring.
    apply Qopp_le_compat in N2. exact N2.
  - apply Qle_minus_iff. exact N1.
Qed.

(** ** The operations *)
Lemma shl_align_val m e L : L <= e -> Zpos (fst (shl_align m e L)) = Zpos m * 2 ^ (e - L).
Proof.
  intros H. unfold shl_align. destruct (L - e) as [|p|p] eqn:X; simpl fst.
  - replace (e - L) with 0 by lia. lia.
  - lia.
  - rewrite shift_pos_val. do 2 f_equal. lia.
Qed.
Lemma QZ_add a b e : (QZ (a + b) e == QZ a e + QZ b e)%Q.
Proof. unfold QZ. rewrite inject_Z_plus. ring. Qed.
Lemma cond_align s m e L : L <= e ->
  (QZ (cond_Zopp s (Zpos (fst (shl_align m e L)))) L == QZ (cond_Zopp s (Zpos m)) e)%Q.
Proof.
  intros H. apply (QZ_eq _ _ _ _ L); [lia|lia|]. rewrite Z.sub_diag, Z.mul_1_r.
  destruct s; cbn [cond_Zopp]; rewrite shl_align_val by auto; ring.
Qed.

Theorem SFadd_near x y : finite x -> finite y -> not_inf (SFadd 53 1024 x y) ->
  finite (SFadd 53 1024 x y) /\ near (SFadd 53 1024 x y) (SF2Q x + SF2Q y)%Q.
Proof.
  intros FX FY NI.
  destruct x as [sx|sx| |sx mx ex], y as [sy|sy| |sy my ey]; simpl in FX, FY; try contradiction.
  - simpl. destruct (Bool.eqb sx sy); (split; [exact I|]); intros w FW; cbn [SF2Q];
      setoid_replace (0 - (0 + 0))%Q with 0%Q by ring; apply Qabs_nonneg.
  - split; [exact FY|]. eapply near_ext; [|apply near_refl; exact FY]. simpl. ring.
  - split; [exact FX|]. eapply near_ext; [|apply near_refl; exact FX]. simpl. ring.
  - cbn [SFadd] in *. destruct (normalize_near _ _ _ NI) as [F N]. split; [exact F|].
    eapply near_ext; [|exact N]. rewrite QZ_add, !cond_align by lia. reflexivity.
Qed.
Theorem SFsub_near x y : finite x -> finite y -> not_inf (SFsub 53 1024 x y) ->
  finite (SFsub 53 1024 x y) /\ near (SFsub 53 1024 x y) (SF2Q x - SF2Q y)%Q.
Proof.
  intros FX FY NI.
  destruct x as [sx|sx| |sx mx ex], y as [sy|sy| |sy my ey]; simpl in FX, FY; try contradiction.
  - simpl. destruct (Bool.eqb sx (negb sy)); (split; [exact I|]); intros w FW; cbn [SF2Q];
      setoid_replace (0 - (0 - 0))%Q with 0%Q by ring; apply Qabs_nonneg.
  - split; [exact FY|]. assert (FN : finite (S754_finite (negb sy) my ey)) by exact FY.
    eapply near_ext; [|apply (near_refl _ FN)]. simpl.
    destruct sy; cbn [cond_Zopp negb]; [change (Z.neg my) with (- Zpos my)|]; rewrite QZ_opp; ring.
  - split; [exact FX|]. eapply near_ext; [|apply near_refl; exact FX]. simpl. ring.
  - cbn [SFsub] in *. destruct (normalize_near _ _ _ NI) as [F N]. split; [exact F|].
    eapply near_ext; [|exact N]. unfold Z.sub. rewrite QZ_add, QZ_opp, !cond_align by lia. reflexivity.
Qed.
Lemma QZ_mul a b e f : (QZ (a * b) (e + f) == QZ a e * QZ b f)%Q.
Proof.
  unfold QZ. rewrite inject_Z_mult, Qpower_plus by (unfold Qeq; simpl; lia). ring.
Qed.
Theorem SFmul_near x y : finite x -> finite y -> not_inf (SFmul 53 1024 x y) ->
  finite (SFmul 53 1024 x y) /\ near (SFmul 53 1024 x y) (SF2Q x * SF2Q y)%Q.
Proof.
  intros FX FY NI.
  assert (ZZ : forall s v, (v == 0)%Q -> finite (S754_zero s) /\ near (S754_zero s) v).
  { intros s v E. split; [exact I|]. eapply near_ext; [|apply (near_refl (S754_zero s)); exact I].
    simpl. now rewrite E. }
  destruct x as [sx|sx| |sx mx ex], y as [sy|sy| |sy my ey]; simpl in FX, FY; try contradiction;
    try (apply ZZ; simpl; ring).
  cbn [SFmul] in *. destruct FX as [CX BX], FY as [CY BY].
  destruct (round_aux_near (xorb sx sy) (Zpos (mx * my)) (ex + ey) loc_Exact (Zpos (mx * my)) 1) as [F N]; auto.
  { unfold inb. lia. }
  { rewrite fexp64_eq. simpl Zdigits2. apply canon_iff in CX. apply canon_iff in CY.
    pose proof (digits_bounds (mx * my)) as [_ DB].
    destruct CX as [[-> _]|[X1 [X2 _]]].
    - destruct CY as [[-> _]|[Y1 [Y2 _]]]; [lia|].
      assert (52 < Zpos (digits2_pos (mx * my))); [|lia].
      apply digits_ge; [lia|]. rewrite Pos2Z.inj_mul. nia.
    - assert (52 < Zpos (digits2_pos (mx * my))); [|lia].
      apply digits_ge; [lia|]. rewrite Pos2Z.inj_mul. nia. }
  split; [exact F|]. eapply near_ext; [|exact N].
  change (QZ (cond_Zopp (xorb sx sy) (Zpos (mx * my))) (ex + ey) ==
          QZ (cond_Zopp sx (Zpos mx)) ex * QZ (cond_Zopp sy (Zpos my)) ey)%Q.
  rewrite <- QZ_mul. replace (cond_Zopp sx (Zpos mx) * cond_Zopp sy (Zpos my))
    with (cond_Zopp (xorb sx sy) (Zpos (mx * my))); [reflexivity|].
  rewrite Pos2Z.inj_mul. destruct sx, sy; cbn [cond_Zopp xorb]; ring.
Qed.

Lemma new_location_ok q r a b : 0 <= q -> 0 < b -> 0 <= r < b -> a = q * b + r -> inb q (new_location b r) a b.
Proof.
  intros Q0 B R E. unfold inb. split; [auto|]. split; [auto|]. split; [lia|].
  unfold new_location, new_location_even, new_location_odd.
  destruct (Z.even b) eqn:EV; destruct (Zeq_bool r 0) eqn:Z0.
  - apply Zeq_bool_eq in Z0. lia.
  - apply Zeq_bool_neq in Z0. split; [lia|]. f_equal. lia.
  - apply Zeq_bool_eq in Z0. lia.
  - apply Zeq_bool_neq in Z0. split; [lia|].
    assert (OD : Z.odd b = true) by (rewrite <- Z.negb_even, EV; reflexivity).
    apply Z.odd_spec in OD. destruct OD as (k & OD).
    replace (2 * (a - q * b)) with (2 * r) by lia.
    destruct (Z.compare_spec (2 * r + 1) b); [apply Z.compare_lt_iff|apply Z.compare_lt_iff|apply Z.compare_gt_iff]; lia.
Qed.

(** Rounding of a quotient of integers (used by division and by reading numerals). *)
Definition ratio (s : bool) (m1 : positive) (e1 : Z) (m2 : positive) (e2 : Z) : spec_float :=
  let '(mz, ez, lz) := SFdiv_core_binary 53 1024 (Zpos m1) e1 (Zpos m2) e2 in
  binary_round_aux 53 1024 s mz ez lz.

Lemma core_div m1 e1 m2 e2 :
  exists q l e, SFdiv_core_binary 53 1024 (Zpos m1) e1 (Zpos m2) e2 = (q, e, l) /\
    e <= fexp64 (Zdigits2 q + e) /\ e <= e1 - e2 /\ inb q l (Zpos m1 * 2 ^ (e1 - e2 - e)) (Zpos m2) /\
    e <= fexp64 (Zpos (digits2_pos m1) + e1 - (Zpos (digits2_pos m2) + e2)).
Proof.
  unfold SFdiv_core_binary. cbn [Zdigits2].
  set (d1 := Zpos (digits2_pos m1)). set (d2 := Zpos (digits2_pos m2)).
  set (e := Z.min (fexp64 (d1 + e1 - (d2 + e2))) (e1 - e2)).
  set (s := e1 - e2 - e). assert (S0 : 0 <= s) by (unfold s, e; lia).
  assert (M : match s with Z0 => Zpos m1 | Zpos _ => Z.shiftl (Zpos m1) s | Zneg _ => 0 end = Zpos m1 * 2 ^ s).
  { destruct s; [lia| |lia]. apply Z.shiftl_mul_pow2. lia. }
  rewrite M. set (m' := Zpos m1 * 2 ^ s).
  pose proof (Z_div_mod m' (Zpos m2) ltac:(lia)) as DM.
  destruct (Z.div_eucl m' (Zpos m2)) as [q r]. destruct DM as [E R].
  assert (P : 0 < 2 ^ s) by (apply Z.pow_pos_nonneg; lia).
  assert (M0 : 0 < m') by (unfold m'; nia).
  assert (Q0 : 0 <= q) by nia.
  exists q, (new_location (Zpos m2) r), e. split; [reflexivity|]. split; [|split; [unfold e; lia|split]].
  - (* q has enough digits *)
    rewrite fexp64_eq.
    destruct (Z.le_gt_cases e (-1074)); [lia|].
    assert (EE : e <= d1 + e1 - (d2 + e2) - 53) by (unfold e in *; rewrite fexp64_eq in *; lia).
    assert (52 < Zdigits2 q); [|lia].
    assert (2 ^ 52 <= q).
    { pose proof (digits_bounds m1) as [A1 _]. pose proof (digits_bounds m2) as [_ A2]. fold d1 in A1. fold d2 in A2.
      assert (2 ^ 52 * Zpos m2 <= m').
      { assert (Zpos m2 <= 2 ^ d2) by lia.
        assert (2 ^ (52 + d2) <= 2 ^ (d1 - 1 + s)) by (apply Z.pow_le_mono_r; unfold s; lia).
        rewrite !Z.pow_add_r in H1 by (unfold d1, d2; lia). unfold m'. nia. }
      nia. }
    destruct q; [lia| |lia]. apply digits_ge; lia.
  - fold s. fold m'. apply new_location_ok; [exact Q0|lia|exact R|rewrite E; ring].
  - unfold e. lia.
Qed.

Lemma ratio_near s m1 e1 m2 e2 : not_inf (ratio s m1 e1 m2 e2) ->
  finite (ratio s m1 e1 m2 e2) /\
  near (ratio s m1 e1 m2 e2) ((cond_Zopp s (Zpos m1) # m2) * Qpower 2 (e1 - e2))%Q.
Proof.
  unfold ratio. destruct (core_div m1 e1 m2 e2) as (q & l & e & -> & LE & LE2 & I & _). intros NI.
  destruct (round_aux_near s q e l _ m2 I LE NI) as [F N]. split; [exact F|].
  eapply near_ext; [|exact N].
  rewrite (QB_shift m2 e (cond_Zopp s (Zpos m1)) (e1 - e2)) by lia.
  unfold QB. apply Qmult_comp; [|reflexivity]. destruct s; cbn [cond_Zopp]; unfold Qeq; cbn [Qnum Qden]; ring.
Qed.

Lemma div_value sx mx ex sy my ey :
  ((cond_Zopp (xorb sx sy) (Zpos mx) # my) * Qpower 2 (ex - ey) ==
   SF2Q (S754_finite sx mx ex) / SF2Q (S754_finite sy my ey))%Q.
Proof.
  cbn [SF2Q].
  assert (PW : (Qpower 2 (ex - ey) == Qpower 2 ex / Qpower 2 ey)%Q).
  { unfold Z.sub. rewrite Qpower_plus by (unfold Qeq; simpl; lia). rewrite Qpower_opp. reflexivity. }
  rewrite PW. unfold QZ.
  assert (P1 : ~ (Qpower 2 ey == 0)%Q) by (pose proof (pow2_pos ey); lra).
  assert (P2 : ~ (inject_Z (Zpos my) == 0)%Q) by (unfold Qeq; simpl; lia).
  setoid_replace (cond_Zopp (xorb sx sy) (Zpos mx) # my)%Q
    with (inject_Z (cond_Zopp (xorb sx sy) (Zpos mx)) / inject_Z (Zpos my))%Q
    by (unfold Qdiv, Qinv, Qeq, Qmult, inject_Z; simpl; lia).
  destruct sx, sy; cbn [xorb cond_Zopp]; rewrite ?inject_Z_opp; field; repeat split; auto;
    intros H; apply P2; rewrite <- (Qopp_involutive (inject_Z (Zpos my))), H; reflexivity.
Qed.
Theorem SFdiv_near x y : finite x -> finite y -> ~ (SF2Q y == 0)%Q -> not_inf (SFdiv 53 1024 x y) ->
  finite (SFdiv 53 1024 x y) /\ near (SFdiv 53 1024 x y) (SF2Q x / SF2Q y)%Q.
Proof.
  intros FX FY NZ NI.
  destruct x as [sx|sx| |sx mx ex], y as [sy|sy| |sy my ey]; simpl in FX, FY; try contradiction;
    try (elim NZ; reflexivity).
  - split; [exact I|]. eapply near_ext; [|apply (near_refl (S754_zero (xorb sx sy))); exact I].
    cbn [SF2Q]. unfold Qdiv. ring.
  - change (not_inf (ratio (xorb sx sy) mx ex my ey)) in NI.
    destruct (ratio_near _ _ _ _ _ NI) as [F N]. split; [exact F|].
    change (SFdiv 53 1024 (S754_finite sx mx ex) (S754_finite sy my ey)) with (ratio (xorb sx sy) mx ex my ey).
    eapply near_ext; [|exact N]. apply div_value.
Qed.

(** ** Whole numbers *)
Definition num_of_Z (z : Z) : spec_float := binary_normalize 53 1024 z 0 false.

Lemma canon_of m : Zpos m <= 2 ^ 53 -> exists m0 e0, canon m0 e0 /\ e0 <= 1 /\ -52 <= e0 /\
  (QZ (Zpos m0) e0 == inject_Z (Zpos m))%Q /\
  forall L, L <= 0 -> L <= e0 -> Zpos m * 2 ^ (0 - L) = Zpos m0 * 2 ^ (e0 - L).
Proof.
  intros H.
  assert (G : exists m0 e0, canon m0 e0 /\ e0 <= 1 /\ -52 <= e0 /\
     forall L, L <= 0 -> L <= e0 -> Zpos m * 2 ^ (0 - L) = Zpos m0 * 2 ^ (e0 - L)).
  { destruct (Z.eq_dec (Zpos m) (2 ^ 53)) as [E|N].
    - exists (2 ^ 52)%positive, 1. split; [apply canon_iff; right; vm_compute; repeat split; congruence|].
      split; [lia|]. split; [lia|]. intros L A B. rewrite E.
      change (Zpos (2 ^ 52)) with (2 ^ 52). rewrite <- !Z.pow_add_r by lia. f_equal. lia.
    - pose proof (digits_bounds m) as [A B]. set (d := Zpos (digits2_pos m)) in *.
      assert (D : d <= 53) by (apply digits_le; lia).
      exists (Z.to_pos (Zpos m * 2 ^ (53 - d))), (d - 53).
      assert (P : 0 < 2 ^ (53 - d)) by (apply Z.pow_pos_nonneg; lia).
      assert (V : Zpos (Z.to_pos (Zpos m * 2 ^ (53 - d))) = Zpos m * 2 ^ (53 - d)) by (rewrite Z2Pos.id; nia).
      split.
      + apply canon_iff. right. split; [unfold d; lia|]. rewrite V.
        replace (2 ^ 52) with (2 ^ (d - 1) * 2 ^ (53 - d)) by (rewrite <- Z.pow_add_r by (unfold d; lia); f_equal; lia).
        replace (2 ^ 53) with (2 ^ d * 2 ^ (53 - d)) by (rewrite <- Z.pow_add_r by (unfold d; lia); f_equal; lia).
        nia.
      + split; [lia|]. split; [unfold d; lia|]. intros L C E. rewrite V, <- Z.mul_assoc, <- Z.pow_add_r by lia.
        do 2 f_equal. lia. }
  destruct G as (m0 & e0 & C & B1 & B2 & V). exists m0, e0. do 3 (split; [auto|]). split; [|exact V].
  transitivity (QZ (Zpos m) 0); [|unfold QZ; simpl; ring].
  symmetry. apply (QZ_eq _ _ _ _ (Z.min 0 e0)); [lia|lia|]. apply V; lia.
Qed.

Lemma num_of_Z_ok z : Z.abs z <= 2 ^ 53 -> finite (num_of_Z z) /\ (SF2Q (num_of_Z z) == inject_Z z)%Q.
Proof.
  intros H. unfold num_of_Z. destruct z as [|p|p]; simpl binary_normalize.
  - split; [exact I|reflexivity].
  - destruct (canon_of p) as (m0 & e0 & C & B1 & B2 & V & W); [lia|].
    rewrite (round_exact false p 0 m0 e0); auto; [|lia]. simpl. split; [split; [auto|lia]|exact V].
  - destruct (canon_of p) as (m0 & e0 & C & B1 & B2 & V & W); [lia|].
    rewrite (round_exact true p 0 m0 e0); auto; [|lia]. split; [split; [auto|lia]|].
    cbn [SF2Q cond_Zopp]. rewrite QZ_opp, V. reflexivity.
Qed.

Lemma finite_Q_inj x y : finite x -> finite y -> (SF2Q x == SF2Q y)%Q ->
  x = y \/ exists s s', x = S754_zero s /\ y = S754_zero s'.
Proof.
  intros FX FY E. pose proof (SFcompare_Q x y FX FY) as C.
  apply Qeq_alt in E. rewrite E in C.
  destruct x as [sx|sx| |sx mx ex], y as [sy|sy| |sy my ey]; simpl in FX, FY; try contradiction.
  - right. eauto.
  - simpl in C. destruct sy; discriminate.
  - simpl in C. destruct sx; discriminate.
  - left. cbn [SFcompare] in C. injection C as C. destruct sx, sy; try discriminate.
    + destruct (Z.compare_spec ex ey); try discriminate. subst. f_equal.
      destruct (Pos.compare_cont Eq mx my) eqn:P; try discriminate. now apply Pos.compare_eq.
    + destruct (Z.compare_spec ex ey); try discriminate. subst. f_equal. now apply Pos.compare_eq.
Qed.

(** ** No overflow below 2^1023 *)
Lemma Qpower_scaled b L : L <= 1023 -> (Qpower 2 1023 == QB b L (2 ^ (1023 - L) * Zpos b))%Q.
Proof.
  intros H. rewrite <- (Z.mul_1_l (2 ^ (1023 - L))). rewrite <- (QB_of_QZ b L 1 1023) by lia.
  unfold QZ. ring.
Qed.
Lemma QB_lt_inv b L x y : (QB b L x < QB b L y)%Q -> x < y.
Proof.
  intros H. destruct (Z.lt_ge_cases x y) as [G|G]; [exact G|].
  pose proof (QB_le b L _ _ G) as Q. elim (Qlt_irrefl (QB b L x)). eapply Qlt_le_trans; eauto.
Qed.

Lemma round_aux_not_inf s m e l a b : inb m l a (Zpos b) -> e <= fexp64 (Zdigits2 m + e) ->
  ((a # b) * Qpower 2 e < Qpower 2 1023)%Q -> not_inf (binary_round_aux 53 1024 s m e l).
Proof.
  intros I LE B s'.
  destruct (round_aux_spec s m e l a (Zpos b) I LE) as (r1 & R0 & ER & H).
  set (e1 := fexp64 (Zdigits2 m + e)) in *. cbv zeta in *.
  destruct H as [[-> ->]|(m' & e' & C & LE' & EQ & ->)]; [congruence|].
  destruct (Zle_bool e' 971) eqn:G; [congruence|]. exfalso. apply Z.leb_gt in G.
  set (L := Z.min e 0). rewrite (Qpower_scaled b L) in B by lia.
  rewrite (QB_shift b L a e) in B by lia. apply QB_lt_inv in B.
  apply canon_iff in C. assert (M : 2 ^ 52 <= Zpos m') by lia.
  assert (P0 : 0 < 2 ^ (e - L)) by (apply Z.pow_pos_nonneg; lia).
  assert (P1 : 0 < 2 ^ (e1 - e)) by (apply Z.pow_pos_nonneg; lia).
  assert (R1 : 1 <= r1). { subst r1. assert (0 < 2 ^ (e' - e1)) by (apply Z.pow_pos_nonneg; lia). nia. }
  assert (S1 : r1 * (2 ^ (e1 - e) * Zpos b) <= 2 * a) by nia.
  assert (S2 : r1 * 2 ^ (e1 - L) * Zpos b < 2 * (2 ^ (1023 - L) * Zpos b)).
  { replace (2 ^ (e1 - L)) with (2 ^ (e1 - e) * 2 ^ (e - L)) by (rewrite <- Z.pow_add_r by lia; f_equal; lia). nia. }
  assert (S3 : r1 * 2 ^ (e1 - L) < 2 * 2 ^ (1023 - L)) by nia.
  rewrite <- EQ, <- Z.mul_assoc, <- Z.pow_add_r in S3 by lia.
  replace (e' - e1 + (e1 - L)) with (e' - L) in S3 by lia.
  replace (2 * 2 ^ (1023 - L)) with (2 ^ (52 + (972 - L))) in S3
    by (change 2 with (2 ^ 1) at 2; rewrite <- Z.pow_add_r by lia; f_equal; lia).
  rewrite Z.pow_add_r in S3 by lia.
  assert (2 ^ (972 - L) <= 2 ^ (e' - L)) by (apply Z.pow_le_mono_r; lia).
  assert (0 < 2 ^ (972 - L)) by (apply Z.pow_pos_nonneg; lia). nia.
Qed.

Lemma Qabs_cond s p b e : (Qabs ((cond_Zopp s (Zpos p) # b) * Qpower 2 e) == (Zpos p # b) * Qpower 2 e)%Q.
Proof.
  rewrite Qabs_Qmult, (Qabs_pos (Qpower 2 e)) by (apply Qlt_le_weak, pow2_pos).
  apply Qmult_comp; [|reflexivity]. destruct s; reflexivity.
Qed.

Lemma ratio_bounded s m1 e1 m2 e2 v : (v == (cond_Zopp s (Zpos m1) # m2) * Qpower 2 (e1 - e2))%Q ->
  (Qabs v < Qpower 2 1023)%Q -> rounded (ratio s m1 e1 m2 e2) v.
Proof.
  intros E B. rewrite E, Qabs_cond in B.
  assert (NI : not_inf (ratio s m1 e1 m2 e2)).
  { unfold ratio. destruct (core_div m1 e1 m2 e2) as (q & l & e & -> & LE & LE2 & I & _).
    eapply round_aux_not_inf; eauto.
    eapply Qle_lt_trans; [|exact B]. rewrite (QB_shift m2 e (Zpos m1) (e1 - e2)) by lia.
    unfold QB. apply Qle_refl. }
  destruct (ratio_near _ _ _ _ _ NI) as [F N]. split; [exact F|].
  eapply near_ext; [|exact N]. now symmetry.
Qed.

Lemma inb_exact m : 0 <= m -> inb m loc_Exact m 1.
Proof. intros H. unfold inb. lia. Qed.
Lemma Q_1 z : (z # 1 == inject_Z z)%Q.
Proof. reflexivity. Qed.

Lemma round_bounded s m e v : (v == QZ (cond_Zopp s (Zpos m)) e)%Q -> (Qabs v < Qpower 2 1023)%Q ->
  rounded (binary_round 53 1024 s m e) v.
Proof.
  intros E B.
  assert (NI : not_inf (binary_round 53 1024 s m e)).
  { unfold binary_round. set (f := fexp64 (Zpos (digits2_pos m) + e)).
    destruct (shl_align m e f) as [mz ez] eqn:SA.
    assert (X : ez <= e /\ Zpos mz = Zpos m * 2 ^ (e - ez) /\ ez <= f).
    { unfold shl_align in SA. destruct (f - e) as [|p|p] eqn:D; injection SA as <- <-.
      - rewrite Z.sub_diag. lia.
      - rewrite Z.sub_diag. lia.
      - rewrite shift_pos_val. split; [lia|]. split; [|lia]. do 2 f_equal. lia. }
    destruct X as (X1 & X2 & X3).
    eapply (round_aux_not_inf s (Zpos mz) ez loc_Exact (Zpos mz) 1).
    - apply inb_exact. lia.
    - cbn [Zdigits2]. rewrite (digits_shift m mz (e - ez)) by lia.
      replace (Zpos (digits2_pos m) + (e - ez) + ez) with (Zpos (digits2_pos m) + e) by lia. exact X3.
    - rewrite E in B. unfold QZ in B. rewrite <- Q_1, Qabs_cond in B.
      eapply Qle_lt_trans; [|exact B]. rewrite (QB_shift 1 ez (Zpos m) e) by lia.
      rewrite <- X2. unfold QB. apply Qle_refl. }
  destruct (round_near _ _ _ NI) as [F N]. split; [exact F|]. eapply near_ext; [|exact N]. now symmetry.
Qed.

Lemma normalize_bounded z e sz v : (v == QZ z e)%Q -> (Qabs v < Qpower 2 1023)%Q ->
  rounded (binary_normalize 53 1024 z e sz) v.
Proof.
  intros E B. destruct z as [|p|p]; cbn [binary_normalize].
  - split; [exact I|]. eapply near_ext; [|apply near_refl; exact I]. rewrite E. simpl. unfold QZ. ring.
  - now apply round_bounded.
  - apply round_bounded; auto.
Qed.

Definition below (v : Q) : Prop := (Qabs v < Qpower 2 1023)%Q.

Lemma zero_rounded s v : (v == 0)%Q -> rounded (S754_zero s) v.
Proof. intros E. split; [exact I|]. eapply near_ext; [|apply near_refl; exact I]. simpl. now symmetry. Qed.
Lemma self_rounded x v : finite x -> (v == SF2Q x)%Q -> rounded x v.
Proof. intros F E. split; auto. eapply near_ext; [|apply near_refl; auto]. now symmetry. Qed.

Theorem SFadd_rounded x y : finite x -> finite y -> below (SF2Q x + SF2Q y) ->
  rounded (SFadd 53 1024 x y) (SF2Q x + SF2Q y)%Q.
Proof.
  intros FX FY B.
  destruct x as [sx|sx| |sx mx ex], y as [sy|sy| |sy my ey]; simpl in FX, FY; try contradiction.
  - cbn [SFadd]. destruct (Bool.eqb sx sy); apply zero_rounded; simpl; ring.
  - cbn [SFadd]. apply self_rounded; [exact FY|]. simpl. ring.
  - cbn [SFadd]. apply self_rounded; [exact FX|]. simpl. ring.
  - cbn [SFadd]. apply normalize_bounded; [|exact B].
    rewrite QZ_add, !cond_align by lia. reflexivity.
Qed.
Theorem SFsub_rounded x y : finite x -> finite y -> below (SF2Q x - SF2Q y) ->
  rounded (SFsub 53 1024 x y) (SF2Q x - SF2Q y)%Q.
Proof.
  intros FX FY B.
  destruct x as [sx|sx| |sx mx ex], y as [sy|sy| |sy my ey]; simpl in FX, FY; try contradiction.
  - cbn [SFsub]. destruct (Bool.eqb sx (negb sy)); apply zero_rounded; simpl; ring.
  - cbn [SFsub]. apply self_rounded; [exact FY|]. cbn [SF2Q].
    destruct sy; cbn [negb cond_Zopp]; rewrite ?QZ_opp; ring.
  - cbn [SFsub]. apply self_rounded; [exact FX|]. simpl. ring.
  - cbn [SFsub]. apply normalize_bounded; [|exact B].
    unfold Z.sub. rewrite QZ_add, QZ_opp, !cond_align by lia. reflexivity.
Qed.
Theorem SFmul_rounded x y : finite x -> finite y -> below (SF2Q x * SF2Q y) ->
  rounded (SFmul 53 1024 x y) (SF2Q x * SF2Q y)%Q.
Proof.
  intros FX FY B.
  destruct x as [sx|sx| |sx mx ex], y as [sy|sy| |sy my ey]; simpl in FX, FY; try contradiction.
  - cbn [SFmul]. apply zero_rounded. simpl. ring.
  - cbn [SFmul]. apply zero_rounded. simpl. ring.
  - cbn [SFmul]. apply zero_rounded. simpl. ring.
  - assert (E : (SF2Q (S754_finite sx mx ex) * SF2Q (S754_finite sy my ey) ==
        QZ (cond_Zopp (xorb sx sy) (Zpos (mx * my))) (ex + ey))%Q).
    { cbn [SF2Q]. rewrite <- QZ_mul. destruct sx, sy; cbn [xorb cond_Zopp]; reflexivity. }
    assert (NI : not_inf (SFmul 53 1024 (S754_finite sx mx ex) (S754_finite sy my ey))).
    { unfold below in B. rewrite E in B. unfold QZ in B. rewrite <- Q_1, Qabs_cond in B. cbn [SFmul].
      eapply (round_aux_not_inf _ _ _ loc_Exact (Zpos (mx * my)) 1); [apply inb_exact; lia| |exact B].
      destruct FX as [FX _], FY as [FY _]. apply canon_iff in FX. apply canon_iff in FY.
      cbn [Zdigits2]. rewrite fexp64_eq.
      assert (D : Zpos (digits2_pos mx) - 1 + (Zpos (digits2_pos my) - 1) < Zpos (digits2_pos (mx * my))).
      { apply digits_ge; [lia|]. rewrite Z.pow_add_r by lia. rewrite Pos2Z.inj_mul.
        pose proof (digits_bounds mx) as [? _]. pose proof (digits_bounds my) as [? _].
        apply Z.mul_le_mono_nonneg; auto; apply Z.pow_nonneg; lia. }
      assert (X : ex = -1074 \/ 53 <= Zpos (digits2_pos mx)).
      { destruct FX as [[-> _]|[_ [FX _]]]; [auto|]. right. pose proof (digits_ge mx 52 ltac:(lia) FX). lia. }
      assert (Y : ey = -1074 \/ 53 <= Zpos (digits2_pos my)).
      { destruct FY as [[-> _]|[_ [FY _]]]; [auto|]. right. pose proof (digits_ge my 52 ltac:(lia) FY). lia. }
      destruct X, Y; lia. }
    exact (SFmul_near (S754_finite sx mx ex) (S754_finite sy my ey) FX FY NI).
Qed.
Theorem SFdiv_rounded x y : finite x -> finite y -> ~ (SF2Q y == 0)%Q -> below (SF2Q x / SF2Q y) ->
  rounded (SFdiv 53 1024 x y) (SF2Q x / SF2Q y)%Q.
Proof.
  intros FX FY NZ B.
  destruct x as [sx|sx| |sx mx ex], y as [sy|sy| |sy my ey]; simpl in FX, FY; try contradiction;
    try (elim NZ; reflexivity).
  - cbn [SFdiv]. apply zero_rounded. simpl. unfold Qdiv. ring.
  - change (SFdiv 53 1024 (S754_finite sx mx ex) (S754_finite sy my ey)) with (ratio (xorb sx sy) mx ex my ey).
    apply ratio_bounded; [|exact B]. symmetry. apply div_value.
Qed.

(** ** Representable numbers *)
Lemma representable k l : Z.abs k < 2 ^ 53 -> -1074 <= l -> l <= 971 ->
  exists w, finite w /\ (SF2Q w == QZ k l)%Q.
Proof.
  assert (POS : forall p, Zpos p < 2 ^ 53 -> -1074 <= l -> l <= 971 ->
    exists m e, canon m e /\ e <= 971 /\ (QZ (Zpos m) e == QZ (Zpos p) l)%Q).
  { intros p P L1 L2. pose proof (digits_bounds p) as [A B]. set (d := Zpos (digits2_pos p)) in *.
    assert (D : d <= 53) by (apply digits_le; lia).
    set (sh := Z.min (53 - d) (l + 1074)). assert (S0 : 0 <= sh) by (unfold sh; lia).
    assert (PW : 0 < 2 ^ sh) by (apply Z.pow_pos_nonneg; lia).
    exists (Z.to_pos (Zpos p * 2 ^ sh)), (l - sh).
    assert (V : Zpos (Z.to_pos (Zpos p * 2 ^ sh)) = Zpos p * 2 ^ sh) by (rewrite Z2Pos.id; nia).
    split; [|split; [lia|]].
    - apply canon_iff. rewrite V.
      assert (UP : Zpos p * 2 ^ sh < 2 ^ 53).
      { apply Z.lt_le_trans with (2 ^ d * 2 ^ sh); [nia|].
        rewrite <- Z.pow_add_r by (unfold d; lia). apply Z.pow_le_mono_r; unfold sh; lia. }
      destruct (Z.le_gt_cases (l + 1074) (53 - d)) as [C|C].
      + left. split; [unfold sh; lia|exact UP].
      + right. split; [unfold sh; lia|]. split; [|exact UP].
        replace (2 ^ 52) with (2 ^ (d - 1) * 2 ^ sh) by (rewrite <- Z.pow_add_r by (unfold d; lia); f_equal; unfold sh; lia).
        nia.
    - apply (QZ_eq _ _ _ _ (l - sh)); [lia|lia|]. rewrite Z.sub_diag, V.
      replace (l - (l - sh)) with sh by lia. ring. }
  intros K L1 L2. destruct k as [|p|p].
  - exists (S754_zero false). split; [exact I|]. simpl. unfold QZ. ring.
  - destruct (POS p K L1 L2) as (m & e & C & E & V). exists (S754_finite false m e).
    split; [split; auto|]. exact V.
  - destruct (POS p K L1 L2) as (m & e & C & E & V). exists (S754_finite true m e).
    split; [split; auto|]. cbn [SF2Q cond_Zopp]. change (Zneg p) with (- Zpos p). now rewrite !QZ_opp, V.
Qed.

Lemma finite_bound x : finite x -> (Qabs (SF2Q x) < Qpower 2 1024)%Q.
Proof.
  destruct x as [s|s| |s m e]; cbn [finite SF2Q]; intros F; try contradiction.
  { change (Qabs 0) with 0%Q. apply pow2_pos. }
  destruct F as [C B]. apply canon_iff in C. unfold QZ. rewrite <- Q_1, Qabs_cond.
  change (1024) with (53 + 971). rewrite Qpower_plus by (unfold Qeq; simpl; lia).
  apply Qlt_le_trans with (Qpower 2 53 * Qpower 2 e)%Q.
  - apply Qmult_lt_compat_r; [apply pow2_pos|]. rewrite <- (Zpower_Qpower 2 53) by lia.
    rewrite Q_1. rewrite <- Zlt_Qlt. lia.
  - rewrite !(Qmult_comm (Qpower 2 53)). apply Qmult_le_compat_r; [|apply Qlt_le_weak, pow2_pos].
    apply Qpower_le_compat_l; [lia|]. unfold Qle; simpl; lia.
Qed.
