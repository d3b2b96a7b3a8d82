(** The statements about numbers, assembled from the lemmas. *)
From Coq Require Import ZArith NArith List Lia Bool QArith Qpower Qabs Lqa.
From Verif Require Import Common NumModel NumSpec FloatProofs NumProofs SqrtProofs.
Import ListNotations.
Open Scope Z_scope.

Lemma number_text d t x : finite x -> (Qabs (SF2Q x) <= inject_Z (10 ^ 60))%Q -> sep_ok [d] -> sep_ok [t] ->
  exists s ip fp out, numeral ip fp /\ tidy ip fp /\ (length fp <= 10)%nat /\
    (Qabs (numeral_value s ip fp - SF2Q x) <= 1 # 20000000000)%Q /\
    number_raw x = Ok (plain s ip fp) /\ localized [d] [t] s ip fp out /\
    number_to_string [d] [t] (zeros 100) None x = Ok out /\
    (forall ql, (forall c, In c ql -> c <> 0%N) ->
      number_to_string [d] [t] (zeros (100 + length ql)) (Some ql) x = Ok (out ++ 32%N :: ql)).
Proof.
  intros F B SD STT. destruct (written x F B) as (s & ip & fp & E & NU & T & LF & LI & V).
  destruct (to_string_plain d t s ip fp x E NU LF LI SD STT) as (out & LO & T1 & T2).
  exists s, ip, fp, out. repeat (split; [assumption|]). exact T2.
Qed.

Lemma read_numeral d t s ip fp : numeral ip fp -> (length (plain s ip fp) <= 40)%nat ->
  exists r, number_from_text false d t (zeros 41) (zeros 41) (plain s ip fp) = Ok (Some r) /\
    rounded r (numeral_value s ip fp).
Proof.
  intros NU L. assert (LI : (length ip <= 300)%nat). { unfold plain in L. rewrite !app_length in L. lia. }
  destruct (atof_rounded s ip fp NU LI) as (r & E & R). exists r. rewrite read_plain, E by auto. auto.
Qed.
Lemma read_local d t s ip fp out : numeral ip fp -> sep_ok d -> sep_ok t -> length d = length t -> d <> t ->
  localized d t s ip fp out -> (length out <= 40)%nat ->
  exists r, number_from_text true d t (zeros 41) (zeros 41) out = Ok (Some r) /\
    rounded r (numeral_value s ip fp).
Proof.
  intros NU SD STT L NE LO LL.
  assert (LI : (length ip <= 300)%nat).
  { destruct LO as (g & G & ->). pose proof (grouped_length _ _ _ G). rewrite !app_length in LL. lia. }
  destruct (atof_rounded s ip fp NU LI) as (r & E & R). exists r. rewrite (read_localized d t s ip fp out), E by auto. auto.
Qed.

Lemma whole_there_and_back d t z : Z.abs z <= 2 ^ 53 -> sep_ok [d] -> sep_ok [t] -> d <> t ->
  exists out, number_to_string [d] [t] (zeros 100) None (of_Z z) = Ok out /\
    number_from_text true [d] [t] (zeros 41) (zeros 41) out = Ok (Some (of_Z z)).
Proof.
  intros H SD STT NE. destruct (whole_written z H) as (ip & E & NU & T & DV & LI).
  destruct (to_string_plain d t _ ip [] _ E NU ltac:(simpl; lia) ltac:(lia) SD STT) as (out & LO & T1 & _).
  exists out. split; [exact T1|].
  rewrite (read_localized [d] [t] _ ip [] out NU SD STT eq_refl ltac:(congruence) LO).
  - now rewrite (whole_read z ip H NU DV ltac:(lia)).
  - pose proof (localized_length _ _ _ _ _ _ LO) as LL. cbn [length] in LL.
    assert ((length ip - 1) / 3 <= 5)%nat by (change 5%nat with (15 / 3)%nat; apply Nat.div_le_mono; lia). lia.
Qed.
Lemma whole_raw z : Z.abs z <= 2 ^ 53 ->
  exists ip, number_raw (of_Z z) = Ok (plain (z <? 0) ip []) /\ numeral ip [] /\ tidy ip [] /\ dvalue ip = Z.abs z.
Proof. intros H. destruct (whole_written z H) as (ip & A & B & C & D & _). eauto. Qed.

Lemma numeral_back d t s ip fp out : numeral ip fp -> tidy ip fp -> (length fp <= 10)%nat -> dvalue ip < 2 ^ 19 ->
  sep_ok [d] -> sep_ok [t] -> d <> t -> localized [d] [t] s ip fp out ->
  exists r, number_from_text true [d] [t] (zeros 41) (zeros 41) out = Ok (Some r) /\
    number_to_string [d] [t] (zeros 100) None r = Ok out /\
    number_from_text false [d] [t] (zeros 41) (zeros 41) (plain s ip fp) = Ok (Some r) /\
    number_raw r = Ok (plain s ip fp).
Proof.
  intros NU T LF BD SD STT NE LO.
  assert (LI : (length ip <= 6)%nat).
  { destruct T as [[T|T] _]; [rewrite T; simpl; lia|]. destruct ip as [|c ip]; [simpl; lia|].
    destruct NU as (_ & DI & _). pose proof (dvalue_pos c ip DI T) as P. cbn [length].
    assert (L : 10 ^ Z.of_nat (length ip) < 10 ^ 6) by lia. apply Z.pow_lt_mono_r_iff in L; lia. }
  destruct (read_write s ip fp NU T LF BD) as (r & E & W). exists r.
  assert (D3 : ((length ip - 1) / 3 <= 2)%nat) by (change 2%nat with (6 / 3)%nat; apply Nat.div_le_mono; lia).
  pose proof (localized_length _ _ _ _ _ _ LO) as LL. pose proof (plain_length s ip fp) as PL.
  split; [rewrite (read_localized [d] [t] s ip fp out NU SD STT eq_refl ltac:(congruence) LO ltac:(lia)), E; reflexivity|].
  split; [|split; [rewrite read_plain, E by (auto; lia); reflexivity|exact W]].
  destruct (to_string_plain d t s ip fp r W NU LF ltac:(lia) SD STT) as (out' & LO' & T1 & _).
  rewrite T1. f_equal.
  (* both forms give back the same text through the writer *)
  destruct LO as (g & G & ->), LO' as (g' & G' & ->).
  assert (UNI : forall a g1, grouped [t] a g1 -> forall g2, grouped [t] a g2 -> g1 = g2).
  { assert (POS : forall a g, grouped [t] a g -> (0 < length a)%nat).
    { destruct 1 as [? X|]; [destruct ds; [congruence|simpl; lia]|rewrite app_length; simpl; lia]. }
    induction 1 as [a X L|a h u v w GG IH]; intros g2 G2.
    - inversion G2 as [|a' h' u' v' w' GG' EQ]; subst; auto. apply POS in GG'. rewrite app_length in L. simpl in L. lia.
    - inversion G2 as [a' X L EQ|a' h' u' v' w' GG' EQ]; subst.
      + apply POS in GG. rewrite app_length in L. simpl in L. lia.
      + 
        assert (Q : a' = a /\ [u'; v'; w'] = [u; v; w]).
        { assert (LLL : length a' = length a) by (apply (f_equal (@length N)) in EQ; rewrite !app_length in EQ; simpl in EQ; lia).
          split.
          - apply (f_equal (firstn (length a))) in EQ. rewrite <- LLL in EQ at 1. rewrite !firstn_app, !firstn_all, !Nat.sub_diag in EQ.
            cbn [firstn] in EQ. now rewrite !app_nil_r in EQ.
          - apply (f_equal (skipn (length a))) in EQ. rewrite <- LLL in EQ at 1. rewrite !skipn_app, !skipn_all, !Nat.sub_diag in EQ.
            exact EQ. }
        destruct Q as [-> Q]. injection Q as -> -> ->. now rewrite (IH h' GG'). }
  now rewrite (UNI _ _ G _ G').
Qed.

(** ** Random numbers *)
Lemma between_in_range rand lo hi a b : (forall i, 0 <= rand i <= RAND_MAX) -> finite lo -> finite hi ->
  is_round (SF2Q lo) a -> is_round (SF2Q hi) b -> int_range a -> int_range b -> Z.abs (a - b) <= 2147483647 ->
  exists r z, number_between rand lo hi = Ok r /\ finite r /\ (SF2Q r == inject_Z z)%Q /\
    Z.min a b <= z <= Z.max a b.
Proof.
  intros HR FL FH RA RB IA IB AB.
  destruct (between_spec rand lo hi a b HR FL FH RA RB IA IB AB) as (r & E & F & V).
  exists r. eexists. split; [exact E|]. split; [exact F|]. split; [exact V|].
  pose proof (Z.mod_pos_bound (rand 0%nat) (Z.abs (a - b) + 1) ltac:(lia)). lia.
Qed.
Lemma between_onto lo hi a b z : finite lo -> finite hi ->
  is_round (SF2Q lo) a -> is_round (SF2Q hi) b -> int_range a -> int_range b -> Z.abs (a - b) <= 2147483647 ->
  Z.min a b <= z <= Z.max a b ->
  exists rand r, (forall i, 0 <= rand i <= RAND_MAX) /\ number_between rand lo hi = Ok r /\ (SF2Q r == inject_Z z)%Q.
Proof.
  intros FL FH RA RB IA IB AB ZB. set (k := z - Z.min a b).
  assert (HR : forall i : nat, 0 <= (fun _ : nat => k) i <= RAND_MAX) by (intros; unfold k, RAND_MAX; lia).
  destruct (between_spec (fun _ => k) lo hi a b HR FL FH RA RB IA IB AB) as (r & E & F & V).
  exists (fun _ => k), r. split; [exact HR|]. split; [exact E|]. rewrite V.
  rewrite Z.mod_small by (unfold k; lia). replace (Z.min a b + k) with z by (unfold k; lia). reflexivity.
Qed.

Lemma is_round_whole_eq q z : (q == inject_Z z)%Q -> is_round q z.
Proof.
  intros E. assert (D : (Qabs (q - inject_Z z) == 0)%Q).
  { rewrite E. setoid_replace (inject_Z z - inject_Z z)%Q with 0%Q by ring. reflexivity. }
  split; [rewrite D; discriminate|]. intros H. rewrite D in H. discriminate.
Qed.

(** ** Predicates *)
Lemma order_Q a b : finite a -> finite b ->
  (number_lt a b = true <-> SF2Q a < SF2Q b)%Q /\ (number_le a b = true <-> SF2Q a <= SF2Q b)%Q /\
  (number_gt a b = true <-> SF2Q b < SF2Q a)%Q /\ (number_ge a b = true <-> SF2Q b <= SF2Q a)%Q /\
  (number_eq a b = true <-> SF2Q a == SF2Q b)%Q /\ (number_neq a b = true <-> ~ SF2Q a == SF2Q b)%Q /\
  (number_positive a = true <-> 0 < SF2Q a)%Q /\ (number_negative a = true <-> SF2Q a < 0)%Q.
Proof.
  intros FA FB. unfold number_lt, number_le, number_gt, number_ge, number_eq, number_neq, number_positive, number_negative.
  do 5 (split; [first [now apply SFltb_Q|now apply SFleb_Q|now apply SFeqb_Q]|]).
  split; [rewrite negb_true_iff, <- not_true_iff_false, SFeqb_Q by auto; reflexivity|].
  split; [exact (SFltb_Q zero64 a I FA)|exact (SFltb_Q a zero64 FA I)].
Qed.
Definition one_of (a b c : bool) : Prop :=
  (a = true /\ b = false /\ c = false) \/ (a = false /\ b = true /\ c = false) \/ (a = false /\ b = false /\ c = true).
Lemma trichotomy a b : a <> S754_nan -> b <> S754_nan ->
  one_of (number_lt a b) (number_eq a b) (number_gt a b) /\
  number_le a b = negb (number_gt a b) /\ number_ge a b = negb (number_lt a b) /\
  number_neq a b = negb (number_eq a b) /\
  one_of (number_positive a) (number_negative a) (number_eq a zero64).
Proof.
  intros NA NB.
  unfold one_of, number_lt, number_le, number_gt, number_ge, number_eq, number_neq, number_positive, number_negative, SFltb, SFleb, SFeqb.
  rewrite (SFcompare_swap a b), (SFcompare_swap a zero64).
  destruct (SFcompare_some a b NA NB) as ([| |] & ->); destruct (SFcompare_some a zero64 NA ltac:(discriminate)) as ([| |] & ->);
    cbn; tauto.
Qed.
Lemma is_trunc_unique q z z' : is_trunc q z -> is_trunc q z' -> z = z'.
Proof.
  unfold is_trunc. rewrite !inj_abs. intros (A1 & A2 & A3) (B1 & B2 & B3).
  assert (X : Z.abs z < Z.abs z' + 1).
  { apply inj_lt. rewrite inject_Z_plus. change (inject_Z 1) with 1%Q. eapply Qle_lt_trans; eauto. }
  assert (Y : Z.abs z' < Z.abs z + 1).
  { apply inj_lt. rewrite inject_Z_plus. change (inject_Z 1) with 1%Q. eapply Qle_lt_trans; eauto. }
  destruct (Z.eq_dec z z') as [|NE]; [auto|exfalso].
  assert (z' = - z /\ z <> 0) as [-> NZ] by lia.
  assert (Q0 : (q == 0)%Q).
  { rewrite inject_Z_opp in B3. destruct (Z.lt_trichotomy z 0) as [L|[L|L]]; [|lia|].
    - assert (P : (inject_Z z < 0)%Q) by (change 0%Q with (inject_Z 0); now rewrite <- Zlt_Qlt).
      destruct (Q_dec q 0) as [[H|H]|H]; [|exfalso|exact H].
      + exfalso. assert (0 < (- q) * (- inject_Z z))%Q by (apply Qmult_lt_0_compat; lra).
        setoid_replace (- q * - inject_Z z)%Q with (- (q * - inject_Z z))%Q in H0 by ring. lra.
      + assert (0 < q * (- inject_Z z))%Q by (apply Qmult_lt_0_compat; lra).
        setoid_replace (q * - inject_Z z)%Q with (- (q * inject_Z z))%Q in H0 by ring. lra.
    - assert (P : (0 < inject_Z z)%Q) by (change 0%Q with (inject_Z 0); now rewrite <- Zlt_Qlt).
      destruct (Q_dec q 0) as [[H|H]|H]; [exfalso|exfalso|exact H].
      + assert (0 < (- q) * (inject_Z z))%Q by (apply Qmult_lt_0_compat; lra).
        setoid_replace (- q * inject_Z z)%Q with (- (q * inject_Z z))%Q in H0 by ring. lra.
      + assert (0 < q * (inject_Z z))%Q by (apply Qmult_lt_0_compat; lra).
        setoid_replace (q * - inject_Z z)%Q with (- (q * inject_Z z))%Q in B3 by ring. lra. }
  rewrite Q0 in A1. change (Qabs 0) with (inject_Z 0) in A1. apply inj_le in A1. lia.
Qed.
Lemma c_int_trunc x z : finite x -> is_trunc (SF2Q x) z -> int_range z -> c_int x = Ok z.
Proof.
  intros F T R. destruct (trunc_spec x F) as (z' & E & T'). rewrite (is_trunc_unique _ _ _ T T') in *.
  unfold c_int. rewrite E. apply in_int_iff in R. now rewrite R.
Qed.
Lemma rem2 z : Z.rem z 2 = 0 <-> Z.even z = true.
Proof.
  rewrite Z.even_spec. split; intros H.
  - apply Z.rem_divide in H; [|lia]. destruct H as (k & ->). exists k. lia.
  - destruct H as (k & ->). rewrite Z.mul_comm. now rewrite Z.rem_mul.
Qed.
Lemma parity x z : finite x -> is_trunc (SF2Q x) z -> int_range z ->
  number_odd x = Ok (Z.odd z) /\ number_even x = Ok (Z.even z).
Proof.
  intros F T R. unfold number_odd, number_even. rewrite (c_int_trunc x z F T R). cbn [obind]. unfold build_bool.
  rewrite <- Z.negb_even. destruct (Z.eqb_spec (Z.rem z 2) 0) as [H|H].
  - apply rem2 in H. rewrite H. auto.
  - destruct (Z.even z) eqn:EV; [elim H; now apply rem2|]. auto.
Qed.
Lemma truth x z : finite x -> is_trunc (SF2Q x) z -> int_range z -> number_to_boolean x = Ok (negb (z =? 0)).
Proof. intros F T R. unfold number_to_boolean. rewrite (c_int_trunc x z F T R). reflexivity. Qed.
Lemma truth_whole x z : finite x -> (SF2Q x == inject_Z z)%Q -> int_range z ->
  (number_to_boolean x = Ok true <-> ~ SF2Q x == 0)%Q /\ (number_to_boolean x = Ok false <-> SF2Q x == 0)%Q.
Proof.
  intros F V R. unfold number_to_boolean. rewrite (c_int_whole x z F V R). cbn [obind]. unfold build_bool. rewrite V.
  unfold Qeq, inject_Z. cbn [Qnum Qden]. destruct (Z.eqb_spec z 0) as [->|]; cbn [negb]; split; split; intros; try congruence; lia.
Qed.

(** ** Arithmetic *)
Lemma arith_rounded a b : finite a -> finite b ->
  (below (SF2Q a + SF2Q b) -> exists r, number_add a b = mkN a (Some r) false /\ number_inc a b = mkN r None false /\
     rounded r (SF2Q a + SF2Q b)) /\
  (below (SF2Q a - SF2Q b) -> exists r, number_minus a b = mkN a (Some r) false /\ number_dec a b = mkN r None false /\
     rounded r (SF2Q a - SF2Q b)) /\
  (below (SF2Q a * SF2Q b) -> exists r, number_multiply a b = mkN a (Some r) false /\ number_mul a b = mkN r None false /\
     rounded r (SF2Q a * SF2Q b)) /\
  (~ (SF2Q b == 0)%Q -> below (SF2Q a / SF2Q b) -> exists r, number_divide a b = mkN a (Some r) false /\ number_div a b = mkN r None false /\
     rounded r (SF2Q a / SF2Q b)).
Proof.
  intros FA FB. split; [|split; [|split]].
  - intros B. exists (add64 a b). split; [reflexivity|]. split; [reflexivity|]. now apply SFadd_rounded.
  - intros B. exists (sub64 a b). split; [reflexivity|]. split; [reflexivity|]. now apply SFsub_rounded.
  - intros B. exists (mul64 a b). split; [reflexivity|]. split; [reflexivity|]. now apply SFmul_rounded.
  - intros NZ B. exists (div64 a b).
    assert (Z0 : SFeqb b zero64 = false).
    { apply not_true_iff_false. rewrite (SFeqb_Q b zero64 FB I). exact NZ. }
    unfold number_divide, number_div, fresh. rewrite Z0. split; [reflexivity|]. split; [reflexivity|]. now apply SFdiv_rounded.
Qed.
Lemma arith_whole x y : Z.abs x <= 2 ^ 53 -> Z.abs y <= 2 ^ 53 ->
  (Z.abs (x + y) <= 2 ^ 53 -> exists r, n_ans (number_add (of_Z x) (of_Z y)) = Some r /\ (SF2Q r == inject_Z (x + y))%Q) /\
  (Z.abs (x - y) <= 2 ^ 53 -> exists r, n_ans (number_minus (of_Z x) (of_Z y)) = Some r /\ (SF2Q r == inject_Z (x - y))%Q) /\
  (Z.abs (x * y) <= 2 ^ 53 -> exists r, n_ans (number_multiply (of_Z x) (of_Z y)) = Some r /\ (SF2Q r == inject_Z (x * y))%Q) /\
  (y <> 0 -> (y | x) -> exists r, n_ans (number_divide (of_Z x) (of_Z y)) = Some r /\ (SF2Q r == inject_Z (x / y))%Q).
Proof.
  intros HX HY. destruct (of_Z_ok x HX) as [FX VX]. destruct (of_Z_ok y HY) as [FY VY].
  split; [|split; [|split]].
  - intros H. eexists. split; [reflexivity|]. now apply add_whole.
  - intros H. eexists. split; [reflexivity|]. now apply sub_whole.
  - intros H. eexists. split; [reflexivity|]. now apply mul_whole.
  - intros NZ (k & ->). rewrite Z.div_mul by auto.
    assert (KB : Z.abs k <= 2 ^ 53) by nia.
    destruct (of_Z_ok k KB) as [FK VK].
    assert (YZ : ~ (inject_Z y == 0)%Q) by (unfold Qeq, inject_Z; simpl; lia).
    assert (E : (SF2Q (of_Z (k * y)) / SF2Q (of_Z y) == inject_Z k)%Q).
    { rewrite VX, VY, inject_Z_mult. field. exact YZ. }
    destruct (arith_rounded (of_Z (k * y)) (of_Z y) FX FY) as (_ & _ & _ & D).
    destruct D as (r & D1 & _ & R).
    { rewrite VY. exact YZ. }
    { eapply below_ext; [symmetry; exact E|]. apply below_whole. lia. }
    exists r. rewrite D1. split; [reflexivity|]. rewrite <- E. apply (rounded_exact r _ (of_Z k) R FK). now rewrite VK, E.
Qed.
Lemma div_zero a b :
  (forall s, b = S754_zero s ->
     number_divide a b = mkN a None true /\ number_div a b = mkN a None true /\ number_modulo a b = mkN a None true) /\
  ((forall s, b <> S754_zero s) ->
     n_err (number_divide a b) = false /\ n_err (number_div a b) = false /\ n_err (number_modulo a b) = false /\
     n_self (number_divide a b) = a /\ n_self (number_modulo a b) = a).
Proof.
  split.
  - intros s ->. destruct s; repeat split; reflexivity.
  - intros H. assert (Z0 : SFeqb b zero64 = false).
    { destruct b as [s|[]| |[] m e]; try reflexivity. now elim (H s). }
    unfold number_divide, number_div, number_modulo, fresh. rewrite Z0. auto.
Qed.
Lemma modulo_spec a b : finite a -> finite b -> ~ (SF2Q b == 0)%Q ->
  exists r, number_modulo a b = mkN a (Some r) false /\ finite r /\
    (exists q, SF2Q a == inject_Z q * SF2Q b + SF2Q r)%Q /\ (Qabs (SF2Q r) < Qabs (SF2Q b))%Q /\ (0 <= SF2Q r * SF2Q a)%Q.
Proof.
  intros FA FB NZ. exists (c_fmod a b).
  assert (Z0 : SFeqb b zero64 = false).
  { apply not_true_iff_false. rewrite (SFeqb_Q b zero64 FB I). exact NZ. }
  unfold number_modulo, fresh. rewrite Z0. split; [reflexivity|]. now apply fmod_spec.
Qed.
Lemma abs_spec x : finite x -> finite (number_abs x) /\ (SF2Q (number_abs x) == Qabs (SF2Q x))%Q.
Proof.
  destruct x as [s|s| |s m e]; simpl finite; try contradiction.
  - intros _. split; [exact I|reflexivity].
  - intros H. split; [exact H|]. cbn [number_abs SFabs SF2Q]. unfold number_abs. cbn [SFabs SF2Q cond_Zopp].
    unfold QZ. rewrite Qabs_Qmult, (Qabs_pos (Qpower 2 e)) by (apply Qlt_le_weak, pow2_pos).
    apply Qmult_comp; [|reflexivity]. destruct s; reflexivity.
Qed.
Lemma sqrt_square z : 0 <= z -> z * z <= 2 ^ 53 -> (SF2Q (number_sqrt (of_Z (z * z))) == inject_Z z)%Q.
Proof.
  intros Z0 B. destruct (of_Z_ok (z * z)) as [F V]; [lia|]. assert (ZB : Z.abs z <= 2 ^ 53) by nia.
  destruct (of_Z_ok z ZB) as [FZ VZ].
  assert (P : (0 <= inject_Z z)%Q) by (change 0%Q with (inject_Z 0); now rewrite <- Zle_Qle).
  rewrite <- VZ. apply (root_exact _ (SF2Q (of_Z (z * z)))); auto.
  - apply sqrt_spec; auto. rewrite V, inject_Z_mult. now apply Qmult_le_0_compat.
  - now rewrite VZ.
  - rewrite VZ, V, inject_Z_mult. reflexivity.
Qed.

(** ** Bits *)
Lemma int_bits z : int_range z <-> (forall i, 31 <= i -> Z.testbit z i = Z.testbit z 31).
Proof.
  unfold int_range. split.
  - intros H i I. destruct (Z.le_gt_cases 0 z) as [P|P].
    + assert (G : forall j, 31 <= j -> Z.testbit z j = false).
      { intros j J. destruct (Z.eq_dec z 0) as [->|]; [apply Z.bits_0|]. apply Z.bits_above_log2; [lia|].
        assert (Z.log2 z < 31); [|lia]. apply Z.log2_lt_pow2; [lia|]. change (2 ^ 31) with 2147483648. lia. }
      rewrite !G by lia. reflexivity.
    + assert (G : forall j, 31 <= j -> Z.testbit z j = true).
      { intros j J. rewrite <- (Z.opp_involutive z). rewrite Z.bits_opp by lia.
        rewrite negb_true_iff. destruct (Z.eq_dec (Z.pred (- z)) 0) as [E|E]; [rewrite E; apply Z.bits_0|].
        apply Z.bits_above_log2; [lia|]. assert (Z.log2 (Z.pred (- z)) < 31); [|lia]. apply Z.log2_lt_pow2; [lia|].
        change (2 ^ 31) with 2147483648. lia. }
      rewrite !G by lia. reflexivity.
  - intros H. destruct (Z.le_gt_cases 0 z) as [P|P].
    + destruct (Z.le_gt_cases z 2147483647) as [|G]; [lia|exfalso].
      assert (L : 31 <= Z.log2 z) by (apply Z.log2_le_pow2; [lia|]; change (2 ^ 31) with 2147483648; lia).
      pose proof (Z.bit_log2 z ltac:(lia)) as B1. pose proof (Z.bits_above_log2 z (Z.log2 z + 1) P ltac:(lia)) as B2.
      rewrite H in B1 by lia. rewrite H in B2 by lia. congruence.
    + destruct (Z.le_gt_cases (- 2147483648) z) as [|G]; [lia|exfalso]. set (y := Z.pred (- z)).
      assert (Y : 2147483648 <= y) by (unfold y; lia).
      assert (T : forall i, 0 <= i -> Z.testbit z i = negb (Z.testbit y i)).
      { intros i I. rewrite <- (Z.opp_involutive z) at 1. now rewrite Z.bits_opp by lia. }
      assert (L : 31 <= Z.log2 y) by (apply Z.log2_le_pow2; [lia|]; change (2 ^ 31) with 2147483648; lia).
      pose proof (Z.bit_log2 y ltac:(lia)) as B1. pose proof (Z.bits_above_log2 y (Z.log2 y + 1) ltac:(lia) ltac:(lia)) as B2.
      pose proof (H (Z.log2 y) L) as H1. pose proof (H (Z.log2 y + 1) ltac:(lia)) as H2.
      rewrite T in H1 by lia. rewrite T in H2 by lia. rewrite B1 in H1. rewrite B2 in H2. cbn in H1, H2. congruence.
Qed.
Lemma bit_ops a b x y : finite a -> finite b -> is_trunc (SF2Q a) x -> is_trunc (SF2Q b) y -> int_range x -> int_range y ->
  exists r1 r2 r3, number_bit_and a b = Ok r1 /\ number_bit_or a b = Ok r2 /\ number_bit_xor a b = Ok r3 /\
  exists z1 z2 z3, (SF2Q r1 == inject_Z z1)%Q /\ (SF2Q r2 == inject_Z z2)%Q /\ (SF2Q r3 == inject_Z z3)%Q /\
    int_range z1 /\ int_range z2 /\ int_range z3 /\
    forall i, 0 <= i -> Z.testbit z1 i = Z.testbit x i && Z.testbit y i /\
                        Z.testbit z2 i = Z.testbit x i || Z.testbit y i /\
                        Z.testbit z3 i = xorb (Z.testbit x i) (Z.testbit y i).
Proof.
  intros FA FB TA TB RX RY. unfold number_bit_and, number_bit_or, number_bit_xor.
  rewrite (c_int_trunc a x FA TA RX), (c_int_trunc b y FB TB RY). cbn [obind].
  pose proof (proj1 (int_bits x) RX) as BX. pose proof (proj1 (int_bits y) RY) as BY.
  assert (I1 : int_range (Z.land x y)).
  { apply int_bits. intros i I. rewrite !Z.land_spec, (BX i), (BY i); auto. }
  assert (I2 : int_range (Z.lor x y)).
  { apply int_bits. intros i I. rewrite !Z.lor_spec, (BX i), (BY i); auto. }
  assert (I3 : int_range (Z.lxor x y)).
  { apply int_bits. intros i I. rewrite !Z.lxor_spec, (BX i), (BY i); auto. }
  do 3 eexists. do 3 (split; [reflexivity|]).
  exists (Z.land x y), (Z.lor x y), (Z.lxor x y). unfold int_range in I1, I2, I3.
  split; [apply of_Z_ok; lia|]. split; [apply of_Z_ok; lia|]. split; [apply of_Z_ok; lia|].
  do 3 (split; [assumption|]). intros i I. now rewrite Z.land_spec, Z.lor_spec, Z.lxor_spec.
Qed.
