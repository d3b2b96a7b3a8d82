From Coq Require Import ZArith NArith List Lia Bool QArith Qpower Qabs Lqa.
From Verif Require Import Common NumModel NumSpec FloatProofs.
Import ListNotations.
Open Scope Z_scope.

(** ** Digits *)
Lemma dvalue_app a b : dvalue (a ++ b) = fold_left (fun x c => 10 * x + (Z.of_N c - 48)) b (dvalue a).
Proof. unfold dvalue. apply fold_left_app. Qed.
Lemma dvalue_snoc a c : dvalue (a ++ [c]) = 10 * dvalue a + (Z.of_N c - 48).
Proof. rewrite dvalue_app. reflexivity. Qed.
Lemma digits_app a b : digits (a ++ b) <-> digits a /\ digits b.
Proof. apply Forall_app. Qed.
Lemma dvalue_bound ds : digits ds -> 0 <= dvalue ds < 10 ^ Z.of_nat (length ds).
Proof.
  induction ds as [|c ds IH] using rev_ind; intros D.
  - vm_compute. split; congruence.
  - apply digits_app in D. destruct D as [D1 D2]. inversion D2 as [|? ? D3]; subst. unfold digit in D3.
    specialize (IH D1). rewrite dvalue_snoc, app_length. cbn [length].
    rewrite Nat2Z.inj_add, Z.pow_add_r by lia. change (10 ^ Z.of_nat 1) with 10. lia.
Qed.
Lemma dvalue_concat a b : dvalue (a ++ b) = dvalue a * 10 ^ Z.of_nat (length b) + dvalue b.
Proof.
  induction b as [|c b IH] using rev_ind.
  - rewrite app_nil_r. change (dvalue []) with 0. cbn [length]. lia.
  - rewrite app_assoc, !dvalue_snoc, app_length, IH. cbn [length].
    rewrite Nat2Z.inj_add, Z.pow_add_r by lia. change (10 ^ Z.of_nat 1) with 10. lia.
Qed.
Lemma dvalue_zeros k : dvalue (repeat 48%N k) = 0.
Proof.
  induction k as [|k IH]; [reflexivity|]. cbn [repeat]. rewrite repeat_cons, dvalue_snoc, IH. reflexivity.
Qed.
Lemma dvalue_pos c ds : digits (c :: ds) -> c <> 48%N -> 10 ^ Z.of_nat (length ds) <= dvalue (c :: ds).
Proof.
  intros D N. change (c :: ds) with ([c] ++ ds). rewrite dvalue_concat.
  inversion D as [|? ? D1 D2]; subst. unfold digit in D1. pose proof (dvalue_bound ds D2).
  assert (0 < 10 ^ Z.of_nat (length ds)) by lia.
  assert (1 <= dvalue [c]) by (unfold dvalue; cbn [fold_left]; lia). nia.
Qed.

Lemma digits_val_spec ds : forall acc, digits ds ->
  Z.of_N (digits_val ds acc) = fold_left (fun x c => 10 * x + (Z.of_N c - 48)) ds (Z.of_N acc).
Proof.
  induction ds as [|c ds IH]; intros acc D; [reflexivity|].
  inversion D as [|? ? D1 D2]; subst. unfold digit in D1. cbn [digits_val fold_left].
  rewrite IH by auto. f_equal. unfold c0. lia.
Qed.
Lemma digits_val_dvalue ds : digits ds -> Z.of_N (digits_val ds 0) = dvalue ds.
Proof. intros D. now rewrite digits_val_spec. Qed.

Lemma digit_of n : (n < 10)%N -> digit (c0 + n)%N.
Proof. unfold digit, c0. lia. Qed.

(** the digits written for a number *)
Lemma dec_loop_write fuel : forall ds acc, ds <> [] -> digits ds -> (ds = [48%N] \/ hd 48%N ds <> 48%N) ->
  (length ds <= fuel)%nat -> dec_loop fuel (Z.to_N (dvalue ds)) acc = ds ++ acc.
Proof.
  induction fuel as [|f IH]; intros ds acc NE D T L.
  - destruct ds; [congruence|simpl in L; lia].
  - destruct ds as [|c ds _] using rev_ind; [congruence|].
    apply digits_app in D. destruct D as [D1 D2]. inversion D2 as [|? ? D3 _]; subst. unfold digit in D3.
    cbn [dec_loop]. rewrite dvalue_snoc.
    pose proof (dvalue_bound ds D1) as [B0 _].
    assert (M : (Z.to_N (10 * dvalue ds + (Z.of_N c - 48)) mod 10 = c - 48)%N).
    { apply N2Z.inj. rewrite N2Z.inj_mod, Z2N.id by lia. change (Z.of_N 10) with 10.
      rewrite N2Z.inj_sub by lia. rewrite Z.mul_comm, Z.add_comm, Z.mod_add by lia. apply Z.mod_small. lia. }
    assert (V : (Z.to_N (10 * dvalue ds + (Z.of_N c - 48)) / 10 = Z.to_N (dvalue ds))%N).
    { apply N2Z.inj. rewrite N2Z.inj_div, !Z2N.id by lia. change (Z.of_N 10) with 10.
      rewrite Z.mul_comm, Z.div_add_l by lia. rewrite (Z.div_small (Z.of_N c - 48)) by lia. lia. }
    rewrite M, V. replace (c0 + (c - 48))%N with c by (unfold c0; lia).
    destruct ds as [|d ds].
    + assert (Q : (Z.to_N (10 * dvalue [] + (Z.of_N c - 48)) <? 10)%N = true).
      { apply N.ltb_lt. change (dvalue []) with 0. lia. }
      rewrite Q. reflexivity.
    + assert (T' : d <> 48%N). { destruct T as [T|T]; [destruct ds; discriminate|exact T]. }
      pose proof (dvalue_pos d ds D1 T') as P.
      assert (0 < 10 ^ Z.of_nat (length ds)) by (apply Z.pow_pos_nonneg; lia).
      assert (Q : (Z.to_N (10 * dvalue (d :: ds) + (Z.of_N c - 48)) <? 10)%N = false).
      { apply N.ltb_ge. lia. }
      rewrite Q. rewrite IH; auto.
      * rewrite <- app_assoc. reflexivity.
      * congruence.
      * rewrite app_length in L. cbn [length] in *. lia.
Qed.
Lemma dec_loop_exists fuel : forall n acc, (n < 10 ^ N.of_nat fuel)%N -> (0 < fuel)%nat ->
  exists ds, dec_loop fuel n acc = ds ++ acc /\ ds <> [] /\ digits ds /\
    (ds = [48%N] \/ hd 48%N ds <> 48%N) /\ dvalue ds = Z.of_N n.
Proof.
  induction fuel as [|f IH]; intros n acc B F; [lia|]. cbn [dec_loop].
  assert (R : (n mod 10 < 10)%N) by (apply N.mod_lt; lia).
  destruct (N.ltb_spec n 10) as [L|L].
  - exists [(c0 + n mod 10)%N]. rewrite N.mod_small by auto. split; [reflexivity|]. split; [congruence|].
    split; [constructor; [apply digit_of; lia|constructor]|]. split.
    + destruct (N.eq_dec n 0) as [->|]; [left; reflexivity|right; cbn [hd]; unfold c0; lia].
    + unfold dvalue, c0. cbn [fold_left]. lia.
  - destruct (IH (n / 10)%N ((c0 + n mod 10)%N :: acc)) as (ds & E & NE & D & T & V).
    + rewrite Nat2N.inj_succ, N.pow_succ_r' in B. apply N.div_lt_upper_bound; lia.
    + destruct f; [|lia]. change (10 ^ N.of_nat 1)%N with 10%N in B. lia.
    + exists (ds ++ [(c0 + n mod 10)%N]). rewrite E, <- app_assoc. split; [reflexivity|].
      split; [destruct ds; discriminate|]. split.
      { apply digits_app. split; auto. constructor; [apply digit_of; lia|constructor]. }
      split.
      { destruct ds as [|d ds]; [congruence|]. cbn [app hd]. destruct T as [T|T].
        - injection T as -> ->. exfalso. change (dvalue [48%N]) with 0 in V.
          assert (1 <= n / 10)%N by (apply N.div_le_lower_bound; lia). lia.
        - right. exact T. }
      rewrite dvalue_snoc, V. unfold c0. rewrite N2Z.inj_add, N2Z.inj_div, N2Z.inj_mod.
      change (Z.of_N 10) with 10. pose proof (Z.div_mod (Z.of_N n) 10 ltac:(lia)). lia.
Qed.
Lemma size_nat_bound n : (n < 10 ^ N.of_nat (S (N.size_nat n)))%N.
Proof.
  apply N.lt_le_trans with (2 ^ N.of_nat (S (N.size_nat n)))%N.
  - destruct n as [|p]; [reflexivity|]. cbn [N.size_nat].
    assert (G : forall p, (N.pos p < 2 ^ N.of_nat (Pos.size_nat p))%N).
    { clear. induction p as [p IH|p IH|]; cbn [Pos.size_nat].
      - rewrite Nat2N.inj_succ, N.pow_succ_r'. lia.
      - rewrite Nat2N.inj_succ, N.pow_succ_r'. lia.
      - reflexivity. }
    specialize (G p). rewrite Nat2N.inj_succ, N.pow_succ_r'. lia.
  - apply N.pow_le_mono_l. lia.
Qed.
Lemma dec_spec n : dec n <> [] /\ digits (dec n) /\ (dec n = [48%N] \/ hd 48%N (dec n) <> 48%N) /\
  dvalue (dec n) = Z.of_N n.
Proof.
  unfold dec. destruct (dec_loop_exists (S (N.size_nat n)) n [] (size_nat_bound n)) as (ds & E & H); [lia|].
  rewrite E, app_nil_r. exact H.
Qed.
Lemma tidy_unique a b : a <> [] -> b <> [] -> digits a -> digits b ->
  (a = [48%N] \/ hd 48%N a <> 48%N) -> (b = [48%N] \/ hd 48%N b <> 48%N) -> dvalue a = dvalue b -> a = b.
Proof.
  intros N1 N2 D1 D2 T1 T2 E. set (f := (length a + length b)%nat).
  pose proof (dec_loop_write f a [] N1 D1 T1 ltac:(unfold f; lia)) as W1.
  pose proof (dec_loop_write f b [] N2 D2 T2 ltac:(unfold f; lia)) as W2.
  rewrite !app_nil_r in *. rewrite E in W1. congruence.
Qed.

Lemma dec_fix_spec w : forall n acc, (n < 10 ^ N.of_nat w)%N ->
  exists ds, dec_fix w n acc = ds ++ acc /\ length ds = w /\ digits ds /\ dvalue ds = Z.of_N n.
Proof.
  induction w as [|w IH]; intros n acc B.
  - change (10 ^ N.of_nat 0)%N with 1%N in B. exists []. repeat split; [constructor|]. change (dvalue []) with 0. lia.
  - cbn [dec_fix]. assert (R : (n mod 10 < 10)%N) by (apply N.mod_lt; lia).
    destruct (IH (n / 10)%N ((c0 + n mod 10)%N :: acc)) as (ds & E & L & D & V).
    { rewrite Nat2N.inj_succ, N.pow_succ_r' in B. apply N.div_lt_upper_bound; lia. }
    exists (ds ++ [(c0 + n mod 10)%N]). rewrite E, <- app_assoc. split; [reflexivity|].
    split; [rewrite app_length; cbn [length]; lia|]. split.
    { apply digits_app. split; auto. constructor; [apply digit_of; lia|constructor]. }
    rewrite dvalue_snoc, V. unfold c0. rewrite N2Z.inj_add, N2Z.inj_div, N2Z.inj_mod.
    change (Z.of_N 10) with 10. pose proof (Z.div_mod (Z.of_N n) 10 ltac:(lia)). lia.
Qed.

(** ** Stripping *)
Lemma strip_exists f : exists fp k, f = fp ++ repeat 48%N k /\ (fp = [] \/ last fp 48%N <> 48%N).
Proof.
  induction f as [|c f IH] using rev_ind.
  - exists [], 0%nat. auto.
  - destruct (N.eq_dec c 48) as [->|N].
    + destruct IH as (fp & k & -> & T). exists fp, (S k). split; auto.
      rewrite <- app_assoc. f_equal. cbn [repeat]. now rewrite repeat_cons.
    + exists (f ++ [c]), 0%nat. rewrite app_nil_r. split; auto. right. rewrite last_last. exact N.
Qed.
Lemma drop_zeros_repeat k : forall c r, c <> 48%N -> drop_zeros (repeat 48%N k ++ c :: r) = Ok (c :: r).
Proof.
  induction k as [|k IH]; intros c r N; cbn [repeat app drop_zeros].
  - destruct (N.eqb_spec c c0); [contradiction|reflexivity].
  - rewrite N.eqb_refl. auto.
Qed.
Lemma rev_repeat' {A} (x : A) k : rev (repeat x k) = repeat x k.
Proof. induction k as [|k IH]; [reflexivity|]. cbn [repeat rev]. now rewrite IH, repeat_cons. Qed.

Lemma strip_plain s ip fp k : numeral ip fp -> (fp = [] \/ last fp 48%N <> 48%N) ->
  (match drop_zeros (rev (sign_text s ++ ip ++ [cdot] ++ fp ++ repeat 48%N k)) with
   | Ok [] => UB
   | Ok (c :: r') => if (c =? cdot)%N then Ok (rev r') else Ok (rev (c :: r'))
   | UB => UB
   end) = Ok (plain s ip fp).
Proof.
  intros (NE & DI & DF) T. rewrite !app_assoc. rewrite rev_app_distr, rev_repeat'.
  destruct fp as [|c fp _] using rev_ind.
  - rewrite app_nil_r, rev_app_distr. cbn [rev app].
    change (cdot :: rev (sign_text s ++ ip)) with (cdot :: rev (sign_text s ++ ip)).
    rewrite drop_zeros_repeat by (unfold cdot; congruence). rewrite N.eqb_refl, rev_involutive.
    unfold plain. rewrite app_nil_r. reflexivity.
  - rewrite app_assoc, rev_app_distr. cbn [rev app].
    destruct T as [T|T]; [destruct fp; discriminate|]. rewrite last_last in T.
    rewrite drop_zeros_repeat by exact T.
    apply digits_app in DF. destruct DF as [_ DF]. inversion DF as [|? ? DC _]; subst. unfold digit in DC.
    assert (C : (c =? cdot)%N = false) by (apply N.eqb_neq; unfold cdot; lia). rewrite C.
    cbn [rev]. rewrite rev_involutive. unfold plain. rewrite <- !app_assoc.
    destruct (fp ++ [c]) as [|x y] eqn:X; [destruct fp; discriminate|]. reflexivity.
Qed.

(** ** Writing *)
Lemma dec_len n k : (0 < k)%nat -> Z.of_N n < 10 ^ Z.of_nat k -> (length (dec n) <= k)%nat.
Proof.
  intros K B. destruct (dec_spec n) as (NE & D & T & V). destruct (dec n) as [|c ds]; [congruence|].
  destruct T as [T|T]; [rewrite T; cbn [length]; lia|]. cbn [hd] in T.
  pose proof (dvalue_pos c ds D T) as P. cbn [length].
  assert (L : 10 ^ Z.of_nat (length ds) < 10 ^ Z.of_nat k) by lia.
  apply Z.pow_lt_mono_r_iff in L; lia.
Qed.

Lemma pow_split e : e < 0 -> (Qpower 2 e == 1 # Z.to_pos (2 ^ (- e)))%Q.
Proof.
  intros E. assert (P : 0 < 2 ^ (- e)) by (apply Z.pow_pos_nonneg; lia).
  replace e with (- (- e)) at 1 by lia. rewrite Qpower_opp.
  rewrite <- (Zpower_Qpower 2 (- e)) by lia.
  destruct (2 ^ (- e)) as [|p|p] eqn:X; [lia| |lia]. reflexivity.
Qed.

Lemma scaled_nonneg m e : 0 <= scaled m e.
Proof.
  unfold scaled, TEN10. destruct (Z.leb_spec 0 e).
  - pose proof (Z.pow_nonneg 2 e). nia.
  - assert (P : 0 < 2 ^ (- e)) by (apply Z.pow_pos_nonneg; lia).
    assert (0 <= Zpos m * 10000000000 / 2 ^ (- e)) by (apply Z.div_pos; lia).
    destruct (_ ?= _); [destruct (Z.even _)| |]; lia.
Qed.
Lemma scaled_err m e :
  (Qabs (QZ (Zpos m) e * inject_Z TEN10 - inject_Z (scaled m e)) <= 1 # 2)%Q.
Proof.
  unfold scaled. destruct (Z.leb_spec 0 e) as [E|E].
  - unfold QZ. rewrite <- (Zpower_Qpower 2 e) by lia. rewrite !inject_Z_mult.
    setoid_replace (inject_Z (Zpos m) * inject_Z (2 ^ e) * inject_Z TEN10 -
      inject_Z (Zpos m) * inject_Z (2 ^ e) * inject_Z TEN10)%Q with 0%Q by ring.
    unfold Qle. simpl. lia.
  - unfold QZ. rewrite pow_split by auto.
    assert (P : 0 < 2 ^ (- e)) by (apply Z.pow_pos_nonneg; lia).
    destruct (2 ^ (- e)) as [|d|d] eqn:X; [lia| |lia]. cbn [Z.to_pos].
    set (n := Zpos m * TEN10).
    pose proof (Z.div_mod n (Zpos d) ltac:(lia)) as DM.
    pose proof (Z.mod_pos_bound n (Zpos d) ltac:(lia)) as R.
    set (q := n / Zpos d) in *. set (r := n mod Zpos d) in *.
    assert (G : forall z, 2 * Z.abs (n - z * Zpos d) <= Zpos d ->
      (Qabs (inject_Z (Zpos m) * (1 # d) * inject_Z TEN10 - inject_Z z) <= 1 # 2)%Q).
    { intros z H.
      setoid_replace (inject_Z (Zpos m) * (1 # d) * inject_Z TEN10 - inject_Z z)%Q with ((n - z * Zpos d) # d)%Q.
      - unfold Qabs, Qle. cbn [Qnum Qden]. lia.
      - unfold n, Qeq, Qminus, Qplus, Qopp, Qmult, inject_Z. cbn [Qnum Qden].
        rewrite ?Pos.mul_1_l, ?Pos.mul_1_r. ring. }
    destruct (Z.compare_spec (2 * r) (Zpos d)) as [C|C|C].
    + destruct (Z.even q); apply G; lia.
    + apply G; lia.
    + apply G; lia.
Qed.
Lemma scaled_unique m e v :
  (Qabs (QZ (Zpos m) e * inject_Z TEN10 - inject_Z v) < 1 # 2)%Q -> scaled m e = v.
Proof.
  intros H. pose proof (scaled_err m e) as E.
  set (x := (QZ (Zpos m) e * inject_Z TEN10)%Q) in *.
  apply Qabs_Qlt_condition in H. apply Qabs_Qle_condition in E.
  assert (A : (inject_Z (scaled m e) - inject_Z v < 1)%Q) by lra.
  assert (B : (- (1) < inject_Z (scaled m e) - inject_Z v)%Q) by lra.
  unfold Qminus in A, B. rewrite <- inject_Z_opp, <- inject_Z_plus in A, B.
  change 1%Q with (inject_Z 1) in A. change (- (1))%Q with (inject_Z (-1)) in B.
  rewrite <- Zlt_Qlt in A, B. lia.
Qed.

Lemma flat_finite s m e : scaled m e < 10 ^ 95 ->
  exists ip fp, flat_text (S754_finite s m e) = Ok (plain s ip fp) /\ numeral ip fp /\ tidy ip fp /\
    (length fp <= 10)%nat /\ dvalue (ip ++ fp) * 10 ^ Z.of_nat (10 - length fp) = scaled m e /\
    (forall k, (0 < k)%nat -> scaled m e < 10 ^ Z.of_nat (k + 10) -> (length ip <= k)%nat).
Proof.
  intros B. pose proof (scaled_nonneg m e) as V0. set (v := scaled m e) in *.
  assert (VQ : 0 <= v / TEN10) by (apply Z.div_pos; unfold TEN10; lia).
  pose proof (Z.mod_pos_bound v TEN10 ltac:(unfold TEN10; lia)) as VR.
  pose proof (Z.div_mod v TEN10 ltac:(unfold TEN10; lia)) as DM.
  set (a := v / TEN10) in *. set (r := v mod TEN10) in *.
  destruct (dec_spec (Z.to_N a)) as (NE & D & T & VA). rewrite Z2N.id in VA by lia.
  destruct (dec_fix_spec 10 (Z.to_N r) []) as (f & FE & FL & FD & FV).
  { apply N2Z.inj_lt. rewrite Z2N.id by lia. exact (proj2 VR). }
  rewrite app_nil_r in FE. rewrite Z2N.id in FV by lia.
  assert (LEN : forall k, (0 < k)%nat -> v < 10 ^ Z.of_nat (k + 10) -> (length (dec (Z.to_N a)) <= k)%nat).
  { intros k K H. apply dec_len; auto. rewrite Z2N.id by lia.
    rewrite Nat2Z.inj_add, Z.pow_add_r in H by lia. change (10 ^ Z.of_nat 10) with TEN10 in H.
    apply Z.div_lt_upper_bound; [unfold TEN10; lia|]. lia. }
  destruct (strip_exists f) as (fp & k & -> & TF).
  exists (dec (Z.to_N a)), fp.
  assert (NUM : numeral (dec (Z.to_N a)) fp).
  { split; auto. split; auto. apply digits_app in FD. apply FD. }
  rewrite app_length, repeat_length in FL.
  split; [|split; [exact NUM|split; [split; auto|split; [lia|split; [|exact LEN]]]]].
  - unfold flat_text. cbn [f10]. fold v. fold a. fold r. cbv zeta. rewrite FE.
    rewrite firstn_all2.
    2:{ rewrite !app_length. specialize (LEN 85%nat ltac:(lia) B). rewrite repeat_length.
        assert (length (sign_text s) <= 1)%nat by (destruct s; cbn; lia). cbn [length]. lia. }
    pose proof (strip_plain s (dec (Z.to_N a)) fp k NUM TF) as SP.
    destruct (drop_zeros _) as [[|c r']|]; exact SP.
  - rewrite dvalue_concat in FV. rewrite dvalue_zeros, repeat_length in FV.
    rewrite dvalue_concat, VA. replace (10 - length fp)%nat with k by lia.
    rewrite Z.mul_add_distr_r. rewrite <- Z.mul_assoc, <- Z.pow_add_r by lia.
    replace (Z.of_nat (length fp) + Z.of_nat k) with 10 by lia. fold TEN10.
    change (10 ^ 10) with TEN10. lia.
Qed.

Lemma flat_zero s : flat_text (S754_zero s) = Ok (plain s [48%N] []).
Proof. destruct s; reflexivity. Qed.

(** the value written, in units of 10^-10 *)
Lemma numeral_value_scaled s ip fp : (length fp <= 10)%nat ->
  (numeral_value s ip fp * inject_Z TEN10 ==
   (if s then -1 else 1) * inject_Z (dvalue (ip ++ fp) * 10 ^ Z.of_nat (10 - length fp)))%Q.
Proof.
  intros L. unfold numeral_value. rewrite inject_Z_mult.
  assert (E : (Qpower 10 (- Z.of_nat (length fp)) * inject_Z TEN10 == inject_Z (10 ^ Z.of_nat (10 - length fp)))%Q).
  { change TEN10 with (10 ^ 10). rewrite !Zpower_Qpower by lia. change (inject_Z 10) with 10%Q.
    rewrite <- Qpower_plus by (unfold Qeq; simpl; lia).
    replace (- Z.of_nat (length fp) + 10) with (Z.of_nat (10 - length fp)) by lia. reflexivity. }
  rewrite <- E. ring.
Qed.

(** ** Grouping *)
Fixpoint grp (sep ds : list N) : list N :=
  match ds with
  | [] => []
  | c :: r => (if (length ds mod 3 =? 0)%nat then sep else []) ++ c :: grp sep r
  end.
Lemma grp_short sep ds : (length ds <= 2)%nat -> grp sep ds = ds.
Proof.
  destruct ds as [|a [|b [|c ds]]]; cbn; try reflexivity. lia.
Qed.
Lemma mod3_add n : ((n + 3) mod 3 = n mod 3)%nat.
Proof. replace (n + 3)%nat with (n + 1 * 3)%nat by lia. apply Nat.mod_add. lia. Qed.
Lemma grp_app sep ds a b c : grp sep (ds ++ [a; b; c]) = grp sep ds ++ sep ++ [a; b; c].
Proof.
  induction ds as [|x ds IH].
  - cbn. rewrite app_nil_r || idtac. reflexivity.
  - cbn [app grp]. rewrite IH. change (x :: ds ++ [a; b; c]) with ((x :: ds) ++ [a; b; c]).
    rewrite app_length. cbn [length]. rewrite mod3_add.
    rewrite <- !app_assoc. reflexivity.
Qed.
(** what is written for the integer part: its first digit has no separator *)
Definition grp1 (sep ds : list N) : list N :=
  match ds with [] => [] | c :: r => c :: grp sep r end.
Lemma grp1_grouped sep : forall n ds, (length ds <= n)%nat -> ds <> [] -> grouped sep ds (grp1 sep ds).
Proof.
  induction n as [|n IH]; intros ds L NE; [destruct ds; [congruence|simpl in L; lia]|].
  destruct (Nat.le_gt_cases (length ds) 3) as [S|S].
  - destruct ds as [|c ds]; [congruence|]. cbn [grp1]. rewrite grp_short by (cbn [length] in S; lia).
    constructor; auto.
  - assert (X : exists p a b c, ds = p ++ [a; b; c] /\ p <> []).
    { exists (firstn (length ds - 3) ds).
      pose proof (firstn_skipn (length ds - 3) ds) as FS.
      assert (SL : length (skipn (length ds - 3) ds) = 3%nat) by (rewrite skipn_length; lia).
      destruct (skipn (length ds - 3) ds) as [|a [|b [|c [|]]]]; try discriminate.
      exists a, b, c. split; [now rewrite FS|].
      intros Z. apply (f_equal (@length N)) in Z. rewrite firstn_length in Z. cbn [length] in Z. lia. }
    destruct X as (p & a & b & c & -> & PN). rewrite app_length in L, S. cbn [length] in L, S.
    assert (E : grp1 sep (p ++ [a; b; c]) = grp1 sep p ++ sep ++ [a; b; c]).
    { destruct p as [|x p]; [congruence|]. cbn [app grp1]. rewrite grp_app. reflexivity. }
    rewrite E. constructor. apply IH; [lia|auto].
Qed.

Lemma digit_isdigit c : digit c -> isdigit c = true.
Proof. unfold digit, isdigit, c0, c9. intros [A B]. apply andb_true_iff. split; apply N.leb_le; lia. Qed.
Lemma digit_not_dot c : digit c -> (c =? cdot)%N = false.
Proof. unfold digit, cdot. intros [A B]. apply N.eqb_neq. lia. Qed.

Lemma intl_digits dsep tsep ds : forall rest i s k out, digits ds -> (i + length ds = s)%nat -> (0 < k)%nat ->
  intl_loop dsep tsep (ds ++ rest) i s k out =
  intl_loop dsep tsep rest s s (k + length ds)%nat (out ++ grp tsep ds).
Proof.
  induction ds as [|c ds IH]; intros rest i s k out D E K.
  - cbn [app length grp] in *. rewrite app_nil_r, !Nat.add_0_r in *. now subst.
  - inversion D as [|? ? D1 D2]; subst. cbn [app intl_loop]. rewrite (digit_not_dot c D1), (digit_isdigit c D1).
    cbn [length] in *. rewrite IH; [|exact D2|lia|lia].
    assert (C1 : (i <? i + S (length ds))%nat = true) by (apply Nat.ltb_lt; lia).
    assert (C2 : (0 <? k)%nat = true) by (apply Nat.ltb_lt; lia).
    rewrite C1, C2. replace (i + S (length ds) - i)%nat with (S (length ds)) by lia.
    cbn [andb]. f_equal; [lia|]. cbn [grp length].
    destruct (S (length ds) mod 3 =? 0)%nat; rewrite <- ?app_assoc; reflexivity.
Qed.
Lemma intl_frac dsep tsep ds : forall i s k out, digits ds -> (s <= i)%nat ->
  intl_loop dsep tsep ds i s k out = out ++ ds.
Proof.
  induction ds as [|c ds IH]; intros i s k out D E; [now rewrite app_nil_r|].
  inversion D as [|? ? D1 D2]; subst. cbn [intl_loop]. rewrite (digit_not_dot c D1).
  assert (C1 : (i <? s)%nat = false) by (apply Nat.ltb_ge; lia). rewrite C1. cbn [andb].
  rewrite IH; [|exact D2|lia]. rewrite <- app_assoc. reflexivity.
Qed.

Lemma intl_dot dsep tsep r i s k out :
  intl_loop dsep tsep (46%N :: r) i s k out = intl_loop dsep tsep r (S i) s k (out ++ dsep).
Proof. reflexivity. Qed.

Lemma index_of_digits ds rest : forall i, (forall c, In c ds -> c <> cdot) ->
  index_of cdot (ds ++ rest) i = index_of cdot rest (i + length ds).
Proof.
  induction ds as [|c ds IH]; intros i H; cbn [app index_of length].
  - now rewrite Nat.add_0_r.
  - destruct (N.eqb_spec c cdot) as [->|]; [elim (H cdot); simpl; auto|].
    rewrite IH by (intros; apply H; simpl; auto). f_equal. lia.
Qed.
Lemma digits_no_dot ds c : digits ds -> In c ds -> c <> cdot.
Proof. intros D I. apply (proj1 (Forall_forall _ _) D) in I. unfold digit, cdot in *. lia. Qed.

Lemma intl_plain dsep tsep s ip fp : numeral ip fp ->
  let old := plain s ip fp in
  let st := match index_of cdot old 0 with Some i => i | None => length old end in
  intl_loop dsep tsep old 0 st 0 [] =
  sgn s ++ grp1 tsep ip ++ match fp with [] => [] | _ => dsep ++ fp end.
Proof.
  intros (NE & DI & DF) old st.
  set (frac := match fp with [] => [] | _ => 46%N :: fp end).
  assert (ST : st = length (sgn s ++ ip)).
  { unfold st, old, plain. fold frac. rewrite app_assoc, index_of_digits.
    - unfold frac. destruct fp; cbn [index_of]; [rewrite app_nil_r; reflexivity|].
      rewrite N.eqb_refl. reflexivity.
    - intros c I. apply in_app_iff in I. destruct I as [I|I]; [|apply (digits_no_dot ip); auto].
      destruct s; [|destruct I]. destruct I as [<-|[]]. unfold cdot. congruence. }
  assert (SIGN : intl_loop dsep tsep old 0 st 0 [] = intl_loop dsep tsep (ip ++ frac) (length (sgn s)) st 0 (sgn s)).
  { unfold old, plain. fold frac. destruct s; [|reflexivity]. cbn [sgn app intl_loop].
    change (45 =? cdot)%N with false. cbv iota.
    rewrite andb_false_r. cbn [andb]. reflexivity. }
  rewrite SIGN. destruct ip as [|c ip]; [congruence|]. inversion DI as [|? ? D1 D2]; subst.
  cbn [app intl_loop]. rewrite (digit_not_dot c D1), (digit_isdigit c D1).
  rewrite andb_false_r. cbn [andb]. rewrite intl_digits; [|exact D2| |lia].
  2:{ rewrite ST, app_length. cbn [length]. lia. }
  cbn [grp1]. rewrite <- !app_assoc. cbn [app]. unfold frac. destruct fp as [|f fp].
  - cbn [intl_loop]. now rewrite app_nil_r.
  - rewrite intl_dot, intl_frac; [|exact DF|lia].
    rewrite <- !app_assoc. cbn [app]. rewrite <- ?app_assoc. reflexivity.
Qed.

(** ** C strings in blocks *)
Lemma cstr_app t r : (forall c, In c t -> c <> 0%N) -> cstr (t ++ 0%N :: r) = Ok t.
Proof.
  induction t as [|c t IH]; intros H; cbn [app cstr]; [reflexivity|].
  destruct (N.eqb_spec c 0) as [->|]; [elim (H 0%N); simpl; auto|].
  rewrite IH by (intros; apply H; simpl; auto). reflexivity.
Qed.
Lemma write_zeros n t : (length t < n)%nat -> (forall c, In c t -> c <> 0%N) ->
  exists q, write (zeros n) t = Ok q /\ cstr q = Ok t.
Proof.
  intros L H. unfold write, zeros. rewrite repeat_length.
  assert (C : (length t <=? n)%nat = true) by (apply Nat.leb_le; lia). rewrite C.
  eexists. split; [reflexivity|]. replace n with (length t + S (n - length t - 1))%nat by lia.
  rewrite repeat_app, skipn_app, skipn_all2 by (rewrite repeat_length; lia).
  rewrite repeat_length, Nat.sub_diag. cbn [app skipn repeat]. now apply cstr_app.
Qed.
Lemma digits_no_nul ds c : digits ds -> In c ds -> c <> 0%N.
Proof. intros D I. apply (proj1 (Forall_forall _ _) D) in I. unfold digit in *. lia. Qed.

Lemma grouped_no_nul sep ds out : grouped sep ds out -> digits ds -> (forall c, In c sep -> c <> 0%N) ->
  forall c, In c out -> c <> 0%N.
Proof.
  induction 1 as [ds NE L|ds out a b d G IH]; intros D S c I.
  - now apply (digits_no_nul ds).
  - apply digits_app in D. destruct D as [D1 D2]. rewrite !in_app_iff in I. destruct I as [I|[I|I]]; auto.
    apply (digits_no_nul [a; b; d]); auto.
Qed.
Lemma localized_no_nul dsep tsep s ip fp out : localized dsep tsep s ip fp out -> numeral ip fp ->
  sep_ok dsep -> sep_ok tsep -> forall c, In c out -> c <> 0%N.
Proof.
  intros (g & G & ->) (NE & DI & DF) (_ & SD & _) (_ & STT & _) c I.
  rewrite !in_app_iff in I. destruct I as [I|[I|I]].
  - destruct s; [|destruct I]. destruct I as [<-|[]]. congruence.
  - eapply grouped_no_nul; eauto.
  - destruct fp as [|f fp]; [destruct I|]. apply in_app_iff in I. destruct I as [I|I]; auto.
    apply (digits_no_nul (f :: fp)); auto.
Qed.

Lemma grouped_length sep ds out : grouped sep ds out ->
  (length out = length ds + length sep * ((length ds - 1) / 3))%nat.
Proof.
  induction 1 as [ds NE L|ds out a b d G IH].
  - destruct ds as [|x ds]; [congruence|]. cbn [length] in *.
    replace (S (length ds) - 1)%nat with (length ds) by lia. rewrite Nat.div_small by lia. lia.
  - rewrite !app_length, IH. cbn [length].
    assert (0 < length ds)%nat. { destruct G as [? X|? ? ? ? ? ?]; [destruct ds; [congruence|simpl; lia]|rewrite app_length; simpl; lia]. }
    replace (length ds + 3 - 1)%nat with (length ds - 1 + 1 * 3)%nat by lia.
    rewrite Nat.div_add by lia. lia.
Qed.

Lemma plain_length s ip fp : (length (plain s ip fp) <= 2 + length ip + length fp)%nat.
Proof.
  unfold plain. rewrite !app_length. destruct s, fp; cbn [sgn length]; lia.
Qed.

Lemma international_ok dsep tsep s ip fp n : numeral ip fp -> sep_ok dsep -> sep_ok tsep ->
  exists out, localized dsep tsep s ip fp out /\
    ((length out < n)%nat -> (length out <= 128)%nat -> (length (plain s ip fp) <= 127)%nat ->
     exists q, international dsep tsep (plain s ip fp) (zeros n) = Ok q /\ cstr q = Ok out).
Proof.
  intros NU SD STT.
  exists (sgn s ++ grp1 tsep ip ++ match fp with [] => [] | _ => dsep ++ fp end).
  assert (LO : localized dsep tsep s ip fp (sgn s ++ grp1 tsep ip ++ match fp with [] => [] | _ => dsep ++ fp end)).
  { exists (grp1 tsep ip). split; [|reflexivity]. apply (grp1_grouped tsep (length ip)); [lia|apply NU]. }
  split; [exact LO|]. intros L1 L2 L3. unfold international.
  rewrite intl_plain by auto.
  destruct (Nat.ltb_spec 127 (length (plain s ip fp))); [lia|].
  match goal with |- context [(128 <? length ?o)%nat] => destruct (Nat.ltb_spec 128 (length o)); [lia|] end.
  cbn [orb]. apply write_zeros; auto.
  eapply localized_no_nul; eauto.
Qed.

(** ** Removing the separators *)
Lemma starts_self sep rest : starts sep (sep ++ rest) = true.
Proof. induction sep as [|c sep IH]; cbn [starts app]; [reflexivity|]. now rewrite N.eqb_refl, IH. Qed.
Lemma starts_hd sep c r : sep <> [] -> c <> hd 48%N sep -> starts sep (c :: r) = false.
Proof.
  destruct sep as [|a sep]; [congruence|]. cbn [hd starts]. intros _ N.
  destruct (N.eqb_spec a c); [congruence|reflexivity].
Qed.
Lemma starts_other a : forall b rest, length a = length b -> a <> b -> starts a (b ++ rest) = false.
Proof.
  induction a as [|x a IH]; intros [|y b] rest L N; try discriminate; [congruence|].
  cbn [app starts]. destruct (N.eqb_spec x y) as [->|]; [|reflexivity]. cbn [andb].
  apply IH; [simpl in L; lia|congruence].
Qed.
Lemma sep_other sep c : sep_ok sep -> digit c \/ c = 45%N -> c <> hd 48%N sep.
Proof. intros (_ & _ & A & B) [H|H] ->; auto. Qed.

Section National.
Variables dsep tsep : list N.
Hypothesis SD : sep_ok dsep.
Hypothesis ST : sep_ok tsep.
Hypothesis LEN : length dsep = length tsep.
Hypothesis NEQ : dsep <> tsep.

Lemma nat_chars ds : forall f rest acc, Forall (fun c => digit c \/ c = 45%N) ds -> (length (ds ++ rest) <= f)%nat ->
  exists f', national f dsep tsep (ds ++ rest) acc = national f' dsep tsep rest (acc ++ ds) /\ (length rest <= f')%nat.
Proof.
  induction ds as [|c ds IH]; intros f rest acc D L.
  - exists f. now rewrite app_nil_r.
  - inversion D as [|? ? D1 D2]; subst. cbn [app length] in *. destruct f as [|f]; [lia|].
    destruct (IH f rest (acc ++ [c]) D2 ltac:(lia)) as (f' & E & L').
    exists f'. split; [|exact L']. cbn [national].
    rewrite (starts_hd tsep) by (try apply ST; apply sep_other; auto).
    rewrite (starts_hd dsep) by (try apply SD; apply sep_other; auto).
    rewrite E, <- app_assoc. reflexivity.
Qed.
Lemma nat_tho f rest acc : (length (tsep ++ rest) <= f)%nat ->
  exists f', national f dsep tsep (tsep ++ rest) acc = national f' dsep tsep rest acc /\ (length rest <= f')%nat.
Proof.
  intros L. destruct ST as (NE & _). destruct tsep as [|x t] eqn:X; [congruence|].
  cbn [app length] in *. destruct f as [|f]; [lia|]. exists f. rewrite app_length in L. split; [|lia].
  pose proof (starts_self (x :: t) rest) as SS. cbn [app] in SS.
  cbn [national]. rewrite SS. cbn [length skipn]. rewrite skipn_app, skipn_all, Nat.sub_diag. reflexivity.
Qed.
Lemma nat_dec f rest acc : (length (dsep ++ rest) <= f)%nat ->
  exists f', national f dsep tsep (dsep ++ rest) acc = national f' dsep tsep rest (acc ++ [cdot]) /\ (length rest <= f')%nat.
Proof.
  intros L. pose proof (starts_other tsep dsep rest (eq_sym LEN) (not_eq_sym NEQ)) as S1.
  pose proof (starts_self dsep rest) as S2. destruct SD as (NE & _).
  destruct dsep as [|x t] eqn:X; [congruence|].
  cbn [app length] in *. destruct f as [|f]; [lia|]. exists f. rewrite app_length in L. split; [|lia].
  cbn [national]. rewrite S1, S2. rewrite <- LEN. cbn [skipn]. rewrite skipn_app, skipn_all, Nat.sub_diag. reflexivity.
Qed.
Lemma digits_chars ds : digits ds -> Forall (fun c => digit c \/ c = 45%N) ds.
Proof. apply Forall_impl. auto. Qed.
Lemma nat_grouped ds g : grouped tsep ds g -> digits ds -> forall f rest acc, (length (g ++ rest) <= f)%nat ->
  exists f', national f dsep tsep (g ++ rest) acc = national f' dsep tsep rest (acc ++ ds) /\ (length rest <= f')%nat.
Proof.
  induction 1 as [ds NE L|ds out a b c G IH]; intros D f rest acc LF.
  - apply nat_chars; auto. now apply digits_chars.
  - apply digits_app in D. destruct D as [D1 D2]. rewrite <- !app_assoc in *.
    destruct (IH D1 f (tsep ++ [a; b; c] ++ rest) acc LF) as (f1 & E1 & L1).
    destruct (nat_tho f1 ([a; b; c] ++ rest) (acc ++ ds) L1) as (f2 & E2 & L2).
    destruct (nat_chars [a; b; c] f2 rest (acc ++ ds) (digits_chars _ D2) L2) as (f3 & E3 & L3).
    exists f3. split; [|exact L3]. rewrite E1, E2, E3. now rewrite <- app_assoc.
Qed.
Lemma national_localized s ip fp out : numeral ip fp -> localized dsep tsep s ip fp out ->
  national (length out) dsep tsep out [] = plain s ip fp.
Proof.
  intros (NE & DI & DF) (g & G & ->).
  set (fr := match fp with [] => [] | _ => dsep ++ fp end).
  destruct (nat_chars (sgn s) _ (g ++ fr) [] ltac:(destruct s; cbn [sgn]; [apply Forall_cons; [right; reflexivity|]|]; apply Forall_nil) (le_n _)) as (f1 & E1 & L1).
  destruct (nat_grouped ip g G DI f1 fr (sgn s) L1) as (f2 & E2 & L2).
  rewrite E1. cbn [app]. rewrite E2. unfold plain. unfold fr in *. destruct fp as [|x fp].
  - rewrite app_nil_r. destruct f2; reflexivity.
  - destruct (nat_dec f2 (x :: fp) (sgn s ++ ip) L2) as (f3 & E3 & L3).
    destruct (nat_chars (x :: fp) f3 [] ((sgn s ++ ip) ++ [cdot]) (digits_chars _ DF)) as (f4 & E4 & L4).
    { rewrite app_nil_r. exact L3. }
    rewrite app_nil_r in E4. rewrite E3, E4. rewrite <- !app_assoc. destruct f4; reflexivity.
Qed.
End National.

(** ** Reading *)
Lemma of_decimal_spec (s : bool) n k v : (v == (if s then -1 else 1) * inject_Z (Z.of_N n) * Qpower 10 k)%Q ->
  below v -> rounded (of_decimal s n k) v.
Proof.
  intros E B. unfold of_decimal. destruct n as [|p].
  - apply zero_rounded. rewrite E. change (inject_Z (Z.of_N 0)) with 0%Q. ring.
  - destruct (Z.leb_spec 0 k) as [K|K].
    + assert (P : 0 < 10 ^ k) by (apply Z.pow_pos_nonneg; lia).
      change (rounded (ratio s (Z.to_pos (Zpos p * 10 ^ k)) 0 1 0) v). apply ratio_bounded; [|exact B].
      rewrite E. change (Qpower 2 (0 - 0)) with 1%Q. rewrite <- (Zpower_Qpower 10 k) by auto.
      assert (X : Zpos (Z.to_pos (Zpos p * 10 ^ k)) = Zpos p * 10 ^ k) by (rewrite Z2Pos.id; nia).
      rewrite X. rewrite <- (Qmult_assoc _ (inject_Z (Z.of_N (N.pos p)))), <- inject_Z_mult.
      cbn [Z.of_N].
      destruct s; cbn [cond_Zopp]; unfold Qeq, Qmult, inject_Z; cbn [Qnum Qden]; ring.
    + assert (P : 0 < 10 ^ (- k)) by (apply Z.pow_pos_nonneg; lia).
      change (rounded (ratio s p 0 (Z.to_pos (10 ^ (- k))) 0) v). apply ratio_bounded; [|exact B].
      rewrite E. change (Qpower 2 (0 - 0)) with 1%Q.
      replace k with (- (- k)) at 1 by lia. rewrite Qpower_opp, <- (Zpower_Qpower 10 (- k)) by lia.
      destruct (10 ^ (- k)) as [|d|d]; [lia| |lia]. cbn [Z.to_pos Z.of_N].
      change (/ inject_Z (Zpos d))%Q with (1 # d)%Q.
      destruct s; cbn [cond_Zopp]; unfold Qeq, Qmult, inject_Z; cbn [Qnum Qden]; rewrite ?Pos.mul_1_l, ?Pos.mul_1_r; ring.
Qed.

Lemma round_aux_sign s m e l a b : inb m l a b -> e <= fexp64 (Zdigits2 m + e) ->
  binary_round_aux 53 1024 s m e l = S754_zero s \/ binary_round_aux 53 1024 s m e l = S754_infinity s \/
  exists m' e', binary_round_aux 53 1024 s m e l = S754_finite s m' e'.
Proof.
  intros I LE. destruct (round_aux_spec s m e l a b I LE) as (r1 & _ & _ & H).
  destruct H as [[_ ->]|(m' & e' & _ & _ & _ & ->)]; [auto|].
  destruct (Zle_bool e' 971); eauto.
Qed.
Lemma of_decimal_sign s n k : of_decimal s n k = S754_zero s \/ of_decimal s n k = S754_infinity s \/
  exists m e, of_decimal s n k = S754_finite s m e.
Proof.
  unfold of_decimal. destruct n as [|p]; [auto|].
  destruct (if 0 <=? k then _ else _) as [a b].
  destruct (core_div a 0 b 0) as (q & l & e & -> & LE & _ & I & _).
  exact (round_aux_sign s q e l _ _ I LE).
Qed.

Lemma span_digits_app ds : forall rest, digits ds ->
  match rest with c :: _ => isdigit c = false | [] => True end -> span_digits (ds ++ rest) = (ds, rest).
Proof.
  induction ds as [|c ds IH]; intros rest D H.
  - destruct rest as [|x r]; [reflexivity|]. cbn [app span_digits]. now rewrite H.
  - inversion D as [|? ? D1 D2]; subst. cbn [app span_digits]. rewrite (digit_isdigit c D1), IH; auto.
Qed.
Lemma atof_plain s ip fp : numeral ip fp ->
  atof (plain s ip fp) = Some (of_decimal s (digits_val (ip ++ fp) 0) (- Z.of_nat (length fp))).
Proof.
  intros (NE & DI & DF). set (fr := match fp with [] => [] | _ => 46%N :: fp end).
  assert (A : take_sign (skip_space (plain s ip fp)) = (s, ip ++ fr)).
  { unfold plain. fold fr. destruct s; [reflexivity|]. cbn [sgn app].
    destruct ip as [|c ip]; [congruence|]. inversion DI as [|? ? D1 _]; subst. unfold digit in D1.
    cbn [app skip_space take_sign].
    assert (E1 : ((9 <=? c) && (c <=? 13) || (c =? 32))%N = false).
    { apply orb_false_iff. split; [apply andb_false_iff; right; apply N.leb_gt; lia|apply N.eqb_neq; lia]. }
    rewrite E1. cbn [take_sign].
    assert (E2 : (c =? cminus)%N = false) by (apply N.eqb_neq; unfold cminus; lia).
    assert (E3 : (c =? 43)%N = false) by (apply N.eqb_neq; lia). now rewrite E2, E3. }
  unfold atof. rewrite A. rewrite span_digits_app; [|exact DI|unfold fr; destruct fp; [exact I|reflexivity]].
  assert (Bf : match fr with
     | c :: r => if (c =? cdot)%N then span_digits r else ([], fr)
     | [] => ([], [])
     end = (fp, [])).
  { unfold fr. destruct fp as [|x fp]; [reflexivity|]. change (46 =? cdot)%N with true. cbv iota.
    rewrite <- (app_nil_r (x :: fp)) at 1. now rewrite span_digits_app. }
  rewrite Bf. destruct ip as [|c ip]; [congruence|]. cbn [app]. destruct (ip ++ fp); reflexivity.
Qed.

Lemma numeral_below s ip fp : numeral ip fp -> (length ip <= 300)%nat -> below (numeral_value s ip fp).
Proof.
  intros (NE & DI & DF) L. unfold below, numeral_value.
  rewrite !Qabs_Qmult. assert (S1 : (Qabs (if s then -1 else 1) == 1)%Q) by (destruct s; reflexivity).
  rewrite S1, Qmult_1_l.
  pose proof (dvalue_bound (ip ++ fp) ltac:(apply digits_app; auto)) as [V0 V1].
  rewrite (Qabs_pos (inject_Z _)) by (change 0%Q with (inject_Z 0); rewrite <- Zle_Qle; lia).
  assert (P10 : forall e, (0 < Qpower 10 e)%Q) by (intros; apply Qpower_0_lt; reflexivity).
  rewrite (Qabs_pos (Qpower 10 _)) by (apply Qlt_le_weak, P10).
  rewrite app_length, Nat2Z.inj_add in V1.
  apply Qlt_le_trans with (inject_Z (10 ^ (Z.of_nat (length ip) + Z.of_nat (length fp))) * Qpower 10 (- Z.of_nat (length fp)))%Q.
  - apply Qmult_lt_compat_r; [apply P10|]. rewrite <- Zlt_Qlt. exact V1.
  - rewrite Zpower_Qpower by lia. change (inject_Z 10) with 10%Q.
    rewrite <- Qpower_plus by (unfold Qeq; simpl; lia).
    replace (Z.of_nat (length ip) + Z.of_nat (length fp) + - Z.of_nat (length fp)) with (Z.of_nat (length ip)) by lia.
    apply Qle_trans with (Qpower 10 300).
    + apply Qpower_le_compat_l; [lia|]. unfold Qle; simpl; lia.
    + rewrite <- (Zpower_Qpower 10 300), <- (Zpower_Qpower 2 1023) by lia. rewrite <- Zle_Qle. vm_compute. congruence.
Qed.

Lemma atof_rounded s ip fp : numeral ip fp -> (length ip <= 300)%nat ->
  exists r, atof (plain s ip fp) = Some r /\ rounded r (numeral_value s ip fp).
Proof.
  intros NU L. rewrite atof_plain by auto. eexists. split; [reflexivity|].
  apply of_decimal_spec; [|now apply numeral_below].
  unfold numeral_value. rewrite digits_val_dvalue; [reflexivity|]. apply digits_app. split; apply NU.
Qed.

Lemma plain_no_nul s ip fp c : numeral ip fp -> In c (plain s ip fp) -> c <> 0%N.
Proof.
  intros (NE & DI & DF) I. unfold plain in I. rewrite !in_app_iff in I. destruct I as [I|[I|I]].
  - destruct s; [|destruct I]. destruct I as [<-|[]]. congruence.
  - now apply (digits_no_nul ip).
  - destruct fp as [|f fp]; [destruct I|]. destruct I as [<-|I]; [congruence|].
    apply (digits_no_nul (f :: fp)); auto.
Qed.

Lemma read_plain dsep tsep s ip fp : numeral ip fp -> (length (plain s ip fp) <= 40)%nat ->
  number_from_text false dsep tsep (zeros 41) (zeros 41) (plain s ip fp) = Ok (atof (plain s ip fp)).
Proof.
  intros NU L. unfold number_from_text. rewrite firstn_all2 by auto.
  destruct (write_zeros 41 (plain s ip fp)) as (q & W & C); [lia|intros c; now apply plain_no_nul|].
  rewrite W. cbn [obind]. rewrite C. reflexivity.
Qed.
Lemma read_localized dsep tsep s ip fp out : numeral ip fp -> sep_ok dsep -> sep_ok tsep ->
  length dsep = length tsep -> dsep <> tsep -> localized dsep tsep s ip fp out -> (length out <= 40)%nat ->
  number_from_text true dsep tsep (zeros 41) (zeros 41) out = Ok (atof (plain s ip fp)).
Proof.
  intros NU SD STT LE NE LO L. unfold number_from_text. rewrite firstn_all2 by auto.
  destruct (write_zeros 41 out) as (q & W & C); [lia|intros c; now apply (localized_no_nul dsep tsep s ip fp)|].
  rewrite W. cbn [obind]. rewrite C. cbn [obind].
  rewrite (national_localized dsep tsep SD STT LE NE s ip fp out NU LO).
  destruct (write_zeros 41 (plain s ip fp)) as (q2 & W2 & C2).
  - destruct LO as (g & G & ->). pose proof (grouped_length _ _ _ G) as GL.
    unfold plain. rewrite !app_length in *. destruct SD as (SD & _).
    destruct dsep as [|x dsep]; [congruence|]. destruct fp; cbn [length app] in *; rewrite ?app_length in *; cbn [length] in *; lia.
  - intros c. now apply plain_no_nul.
  - rewrite W2. cbn [obind]. rewrite C2. reflexivity.
Qed.

(** ** Whole numbers *)
Lemma QZ_neg z e : e < 0 -> (QZ z e == z # Z.to_pos (2 ^ (- e)))%Q.
Proof.
  intros E. unfold QZ. rewrite pow_split by auto. unfold Qeq, Qmult, inject_Z. cbn [Qnum Qden].
  rewrite Pos.mul_1_l. ring.
Qed.
Lemma QZ_nonneg_exp z e : 0 <= e -> (QZ z e == inject_Z (z * 2 ^ e))%Q.
Proof. intros E. unfold QZ. rewrite <- (Zpower_Qpower 2 e) by auto. now rewrite inject_Z_mult. Qed.

Lemma mag_floor_spec m e : 0 <= mag_floor m e /\ is_floor (QZ (Zpos m) e) (mag_floor m e).
Proof.
  unfold mag_floor, is_floor. destruct (Z.leb_spec 0 e) as [E|E].
  - pose proof (Z.pow_pos_nonneg 2 e ltac:(lia) E). split; [nia|]. rewrite QZ_nonneg_exp by auto. split; [apply Qle_refl|]. generalize (inject_Z (Zpos m * 2 ^ e)). intros; lra.
  - assert (P : 0 < 2 ^ (- e)) by (apply Z.pow_pos_nonneg; lia). rewrite QZ_neg by auto.
    destruct (2 ^ (- e)) as [|d|d]; [lia| |lia]. cbn [Z.to_pos].
    pose proof (Z.div_mod (Zpos m) (Zpos d) ltac:(lia)). pose proof (Z.mod_pos_bound (Zpos m) (Zpos d) ltac:(lia)).
    split; [apply Z.div_pos; lia|]. unfold Qle, Qlt, Qplus, inject_Z. cbn [Qnum Qden]. split; lia.
Qed.
Lemma mag_ceil_spec m e : 0 <= mag_ceil m e /\ is_ceil (QZ (Zpos m) e) (mag_ceil m e).
Proof.
  unfold mag_ceil, is_ceil. destruct (Z.leb_spec 0 e) as [E|E].
  - pose proof (Z.pow_pos_nonneg 2 e ltac:(lia) E). split; [nia|]. rewrite QZ_nonneg_exp by auto. split; [generalize (inject_Z (Zpos m * 2 ^ e)); intros; lra|apply Qle_refl].
  - assert (P : 0 < 2 ^ (- e)) by (apply Z.pow_pos_nonneg; lia). rewrite QZ_neg by auto.
    destruct (2 ^ (- e)) as [|d|d]; [lia| |lia]. cbn [Z.to_pos].
    pose proof (Z.div_mod (Zpos m + (Zpos d - 1)) (Zpos d) ltac:(lia)).
    pose proof (Z.mod_pos_bound (Zpos m + (Zpos d - 1)) (Zpos d) ltac:(lia)).
    split; [apply Z.div_pos; lia|]. unfold Qle, Qlt, Qminus, Qplus, Qopp, inject_Z. cbn [Qnum Qden]. split; lia.
Qed.
Lemma mag_round_spec m e : 0 <= mag_round m e /\
  (Qabs (QZ (Zpos m) e - inject_Z (mag_round m e)) <= 1 # 2)%Q /\
  (Qabs (QZ (Zpos m) e - inject_Z (mag_round m e)) == 1 # 2 -> QZ (Zpos m) e < inject_Z (mag_round m e))%Q.
Proof.
  unfold mag_round. destruct (Z.leb_spec 0 e) as [E|E].
  - pose proof (Z.pow_pos_nonneg 2 e ltac:(lia) E). split; [nia|]. rewrite QZ_nonneg_exp by auto.
    setoid_replace (inject_Z (Zpos m * 2 ^ e) - inject_Z (Zpos m * 2 ^ e))%Q with 0%Q by ring.
    split; [unfold Qle; simpl; lia|]. intros X. discriminate X.
  - assert (P : 0 < 2 ^ (- e)) by (apply Z.pow_pos_nonneg; lia). rewrite QZ_neg by auto.
    destruct (2 ^ (- e)) as [|d|d]; [lia| |lia]. cbn [Z.to_pos].
    pose proof (Z.div_mod (2 * Zpos m + Zpos d) (2 * Zpos d) ltac:(lia)).
    pose proof (Z.mod_pos_bound (2 * Zpos m + Zpos d) (2 * Zpos d) ltac:(lia)).
    set (k := (2 * Zpos m + Zpos d) / (2 * Zpos d)) in *.
    split; [apply Z.div_pos; lia|].
    assert (Q : ((Zpos m # d) - inject_Z k == (Zpos m - k * Zpos d) # d)%Q).
    { unfold Qeq, Qminus, Qplus, Qopp, inject_Z. cbn [Qnum Qden]. rewrite Pos.mul_1_r. ring. }
    rewrite Q. unfold Qabs, Qle, Qlt, Qeq, inject_Z. cbn [Qnum Qden].
    split; lia.
Qed.

Lemma whole_ok s k : 0 <= k -> (exists w, finite w /\ (SF2Q w == inject_Z k)%Q) ->
  finite (whole s k) /\ (SF2Q (whole s k) == inject_Z (cond_Zopp s k))%Q.
Proof.
  intros K (w & F & V). unfold whole. destruct (Z.eqb_spec k 0) as [->|N].
  { split; [exact I|]. destruct s; reflexivity. }
  destruct k as [|p|p]; [lia| |lia].
  assert (W : exists m0 e0, canon m0 e0 /\ e0 <= 971 /\ (QZ (Zpos m0) e0 == QZ (Zpos p) 0)%Q).
  { destruct w as [sw|sw| |sw m0 e0]; simpl in F; try contradiction.
    - discriminate V.
    - destruct F as [C B]. exists m0, e0. split; auto. split; auto.
      assert (Z0 : (QZ (Zpos p) 0 == inject_Z (Zpos p))%Q) by (unfold QZ; change (Qpower 2 0) with 1%Q; ring).
      rewrite Z0, <- V. destruct sw; [|reflexivity]. exfalso. cbn [SF2Q cond_Zopp] in V. rewrite QZ_opp in V.
      assert (0 < QZ (Zpos m0) e0)%Q by (unfold QZ; apply Qmult_lt_0_compat; [reflexivity|apply pow2_pos]).
      assert (0 < inject_Z (Zpos p))%Q by reflexivity. lra. }
  destruct W as (m0 & e0 & C & B & E).
  assert (R : forall s', binary_round 53 1024 s' p 0 = S754_finite s' m0 e0).
  { intros s'. apply round_exact; auto. intros L L1 L2. symmetry. apply (QZ_eq _ _ _ _ L); auto. }
  assert (Z0 : (QZ (Zpos p) 0 == inject_Z (Zpos p))%Q) by (unfold QZ; change (Qpower 2 0) with 1%Q; ring).
  unfold of_Z. destruct s; cbn [cond_Zopp Z.opp binary_normalize]; rewrite R; (split; [split; auto|]).
  - cbn [SF2Q cond_Zopp]. rewrite QZ_opp, E, Z0. reflexivity.
  - cbn [SF2Q cond_Zopp]. now rewrite E, Z0.
Qed.
Lemma of_Z_ok z : Z.abs z <= 2 ^ 53 -> finite (of_Z z) /\ (SF2Q (of_Z z) == inject_Z z)%Q.
Proof. apply num_of_Z_ok. Qed.
Lemma repr_small k : 0 <= k <= 2 ^ 53 -> exists w, finite w /\ (SF2Q w == inject_Z k)%Q.
Proof. intros H. exists (of_Z k). apply of_Z_ok. lia. Qed.

Lemma mag_repr m e k : canon m e -> e <= 971 ->
  (0 <= e -> k = Zpos m * 2 ^ e) -> (e < 0 -> 0 <= k <= Zpos m) -> exists w, finite w /\ (SF2Q w == inject_Z k)%Q.
Proof.
  intros C B H1 H2. destruct (Z.le_gt_cases 0 e) as [E|E].
  - exists (S754_finite false m e). split; [split; auto|]. cbn [SF2Q cond_Zopp]. rewrite (H1 E). now apply QZ_nonneg_exp.
  - apply repr_small. specialize (H2 E). apply canon_iff in C. lia.
Qed.

Lemma mag_floor_repr m e : canon m e -> e <= 971 -> exists w, finite w /\ (SF2Q w == inject_Z (mag_floor m e))%Q.
Proof.
  intros C B. apply (mag_repr m e); auto; unfold mag_floor; destruct (Z.leb_spec 0 e); try lia. intros _.
  assert (P : 0 < 2 ^ (- e)) by (apply Z.pow_pos_nonneg; lia).
  split; [apply Z.div_pos; lia|]. apply Z.div_le_upper_bound; nia.
Qed.
Lemma mag_ceil_repr m e : canon m e -> e <= 971 -> exists w, finite w /\ (SF2Q w == inject_Z (mag_ceil m e))%Q.
Proof.
  intros C B. apply (mag_repr m e); auto; unfold mag_ceil; destruct (Z.leb_spec 0 e); try lia. intros _.
  assert (P : 0 < 2 ^ (- e)) by (apply Z.pow_pos_nonneg; lia).
  split; [apply Z.div_pos; lia|]. apply Z.lt_succ_r. apply Z.div_lt_upper_bound; nia.
Qed.
Lemma mag_round_repr m e : canon m e -> e <= 971 -> exists w, finite w /\ (SF2Q w == inject_Z (mag_round m e))%Q.
Proof.
  intros C B. apply (mag_repr m e); auto; unfold mag_round; destruct (Z.leb_spec 0 e); try lia. intros _.
  assert (P : 0 < 2 ^ (- e)) by (apply Z.pow_pos_nonneg; lia).
  assert (P2 : 2 <= 2 ^ (- e)). { replace (- e) with (1 + (- e - 1)) by lia. rewrite Z.pow_add_r by lia.
    pose proof (Z.pow_pos_nonneg 2 (- e - 1) ltac:(lia) ltac:(lia)). lia. }
  split; [apply Z.div_pos; lia|]. apply Z.lt_succ_r. apply Z.div_lt_upper_bound; nia.
Qed.

Lemma neg_QZ s m e : (QZ (cond_Zopp s (Zpos m)) e == (if s then - QZ (Zpos m) e else QZ (Zpos m) e))%Q.
Proof. destruct s; cbn [cond_Zopp]; [apply QZ_opp|reflexivity]. Qed.
Lemma inj_cond s k : (inject_Z (cond_Zopp s k) == (if s then - inject_Z k else inject_Z k))%Q.
Proof. destruct s; cbn [cond_Zopp]; reflexivity. Qed.

Lemma c_floor_spec x : finite x -> finite (c_floor x) /\
  exists z, (SF2Q (c_floor x) == inject_Z z)%Q /\ is_floor (SF2Q x) z.
Proof.
  destruct x as [s|s| |s m e]; simpl finite; try contradiction.
  - intros _. split; [exact I|]. exists 0. split; [reflexivity|]. cbn [SF2Q]. unfold is_floor, inject_Z. split; lra.
  - intros [C B]. cbn [c_floor].
    assert (W : finite (whole s (if s then mag_ceil m e else mag_floor m e)) /\
       (SF2Q (whole s (if s then mag_ceil m e else mag_floor m e)) == inject_Z (cond_Zopp s (if s then mag_ceil m e else mag_floor m e)))%Q).
    { apply whole_ok.
      - destruct s; [apply mag_ceil_spec|apply mag_floor_spec].
      - destruct s; [now apply mag_ceil_repr|now apply mag_floor_repr]. }
    destruct W as [F V]. split; [exact F|]. eexists. split; [exact V|]. cbn [SF2Q].
    unfold is_floor. rewrite neg_QZ, inj_cond.
    destruct s; [destruct (mag_ceil_spec m e) as [_ [X Y]]|destruct (mag_floor_spec m e) as [_ [X Y]]]; split; lra.
Qed.
Lemma c_ceil_spec x : finite x -> finite (c_ceil x) /\
  exists z, (SF2Q (c_ceil x) == inject_Z z)%Q /\ is_ceil (SF2Q x) z.
Proof.
  destruct x as [s|s| |s m e]; simpl finite; try contradiction.
  - intros _. split; [exact I|]. exists 0. split; [reflexivity|]. cbn [SF2Q]. unfold is_ceil, inject_Z. split; lra.
  - intros [C B]. cbn [c_ceil].
    assert (W : finite (whole s (if s then mag_floor m e else mag_ceil m e)) /\
       (SF2Q (whole s (if s then mag_floor m e else mag_ceil m e)) == inject_Z (cond_Zopp s (if s then mag_floor m e else mag_ceil m e)))%Q).
    { apply whole_ok.
      - destruct s; [apply mag_floor_spec|apply mag_ceil_spec].
      - destruct s; [now apply mag_floor_repr|now apply mag_ceil_repr]. }
    destruct W as [F V]. split; [exact F|]. eexists. split; [exact V|]. cbn [SF2Q].
    unfold is_ceil. rewrite neg_QZ, inj_cond.
    destruct s; [destruct (mag_floor_spec m e) as [_ [X Y]]|destruct (mag_ceil_spec m e) as [_ [X Y]]]; split; lra.
Qed.
Lemma c_round_spec x : finite x -> finite (c_round x) /\
  exists z, (SF2Q (c_round x) == inject_Z z)%Q /\ is_round (SF2Q x) z.
Proof.
  destruct x as [s|s| |s m e]; simpl finite; try contradiction.
  - intros _. split; [exact I|]. exists 0. split; [reflexivity|]. cbn [SF2Q]. unfold is_round.
    change (Qabs (0 - inject_Z 0)) with 0%Q. split; [unfold Qle; simpl; lia|]. intros X. discriminate X.
  - intros [C B]. cbn [c_round]. destruct (mag_round_spec m e) as (M0 & M1 & M2).
    destruct (whole_ok s (mag_round m e) M0 (mag_round_repr m e C B)) as [F V].
    split; [exact F|]. eexists. split; [exact V|]. cbn [SF2Q]. unfold is_round. rewrite neg_QZ, inj_cond.
    assert (P1 : (0 < QZ (Zpos m) e)%Q) by (unfold QZ; apply Qmult_lt_0_compat; [reflexivity|apply pow2_pos]).
    assert (P2 : (0 <= inject_Z (mag_round m e))%Q) by (change 0%Q with (inject_Z 0); rewrite <- Zle_Qle; auto).
    destruct s.
    + rewrite Qabs_opp_sub. split; [exact M1|]. intros T. rewrite !Qabs_opp, (Qabs_pos (QZ _ _)), (Qabs_pos (inject_Z _)); auto. lra.
    + split; [exact M1|]. intros T. rewrite (Qabs_pos (QZ _ _)), (Qabs_pos (inject_Z _)); auto. lra.
Qed.

Lemma trunc_spec x : finite x -> exists z, trunc x = Some z /\ is_trunc (SF2Q x) z.
Proof.
  destruct x as [s|s| |s m e]; simpl finite; try contradiction.
  - intros _. exists 0. split; [reflexivity|]. cbn [SF2Q]. unfold is_trunc. change (Qabs (inject_Z 0)) with 0%Q.
    change (Qabs 0) with 0%Q. repeat split; try lra.
  - intros [C B]. eexists. split; [reflexivity|]. cbn [SF2Q].
    destruct (mag_floor_spec m e) as (M0 & M1 & M2).
    assert (P1 : (0 < QZ (Zpos m) e)%Q) by (unfold QZ; apply Qmult_lt_0_compat; [reflexivity|apply pow2_pos]).
    assert (P2 : (0 <= inject_Z (mag_floor m e))%Q) by (change 0%Q with (inject_Z 0); rewrite <- Zle_Qle; auto).
    unfold is_trunc. rewrite neg_QZ, inj_cond.
    assert (P3 : (0 <= QZ (Zpos m) e * inject_Z (mag_floor m e))%Q) by (apply Qmult_le_0_compat; lra).
    destruct s; rewrite ?Qabs_opp, (Qabs_pos (QZ _ _)), (Qabs_pos (inject_Z _)) by lra; repeat split; try lra.
Qed.

Lemma inj_lt a b : (inject_Z a < inject_Z b)%Q -> a < b.
Proof. now rewrite <- Zlt_Qlt. Qed.
Lemma inj_le a b : (inject_Z a <= inject_Z b)%Q -> a <= b.
Proof. now rewrite <- Zle_Qle. Qed.
Lemma inj_abs z : (Qabs (inject_Z z) == inject_Z (Z.abs z))%Q.
Proof. reflexivity. Qed.

Lemma is_trunc_whole z z' : is_trunc (inject_Z z) z' -> z' = z.
Proof.
  unfold is_trunc. rewrite !inj_abs. intros (A & B & C).
  change 1%Q with (inject_Z 1) in B. rewrite <- inject_Z_plus in B. apply inj_le in A. apply inj_lt in B.
  rewrite <- inject_Z_mult in C. change 0%Q with (inject_Z 0) in C. apply inj_le in C. nia.
Qed.
Lemma trunc_whole x z : finite x -> (SF2Q x == inject_Z z)%Q -> trunc x = Some z.
Proof.
  intros F V. destruct (trunc_spec x F) as (z' & -> & T). f_equal. apply is_trunc_whole.
  unfold is_trunc in *. rewrite V in T. exact T.
Qed.
Lemma in_int_iff z : in_int z = true <-> - 2147483648 <= z <= 2147483647.
Proof. unfold in_int, INT_MAX. rewrite andb_true_iff, !Z.leb_le. lia. Qed.
Lemma c_int_whole x z : finite x -> (SF2Q x == inject_Z z)%Q -> - 2147483648 <= z <= 2147483647 -> c_int x = Ok z.
Proof. intros F V B. unfold c_int. rewrite (trunc_whole x z F V). apply in_int_iff in B. now rewrite B. Qed.

(** ** The written form of a number *)
Lemma scaled_bound m e k : (0 <= k)%Z -> (QZ (Zpos m) e <= inject_Z (10 ^ k))%Q -> scaled m e <= 10 ^ (k + 10).
Proof.
  intros K H. pose proof (scaled_err m e) as E. apply Qabs_Qle_condition in E. destruct E as [E _].
  assert (H2 : (QZ (Zpos m) e * inject_Z TEN10 <= inject_Z (10 ^ k) * inject_Z TEN10)%Q)
    by (apply Qmult_le_compat_r; [exact H|unfold Qle; simpl; lia]).
  rewrite <- inject_Z_mult in H2. change TEN10 with (10 ^ 10) in H2 at 2. rewrite <- Z.pow_add_r in H2 by lia.
  set (A := (QZ (Zpos m) e * inject_Z TEN10)%Q) in *.
  assert (L : (inject_Z (scaled m e) < inject_Z (10 ^ (k + 10)) + 1)%Q).
  { generalize dependent (inject_Z (10 ^ (k + 10))). generalize dependent (inject_Z (scaled m e)).
    generalize dependent A. intros; lra. }
  change 1%Q with (inject_Z 1) in L. rewrite <- inject_Z_plus in L. apply inj_lt in L. lia.
Qed.

Lemma err_scale a b v w : (a * inject_Z TEN10 == v)%Q -> (b * inject_Z TEN10 == w)%Q ->
  (Qabs (v - w) <= 1 # 2)%Q -> (Qabs (a - b) <= 1 # 20000000000)%Q.
Proof.
  intros E1 E2 H. rewrite <- E1, <- E2 in H.
  setoid_replace (a * inject_Z TEN10 - b * inject_Z TEN10)%Q with ((a - b) * inject_Z TEN10)%Q in H by ring.
  rewrite Qabs_Qmult in H. change (Qabs (inject_Z TEN10)) with (inject_Z TEN10) in H.
  change (inject_Z TEN10) with 10000000000%Q in H. generalize dependent (Qabs (a - b)). intros; lra.
Qed.

Lemma written x : finite x -> (Qabs (SF2Q x) <= inject_Z (10 ^ 60))%Q ->
  exists s ip fp, flat_text x = Ok (plain s ip fp) /\ numeral ip fp /\ tidy ip fp /\
    (length fp <= 10)%nat /\ (length ip <= 61)%nat /\
    (Qabs (numeral_value s ip fp - SF2Q x) <= 1 # 20000000000)%Q.
Proof.
  destruct x as [s|s| |s m e]; simpl finite; try contradiction.
  - intros _ _. exists s, [48%N], []. split; [apply flat_zero|].
    split; [repeat split; try congruence; repeat constructor; vm_compute; congruence|].
    split; [split; auto|]. split; [simpl; lia|]. split; [simpl; lia|].
    destruct s; vm_compute; congruence.
  - intros [C B] H. cbn [SF2Q] in *. unfold QZ in H. rewrite <- Q_1, Qabs_cond in H.
    change ((Zpos m # 1) * Qpower 2 e)%Q with (QZ (Zpos m) e) in H.
    pose proof (scaled_bound m e 60 ltac:(lia) H) as SB.
    destruct (flat_finite s m e) as (ip & fp & E & NU & T & LF & V & LI).
    { eapply Z.le_lt_trans; [exact SB|]. vm_compute. reflexivity. }
    exists s, ip, fp. do 3 (split; [assumption|]). split; [assumption|]. split.
    { apply LI; [lia|]. eapply Z.le_lt_trans; [exact SB|]. vm_compute. reflexivity. }
    pose proof (numeral_value_scaled s ip fp LF) as NV. rewrite V in NV.
    eapply err_scale; [exact NV|reflexivity|]. rewrite neg_QZ.
    pose proof (scaled_err m e) as SE.
    set (A := QZ (Zpos m) e) in *. set (W := inject_Z (scaled m e)) in *.
    destruct s.
    + setoid_replace (-1 * W - - A * inject_Z TEN10)%Q with (A * inject_Z TEN10 - W)%Q by ring. exact SE.
    + setoid_replace (1 * W - A * inject_Z TEN10)%Q with (- (A * inject_Z TEN10 - W))%Q by ring.
      rewrite Qabs_opp. exact SE.
Qed.

Lemma localized_length d t s ip fp out : localized [d] [t] s ip fp out ->
  (length out <= 2 + length ip + (length ip - 1) / 3 + length fp)%nat.
Proof.
  intros (g & G & ->). pose proof (grouped_length _ _ _ G) as GL. cbn [length] in GL.
  rewrite !app_length, GL. destruct s, fp; cbn [sgn length app]; lia.
Qed.

Lemma to_string_plain d t s ip fp x : flat_text x = Ok (plain s ip fp) -> numeral ip fp ->
  (length fp <= 10)%nat -> (length ip <= 61)%nat -> sep_ok [d] -> sep_ok [t] ->
  exists out, localized [d] [t] s ip fp out /\
    number_to_string [d] [t] (zeros 100) None x = Ok out /\
    (forall ql, (forall c, In c ql -> c <> 0%N) ->
      number_to_string [d] [t] (zeros (100 + length ql)) (Some ql) x = Ok (out ++ 32%N :: ql)).
Proof.
  intros E NU LF LI SD STT.
  assert (L3 : (length (plain s ip fp) <= 127)%nat) by (pose proof (plain_length s ip fp); lia).
  assert (D61 : ((length ip - 1) / 3 <= 20)%nat).
  { change 20%nat with (60 / 3)%nat. apply Nat.div_le_mono; lia. }
  assert (GEN : forall n, exists out, localized [d] [t] s ip fp out /\ ((100 <= n)%nat ->
     exists q, international [d] [t] (plain s ip fp) (zeros n) = Ok q /\ cstr q = Ok out) /\ (length out <= 93)%nat).
  { intros n. destruct (international_ok [d] [t] s ip fp n NU SD STT) as (out & LO & H).
    pose proof (localized_length _ _ _ _ _ _ LO). exists out. split; [exact LO|]. split; [|lia].
    intros N. apply H; lia. }
  assert (UNI : forall o1 o2, localized [d] [t] s ip fp o1 -> localized [d] [t] s ip fp o2 -> o1 = o2).
  { assert (GU : forall a g1, grouped [t] a g1 -> forall g2, grouped [t] a g2 -> g1 = g2).
    { assert (POS : forall a g, grouped [t] a g -> (0 < length a)%nat).
      { destruct 1 as [? X|]; [destruct ds; [congruence|simpl; lia]|rewrite app_length; simpl; lia]. }
      induction 1 as [a NE L|a g u v w G IH]; intros g2 G2.
      - inversion G2 as [|a' g' u' v' w' G' EQ]; subst; auto. apply POS in G'. rewrite app_length in L. simpl in L. lia.
      - inversion G2 as [a' NE L EQ|a' g' u' v' w' G' EQ]; subst.
        + apply POS in G. rewrite app_length in L. simpl in L. lia.
        + assert (Q : a' = a /\ [u'; v'; w'] = [u; v; w]).
          { assert (LL : length a' = length a) by (apply (f_equal (@length N)) in EQ; rewrite !app_length in EQ; simpl in EQ; lia).
            split.
            - apply (f_equal (firstn (length a))) in EQ. rewrite <- LL in EQ at 1. rewrite !firstn_app, !firstn_all, !Nat.sub_diag in EQ.
              cbn [firstn] in EQ. now rewrite !app_nil_r in EQ.
            - apply (f_equal (skipn (length a))) in EQ. rewrite <- LL in EQ at 1. rewrite !skipn_app, !skipn_all, !Nat.sub_diag in EQ.
              exact EQ. }
          destruct Q as [-> Q]. injection Q as -> -> ->. now rewrite (IH g' G'). }
    intros o1 o2 (g1 & G1 & ->) (g2 & G2 & ->). now rewrite (GU _ _ G1 _ G2). }
  destruct (GEN 100%nat) as (out & LO & H & LL). exists out. split; [exact LO|]. split.
  - unfold number_to_string. rewrite E. cbn [obind]. destruct (H ltac:(lia)) as (q & -> & C). cbn [obind].
    rewrite C. reflexivity.
  - intros ql Hq. destruct (GEN (100 + length ql)%nat) as (out' & LO' & H' & LL').
    rewrite (UNI out' out LO' LO) in *. unfold number_to_string. rewrite E. cbn [obind].
    destruct (H' ltac:(lia)) as (q & -> & C). cbn [obind]. rewrite C. cbn [obind].
    rewrite cstr_app by auto.
    assert (LT : (length (out ++ [32%N] ++ ql) <? length (zeros (100 + length ql)))%nat = true).
    { apply Nat.ltb_lt. unfold zeros. rewrite repeat_length, !app_length. cbn [length]. lia. }
    rewrite LT. reflexivity.
Qed.

(** ** There and back *)
Lemma whole_written z : Z.abs z <= 2 ^ 53 ->
  exists ip, flat_text (of_Z z) = Ok (plain (z <? 0) ip []) /\ numeral ip [] /\ tidy ip [] /\ dvalue ip = Z.abs z /\
    (length ip <= 16)%nat.
Proof.
  intros H. destruct (of_Z_ok z H) as [F V]. destruct (of_Z z) as [s|s| |s m e] eqn:X; simpl in F; try contradiction.
  - assert (z = 0) by (unfold Qeq in V; simpl in V; lia). subst z. cbn in X. injection X as <-. exists [48%N].
    split; [reflexivity|]. split; [repeat split; try congruence; repeat constructor; vm_compute; congruence|].
    split; [split; auto|]. split; [reflexivity|]. simpl; lia.
  - assert (SG : s = (z <? 0) /\ (QZ (Zpos m) e == inject_Z (Z.abs z))%Q).
    { cbn [SF2Q] in V. rewrite neg_QZ in V.
      assert (P1 : (0 < QZ (Zpos m) e)%Q) by (unfold QZ; apply Qmult_lt_0_compat; [reflexivity|apply pow2_pos]).
      set (q := QZ (Zpos m) e) in *.
      assert (V' : (q == if s then - inject_Z z else inject_Z z)%Q).
      { destruct s; rewrite <- V; ring. }
      rewrite V' in P1. rewrite V'. destruct s.
      - rewrite <- inject_Z_opp in P1. change 0%Q with (inject_Z 0) in P1. apply inj_lt in P1.
        rewrite <- inject_Z_opp. rewrite Z.abs_neq by lia. split; [symmetry; apply Z.ltb_lt; lia|reflexivity].
      - change 0%Q with (inject_Z 0) in P1. apply inj_lt in P1.
        rewrite Z.abs_eq by lia. split; [symmetry; apply Z.ltb_ge; lia|reflexivity]. }
    destruct SG as [-> SV].
    assert (SC : scaled m e = Z.abs z * TEN10).
    { apply scaled_unique. rewrite SV, inject_Z_mult.
      setoid_replace (inject_Z (Z.abs z) * inject_Z TEN10 - inject_Z (Z.abs z) * inject_Z TEN10)%Q with 0%Q by ring.
      reflexivity. }
    assert (S95 : scaled m e < 10 ^ Z.of_nat (16 + 10)).
    { rewrite SC. unfold TEN10. assert (Z.abs z < 10 ^ 16) by lia.
      change (10 ^ Z.of_nat (16 + 10)) with (10 ^ 16 * 10000000000). nia. }
    destruct (flat_finite (z <? 0) m e) as (ip & fp & E & NU & T & LF & DV & LI).
    { eapply Z.lt_trans; [exact S95|vm_compute; reflexivity]. }
    rewrite SC in DV.
    assert (FP : fp = []).
    { destruct T as [_ [T|T]]; [exact T|]. exfalso.
      destruct fp as [|c fp _] using rev_ind; [apply T; reflexivity|]. rewrite last_last in T.
      destruct NU as (_ & _ & DF). apply digits_app in DF. destruct DF as [_ DC]. inversion DC as [|? ? DC' _]; subst.
      unfold digit in DC'. rewrite app_assoc, dvalue_snoc in DV. rewrite app_length in DV, LF. cbn [length] in DV, LF.
      set (j := Z.of_nat (10 - (length fp + 1))) in *.
      assert (J : TEN10 = 10 ^ j * (10 * 10 ^ (9 - j))).
      { change 10 with (10 ^ 1) at 2. rewrite <- !Z.pow_add_r by (unfold j; lia).
        replace (j + (1 + (9 - j))) with 10 by lia. reflexivity. }
      rewrite J in DV.
      assert (PJ : 0 < 10 ^ j) by (apply Z.pow_pos_nonneg; unfold j; lia).
      assert (EQ : 10 * dvalue (ip ++ fp) + (Z.of_N c - 48) = Z.abs z * (10 * 10 ^ (9 - j))) by nia.
      assert (Z.of_N c - 48 = 10 * (Z.abs z * 10 ^ (9 - j) - dvalue (ip ++ fp))) by lia.
      lia. }
    subst fp. rewrite app_nil_r in DV. change (10 ^ Z.of_nat (10 - length (@nil N))) with TEN10 in DV.
    exists ip. split; [exact E|]. split; [exact NU|]. split; [exact T|]. split; [unfold TEN10 in DV; lia|].
    apply LI; [lia|exact S95].
Qed.

Lemma whole_value s ip : (numeral_value s ip [] == inject_Z (cond_Zopp s (dvalue ip)))%Q.
Proof.
  unfold numeral_value. rewrite app_nil_r. change (Qpower 10 (- Z.of_nat (length (@nil N)))) with 1%Q.
  rewrite inj_cond. destruct s; ring.
Qed.

Lemma whole_read z ip : Z.abs z <= 2 ^ 53 -> numeral ip [] -> dvalue ip = Z.abs z -> (length ip <= 300)%nat ->
  atof (plain (z <? 0) ip []) = Some (of_Z z).
Proof.
  intros H NU DV L. destruct (atof_rounded (z <? 0) ip [] NU L) as (r & E & F & N). rewrite E. f_equal.
  assert (NV : (numeral_value (z <? 0) ip [] == inject_Z z)%Q).
  { rewrite whole_value, DV. destruct (Z.ltb_spec z 0); cbn [cond_Zopp]; [rewrite Z.abs_neq by lia|rewrite Z.abs_eq by lia];
      [rewrite Z.opp_involutive|]; reflexivity. }
  destruct (of_Z_ok z H) as [FZ VZ].
  assert (V : (SF2Q r == SF2Q (of_Z z))%Q).
  { rewrite VZ, <- NV. apply (near_exact r _ (of_Z z)); auto. now rewrite VZ. }
  destruct (finite_Q_inj r (of_Z z) F FZ V) as [->|(s1 & s2 & -> & Z2)]; [reflexivity|].
  assert (z = 0) by (rewrite Z2 in VZ; unfold Qeq in VZ; simpl in VZ; lia). subst z.
  rewrite atof_plain in E by auto. cbn [Z.ltb Z.compare length Z.of_nat] in E. injection E as E.
  assert (D0 : digits_val (ip ++ []) 0 = 0%N).
  { apply N2Z.inj. rewrite digits_val_dvalue by (apply digits_app; split; apply NU). rewrite app_nil_r, DV. reflexivity. }
  rewrite D0 in E. cbn in E. injection E as <-. reflexivity.
Qed.

(** Numerals with up to ten decimals below 2^19 are written as they were read. *)
Lemma read_write s ip fp : numeral ip fp -> tidy ip fp -> (length fp <= 10)%nat ->
  dvalue ip < 2 ^ 19 ->
  exists r, atof (plain s ip fp) = Some r /\ flat_text r = Ok (plain s ip fp).
Proof.
  intros NU T LF BD.
  assert (LI : (length ip <= 6)%nat).
  { destruct T as [[T|T] _]; [rewrite T; simpl; lia|]. destruct ip as [|c ip]; [simpl; lia|].
    destruct NU as (_ & DI & _). pose proof (dvalue_pos c ip DI T) as P. cbn [length].
    assert (L : 10 ^ Z.of_nat (length ip) < 10 ^ 6) by lia. apply Z.pow_lt_mono_r_iff in L; lia. }
  destruct (atof_rounded s ip fp NU ltac:(lia)) as (r & E & F & NR). exists r. split; [exact E|].
  set (v := numeral_value s ip fp) in *.
  set (V := dvalue (ip ++ fp) * 10 ^ Z.of_nat (10 - length fp)).
  assert (VE : (v * inject_Z TEN10 == (if s then -1 else 1) * inject_Z V)%Q) by (apply numeral_value_scaled; auto).
  assert (DF : digits fp) by apply NU.
  assert (V0 : 0 <= V).
  { unfold V. pose proof (dvalue_bound (ip ++ fp) ltac:(apply digits_app; split; apply NU)).
    pose proof (Z.pow_nonneg 10 (Z.of_nat (10 - length fp)) ltac:(lia)). nia. }
  assert (V1 : V < 2 ^ 19 * TEN10).
  { unfold V. rewrite dvalue_concat. pose proof (dvalue_bound fp DF) as [_ B].
    assert (P : TEN10 = 10 ^ Z.of_nat (length fp) * 10 ^ Z.of_nat (10 - length fp)).
    { rewrite <- Z.pow_add_r by lia. replace (Z.of_nat (length fp) + Z.of_nat (10 - length fp)) with 10 by lia. reflexivity. }
    rewrite P.
    assert (0 < 10 ^ Z.of_nat (10 - length fp)) by (apply Z.pow_pos_nonneg; lia).
    assert (0 < 10 ^ Z.of_nat (length fp)) by (apply Z.pow_pos_nonneg; lia). nia. }
  (* a double within 2^-35 of v *)
  assert (W : exists w, finite w /\ (Qabs (SF2Q w - v) <= 1 # 34359738368)%Q).
  { set (k := (2 * V * 2 ^ 34 + TEN10) / (2 * TEN10)).
    pose proof (Z.div_mod (2 * V * 2 ^ 34 + TEN10) (2 * TEN10) ltac:(unfold TEN10; lia)) as DM.
    pose proof (Z.mod_pos_bound (2 * V * 2 ^ 34 + TEN10) (2 * TEN10) ltac:(unfold TEN10; lia)) as MB. fold k in DM.
    assert (K : 0 <= k <= 2 ^ 53) by (unfold TEN10 in *; lia).
    assert (R : exists w, finite w /\ (SF2Q w == QZ (cond_Zopp s k) (-34))%Q).
    { destruct (Z.eq_dec k (2 ^ 53)) as [KE|KN].
      - destruct (representable (cond_Zopp s (2 ^ 52)) (-33)) as (w & FW & VW); [destruct s; vm_compute; reflexivity|lia|lia|].
        exists w. split; auto. rewrite VW, KE. apply (QZ_eq _ _ _ _ (-34)); [lia|lia|]. destruct s; vm_compute; reflexivity.
      - apply representable; [destruct s; cbn [cond_Zopp]; lia|lia|lia]. }
    destruct R as (w & FW & VW). exists w. split; auto. rewrite VW.
    assert (VQ : (v == (if s then -1 else 1) * (V # 10000000000))%Q).
    { assert (Q : (v == v * inject_Z TEN10 * (1 # 10000000000))%Q).
      { rewrite <- Qmult_assoc. change (inject_Z TEN10 * (1 # 10000000000))%Q with (10000000000 # 10000000000)%Q.
        setoid_replace (10000000000 # 10000000000)%Q with 1%Q by reflexivity. ring. }
      rewrite Q, VE. rewrite <- Qmult_assoc. apply Qmult_comp; [reflexivity|].
      unfold Qeq, Qmult, inject_Z. cbn [Qnum Qden]. lia. }
    assert (KQ : (QZ (cond_Zopp s k) (-34) == (if s then -1 else 1) * (k # 17179869184))%Q).
    { rewrite QZ_neg by lia. change (Z.to_pos (2 ^ (- -34))) with 17179869184%positive.
      destruct s; cbn [cond_Zopp]; unfold Qeq, Qmult; cbn [Qnum Qden]; lia. }
    rewrite VQ, KQ.
    setoid_replace ((if s then -1 else 1) * (k # 17179869184) - (if s then -1 else 1) * (V # 10000000000))%Q
      with ((if s then -1 else 1) * ((k # 17179869184) - (V # 10000000000)))%Q by ring.
    rewrite Qabs_Qmult. assert (S1 : (Qabs (if s then -1 else 1) == 1)%Q) by (destruct s; reflexivity).
    rewrite S1, Qmult_1_l.
    assert (Q : ((k # 17179869184) - (V # 10000000000) == (k * 10000000000 - V * 17179869184) # (17179869184 * 10000000000))%Q).
    { unfold Qeq, Qminus, Qplus, Qopp. cbn [Qnum Qden]. lia. }
    rewrite Q. unfold Qabs, Qle. cbn [Qnum Qden]. unfold TEN10 in *. lia. }
  destruct W as (w & FW & BW).
  assert (NB : (Qabs (SF2Q r - v) <= 1 # 34359738368)%Q) by (eapply Qle_trans; [apply (NR w FW)|exact BW]).
  assert (SIGN : exists m e, r = S754_finite s m e \/ r = S754_zero s).
  { rewrite atof_plain in E by auto. injection E as E.
    destruct (of_decimal_sign s (digits_val (ip ++ fp) 0) (- Z.of_nat (length fp))) as [O|[O|(m & e & O)]]; rewrite O in E.
    - exists 1%positive, 0. auto.
    - subst r. contradiction.
    - exists m, e. auto. }
  assert (CLOSE : (Qabs (SF2Q r * inject_Z TEN10 - (if s then -1 else 1) * inject_Z V) < 1 # 2)%Q).
  { rewrite <- VE. setoid_replace (SF2Q r * inject_Z TEN10 - v * inject_Z TEN10)%Q with ((SF2Q r - v) * inject_Z TEN10)%Q by ring.
    rewrite Qabs_Qmult. change (Qabs (inject_Z TEN10)) with 10000000000%Q.
    generalize dependent (Qabs (SF2Q r - v)). intros; lra. }
  destruct SIGN as (m & e & [->| ->]).
  - assert (SC : scaled m e = V).
    { apply scaled_unique. cbn [SF2Q] in CLOSE. rewrite neg_QZ in CLOSE.
      set (A := QZ (Zpos m) e) in *. destruct s; cbv iota in CLOSE.
      - setoid_replace (- A * inject_Z TEN10 - -1 * inject_Z V)%Q with (- (A * inject_Z TEN10 - inject_Z V))%Q in CLOSE by ring.
        rewrite Qabs_opp in CLOSE. exact CLOSE.
      - setoid_replace (A * inject_Z TEN10 - 1 * inject_Z V)%Q with (A * inject_Z TEN10 - inject_Z V)%Q in CLOSE by ring.
        exact CLOSE. }
    destruct (flat_finite s m e) as (ip' & fp' & E' & NU' & T' & LF' & DV' & _).
    { rewrite SC. eapply Z.lt_trans; [exact V1|]. vm_compute. reflexivity. }
    rewrite E'. f_equal. rewrite SC in DV'. unfold V in DV'.
    (* equal values and tidy forms: equal numerals *)
    assert (PAD : ip' ++ fp' ++ repeat 48%N (10 - length fp') = ip ++ fp ++ repeat 48%N (10 - length fp)).
    { assert (DG : forall a b k, numeral a b -> digits (a ++ b ++ repeat 48%N k)).
      { intros a b k (_ & X & Y). apply digits_app. split; auto. apply digits_app. split; auto.
        apply Forall_forall. intros c I. apply repeat_spec in I. subst c. vm_compute. split; congruence. }
      assert (LEN : forall a b, numeral a b -> tidy a b -> (length b <= 10)%nat ->
         exists a' r, a ++ b ++ repeat 48%N (10 - length b) = a' ++ r /\ a' = a /\ length r = 10%nat).
      { intros a b _ _ X. exists a, (b ++ repeat 48%N (10 - length b)). split; auto. split; auto.
        rewrite app_length, repeat_length. lia. }
      assert (EQV : dvalue (ip' ++ fp' ++ repeat 48%N (10 - length fp')) = dvalue (ip ++ fp ++ repeat 48%N (10 - length fp))).
      { rewrite !app_assoc. rewrite (dvalue_concat (ip' ++ fp')), (dvalue_concat (ip ++ fp)), !dvalue_zeros, !repeat_length. lia. }
      (* both split as integer part and ten digits *)
      set (r1 := fp' ++ repeat 48%N (10 - length fp')) in *. set (r2 := fp ++ repeat 48%N (10 - length fp)) in *.
      assert (L1 : length r1 = 10%nat) by (unfold r1; rewrite app_length, repeat_length; lia).
      assert (L2 : length r2 = 10%nat) by (unfold r2; rewrite app_length, repeat_length; lia).
      pose proof (DG ip' fp' (10 - length fp')%nat NU') as D1. fold r1 in D1.
      pose proof (DG ip fp (10 - length fp)%nat NU) as D2. fold r2 in D2.
      apply digits_app in D1. apply digits_app in D2. destruct D1 as [D1a D1b], D2 as [D2a D2b].
      rewrite !dvalue_concat, L1, L2 in EQV.
      pose proof (dvalue_bound r1 D1b) as B1. pose proof (dvalue_bound r2 D2b) as B2. rewrite L1 in B1. rewrite L2 in B2.
      change (10 ^ Z.of_nat 10) with 10000000000 in *.
      assert (EI : ip' = ip). { apply tidy_unique; auto; try apply NU'; try apply NU; try apply T'; try apply T. lia. }
      assert (ER : dvalue r1 = dvalue r2) by lia.
      rewrite EI. f_equal.
      assert (O1 : dvalue (49%N :: r1) = dvalue (49%N :: r2)).
      { change (49%N :: r1) with ([49%N] ++ r1). change (49%N :: r2) with ([49%N] ++ r2). rewrite !dvalue_concat, L1, L2. lia. }
      apply tidy_unique in O1; try congruence.
      - constructor; auto. vm_compute. split; congruence.
      - constructor; auto. vm_compute. split; congruence.
      - right. cbn. congruence.
      - right. cbn. congruence. }
    assert (INJ : forall a a' b b' : list N, length b = length b' -> a ++ b = a' ++ b' -> a = a' /\ b = b').
    { clear. intros a a' b b' L Q. assert (LA : length a = length a') by (apply (f_equal (@length N)) in Q; rewrite !app_length in Q; lia).
      revert a' LA Q. induction a as [|x a IH]; intros [|y a'] LA Q; try discriminate; auto.
      cbn [app] in Q. injection Q as -> Q. destruct (IH a' ltac:(simpl in LA; lia) Q) as [-> ->]. auto. }
    assert (LR : length (fp' ++ repeat 48%N (10 - length fp')) = length (fp ++ repeat 48%N (10 - length fp)))
      by (rewrite !app_length, !repeat_length; lia).
    destruct (INJ ip' ip _ _ LR PAD) as [-> P2].
    f_equal.
    assert (STR : forall a b i j, a ++ repeat 48%N i = b ++ repeat 48%N j ->
      (a = [] \/ last a 48%N <> 48%N) -> (b = [] \/ last b 48%N <> 48%N) -> a = b).
    { clear. intros a b i j Q TA TB.
      assert (G : forall a b i j, (i <= j)%nat -> a ++ repeat 48%N i = b ++ repeat 48%N j ->
        (a = [] \/ last a 48%N <> 48%N) -> a = b).
      { clear. intros a b i j LE Q TA. replace j with ((j - i) + i)%nat in Q by lia. rewrite repeat_app, app_assoc in Q.
        apply app_inv_tail in Q. destruct (j - i)%nat as [|d]; [cbn [repeat] in Q; now rewrite app_nil_r in Q|].
        exfalso. destruct TA as [->|TA]; [destruct b; discriminate|]. apply TA. rewrite Q. cbn [repeat].
        rewrite repeat_cons, app_assoc, last_last. reflexivity. }
      destruct (Nat.le_ge_cases i j); [apply (G a b i j); auto|symmetry; apply (G b a j i); auto]. }
    apply (STR fp' fp _ _ P2); [apply T'|apply T].
  - rewrite flat_zero. f_equal. cbn [SF2Q] in CLOSE.
    assert (VZ : V = 0).
    { destruct s; cbv iota in CLOSE; apply Qabs_Qlt_condition in CLOSE; destruct CLOSE as [C1 C2].
      - assert (X : (inject_Z V < 1)%Q) by (generalize dependent (inject_Z V); intros; lra).
        change 1%Q with (inject_Z 1) in X. apply inj_lt in X. lia.
      - assert (X : (inject_Z V < 1)%Q) by (generalize dependent (inject_Z V); intros; lra).
        change 1%Q with (inject_Z 1) in X. apply inj_lt in X. lia. }
    unfold V in VZ.
    assert (D0 : dvalue (ip ++ fp) = 0).
    { assert (0 < 10 ^ Z.of_nat (10 - length fp)) by (apply Z.pow_pos_nonneg; lia). nia. }
    rewrite dvalue_concat in D0. destruct NU as (NE & DI & _).
    pose proof (dvalue_bound ip DI). pose proof (dvalue_bound fp DF).
    assert (0 < 10 ^ Z.of_nat (length fp)) by (apply Z.pow_pos_nonneg; lia).
    assert (I0 : dvalue ip = 0) by nia. assert (F0 : dvalue fp = 0) by nia.
    assert (IP : ip = [48%N]).
    { destruct T as [[T|T] _]; [exact T|]. destruct ip as [|c ip]; [congruence|].
      pose proof (dvalue_pos c ip DI T). assert (0 < 10 ^ Z.of_nat (length ip)) by (apply Z.pow_pos_nonneg; lia). lia. }
    assert (FP : fp = []).
    { destruct T as [_ [T|T]]; [exact T|]. destruct fp as [|c fp _] using rev_ind; [reflexivity|].
      rewrite last_last in T. apply digits_app in DF. destruct DF as [DF1 DF2]. inversion DF2 as [|? ? DC _]; subst.
      unfold digit in DC. rewrite dvalue_snoc in F0. pose proof (dvalue_bound fp DF1). lia. }
    rewrite IP, FP. reflexivity.
Qed.

(** ** Comparison *)
Lemma SFltb_Q x y : finite x -> finite y -> (SFltb x y = true <-> (SF2Q x < SF2Q y)%Q).
Proof.
  intros FX FY. unfold SFltb. rewrite (SFcompare_Q x y FX FY), Qlt_alt.
  destruct (SF2Q x ?= SF2Q y)%Q; split; congruence.
Qed.
Lemma SFleb_Q x y : finite x -> finite y -> (SFleb x y = true <-> (SF2Q x <= SF2Q y)%Q).
Proof.
  intros FX FY. unfold SFleb. rewrite (SFcompare_Q x y FX FY), Qle_alt.
  destruct (SF2Q x ?= SF2Q y)%Q; split; congruence.
Qed.
Lemma SFeqb_Q x y : finite x -> finite y -> (SFeqb x y = true <-> (SF2Q x == SF2Q y)%Q).
Proof.
  intros FX FY. unfold SFeqb. rewrite (SFcompare_Q x y FX FY), Qeq_alt.
  destruct (SF2Q x ?= SF2Q y)%Q; split; congruence.
Qed.
Lemma SFcompare_some x y : x <> S754_nan -> y <> S754_nan -> exists c, SFcompare x y = Some c.
Proof. destruct x as [?|?| |? ? ?], y as [?|?| |? ? ?]; intros A B; try congruence; eexists; reflexivity. Qed.
Lemma SFcompare_swap x y : SFcompare y x = match SFcompare x y with Some c => Some (CompOpp c) | None => None end.
Proof.
  destruct x as [[]|[]| |[] m e], y as [[]|[]| |[] m' e']; cbn [SFcompare]; try reflexivity; f_equal;
    rewrite (Z.compare_antisym e e'); destruct (e ?= e'); cbn [CompOpp]; try reflexivity.
  - f_equal. apply (Pos.compare_antisym m m').
  - apply (Pos.compare_antisym m m').
Qed.

(** ** Arithmetic on whole numbers *)
Lemma rounded_exact r v z : rounded r v -> finite z -> (SF2Q z == v)%Q -> (SF2Q r == v)%Q.
Proof. intros [_ N] F E. exact (near_exact r v z N F E). Qed.
Lemma pow_1023 : (inject_Z (2 ^ 60) < Qpower 2 1023)%Q.
Proof. rewrite <- (Zpower_Qpower 2 1023) by lia. rewrite <- Zlt_Qlt. vm_compute. reflexivity. Qed.
Lemma below_whole z : Z.abs z <= 2 ^ 60 -> below (inject_Z z).
Proof.
  intros H. unfold below. eapply Qle_lt_trans; [|exact pow_1023]. rewrite inj_abs, <- Zle_Qle. exact H.
Qed.
Lemma below_ext v w : (v == w)%Q -> below v -> below w.
Proof. unfold below. intros E H. now rewrite <- E. Qed.

Lemma add_whole x y a b : finite x -> finite y -> (SF2Q x == inject_Z a)%Q -> (SF2Q y == inject_Z b)%Q ->
  Z.abs (a + b) <= 2 ^ 53 -> finite (add64 x y) /\ (SF2Q (add64 x y) == inject_Z (a + b))%Q.
Proof.
  intros FX FY EX EY H. destruct (of_Z_ok (a + b) H) as [F V].
  assert (E : (SF2Q x + SF2Q y == inject_Z (a + b))%Q) by (rewrite EX, EY, inject_Z_plus; reflexivity).
  pose proof (SFadd_rounded x y FX FY (below_ext _ _ (Qeq_sym _ _ E) (below_whole (a + b) ltac:(lia)))) as R.
  split; [apply R|]. rewrite <- E. apply (rounded_exact _ _ (of_Z (a + b)) R F). now rewrite V, E.
Qed.
Lemma sub_whole x y a b : finite x -> finite y -> (SF2Q x == inject_Z a)%Q -> (SF2Q y == inject_Z b)%Q ->
  Z.abs (a - b) <= 2 ^ 53 -> finite (sub64 x y) /\ (SF2Q (sub64 x y) == inject_Z (a - b))%Q.
Proof.
  intros FX FY EX EY H. destruct (of_Z_ok (a - b) H) as [F V].
  assert (E : (SF2Q x - SF2Q y == inject_Z (a - b))%Q).
  { rewrite EX, EY. unfold Z.sub. rewrite inject_Z_plus, inject_Z_opp. reflexivity. }
  pose proof (SFsub_rounded x y FX FY (below_ext _ _ (Qeq_sym _ _ E) (below_whole (a - b) ltac:(lia)))) as R.
  split; [apply R|]. rewrite <- E. apply (rounded_exact _ _ (of_Z (a - b)) R F). now rewrite V, E.
Qed.
Lemma mul_whole x y a b : finite x -> finite y -> (SF2Q x == inject_Z a)%Q -> (SF2Q y == inject_Z b)%Q ->
  Z.abs (a * b) <= 2 ^ 53 -> finite (mul64 x y) /\ (SF2Q (mul64 x y) == inject_Z (a * b))%Q.
Proof.
  intros FX FY EX EY H. destruct (of_Z_ok (a * b) H) as [F V].
  assert (E : (SF2Q x * SF2Q y == inject_Z (a * b))%Q) by (rewrite EX, EY, inject_Z_mult; reflexivity).
  pose proof (SFmul_rounded x y FX FY (below_ext _ _ (Qeq_sym _ _ E) (below_whole (a * b) ltac:(lia)))) as R.
  split; [apply R|]. rewrite <- E. apply (rounded_exact _ _ (of_Z (a * b)) R F). now rewrite V, E.
Qed.

(** ** Random numbers *)
Lemma is_round_whole z z' : is_round (inject_Z z) z' -> z' = z.
Proof.
  intros [A _]. unfold Qminus in A. rewrite <- inject_Z_opp, <- inject_Z_plus, inj_abs in A.
  unfold Qle, inject_Z in A. cbn [Qnum Qden] in A. lia.
Qed.
Lemma SF2Q_whole_lt x y a b : finite x -> finite y -> (SF2Q x == inject_Z a)%Q -> (SF2Q y == inject_Z b)%Q ->
  SFltb x y = (a <? b) /\ SFeqb x y = (a =? b).
Proof.
  intros FX FY EX EY. split.
  - apply eq_true_iff_eq. rewrite SFltb_Q, EX, EY, <- Zlt_Qlt, Z.ltb_lt by auto. reflexivity.
  - apply eq_true_iff_eq. rewrite SFeqb_Q, EX, EY, Z.eqb_eq by auto.
    unfold Qeq, inject_Z. cbn [Qnum Qden]. lia.
Qed.

Lemma one_roll n : 1 <= n <= 2147483647 -> c_int (c_ceil (div64 (of_Z n) (of_Z RAND_MAX))) = Ok 1.
Proof.
  intros H. destruct (of_Z_ok n) as [FN VN]; [lia|]. destruct (of_Z_ok RAND_MAX) as [FR VR]; [unfold RAND_MAX; lia|].
  assert (VQ : (SF2Q (of_Z n) / SF2Q (of_Z RAND_MAX) == n # 2147483647)%Q).
  { rewrite VN, VR. unfold Qdiv. change (/ inject_Z RAND_MAX)%Q with (1 # 2147483647)%Q.
    unfold Qeq, Qmult, inject_Z. cbn [Qnum Qden]. lia. }
  destruct (SFdiv_rounded (of_Z n) (of_Z RAND_MAX) FN FR) as [F N].
  { rewrite VR. unfold Qeq, inject_Z, RAND_MAX. simpl. lia. }
  { eapply below_ext; [symmetry; exact VQ|]. unfold below. eapply Qle_lt_trans; [|exact pow_1023].
    unfold Qabs, Qle, inject_Z. cbn [Qnum Qden]. lia. }
  fold (div64 (of_Z n) (of_Z RAND_MAX)) in *. set (r := div64 (of_Z n) (of_Z RAND_MAX)) in *.
  assert (UP : (SF2Q r <= 1)%Q).
  { destruct (of_Z_ok 1) as [F1 V1]; [lia|]. specialize (N (of_Z 1) F1). rewrite VQ, V1 in N.
    assert (P : (0 <= inject_Z 1 - (n # 2147483647))%Q).
    { unfold Qle, Qminus, Qplus, Qopp, inject_Z. cbn [Qnum Qden]. lia. }
    rewrite (Qabs_pos _ P) in N. apply Qabs_Qle_condition in N. destruct N as [_ N].
    change (inject_Z 1) with 1%Q in N. generalize dependent (SF2Q r). intros. lra. }
  assert (LO : (0 < SF2Q r)%Q).
  { destruct (representable 1 (-31)) as (w & FW & VW); [reflexivity|lia|lia|].
    assert (VW' : (SF2Q w == 1 # 2147483648)%Q) by (rewrite VW; reflexivity).
    specialize (N w FW). rewrite VQ, VW' in N.
    assert (P : (0 <= (n # 2147483647) - (1 # 2147483648))%Q).
    { unfold Qle, Qminus, Qplus, Qopp. cbn [Qnum Qden]. lia. }
    setoid_replace ((1 # 2147483648) - (n # 2147483647))%Q with (- ((n # 2147483647) - (1 # 2147483648)))%Q in N by ring.
    rewrite Qabs_opp, (Qabs_pos _ P) in N. apply Qabs_Qle_condition in N. destruct N as [N _].
    assert (0 < 1 # 2147483648)%Q by reflexivity. generalize dependent (SF2Q r). intros. lra. }
  destruct (c_ceil_spec r F) as (FC & z & VZ & C1 & C2).
  assert (z = 1).
  { assert (A : (inject_Z z < inject_Z 2)%Q) by (change (inject_Z 2) with 2%Q; generalize dependent (inject_Z z); intros; lra).
    assert (B : (inject_Z 0 < inject_Z z)%Q) by (change (inject_Z 0) with 0%Q; generalize dependent (inject_Z z); intros; lra).
    apply inj_lt in A. apply inj_lt in B. lia. }
  subst z. apply c_int_whole; auto. lia.
Qed.
Lemma c_int64_whole x z : finite x -> (SF2Q x == inject_Z z)%Q -> - 2 ^ 63 <= z < 2 ^ 63 -> c_int64 x = Ok z.
Proof.
  intros F V B. unfold c_int64. rewrite (trunc_whole x z F V). 
  assert (L : in_long z = true) by (unfold in_long, LONG_MAX; apply andb_true_iff; rewrite !Z.leb_le; lia).
  now rewrite L.
Qed.

Definition int_range (z : Z) : Prop := - 2147483648 <= z <= 2147483647.
Lemma between_spec rand lo hi a b : (forall i, 0 <= rand i <= RAND_MAX) -> finite lo -> finite hi ->
  is_round (SF2Q lo) a -> is_round (SF2Q hi) b -> int_range a -> int_range b -> Z.abs (a - b) <= 2147483647 ->
  exists r, number_between rand lo hi = Ok r /\ finite r /\
    (SF2Q r == inject_Z (Z.min a b + rand 0%nat mod (Z.abs (a - b) + 1)))%Q.
Proof.
  intros HR FL FH RA RB IA IB AB.
  destruct (c_round_spec lo FL) as (FL' & a' & VA & RA').
  destruct (c_round_spec hi FH) as (FH' & b' & VB & RB').
  assert (UNI : forall q z z', is_round q z -> is_round q z' -> z = z').
  { clear. intros q z z' [A1 A2] [B1 B2].
    destruct (Z.eq_dec z z') as [|N]; [auto|exfalso].
    assert (G : forall z z', z < z' -> (Qabs (q - inject_Z z) <= 1 # 2)%Q -> (Qabs (q - inject_Z z') <= 1 # 2)%Q ->
       z' = z + 1 /\ (q == inject_Z z + (1 # 2))%Q).
    { clear. intros z z' L A B. apply Qabs_Qle_condition in A. apply Qabs_Qle_condition in B.
      assert (X : (inject_Z z' <= inject_Z (z + 1))%Q).
      { rewrite inject_Z_plus. change (inject_Z 1) with 1%Q. generalize dependent (inject_Z z'). generalize dependent (inject_Z z).
        intros; lra. }
      apply inj_le in X. assert (z' = z + 1) by lia. subst z'. split; auto. rewrite inject_Z_plus in B.
      change (inject_Z 1) with 1%Q in B. generalize dependent (inject_Z z). intros; lra. }
    assert (H : forall z, (q == inject_Z z + (1 # 2))%Q ->
       (Qabs (q - inject_Z z) == 1 # 2 -> Qabs q < Qabs (inject_Z z))%Q ->
       (Qabs (q - inject_Z (z + 1)) == 1 # 2 -> Qabs q < Qabs (inject_Z (z + 1)))%Q -> False).
    { clear. intros z E H1 H2. rewrite inject_Z_plus in H2. change (inject_Z 1) with 1%Q in H2.
      assert (X1 : (Qabs q < Qabs (inject_Z z))%Q).
      { apply H1. setoid_replace (q - inject_Z z)%Q with (1 # 2)%Q; [reflexivity|]. rewrite E. ring. }
      assert (X2 : (Qabs q < Qabs (inject_Z z + 1))%Q).
      { apply H2. setoid_replace (q - (inject_Z z + 1))%Q with (- (1 # 2))%Q; [reflexivity|]. rewrite E. ring. }
      rewrite E in X1, X2.
      destruct (Z.le_gt_cases 0 z) as [L|L].
      - assert (P : (0 <= inject_Z z)%Q) by (change 0%Q with (inject_Z 0); rewrite <- Zle_Qle; auto).
        clear - X1 X2 P. set (q0 := inject_Z z) in *. clearbody q0. rewrite (Qabs_pos (q0 + (1 # 2)) ltac:(lra)), (Qabs_pos q0 P) in X1. lra.
      - assert (P : (inject_Z z <= -1)%Q) by (change (-1)%Q with (inject_Z (-1)); rewrite <- Zle_Qle; lia).
        clear - X1 X2 P. set (q0 := inject_Z z) in *. clearbody q0.
        rewrite (Qabs_neg (q0 + (1 # 2)) ltac:(lra)), (Qabs_neg (q0 + 1) ltac:(lra)) in X2. lra. }
    destruct (Z.lt_ge_cases z z') as [L|L].
    - destruct (G z z' L A1 B1) as [-> E]. exact (H z E A2 B2).
    - destruct (G z' z ltac:(lia) B1 A1) as [-> E]. exact (H z' E B2 A2). }
  assert (a' = a) by (eapply UNI; eauto). assert (b' = b) by (eapply UNI; eauto). subst a' b'. clear RA' RB' RA RB UNI.
  unfold int_range in *. unfold number_between. cbv zeta.
  destruct (SF2Q_whole_lt _ _ _ _ FH' FL' VB VA) as [LT _]. rewrite LT.
  assert (SW : exists x y u v, (if b <? a then (c_round hi, c_round lo) else (c_round lo, c_round hi)) = (x, y) /\
     finite x /\ finite y /\ (SF2Q x == inject_Z u)%Q /\ (SF2Q y == inject_Z v)%Q /\ u = Z.min a b /\ v = Z.max a b).
  { destruct (Z.ltb_spec b a); do 4 eexists; (split; [reflexivity|]); repeat (split; [eassumption|]); lia. }
  destruct SW as (x & y & u & v & -> & FX & FY & VX & VY & EU & EV).
  destruct (SF2Q_whole_lt _ _ _ _ FX FY VX VY) as [_ EQ]. rewrite EQ.
  destruct (Z.eqb_spec u v) as [UV|UV].
  { exists x. split; [reflexivity|]. split; [exact FX|]. assert (Z.abs (a - b) = 0) by lia. rewrite H.
    change (0 + 1) with 1. rewrite Z.mod_1_r, Z.add_0_r, <- EU. exact VX. }
  rewrite (c_int_whole y v FY VY) by lia. cbn [obind]. rewrite (c_int_whole x u FX VX) by lia. cbn [obind].
  assert (D : 1 <= v - u <= 2147483647) by lia.
  assert (I1 : in_int (v - u) = true) by (apply in_int_iff; lia).
  assert (I2 : (v - u =? - INT_MAX - 1) = false) by (apply Z.eqb_neq; unfold INT_MAX; lia).
  rewrite I1, I2. cbn [negb orb]. rewrite Z.abs_eq by lia.
  rewrite one_roll by lia. cbn [obind]. change (Z.to_nat 1) with 1%nat. cbn [roll]. rewrite Z.add_0_l.
  destruct (of_Z_ok (v - u)) as [FN VN]; [lia|].
  rewrite (c_int64_whole _ _ FN VN) by lia. cbn [obind].
  rewrite (c_int64_whole x u FX VX) by lia. cbn [obind].
  specialize (HR 0%nat). unfold RAND_MAX in HR.
  rewrite Z.rem_mod_nonneg by lia.
  pose proof (Z.mod_pos_bound (rand 0%nat) (v - u + 1) ltac:(lia)) as MB.
  set (k := rand 0%nat mod (v - u + 1)) in *.
  destruct (of_Z_ok k) as [FK VK]; [lia|]. destruct (of_Z_ok u) as [FU VU]; [lia|].
  destruct (add_whole _ _ _ _ FK FU VK VU) as [FS VS]; [lia|].
  eexists. split; [reflexivity|]. split; [exact FS|]. rewrite VS.
  replace (Z.abs (a - b)) with (v - u) by lia. fold k. replace (k + u) with (Z.min a b + k) by lia. reflexivity.
Qed.

(** ** Remainder *)
Lemma fmod_spec a b : finite a -> finite b -> ~ (SF2Q b == 0)%Q ->
  finite (c_fmod a b) /\ (exists q, SF2Q a == inject_Z q * SF2Q b + SF2Q (c_fmod a b))%Q /\
  (Qabs (SF2Q (c_fmod a b)) < Qabs (SF2Q b))%Q /\ (0 <= SF2Q (c_fmod a b) * SF2Q a)%Q.
Proof.
  intros FA FB NZ.
  assert (AB : (0 < Qabs (SF2Q b))%Q).
  { pose proof (Qabs_nonneg (SF2Q b)) as P. apply Qle_lteq in P. destruct P as [P|P]; auto. symmetry in P.
    exfalso. apply NZ. pose proof (Qle_Qabs (SF2Q b)). pose proof (Qle_Qabs (- SF2Q b)). rewrite Qabs_opp in *. lra. }
  assert (ZERO : forall s, (exists q, SF2Q a == inject_Z q * SF2Q b)%Q ->
    c_fmod a b = S754_zero s -> finite (c_fmod a b) /\ (exists q, SF2Q a == inject_Z q * SF2Q b + SF2Q (c_fmod a b))%Q /\
    (Qabs (SF2Q (c_fmod a b)) < Qabs (SF2Q b))%Q /\ (0 <= SF2Q (c_fmod a b) * SF2Q a)%Q).
  { intros s (q & Q) E. rewrite E. split; [exact I|]. cbn [SF2Q]. split; [exists q; rewrite Q; ring|].
    split; [exact AB|]. rewrite Qmult_0_l. apply Qle_refl. }
  destruct a as [sa|sa| |sa m e]; try contradiction; destruct b as [sb|sb| |sb m' e']; try contradiction;
    try (elim NZ; reflexivity).
  - apply (ZERO sa); [|reflexivity]. exists 0. cbn [SF2Q]. ring.
  - destruct FA as [CA BA], FB as [CB BB].
    set (l := Z.min e e'). set (A := Zpos m * 2 ^ (e - l)). set (B := Zpos m' * 2 ^ (e' - l)).
    assert (P1 : 0 < 2 ^ (e - l)) by (apply Z.pow_pos_nonneg; lia).
    assert (P2 : 0 < 2 ^ (e' - l)) by (apply Z.pow_pos_nonneg; lia).
    assert (B0 : 0 < B) by (unfold B; lia).
    pose proof (Z.div_mod A B ltac:(lia)) as DM. pose proof (Z.mod_pos_bound A B B0) as MB.
    set (r := A mod B) in *. set (q := A / B) in *.
    assert (VA : (SF2Q (S754_finite sa m e) == QZ (cond_Zopp sa A) l)%Q).
    { cbn [SF2Q]. rewrite (QZ_align _ e l) by lia. unfold A. destruct sa; cbn [cond_Zopp]; [|reflexivity].
      replace (- Zpos m * 2 ^ (e - l)) with (- (Zpos m * 2 ^ (e - l))) by ring. reflexivity. }
    assert (VB : (SF2Q (S754_finite sb m' e') == QZ (cond_Zopp sb B) l)%Q).
    { cbn [SF2Q]. rewrite (QZ_align _ e' l) by lia. unfold B. destruct sb; cbn [cond_Zopp]; [|reflexivity].
      replace (- Zpos m' * 2 ^ (e' - l)) with (- (Zpos m' * 2 ^ (e' - l))) by ring. reflexivity. }
    assert (RE : (QZ (cond_Zopp sa A) l == inject_Z (cond_Zopp (xorb sa sb) q) * QZ (cond_Zopp sb B) l + QZ (cond_Zopp sa r) l)%Q).
    { unfold QZ. rewrite Qmult_assoc, <- Qmult_plus_distr_l. apply Qmult_comp; [|reflexivity].
      rewrite <- inject_Z_mult, <- inject_Z_plus.
      replace (cond_Zopp sa A) with (cond_Zopp (xorb sa sb) q * cond_Zopp sb B + cond_Zopp sa r); [reflexivity|].
      rewrite DM. destruct sa, sb; cbn [xorb cond_Zopp]; ring. }
    assert (FM : c_fmod (S754_finite sa m e) (S754_finite sb m' e') =
      if r =? 0 then S754_zero sa else binary_normalize 53 1024 (cond_Zopp sa r) l false) by reflexivity.
    destruct (Z.eqb_spec r 0) as [R0|R0].
    + apply (ZERO sa); [|exact FM]. exists (cond_Zopp (xorb sa sb) q). rewrite VA, VB, RE, R0.
      assert (Z0 : (QZ (cond_Zopp sa 0) l == 0)%Q) by (unfold QZ; destruct sa; cbn [cond_Zopp Z.opp]; ring). rewrite Z0. ring.
    + rewrite FM.
      assert (REP : exists m0 e0, canon m0 e0 /\ e0 <= 971 /\ (QZ (Zpos m0) e0 == QZ r l)%Q).
      { assert (R53 : r < 2 ^ 53).
        { apply canon_iff in CA. apply canon_iff in CB. destruct (Z.le_gt_cases e' e).
          - assert (l = e') by lia. unfold B in MB. rewrite H0, Z.sub_diag, Z.mul_1_r in MB. lia.
          - assert (l = e) by lia. assert (r <= A) by (unfold r; apply Z.mod_le; lia).
            unfold A in H1. rewrite H0, Z.sub_diag, Z.mul_1_r in H1. lia. }
        destruct (representable r l) as (w & FW & VW); [lia| |lia|].
        { apply canon_iff in CA. apply canon_iff in CB. lia. }
        destruct w as [sw|sw| |sw m0 e0]; try contradiction.
        - exfalso. apply R0. cbn [SF2Q] in VW. assert (X : (QZ 0 l == QZ r l)%Q) by (rewrite <- VW; unfold QZ; ring).
          apply (QZ_eq _ _ _ _ l) in X; [|lia|lia]. rewrite Z.sub_diag in X. lia.
        - destruct FW as [C0 B00]. exists m0, e0. split; auto. split; auto. destruct sw; [|exact VW].
          exfalso. cbn [SF2Q cond_Zopp] in VW. rewrite QZ_opp in VW.
          assert (0 < QZ (Zpos m0) e0)%Q by (unfold QZ; apply Qmult_lt_0_compat; [reflexivity|apply pow2_pos]).
          assert (0 <= QZ r l)%Q.
          { unfold QZ. apply Qmult_le_0_compat; [|apply Qlt_le_weak, pow2_pos]. change 0%Q with (inject_Z 0). rewrite <- Zle_Qle. lia. }
          lra. }
      destruct REP as (m0 & e0 & C0 & B00 & V0).
      destruct r as [|p|p] eqn:RP; [congruence| |lia].
      assert (NRM : binary_normalize 53 1024 (cond_Zopp sa (Zpos p)) l false = S754_finite sa m0 e0).
      { destruct sa; cbn [cond_Zopp Z.opp binary_normalize]; apply round_exact; auto; intros L L1 L2;
          symmetry; apply (QZ_eq _ _ _ _ L); auto. }
      rewrite NRM. assert (VR : (SF2Q (S754_finite sa m0 e0) == QZ (cond_Zopp sa (Zpos p)) l)%Q).
      { cbn [SF2Q]. rewrite !neg_QZ. destruct sa; rewrite V0; reflexivity. }
      split; [split; auto|]. split; [exists (cond_Zopp (xorb sa sb) q); rewrite VA, VB, VR; exact RE|].
      assert (PW : (0 < Qpower 2 l)%Q) by apply pow2_pos.
      split.
      * rewrite VR, VB. unfold QZ. rewrite !Qabs_Qmult. apply Qmult_lt_compat_r; [rewrite Qabs_pos; lra|].
        rewrite !inj_abs, <- Zlt_Qlt. destruct sa, sb; cbn [cond_Zopp]; lia.
      * rewrite VR, VA, !neg_QZ.
        assert (X : (0 <= QZ (Zpos p) l)%Q) by (unfold QZ; apply Qmult_le_0_compat; [unfold Qle; simpl; lia|lra]).
        assert (Y : (0 <= QZ A l)%Q) by (unfold QZ; apply Qmult_le_0_compat; [change 0%Q with (inject_Z 0); rewrite <- Zle_Qle; unfold A; lia|lra]).
        assert (AN : (QZ (cond_Zopp sa A) l == if sa then - QZ A l else QZ A l)%Q) by (destruct sa; cbn [cond_Zopp]; [apply QZ_opp|reflexivity]).
        rewrite AN. destruct sa.
        -- setoid_replace (- QZ (Zpos p) l * - QZ A l)%Q with (QZ (Zpos p) l * QZ A l)%Q by ring. now apply Qmult_le_0_compat.
        -- now apply Qmult_le_0_compat.
Qed.
