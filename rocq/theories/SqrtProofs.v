From Coq Require Import ZArith NArith List Lia Bool QArith Qpower Qabs Lqa.
From Verif Require Import Common NumModel NumSpec FloatProofs NumProofs.
Open Scope Z_scope.

Lemma Qpow_pos e : (0 < Qpower 2 e)%Q. Proof. apply pow2_pos. Qed.

Lemma Qle_l c x y : (0 <= c -> x <= y -> c * x <= c * y)%Q.
Proof. intros C H. rewrite (Qmult_comm c x), (Qmult_comm c y). now apply Qmult_le_compat_r. Qed.
Lemma mult_le x y E : (inject_Z x * Qpower 2 E <= inject_Z y * Qpower 2 E)%Q <-> x <= y.
Proof.
  split; intros H.
  - apply inj_le. apply Qmult_le_r in H; [exact H|apply Qpow_pos].
  - apply Qmult_le_r; [apply Qpow_pos|]. now rewrite <- Zle_Qle.
Qed.

(** a finite double not below 2^52 * 2^E is a multiple of 2^E *)
Lemma multiple w E : finite w -> (QZ (2 ^ 52) E <= SF2Q w)%Q -> exists k, (SF2Q w == QZ k E)%Q.
Proof.
  intros F H. destruct w as [s|s| |s m e]; try contradiction.
  - exists 0. cbn [SF2Q]. unfold QZ. ring.
  - destruct (Z.le_gt_cases E e) as [L|L].
    + eexists. cbn [SF2Q]. apply QZ_align. exact L.
    + exfalso. destruct F as [C _]. apply canon_iff in C.
      cbn [SF2Q] in H. rewrite Qle_alt in H. apply H. rewrite (QZ_compare _ _ _ _ e) by lia.
      rewrite Z.sub_diag. apply Z.compare_gt_iff.
      assert (2 ^ 1 <= 2 ^ (E - e)) by (apply Z.pow_le_mono_r; lia).
      destruct s; cbn [cond_Zopp]; lia.
Qed.

Lemma root_core m' q E a b R v : 0 < m' -> -1000 <= E <= 900 -> 2 ^ 52 <= q -> q * q <= m' < (q + 1) * (q + 1) ->
  (m' = q * q /\ a = q /\ b = 1%positive \/
   q * q < m' <= q * q + q /\ a = 4 * q + 1 /\ b = 4%positive \/
   q * q + q < m' /\ a = 4 * q + 3 /\ b = 4%positive) ->
  rounded R ((a # b) * Qpower 2 E) -> (v == inject_Z m' * Qpower 2 E * Qpower 2 E)%Q ->
  root_of R v.
Proof.
  intros M0 EB Q52 QM LOC [F N] V. set (P := Qpower 2 E) in *.
  assert (P0 : (0 < P)%Q) by apply Qpow_pos.
  assert (QB : forall z, (QZ z E == inject_Z z * P)%Q) by reflexivity.
  assert (AB : (inject_Z q <= a # b)%Q).
  { unfold Qle, inject_Z. cbn [Qnum Qden]. destruct LOC as [(_ & -> & ->)|[(_ & -> & ->)|(_ & -> & ->)]]; lia. }
  destruct (representable (2 ^ 52) E) as (w0 & F0 & V0); [vm_compute; reflexivity|lia|lia|].
  set (t := ((a # b) * P)%Q) in *.
  (* nearness as midpoints *)
  assert (MIDL : forall w, finite w -> (SF2Q w < SF2Q R)%Q -> (SF2Q R + SF2Q w <= 2 * t)%Q).
  { intros w FW L. specialize (N w FW). destruct (Qlt_le_dec t (SF2Q R)) as [H|H].
    - rewrite (Qabs_pos (SF2Q R - t)) in N by lra.
      destruct (Qlt_le_dec (SF2Q w) t) as [G|G].
      + rewrite (Qabs_neg (SF2Q w - t)) in N by lra. lra.
      + rewrite (Qabs_pos (SF2Q w - t)) in N by lra. lra.
    - lra. }
  assert (MIDU : forall w, finite w -> (SF2Q R < SF2Q w)%Q -> (2 * t <= SF2Q R + SF2Q w)%Q).
  { intros w FW L. specialize (N w FW). destruct (Qlt_le_dec (SF2Q R) t) as [H|H].
    - rewrite (Qabs_neg (SF2Q R - t)) in N by lra.
      destruct (Qlt_le_dec (SF2Q w) t) as [G|G].
      + rewrite (Qabs_neg (SF2Q w - t)) in N by lra. lra.
      + rewrite (Qabs_pos (SF2Q w - t)) in N by lra. lra.
    - lra. }
  assert (T0 : (inject_Z q * P <= t)%Q) by (apply Qmult_le_r; auto).
  assert (W0 : (SF2Q w0 <= inject_Z q * P)%Q).
  { rewrite V0, QB. apply Qmult_le_r; auto. now rewrite <- Zle_Qle. }
  assert (R0 : (SF2Q w0 <= SF2Q R)%Q).
  { destruct (Qlt_le_dec (SF2Q R) (SF2Q w0)) as [H|H]; [|exact H]. specialize (MIDU w0 F0 H). lra. }
  assert (W0P : (0 < SF2Q w0)%Q).
  { rewrite V0, QB. apply Qmult_lt_0_compat; auto. reflexivity. }
  destruct (multiple R E F) as (rho & RV); [rewrite <- V0; exact R0|]. rewrite QB in RV.
  assert (LOW : forall k, (SF2Q R + inject_Z k * P <= 2 * t)%Q -> 0 <= rho + k ->
     ((SF2Q R + inject_Z k * P) * (SF2Q R + inject_Z k * P) <= 4 * v)%Q).
  { intros k H K.
    assert (Z1 : (inject_Z (rho + k) * P <= 2 * t)%Q) by (rewrite inject_Z_plus; rewrite RV in H; lra).
    assert (Z2 : (inject_Z (rho + k) <= 2 * (a # b))%Q).
    { apply (Qmult_le_r _ _ P P0). unfold t in Z1. lra. }
    assert (Z3 : (rho + k) * (rho + k) <= 4 * m').
    { unfold Qle, Qmult, inject_Z in Z2. cbn [Qnum Qden] in Z2.
      destruct LOC as [(H1 & -> & ->)|[(H1 & -> & ->)|(H1 & -> & ->)]]; nia. }
    rewrite V, RV.
    setoid_replace ((inject_Z rho * P + inject_Z k * P) * (inject_Z rho * P + inject_Z k * P))%Q
      with (inject_Z ((rho + k) * (rho + k)) * (P * P))%Q by (rewrite inject_Z_mult, inject_Z_plus; ring).
    setoid_replace (4 * (inject_Z m' * P * P))%Q with (inject_Z (4 * m') * (P * P))%Q
      by (rewrite inject_Z_mult; change (inject_Z 4) with 4%Q; ring).
    apply Qmult_le_r; [now apply Qmult_lt_0_compat|]. now rewrite <- Zle_Qle. }
  assert (RHO : 0 <= rho).
  { assert (X : (0 < inject_Z rho * P)%Q) by (rewrite <- RV; lra).
    assert (Y : (inject_Z 0 * P < inject_Z rho * P)%Q) by (change (inject_Z 0) with 0%Q; lra).
    apply Qmult_lt_r in Y; auto. apply inj_lt in Y. lia. }
  split; [exact F|]. split; [lra|]. intros w FW WN. split; intros L.
  - destruct (Qlt_le_dec (SF2Q w0) (SF2Q w)) as [H|H].
    + destruct (multiple w E FW) as (k & WV); [rewrite <- V0; lra|]. rewrite QB in WV. rewrite WV.
      apply LOW; [rewrite <- WV; apply MIDL; auto|].
      assert (Y : (inject_Z 0 * P <= inject_Z k * P)%Q) by (change (inject_Z 0) with 0%Q; rewrite <- WV; lra).
      apply Qmult_le_r in Y; auto. apply inj_le in Y. lia.
    + destruct (Qlt_le_dec (SF2Q w0) (SF2Q R)) as [G|G].
      * assert (X : ((SF2Q R + SF2Q w0) * (SF2Q R + SF2Q w0) <= 4 * v)%Q).
        { rewrite V0, QB. apply LOW; [rewrite <- QB, <- V0; apply MIDL; auto|lia]. }
        eapply Qle_trans; [|exact X].
        apply Qle_trans with ((SF2Q R + SF2Q w0) * (SF2Q R + SF2Q w))%Q.
        -- apply Qmult_le_compat_r; lra.
        -- rewrite !(Qmult_comm (SF2Q R + SF2Q w0)). apply Qmult_le_compat_r; lra.
      * assert (X : (SF2Q R + SF2Q w <= 2 * (inject_Z q * P))%Q) by lra.
        apply Qle_trans with ((2 * (inject_Z q * P)) * (2 * (inject_Z q * P)))%Q.
        -- apply Qle_trans with ((2 * (inject_Z q * P)) * (SF2Q R + SF2Q w))%Q.
           ++ apply Qmult_le_compat_r; lra.
           ++ rewrite !(Qmult_comm (2 * (inject_Z q * P))). apply Qmult_le_compat_r; lra.
        -- rewrite V. setoid_replace (2 * (inject_Z q * P) * (2 * (inject_Z q * P)))%Q with (inject_Z (4 * (q * q)) * (P * P))%Q
             by (rewrite !inject_Z_mult; change (inject_Z 4) with 4%Q; ring).
           setoid_replace (4 * (inject_Z m' * P * P))%Q with (inject_Z (4 * m') * (P * P))%Q
             by (rewrite inject_Z_mult; change (inject_Z 4) with 4%Q; ring).
           apply Qmult_le_r; [now apply Qmult_lt_0_compat|]. rewrite <- Zle_Qle. lia.
  - destruct (multiple w E FW) as (k & WV); [rewrite <- V0; lra|]. rewrite QB in WV.
    pose proof (MIDU w FW L) as H. rewrite WV, RV in *.
    assert (Z1 : (2 * (a # b) <= inject_Z (rho + k))%Q).
    { apply (Qmult_le_r _ _ P P0). rewrite inject_Z_plus. unfold t in H. lra. }
    assert (Z3 : 4 * m' <= (rho + k) * (rho + k)).
    { unfold Qle, Qmult, inject_Z in Z1. cbn [Qnum Qden] in Z1.
      destruct LOC as [(H1 & -> & ->)|[(H1 & -> & ->)|(H1 & -> & ->)]]; nia. }
    rewrite V.
    setoid_replace ((inject_Z rho * P + inject_Z k * P) * (inject_Z rho * P + inject_Z k * P))%Q
      with (inject_Z ((rho + k) * (rho + k)) * (P * P))%Q by (rewrite inject_Z_mult, inject_Z_plus; ring).
    setoid_replace (4 * (inject_Z m' * P * P))%Q with (inject_Z (4 * m') * (P * P))%Q
      by (rewrite inject_Z_mult; change (inject_Z 4) with 4%Q; ring).
    apply Qmult_le_r; [now apply Qmult_lt_0_compat|]. now rewrite <- Zle_Qle.
Qed.

Theorem sqrt_spec x : finite x -> (0 <= SF2Q x)%Q -> root_of (number_sqrt x) (SF2Q x).
Proof.
  unfold number_sqrt. destruct x as [s|s| |s m e]; simpl finite; try contradiction.
  - intros _ _. cbn [SFsqrt]. split; [exact I|]. split; [apply Qle_refl|]. intros w FW WN. cbn [SF2Q] in *. split; intros L.
    + lra.
    + rewrite Qplus_0_l. apply Qmult_le_0_compat; lra.
  - intros [C B] NN. destruct s.
    { exfalso. cbn [SF2Q cond_Zopp] in NN. rewrite QZ_opp in NN.
      assert (0 < QZ (Zpos m) e)%Q by (unfold QZ; apply Qmult_lt_0_compat; [reflexivity|apply pow2_pos]). lra. }
    cbn [SFsqrt]. unfold SFsqrt_core_binary. cbn [Zdigits2].
    pose proof (digits_bounds m) as [D1 D2]. set (d := Zpos (digits2_pos m)) in *.
    pose proof C as C'. apply canon_iff in C'.
    assert (DB : 1 <= d <= 53) by (split; [unfold d; lia|apply digits_le; lia]).
    assert (EB : -1074 <= e <= 971) by lia.
    set (h := Z.div2 (d + e + 1)). set (h2 := Z.div2 e).
    assert (HD : 2 * h <= d + e + 1 <= 2 * h + 1).
    { unfold h. rewrite Z.div2_div. pose proof (Z.div_mod (d + e + 1) 2). pose proof (Z.mod_pos_bound (d + e + 1) 2). lia. }
    assert (HD2 : 2 * h2 <= e <= 2 * h2 + 1).
    { unfold h2. rewrite Z.div2_div. pose proof (Z.div_mod e 2). pose proof (Z.mod_pos_bound e 2). lia. }
    set (E := Z.min (fexp64 h) h2).
    assert (EE : E = Z.min (h - 53) h2) by (unfold E; rewrite fexp64_eq; lia).
    set (s := e - 2 * E). assert (S0 : 0 <= s) by (unfold s; lia).
    assert (M' : match s with Zpos _ => Z.shiftl (Zpos m) s | Z0 => Zpos m | Zneg _ => 0 end = Zpos m * 2 ^ s).
    { destruct s; [lia| |lia]. apply Z.shiftl_mul_pow2. lia. }
    rewrite M'. set (m' := Zpos m * 2 ^ s) in *.
    assert (PS : 0 < 2 ^ s) by (apply Z.pow_pos_nonneg; lia).
    assert (M0 : 0 < m') by (unfold m'; lia).
    pose proof (Z.sqrtrem_spec m' ltac:(lia)) as SR. destruct (Z.sqrtrem m') as [q r]. destruct SR as [SE SB].
    assert (M104 : 2 ^ 104 <= m').
    { unfold m'. apply Z.le_trans with (2 ^ (d - 1) * 2 ^ s); [|nia].
      rewrite <- Z.pow_add_r by lia. apply Z.pow_le_mono_r; unfold s; lia. }
    assert (Q52 : 2 ^ 52 <= q).
    { destruct (Z.le_gt_cases (2 ^ 52) q) as [G|G]; [exact G|exfalso].
      assert (0 <= q) by lia. assert ((q + 1) * (q + 1) <= 2 ^ 52 * 2 ^ 52) by (apply Z.mul_le_mono_nonneg; lia).
      change (2 ^ 52 * 2 ^ 52) with (2 ^ 104) in *. nia. }
    assert (QM : q * q <= m' < (q + 1) * (q + 1)) by nia.
    assert (DQ : E <= fexp64 (Zdigits2 q + E)).
    { rewrite fexp64_eq. destruct q as [|p|p]; [lia| |lia]. cbn [Zdigits2].
      pose proof (digits_ge p 52 ltac:(lia) Q52). lia. }
    assert (QV : (SF2Q (S754_finite false m e) == inject_Z m' * Qpower 2 E * Qpower 2 E)%Q).
    { cbn [SF2Q cond_Zopp]. rewrite (QZ_align _ e (E + E)) by lia. replace (e - (E + E)) with s by (unfold s; lia).
      fold m'. unfold QZ. rewrite Qpower_plus by (unfold Qeq; simpl; lia). ring. }
    set (l := if Zeq_bool r 0 then loc_Exact else loc_Inexact (if Zle_bool r q then Lt else Gt)).
    assert (LOC : exists a b, inb q l a (Zpos b) /\
      (m' = q * q /\ a = q /\ b = 1%positive \/
       q * q < m' <= q * q + q /\ a = 4 * q + 1 /\ b = 4%positive \/
       q * q + q < m' /\ a = 4 * q + 3 /\ b = 4%positive)).
    { unfold l. destruct (Zeq_bool r 0) eqn:RZ.
      - apply Zeq_bool_eq in RZ. exists q, 1%positive. split; [apply inb_exact; lia|]. left. lia.
      - apply Zeq_bool_neq in RZ. destruct (Zle_bool r q) eqn:RQ.
        + apply Zle_bool_imp_le in RQ. exists (4 * q + 1), 4%positive. split; [|right; left; lia].
          unfold inb. split; [lia|]. split; [lia|]. split; [lia|]. split; [lia|].
          apply Z.compare_lt_iff. lia.
        + assert (RQ' : q < r) by (destruct (Z.le_gt_cases r q) as [G|G]; [apply Zle_imp_le_bool in G; congruence|exact G]).
          exists (4 * q + 3), 4%positive. split; [|right; right; lia].
          unfold inb. split; [lia|]. split; [lia|]. split; [lia|]. split; [lia|].
          apply Z.compare_gt_iff. lia. }
    destruct LOC as (a & b & IN & LOC).
    assert (NI : not_inf (binary_round_aux 53 1024 false q E l)).
    { eapply round_aux_not_inf; eauto.
      assert (QS : q < 2 ^ (600 - E)).
      { destruct (Z.lt_ge_cases q (2 ^ (600 - E))) as [G|G]; [exact G|exfalso].
        assert (2 ^ (600 - E) * 2 ^ (600 - E) <= q * q).
        { apply Z.mul_le_mono_nonneg; auto; apply Z.pow_nonneg; lia. }
        rewrite <- Z.pow_add_r in H by lia.
        assert (m' < 2 ^ (d + s)) by (rewrite Z.pow_add_r by lia; unfold m'; nia).
        assert (2 ^ (d + s) <= 2 ^ (600 - E + (600 - E))) by (apply Z.pow_le_mono_r; unfold s; lia). lia. }
      apply Qle_lt_trans with (inject_Z (2 ^ (600 - E)) * Qpower 2 E)%Q.
      - apply Qmult_le_r; [apply pow2_pos|]. unfold Qle, inject_Z. cbn [Qnum Qden].
        destruct LOC as [(_ & -> & ->)|[(_ & -> & ->)|(_ & -> & ->)]]; lia.
      - rewrite Zpower_Qpower by lia. change (inject_Z 2) with 2%Q. rewrite <- Qpower_plus by (unfold Qeq; simpl; lia).
        replace (600 - E + E) with 600 by lia. rewrite <- (Zpower_Qpower 2 600), <- (Zpower_Qpower 2 1023) by lia.
        rewrite <- Zlt_Qlt. vm_compute. reflexivity. }
    pose proof (round_aux_near false q E l a b IN DQ NI) as RN. cbn [cond_Zopp] in RN.
    eapply (root_core m' q E a b); eauto; lia.
Qed.

Lemma root_exact r v z : root_of r v -> finite z -> (0 <= SF2Q z)%Q -> (SF2Q z * SF2Q z == v)%Q -> (SF2Q r == SF2Q z)%Q.
Proof.
  intros (F & R0 & H) FZ Z0 E. destruct (H z FZ Z0) as [A B].
  set (R := SF2Q r) in *. set (Z := SF2Q z) in *.
  destruct (Q_dec R Z) as [[L|L]|Q]; [exfalso|exfalso|exact Q].
  - specialize (B L). rewrite <- E in B.
    assert (X : ((R + Z) * (R + Z) < (2 * Z) * (2 * Z))%Q).
    { apply Qle_lt_trans with ((2 * Z) * (R + Z))%Q; [apply Qmult_le_compat_r; lra|].
      rewrite !(Qmult_comm (2 * Z)). apply Qmult_lt_compat_r; lra. }
    setoid_replace (2 * Z * (2 * Z))%Q with (4 * (Z * Z))%Q in X by ring. lra.
  - specialize (A L). rewrite <- E in A.
    assert (X : ((2 * Z) * (2 * Z) < (R + Z) * (R + Z))%Q).
    { apply Qle_lt_trans with ((2 * Z) * (R + Z))%Q.
      - apply Qle_l; lra.
      - apply Qmult_lt_compat_r; lra. }
    setoid_replace (2 * Z * (2 * Z))%Q with (4 * (Z * Z))%Q in X by ring. lra.
Qed.
