(** The hash of the program is SipHash-2-4. *)
From Verif Require Import Common NumModel LexModel SipModel SipSpec.
Open Scope N_scope.

Lemma M64_pow : M64 = 2 ^ 64. Proof. reflexivity. Qed.
Lemma lor_disjoint a b : N.land a b = 0 -> N.lor a b = a + b.
Proof. intros H. rewrite <- N.lxor_lor by exact H. now rewrite N.add_nocarry_lxor. Qed.
Lemma small_bit x n k : x < 2 ^ n -> n <= k -> N.testbit x k = false.
Proof.
  intros L K. destruct (N.eq_dec x 0) as [->|NZ]; [apply N.bits_0|]. apply N.bits_above_log2.
  apply N.log2_lt_pow2 in L; lia.
Qed.
Lemma rotate_rotl x b : x < 2 ^ 64 -> 0 < b < 64 -> rotate x b = rotl x b.
Proof.
  intros L B. unfold rotate, rotl. rewrite M64_pow, N.shiftl_mul_pow2, N.shiftr_div_pow2.
  apply lor_disjoint. apply N.bits_inj. intros k. rewrite N.land_spec, N.bits_0.
  destruct (N.lt_ge_cases k b) as [H|H].
  - destruct (N.lt_ge_cases k 64) as [H'|H']; [|lia]. rewrite N.mod_pow2_bits_low by lia.
    rewrite N.mul_pow2_bits_low by lia. reflexivity.
  - rewrite (small_bit (x / 2 ^ (64 - b)) b k); [apply andb_false_r| |lia].
    apply N.div_lt_upper_bound; [apply N.pow_nonzero; lia|]. rewrite <- N.pow_add_r. replace (64 - b + b) with 64 by lia. exact L.
Qed.
Lemma lxor_lt a b : a < 2 ^ 64 -> b < 2 ^ 64 -> N.lxor a b < 2 ^ 64.
Proof.
  intros A B. destruct (N.eq_dec (N.lxor a b) 0) as [->|NZ]; [reflexivity|]. apply N.log2_lt_pow2; [lia|].
  destruct (N.lt_ge_cases (N.log2 (N.lxor a b)) 64) as [H|H]; [exact H|]. exfalso.
  pose proof (N.bit_log2 _ NZ) as T. rewrite N.lxor_spec, (small_bit a 64), (small_bit b 64) in T by auto. discriminate.
Qed.
Lemma rotl_lt x r : x < 2 ^ 64 -> 0 < r < 64 -> rotl x r < 2 ^ 64.
Proof.
  intros L R. rewrite <- rotate_rotl by auto. unfold rotate. rewrite M64_pow.
  set (u := N.shiftl x r mod 2 ^ 64). set (w := N.shiftr x (64 - r)).
  assert (U : u < 2 ^ 64) by (apply N.mod_lt; discriminate).
  assert (W : w < 2 ^ 64).
  { unfold w. rewrite N.shiftr_div_pow2. eapply N.le_lt_trans; [apply N.div_le_upper_bound; [apply N.pow_nonzero; lia|]|exact L].
    rewrite <- (N.mul_1_l x) at 1. apply N.mul_le_mono_r. pose proof (N.pow_nonzero 2 (64 - r)). lia. }
  destruct (N.eq_dec (N.lor u w) 0) as [->|NZ]; [reflexivity|]. apply N.log2_lt_pow2; [lia|].
  destruct (N.lt_ge_cases (N.log2 (N.lor u w)) 64) as [H|H]; [exact H|]. exfalso.
  pose proof (N.bit_log2 _ NZ) as T. rewrite N.lor_spec, (small_bit u 64), (small_bit w 64) in T by auto. discriminate.
Qed.
Definition ok (v : sip) : Prop := s0 v < 2 ^ 64 /\ s1 v < 2 ^ 64 /\ s2 v < 2 ^ 64 /\ s3 v < 2 ^ 64.
Definition un (v : sip) : words := (s0 v, s1 v, s2 v, s3 v).
Lemma add64_lt x y : add64 x y < 2 ^ 64. Proof. apply N.mod_lt. discriminate. Qed.
Lemma sipround_ok v : ok v -> ok (sipround v).
Proof.
  intros (A & B & C & D). unfold sipround. cbv zeta. split; [|split; [|split]]; cbn [s0 s1 s2 s3];
    repeat first [apply add64_lt | apply lxor_lt | apply rotl_lt]; auto; lia.
Qed.
Lemma double_round_spec v : ok v -> double_round (un v) = un (rounds 2 v).
Proof.
  assert (ONE : forall v, ok v ->
    (let '(v0, v1, v2, v3) := un v in
     let '(v0, v1, v2, v3) := half_round v0 v1 v2 v3 13 16 in
     let '(v2, v1, v0, v3) := half_round v2 v1 v0 v3 17 21 in (v0, v1, v2, v3)) = un (sipround v)).
  { intros [a b c e] (A & B & C & E). cbn [s0 s1 s2 s3] in *. unfold un, sipround, half_round. cbn [s0 s1 s2 s3]. cbv zeta beta.
    change ((a + b) mod M64) with (add64 a b). change ((c + e) mod M64) with (add64 c e).
    rewrite (rotate_rotl b 13), (rotate_rotl e 16), (rotate_rotl (add64 a b) 32) by (auto using add64_lt; lia).
    set (a1 := N.lxor (rotl b 13) (add64 a b)). set (a3 := N.lxor (rotl e 16) (add64 c e)).
    assert (L1 : a1 < 2 ^ 64) by (apply lxor_lt; [apply rotl_lt; auto; lia|apply add64_lt]).
    assert (L3 : a3 < 2 ^ 64) by (apply lxor_lt; [apply rotl_lt; auto; lia|apply add64_lt]).
    change ((add64 c e + a1) mod M64) with (add64 (add64 c e) a1).
    change ((rotl (add64 a b) 32 + a3) mod M64) with (add64 (rotl (add64 a b) 32) a3).
    rewrite (rotate_rotl a1 17), (rotate_rotl a3 21), (rotate_rotl (add64 (add64 c e) a1) 32) by (auto using add64_lt; lia).
    reflexivity. }
  intros O. pose proof (ONE v O) as E1. pose proof (ONE (sipround v) (sipround_ok v O)) as E2.
  change (rounds 2 v) with (sipround (sipround v)). unfold double_round.
  destruct v as [a b c e]. unfold un at 1 in E1. cbn [s0 s1 s2 s3] in E1. unfold un at 1. cbn [s0 s1 s2 s3].
  destruct (half_round a b c e 13 16) as [[[p q] r] s]. destruct (half_round r q p s 17 21) as [[[p' q'] r'] s'].
  rewrite <- E1 in E2. exact E2.
Qed.
Lemma rounds_ok n v : ok v -> ok (rounds n v).
Proof. intros O. induction n as [|n IH]; [exact O|]. cbn. apply sipround_ok. exact IH. Qed.

(** ** Words *)
Definition bytes (t : text) : Prop := Forall (fun c => c < 256) t.
Lemma load_value t : load t = le_value t.
Proof. induction t as [|c t IH]; [reflexivity|]. cbn. now rewrite <- IH. Qed.
Lemma le_value_lt t : bytes t -> le_value t < 256 ^ N.of_nat (length t).
Proof.
  induction 1 as [|c t B F IH]; [reflexivity|]. cbn [le_value length]. rewrite Nat2N.inj_succ, N.pow_succ_r'. lia.
Qed.
Lemma le_value_app a b : le_value (a ++ b) = le_value a + 256 ^ N.of_nat (length a) * le_value b.
Proof.
  induction a as [|c a IH]; [cbn [app le_value length]; change (256 ^ N.of_nat 0) with 1; lia|].
  cbn [app le_value length]. rewrite IH, Nat2N.inj_succ, N.pow_succ_r'. ring.
Qed.
Lemma le_value_zeros n : le_value (repeat 0 n) = 0.
Proof. induction n as [|n IH]; [reflexivity|]. cbn. now rewrite IH. Qed.
Lemma bytes_firstn n t : bytes t -> bytes (firstn n t).
Proof. intros B. apply Forall_forall. intros x I. apply (proj1 (Forall_forall _ _) B). rewrite <- (firstn_skipn n t). apply in_or_app. now left. Qed.
Lemma bytes_skipn n t : bytes t -> bytes (skipn n t).
Proof. intros B. apply Forall_forall. intros x I. apply (proj1 (Forall_forall _ _) B). rewrite <- (firstn_skipn n t). apply in_or_app. now right. Qed.
Lemma word_lt t : bytes t -> (length t <= 8)%nat -> le_value t < 2 ^ 64.
Proof.
  intros B L. eapply N.lt_le_trans; [apply le_value_lt; exact B|]. change (2 ^ 64) with (256 ^ 8). apply N.pow_le_mono_r; lia.
Qed.

(** ** The loop *)
Lemma skipn_add (a b : nat) (t : text) : skipn a (skipn b t) = skipn (b + a) t.
Proof. revert t. induction b as [|b IH]; intros [|c t]; cbn; auto using skipn_nil. Qed.
Lemma mk_ok a b c e : a < 2 ^ 64 -> b < 2 ^ 64 -> c < 2 ^ 64 -> e < 2 ^ 64 -> ok (mkSip a b c e).
Proof. intros A B C E. exact (conj A (conj B (conj C E))). Qed.
Lemma compress_ok v w : ok v -> w < 2 ^ 64 -> ok (compress 2 v w).
Proof.
  intros (A & B & C & D) W. unfold compress. cbv zeta.
  assert (O : ok (rounds 2 (mkSip (s0 v) (s1 v) (s2 v) (N.lxor (s3 v) w)))).
  { apply rounds_ok. exact (mk_ok _ _ _ _ A B C (lxor_lt _ _ D W)). }
  destruct O as (A' & B' & C' & D'). exact (mk_ok _ _ _ _ (lxor_lt _ _ A' W) B' C' D').
Qed.
Lemma un_mk a b c e : un (mkSip a b c e) = (a, b, c, e). Proof. reflexivity. Qed.
Lemma compress_eq c v w : compress c v w =
  mkSip (N.lxor (s0 (rounds c (mkSip (s0 v) (s1 v) (s2 v) (N.lxor (s3 v) w)))) w)
        (s1 (rounds c (mkSip (s0 v) (s1 v) (s2 v) (N.lxor (s3 v) w))))
        (s2 (rounds c (mkSip (s0 v) (s1 v) (s2 v) (N.lxor (s3 v) w))))
        (s3 (rounds c (mkSip (s0 v) (s1 v) (s2 v) (N.lxor (s3 v) w)))).
Proof. unfold compress. cbv zeta. reflexivity. Qed.
Lemma step_gen (dr : words -> words) (u : sip) a b c e w : dr (a, b, c, N.lxor e w) = un u ->
  (let '(v0, v1, v2, v3) := (a, b, c, e) in
   let '(v0, v1, v2, v3) := dr (v0, v1, v2, N.lxor v3 w) in
   (N.lxor v0 w, v1, v2, v3)) = (N.lxor (s0 u) w, s1 u, s2 u, s3 u).
Proof. intros H. cbv beta iota. rewrite H. reflexivity. Qed.
Lemma compress_step v w : ok v -> w < 2 ^ 64 ->
  (let '(v0, v1, v2, v3) := un v in
   let '(v0, v1, v2, v3) := double_round (v0, v1, v2, N.lxor v3 w) in
   (N.lxor v0 w, v1, v2, v3)) = un (compress 2 v w).
Proof.
  intros (A & B & C & D) W. rewrite compress_eq, un_mk.
  pose proof (double_round_spec (mkSip (s0 v) (s1 v) (s2 v) (N.lxor (s3 v) w)) (mk_ok _ _ _ _ A B C (lxor_lt _ _ D W))) as E.
  revert E. rewrite un_mk. generalize (rounds 2 (mkSip (s0 v) (s1 v) (s2 v) (N.lxor (s3 v) w))). intros u E.
  exact (step_gen double_round u (s0 v) (s1 v) (s2 v) (s3 v) w E).
Qed.
Lemma sip_loop_spec : forall q fuel src off r v, bytes src -> (length src = off + 8 * q + r)%nat -> (r < 8)%nat -> (q < fuel)%nat -> ok v ->
  sip_loop fuel src off (8 * q + r) (un v) =
    Ok (un (fold_left (compress 2) (word_list q (skipn off src)) v), off + 8 * q, r)%nat /\
  ok (fold_left (compress 2) (word_list q (skipn off src)) v).
Proof.
  induction q as [|q IH]; intros fuel src off r v B L R F O; (destruct fuel as [|f]; [lia|]); cbn [sip_loop].
  - destruct (Nat.leb_spec 8 (8 * 0 + r)); [lia|]. cbn [word_list fold_left]. rewrite Nat.add_0_r. auto.
  - destruct (Nat.leb_spec 8 (8 * S q + r)); [|lia]. unfold read_word, slice.
    destruct (Nat.leb_spec (off + 8) (length src)); [|lia]. cbn [obind].
    rewrite load_value. set (w := le_value (firstn 8 (skipn off src))).
    assert (W : w < 2 ^ 64).
    { apply word_lt; [apply bytes_firstn, bytes_skipn, B|]. rewrite firstn_length. lia. }
    pose proof (compress_step v w O W) as CS. destruct (un v) as [[[v0 v1] v2] v3]. cbv beta iota in CS |- *.
    destruct (double_round (v0, v1, v2, N.lxor v3 w)) as [[[p0 p1] p2] p3]. cbv beta iota in CS |- *. rewrite CS.
    replace (8 * S q + r - 8)%nat with (8 * q + r)%nat by lia.
    destruct (IH f src (off + 8)%nat r (compress 2 v w) B ltac:(lia) R ltac:(lia) (compress_ok v w O W)) as (E & O').
    rewrite E. cbn [word_list fold_left]. fold w. rewrite skipn_add.
    split; [|exact O']. do 3 f_equal; lia.
Qed.

(** ** The last word *)
Lemma sip_tail_spec src off r : (length src = off + r)%nat -> (r < 8)%nat ->
  sip_tail src off r = Ok (skipn off src ++ repeat 0 (8 - r)).
Proof.
  intros L R. set (m := skipn off src).
  assert (LM : length m = r) by (unfold m; rewrite skipn_length; lia).
  assert (RD : forall i, rd src (off + i) = match nth_error m i with Some c => Ok c | None => UB end).
  { intros i. unfold rd, m. rewrite <- (firstn_skipn off src) at 1. rewrite nth_error_app2 by (rewrite firstn_length; lia).
    rewrite firstn_length. replace (off + i - Nat.min off (length src))%nat with i by lia. reflexivity. }
  assert (SL : slice src off 4 = if (4 <=? r)%nat then Ok (firstn 4 m) else UB).
  { unfold slice. rewrite L. destruct (Nat.leb_spec 4 r), (Nat.leb_spec (off + 4) (off + r)); try reflexivity; lia. }
  clearbody m. clear L. unfold sip_tail, copy_byte. rewrite SL. clear SL.
  rewrite !RD. clear RD. subst r.
  do 8 (destruct m as [|? m]; [reflexivity|]). cbn [length] in R. lia.
Qed.
Lemma last_word len m : bytes m -> (length m < 8)%nat ->
  N.lor (N.shiftl (N.of_nat len) 56 mod M64) (le_value m) = le_value (m ++ repeat 0 (7 - length m) ++ [N.of_nat len mod 256]).
Proof.
  intros B L. assert (V : le_value m < 2 ^ 56).
  { eapply N.lt_le_trans; [apply le_value_lt; exact B|]. change (2 ^ 56) with (256 ^ 7). apply N.pow_le_mono_r; lia. }
  rewrite N.shiftl_mul_pow2, M64_pow. replace (2 ^ 64) with (256 * 2 ^ 56) by reflexivity. rewrite N.mul_mod_distr_r by discriminate.
  rewrite lor_disjoint.
  - rewrite !le_value_app, le_value_zeros, repeat_length, N.add_0_l.
    replace (le_value [N.of_nat len mod 256]) with (N.of_nat len mod 256) by (cbn [le_value]; lia).
    rewrite ?N.mul_assoc, <- N.pow_add_r. replace (N.of_nat (length m) + N.of_nat (7 - length m)) with 7 by lia.
    change (256 ^ 7) with (2 ^ 56). lia.
  - apply N.bits_inj. intros k. rewrite N.land_spec, N.bits_0. destruct (N.lt_ge_cases k 56) as [H|H].
    + rewrite N.mul_pow2_bits_low by lia. reflexivity.
    + rewrite (small_bit (le_value m) 56 k) by auto. apply andb_false_r.
Qed.
Lemma word_list_app q : forall a b, length a = (8 * q)%nat -> word_list (S q) (a ++ b) = word_list q a ++ [le_value (firstn 8 b)].
Proof.
  induction q as [|q IH]; intros a b L.
  - destruct a; [reflexivity|discriminate].
  - change (word_list (S (S q)) (a ++ b)) with (le_value (firstn 8 (a ++ b)) :: word_list (S q) (skipn 8 (a ++ b))).
    rewrite firstn_app, skipn_app. replace (8 - length a)%nat with 0%nat by lia. change (firstn 0 b) with (@nil N). change (skipn 0 b) with b. rewrite app_nil_r.
    rewrite IH by (rewrite skipn_length; lia). reflexivity.
Qed.
Lemma word_list_prefix q : forall a b, length a = (8 * q)%nat -> word_list q (a ++ b) = word_list q a.
Proof.
  induction q as [|q IH]; intros a b L; [reflexivity|]. cbn [word_list]. rewrite firstn_app, skipn_app.
  replace (8 - length a)%nat with 0%nat by lia. change (firstn 0 b) with (@nil N). change (skipn 0 b) with b. rewrite app_nil_r. rewrite IH by (rewrite skipn_length; lia). reflexivity.
Qed.
Lemma initial_ok k0 k1 : k0 < 2 ^ 64 -> k1 < 2 ^ 64 -> ok (initial k0 k1).
Proof.
  intros A B. unfold ok, initial. cbn [s0 s1 s2 s3].
  split; [|split; [|split]]; (apply lxor_lt; [assumption|vm_compute; reflexivity]).
Qed.

Lemma finish_gen (dr : words -> words) v b u x y :
  (let '(v0, v1, v2, v3) := un v in
   let '(v0, v1, v2, v3) := dr (v0, v1, v2, N.lxor v3 b) in
   (N.lxor v0 b, v1, v2, v3)) = un u ->
  dr (un (mkSip (s0 u) (s1 u) (N.lxor (s2 u) 255) (s3 u))) = un x -> dr (un x) = un y ->
  (let '(v0, v1, v2, v3) := un v in
   let '(v0, v1, v2, v3) := dr (v0, v1, v2, N.lxor v3 b) in
   let '(v0, v1, v2, v3) := dr (N.lxor v0 b, v1, N.lxor v2 255, v3) in
   let '(v0, v1, v2, v3) := dr (v0, v1, v2, v3) in
   Ok (N.lxor (N.lxor v0 v1) (N.lxor v2 v3))) = Ok (N.lxor (N.lxor (s0 y) (s1 y)) (N.lxor (s2 y) (s3 y))).
Proof.
  destruct (un v) as [[[v0 v1] v2] v3]. cbv beta iota. destruct (dr (v0, v1, v2, N.lxor v3 b)) as [[[p0 p1] p2] p3].
  cbv beta iota. intros CS. unfold un in CS at 1. injection CS as E0 E1 E2 E3. rewrite E0, E1, E2, E3.
  rewrite un_mk. intros E F. rewrite E. unfold un at 1. cbv beta iota. unfold un in F at 1. rewrite F. reflexivity.
Qed.
Lemma iter_four (f : sip -> sip) w : Nat.iter 4 f w = Nat.iter 2 f (Nat.iter 2 f w).
Proof. reflexivity. Qed.
Lemma rounds_four w : rounds 4 w = rounds 2 (rounds 2 w).
Proof. unfold rounds. exact (iter_four sipround w). Qed.
Theorem siphash_spec src key : bytes src -> bytes key -> (16 <= length key)%nat ->
  siphash24 src key = Ok (sip_hash 2 4 key src) /\ sip_hash 2 4 key src < 2 ^ 64.
Proof.
  intros B BK LK. unfold siphash24, read_word, slice. cbv zeta.
  destruct (Nat.leb_spec (0 + 8) (length key)); [|lia]. destruct (Nat.leb_spec (8 + 8) (length key)); [|lia]. cbn [obind].
  change (skipn 0 key) with key. rewrite (load_value (firstn 8 key)), (load_value (firstn 8 (skipn 8 key))). set (k0 := le_value (firstn 8 key)). set (k1 := le_value (firstn 8 (skipn 8 key))).
  assert (K0 : k0 < 2 ^ 64) by (apply word_lt; [now apply bytes_firstn|rewrite firstn_length; lia]).
  assert (K1 : k1 < 2 ^ 64) by (apply word_lt; [now apply bytes_firstn, bytes_skipn|rewrite firstn_length; lia]).
  set (q := (length src / 8)%nat). set (r := (length src mod 8)%nat).
  assert (DM : (length src = 8 * q + r)%nat) by (apply Nat.div_mod; discriminate).
  assert (R8 : (r < 8)%nat) by (apply Nat.mod_upper_bound; discriminate).
  change (N.lxor k0 0x736f6d6570736575, N.lxor k1 0x646f72616e646f6d, N.lxor k0 0x6c7967656e657261, N.lxor k1 0x7465646279746573)
    with (un (initial k0 k1)).
  destruct (sip_loop_spec q (S (length src)) src 0 r (initial k0 k1) B ltac:(lia) R8 ltac:(lia) (initial_ok k0 k1 K0 K1)) as (E & O).
  replace (sip_loop (S (length src)) src 0 (length src) (un (initial k0 k1))) with
    (sip_loop (S (length src)) src 0 (8 * q + r) (un (initial k0 k1))) by (rewrite <- DM; reflexivity).
  rewrite E. cbn [obind]. change (skipn 0 src) with src in *. rewrite Nat.add_0_l.
  rewrite (sip_tail_spec src (8 * q) r) by lia. cbn [obind]. rewrite load_value.
  set (m := skipn (8 * q) src). set (p := firstn (8 * q) src).
  assert (LM : length m = r) by (unfold m; rewrite skipn_length; lia).
  assert (LP : length p = (8 * q)%nat) by (apply firstn_length_le; lia).
  assert (EQ : src = p ++ m) by (symmetry; apply firstn_skipn).
  assert (BM : bytes m) by (now apply bytes_skipn).
  rewrite le_value_app, le_value_zeros, N.mul_0_r, N.add_0_r. rewrite (last_word (length src) m BM) by lia.
  set (b := le_value (m ++ repeat 0 (7 - length m) ++ [N.of_nat (length src) mod 256])).
  assert (BL : b < 2 ^ 64).
  { apply word_lt; [|rewrite !app_length, repeat_length; cbn [length]; lia]. apply Forall_app. split; [exact BM|]. apply Forall_app. split.
    - apply Forall_forall. intros x I. apply repeat_spec in I. rewrite I. reflexivity.
    - constructor; [|constructor]. apply N.mod_lt. discriminate. }
  assert (MW : message_words src = word_list q src ++ [b]).
  { unfold message_words, padded. fold q r.
    replace (word_list q src) with (word_list q p) by (rewrite <- (word_list_prefix q p m LP), <- EQ; reflexivity).
    set (z := repeat 0 (7 - r) ++ [N.of_nat (length src) mod 256]).
    replace (src ++ z) with (p ++ m ++ z) by (rewrite app_assoc, <- EQ; reflexivity).
    rewrite (word_list_app q) by exact LP. unfold z. do 2 f_equal. rewrite firstn_all2; [unfold b; rewrite LM; reflexivity|].
    rewrite !app_length, repeat_length. cbn [length]. lia. }
  unfold sip_hash. fold k0 k1. rewrite MW, fold_left_app. cbn [fold_left].
  set (v := fold_left (compress 2) (word_list q src) (initial k0 k1)) in *.
  pose proof (compress_step v b O BL) as CS. pose proof (compress_ok v b O BL) as OC.
  revert CS OC. generalize (compress 2 v b). intros u CS OC. cbv zeta.
  assert (O1 : ok (mkSip (s0 u) (s1 u) (N.lxor (s2 u) 255) (s3 u))).
  { destruct OC as (A' & B' & C' & D'). apply mk_ok; try assumption. apply lxor_lt; [assumption|reflexivity]. }
  rewrite rounds_four.
  pose proof (double_round_spec _ O1) as D1. pose proof (rounds_ok 2 _ O1) as O2. revert D1 O2.
  generalize (rounds 2 (mkSip (s0 u) (s1 u) (N.lxor (s2 u) 255) (s3 u))). intros x D1 O2.
  pose proof (double_round_spec _ O2) as D2. pose proof (rounds_ok 2 _ O2) as O3. revert D2 O3.
  generalize (rounds 2 x). intros y D2 (Z0 & Z1 & Z2 & Z3).
  split; [exact (finish_gen double_round v b u x y CS D1 D2)|].
  apply lxor_lt; apply lxor_lt; assumption.
Qed.
