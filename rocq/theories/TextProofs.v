From Verif Require Import Common TextModel TextSpec Utf8Proofs.
Require Import ZifyBool ZifyNat ZifyN.


Lemma fits_W64 t : fits t -> (Z.of_nat (length t) < W64)%Z.
Proof. unfold fits, LONG_MAX, W64. lia. Qed.

(** ** C01, C02 *)
Lemma string_length_wf cs o : Forall is_char cs -> fits (concat cs) ->
  string_length (mkT (concat cs) o) = Ok (Z.of_nat (length cs)).
Proof. intros H F. apply getutf8len_chars; [assumption | apply fits_W64; assumption]. Qed.

Lemma slice_all s : slice s 0 (length s) = Ok s.
Proof. unfold slice. rewrite Nat.leb_refl. cbn [skipn]. rewrite firstn_all. reflexivity. Qed.

Lemma string_concat_ok a b : string_concat a b = Ok (build_string (tval a ++ tval b)).
Proof. unfold string_concat. rewrite !slice_all. reflexivity. Qed.

Lemma string_length_concat a b ca cb c :
  chars_of (tval a) ca -> chars_of (tval b) cb -> fits (tval a ++ tval b) ->
  string_concat a b = Ok c ->
  exists la lb, string_length a = Ok la /\ string_length b = Ok lb /\ string_length c = Ok (la + lb)%Z.
Proof.
  intros [Ha Ea] [Hb Eb] F. rewrite string_concat_ok. intros E; injection E as <-.
  destruct a as [va oa], b as [vb ob]; cbn [tval] in *. subst.
  assert (fits (concat ca) /\ fits (concat cb)) as [Fa Fb].
  { unfold fits in *. rewrite app_length in F. lia. }
  exists (Z.of_nat (length ca)), (Z.of_nat (length cb)).
  split; [apply string_length_wf; assumption|]. split; [apply string_length_wf; assumption|].
  rewrite <- concat_app. unfold build_string. rewrite string_length_wf.
  - rewrite app_length. f_equal. lia.
  - apply Forall_app; auto.
  - rewrite concat_app. assumption.
Qed.

Lemma rd_app_r pre b r : rd (pre ++ b :: r) (length pre) = Ok b.
Proof. unfold rd. rewrite nth_error_app2 by lia. rewrite Nat.sub_diag. reflexivity. Qed.

Lemma slice_mid pre c post : slice (pre ++ c ++ post) (length pre) (length c) = Ok c.
Proof.
  unfold slice. rewrite !app_length.
  destruct (Nat.leb_spec (length pre + length c) (length pre + (length c + length post))); [|lia].
  rewrite skipn_app, skipn_all, Nat.sub_diag. cbn [app skipn].
  rewrite firstn_app, firstn_all, Nat.sub_diag. simpl. rewrite app_nil_r. reflexivity.
Qed.

Lemma characters_loop_chars cs : forall fuel pre acc, Forall is_char cs ->
  length (concat cs) <= fuel ->
  characters_loop fuel (pre ++ concat cs) (length pre) acc = Some (Ok (acc ++ map build_string cs)).
Proof.
  induction cs as [|c cs IH]; intros fuel pre acc H Hf.
  - destruct fuel; cbn [concat characters_loop map]; rewrite !app_nil_r, Nat.ltb_irrefl; reflexivity.
  - inversion H as [|? ? Hc Hcs]; subst. cbn [concat map] in *.
    rewrite app_length in Hf. pose proof (char_nonempty c Hc).
    destruct fuel as [|fuel]; [lia|]. cbn [characters_loop].
    rewrite !app_length. destruct (Nat.ltb_spec (length pre) (length pre + (length c + length (concat cs)))); [|lia].
    destruct (char_size c Hc) as (b & r & E & Hs & Hr).
    assert (Erd : rd (pre ++ c ++ concat cs) (length pre) = Ok b)
      by (rewrite E; cbn [app]; apply rd_app_r).
    rewrite Erd, Hs, slice_mid.
    replace (length pre + length c) with (length (pre ++ c)) by apply app_length.
    replace (pre ++ c ++ concat cs) with ((pre ++ c) ++ concat cs) by (rewrite app_assoc; reflexivity).
    rewrite IH; [|assumption|lia]. rewrite <- app_assoc. reflexivity.
Qed.

Lemma string_characters_wf cs o : Forall is_char cs ->
  string_characters (mkT (concat cs) o) = Some (Ok (map build_string cs)).
Proof.
  intros H. unfold string_characters. cbn [tval].
  apply (characters_loop_chars cs (length (concat cs)) [] []); [assumption|lia].
Qed.

Lemma tval_build s : tval (build_string s) = s.
Proof. reflexivity. Qed.
Lemma map_tval_build cs : map tval (map build_string cs) = cs.
Proof. rewrite map_map. induction cs; simpl; f_equal; auto. Qed.

(** ** C03 *)

Lemma concat_nil_chars cs : Forall is_char cs -> length (concat cs) = 0 -> cs = [].
Proof.
  intros H E. pose proof (chars_length_le cs H). destruct cs; [reflexivity|simpl in *; lia].
Qed.

(** the part of [ctr_string_from_length] behind the clipping *)
Definition cut (self : txt) (a b : nat) : outcome eff :=
  do ua <- getBytesUtf8 (tval self) 0 a;
  do ub <- getBytesUtf8 (tval self) ua b;
  if (ub =? 0)%nat then clear_value self
  else do d <- slice (tval self) ua ub; do _ <- free_value self; Ok (mkE (mkT d true) false).

Lemma clear_value_ok t : owned_ok t -> exists l, clear_value t = Ok (mkE (mkT [] false) l) /\
  (tval t <> [] -> l = false).
Proof.
  intros H. unfold clear_value, free_value. destruct (tval t) eqn:E; simpl.
  - eexists; split; [reflexivity|congruence].
  - rewrite H by congruence. eexists; split; [reflexivity|reflexivity].
Qed.

Lemma cut_ok cs t a b : Forall is_char cs -> tval t = concat cs -> owned_ok t ->
  tval t <> [] -> a + b <= length cs ->
  exists e, cut t a b = Ok e /\ tval (e_self e) = concat (firstn b (skipn a cs)) /\
    e_lost e = false /\ owned_ok (e_self e).
Proof.
  intros H E O NE Hab. unfold cut. rewrite E, (bytes_at cs a H) by lia. cbn [obind].
  rewrite (bytes_from cs a b H Hab). cbn [obind].
  destruct (Nat.eqb_spec (length (concat (firstn b (skipn a cs)))) 0) as [Z|NZ].
  - destruct (clear_value_ok t O) as (l & -> & Hl). eexists; split; [reflexivity|]. simpl.
    destruct (concat (firstn b (skipn a cs))); [|simpl in Z; lia].
    repeat split; auto. intros HH; exfalso; apply HH; reflexivity.
  - rewrite (slice_chars cs a b H). cbn [obind].
    unfold free_value. rewrite (O NE). cbn [obind].
    eexists; split; [reflexivity|]. simpl. repeat split; auto.
    all: try (unfold owned_ok; reflexivity).
Qed.

Lemma cut_ub cs t a b : Forall is_char cs -> tval t = concat cs -> length cs < a + b ->
  cut t a b = UB.
Proof.
  intros H E Hab. unfold cut. rewrite E.
  destruct (le_lt_dec a (length cs)) as [Ha|Ha].
  - rewrite (bytes_at cs a H Ha). cbn [obind]. rewrite (bytes_from_over cs a b H Ha Hab). reflexivity.
  - rewrite (bytes_at_over cs a H Ha). reflexivity.
Qed.

Definition range_ok (n m : Z) : Prop :=
  in_long (n - 1) = true /\ in_long m = true /\ in_long (n - 1 + m) = true /\ in_long (- m) = true /\
  in_long (n - 1 + Z.abs m) = true.

(** the clipping arithmetic *)
Definition clip_a (len n m : Z) : Z :=
  let a := if (m <? 0)%Z then (n - 1 + m)%Z else (n - 1)%Z in Z.min len (Z.max 0 a).
Definition clip_b (len n m : Z) : Z := Z.min (Z.abs m) (len - clip_a len n m).

Lemma from_length_cut t n m : range_ok n m -> m <> 0%Z -> tval t <> [] ->
  let len := Z.of_nat (length (tval t)) in
  (len <= LONG_MAX)%Z -> (len + Z.abs m <= LONG_MAX)%Z ->
  string_from_length t n m = cut t (Z.to_nat (clip_a len n m)) (Z.to_nat (clip_b len n m)).
Proof.
  intros (R1 & R2 & R3 & R4 & R5) Hm NE len Hlen Hlen2.
  assert (0 < len)%Z by (unfold len; destruct (tval t); simpl in *; [congruence|lia]).
  unfold string_from_length. fold len. rewrite R1, R2. cbn [negb andb].
  destruct (Z.eqb_spec m 0) as [|_]; [congruence|].
  destruct (Z.eqb_spec len 0) as [|_]; [lia|]. cbn [orb].
  rewrite R3, R4. cbn [negb orb].
  unfold in_long, LONG_MAX in *.
  assert (C : forall a b : Z, (0 < b)%Z -> (len + b <= 9223372036854775807)%Z ->
    forall a1 a2, a1 = (if (a <? 0)%Z then 0 else a)%Z -> a2 = (if (len <? a1)%Z then len else a1)%Z ->
    (if negb ((- 9223372036854775807 - 1 <=? a2 + b)%Z && (a2 + b <=? 9223372036854775807)%Z) then UB else
     (do ua <- getBytesUtf8 (tval t) 0 (Z.to_nat a2);
      do ub <- getBytesUtf8 (tval t) ua
        (Z.to_nat (if (a2 + (if (len <? a2 + b)%Z then len - a2 else b) <? 0)%Z
                   then (if (len <? a2 + b)%Z then len - a2 else b) - a2
                   else (if (len <? a2 + b)%Z then len - a2 else b))%Z);
      if (ub =? 0)%nat then clear_value t
      else do d <- slice (tval t) ua ub; do _ <- free_value t; Ok (mkE (mkT d true) false)))
    = cut t (Z.to_nat (Z.min len (Z.max 0 a))) (Z.to_nat (Z.min b (len - Z.min len (Z.max 0 a))))).
  { intros a b Hb Hs a1 a2 E1 E2.
    assert (Ea : a2 = Z.min len (Z.max 0 a)).
    { subst. destruct (Z.ltb_spec a 0); [destruct (Z.ltb_spec len 0)|destruct (Z.ltb_spec len a)]; lia. }
    rewrite <- Ea.
    assert (0 <= a2 <= len)%Z by lia.
    destruct (Z.leb_spec (- 9223372036854775807 - 1) (a2 + b)); [|lia].
    destruct (Z.leb_spec (a2 + b) 9223372036854775807); [|lia]. cbn [andb negb].
    unfold cut.
    assert (Eb : (if (a2 + (if (len <? a2 + b)%Z then len - a2 else b) <? 0)%Z
                   then (if (len <? a2 + b)%Z then len - a2 else b) - a2
                   else (if (len <? a2 + b)%Z then len - a2 else b))%Z = Z.min b (len - a2)).
    { destruct (Z.ltb_spec len (a2 + b)).
      - destruct (Z.ltb_spec (a2 + (len - a2)) 0); lia.
      - destruct (Z.ltb_spec (a2 + b) 0); lia. }
    rewrite Eb. reflexivity. }
  unfold clip_b, clip_a.
  destruct (Z.ltb_spec m 0) as [Hneg|Hpos].
  - eapply (C (n - 1 + m)%Z (Z.abs m)); [lia|lia|reflexivity|reflexivity].
  - replace (Z.abs m) with m by lia. eapply (C (n - 1)%Z m); [lia|lia|reflexivity|reflexivity].
Qed.

Lemma from_length_zero t n : in_long (n - 1) = true -> string_from_length t n 0 = clear_value t.
Proof. intros H. unfold string_from_length. rewrite H. reflexivity. Qed.

Lemma from_length_empty t n m : in_long (n - 1) = true -> in_long m = true -> tval t = [] ->
  string_from_length t n m = clear_value t.
Proof.
  intros H1 H2 E. unfold string_from_length. rewrite H1, H2, E. cbn [length negb andb].
  destruct (m =? 0)%Z; reflexivity.
Qed.

Lemma firstn_skipn_nil {A} (l : list A) a b : length l <= a -> firstn b (skipn a l) = [].
Proof. intros H. rewrite skipn_all2 by assumption. apply firstn_nil. Qed.

(** Normal requests: position n >= 1, length m >= 0. *)
Lemma from_length_normal cs t (n m : Z) :
  Forall is_char cs -> tval t = concat cs -> owned_ok t ->
  (1 <= n)%Z -> (0 <= m)%Z ->
  (Z.of_nat (length (tval t)) + n + m <= LONG_MAX)%Z ->
  (m = 0 \/ length cs = length (tval t) \/ n - 1 + m <= Z.of_nat (length cs))%Z ->
  exists e, string_from_length t n m = Ok e /\
    tval (e_self e) = concat (firstn (Z.to_nat m) (skipn (Z.to_nat (n - 1)) cs)) /\
    owned_ok (e_self e) /\ (tval t <> [] -> e_lost e = false).
Proof.
  intros H E O Hn Hm Hlen Hcase.
  assert (R1 : in_long (n - 1) = true) by (unfold in_long, LONG_MAX in *; lia).
  assert (R2 : in_long m = true) by (unfold in_long, LONG_MAX in *; lia).
  destruct (Z.eq_dec m 0) as [->|Hm0].
  { rewrite from_length_zero by assumption. destruct (clear_value_ok t O) as (l & -> & Hl).
    eexists; split; [reflexivity|]. simpl. repeat split; auto. intros X; exfalso; apply X; reflexivity. }
  destruct (list_eq_dec N.eq_dec (tval t) []) as [En|NE].
  { rewrite from_length_empty by assumption. destruct (clear_value_ok t O) as (l & -> & Hl).
    rewrite En in E. assert (cs = []) as -> by (apply concat_nil_chars; [assumption|rewrite <- E; reflexivity]).
    eexists; split; [reflexivity|]. simpl.
    rewrite skipn_nil, firstn_nil. repeat split; auto. intros X; exfalso; apply X; reflexivity. }
  pose proof (chars_length_le cs H) as HK. rewrite <- E in HK.
  rewrite from_length_cut; try assumption.
  2:{ unfold range_ok, in_long, LONG_MAX in *. repeat split; lia. }
  2,3: unfold LONG_MAX in *; lia.
  set (len := Z.of_nat (length (tval t))) in *.
  destruct (cut_ok cs t (Z.to_nat (clip_a len n m)) (Z.to_nat (clip_b len n m)) H E O NE)
    as (e & He & Ht & Hl & Ho).
  { unfold clip_a, clip_b, clip_a. destruct (Z.ltb_spec m 0); lia. }
  exists e. split; [assumption|]. split; [|split; [assumption|intros _; assumption]].
  rewrite Ht. f_equal. unfold clip_b, clip_a. destruct (Z.ltb_spec m 0); [lia|].
  destruct Hcase as [?|[Hc|Hc]]; [lia| |].
  - (* one byte per character *)
    destruct (le_lt_dec (length cs) (Z.to_nat (n - 1))) as [Ge|Lt].
    + rewrite !firstn_skipn_nil; [reflexivity|lia|lia].
    + replace (Z.to_nat (Z.min len (Z.max 0 (n - 1)))) with (Z.to_nat (n - 1)) by lia.
      destruct (le_lt_dec (length cs) (Z.to_nat (n - 1) + Z.to_nat m)).
      * rewrite !firstn_all2; [reflexivity| |]; rewrite skipn_length; lia.
      * f_equal. lia.
  - replace (Z.to_nat (Z.min len (Z.max 0 (n - 1)))) with (Z.to_nat (n - 1)) by lia.
    f_equal. lia.
Qed.

Lemma from_length_overrun cs t (n m : Z) :
  Forall is_char cs -> tval t = concat cs -> 
  (1 <= n)%Z -> (0 < m)%Z ->
  (Z.of_nat (length (tval t)) + n + m <= LONG_MAX)%Z ->
  length cs < length (tval t) -> (Z.of_nat (length cs) < n - 1 + m)%Z ->
  string_from_length t n m = UB.
Proof.
  intros H E Hn Hm Hlen Hlt Hover.
  rewrite from_length_cut; try lia.
  - apply (cut_ub cs); [assumption|assumption|].
    unfold clip_b, clip_a. destruct (Z.ltb_spec m 0); lia.
  - unfold range_ok, in_long, LONG_MAX in *. repeat split; lia.
  - destruct (tval t); simpl in *; [lia|congruence].
Qed.

(** Negative lengths: the [-m] characters in front of position [n], fewer at the start. *)
Lemma from_length_backward cs t (n m : Z) :
  Forall is_char cs -> tval t = concat cs -> owned_ok t -> tval t <> [] -> (m < 0)%Z ->
  (- LONG_MAX <= n - 1 + m)%Z -> (n - 1 - m <= LONG_MAX)%Z ->
  (Z.of_nat (length (tval t)) - m <= LONG_MAX)%Z -> (- LONG_MAX <= n)%Z ->
  let a := Z.max 0 (n - 1 + m) in
  (length cs = length (tval t) \/ a - m <= Z.of_nat (length cs))%Z ->
  exists e, string_from_length t n m = Ok e /\
    tval (e_self e) = concat (firstn (Z.to_nat (- m)) (skipn (Z.to_nat a) cs)) /\
    owned_ok (e_self e) /\ e_lost e = false.
Proof.
  intros H E O NE Hm R1 R2 R3 R4 a Hcase.
  pose proof (chars_length_le cs H) as HK. rewrite <- E in HK.
  rewrite from_length_cut; try assumption; try lia.
  2:{ unfold range_ok, in_long, LONG_MAX in *. repeat split; lia. }
  set (len := Z.of_nat (length (tval t))) in *.
  destruct (cut_ok cs t (Z.to_nat (clip_a len n m)) (Z.to_nat (clip_b len n m)) H E O NE)
    as (e & He & Ht & Hl & Ho).
  { unfold clip_a, clip_b, clip_a. destruct (Z.ltb_spec m 0); lia. }
  exists e. split; [assumption|]. split; [|split; assumption].
  rewrite Ht. f_equal. unfold clip_b, clip_a. destruct (Z.ltb_spec m 0); [|lia]. fold a.
  destruct Hcase as [Hc|Hc].
  - destruct (le_lt_dec (length cs) (Z.to_nat a)) as [Ge|Lt].
    + rewrite !firstn_skipn_nil; [reflexivity|lia|lia].
    + replace (Z.to_nat (Z.min len a)) with (Z.to_nat a) by lia.
      destruct (le_lt_dec (length cs) (Z.to_nat a + Z.to_nat (- m))).
      * rewrite !firstn_all2; [reflexivity| |]; rewrite skipn_length; lia.
      * f_equal. lia.
  - replace (Z.to_nat (Z.min len a)) with (Z.to_nat a) by lia.
    f_equal. lia.
Qed.

Lemma from_length_backward_overrun cs t (n m : Z) :
  Forall is_char cs -> tval t = concat cs -> (m < 0)%Z ->
  (- LONG_MAX <= n - 1 + m)%Z -> (n - 1 - m <= LONG_MAX)%Z ->
  (Z.of_nat (length (tval t)) - m <= LONG_MAX)%Z -> (- LONG_MAX <= n)%Z ->
  length cs < length (tval t) -> (Z.of_nat (length cs) < Z.max 0 (n - 1 + m) - m)%Z ->
  string_from_length t n m = UB.
Proof.
  intros H E Hm R1 R2 R3 R4 Hlt Hover.
  rewrite from_length_cut; try lia.
  - apply (cut_ub cs); [assumption|assumption|].
    unfold clip_b, clip_a. destruct (Z.ltb_spec m 0); lia.
  - unfold range_ok, in_long, LONG_MAX in *. repeat split; lia.
  - destruct (tval t); simpl in *; [lia|congruence].
Qed.

(** ** C04 *)
Lemma string_skip_ok cs t (n : Z) :
  Forall is_char cs -> tval t = concat cs -> owned_ok t ->
  (Z.of_nat (length (tval t)) + Z.of_nat (length (tval t)) + 1 <= LONG_MAX)%Z -> (0 <= n)%Z ->
  (n <= Z.of_nat (length cs) \/ Z.of_nat (length (tval t)) <= n)%Z ->
  exists r, string_skip t n = Ok r /\ ans_text r = concat (skipn (Z.to_nat n) cs).
Proof.
  intros H E O F Hn Hcase. unfold string_skip.
  pose proof (chars_length_le cs H) as HK. rewrite <- E in HK.
  destruct (Z.ltb_spec (Z.of_nat (length (tval t))) (n + 1)).
  - eexists; split; [reflexivity|]. simpl. rewrite skipn_all2 by lia. reflexivity.
  - assert (EL : getutf8len (tval t) (length (tval t)) = Ok (Z.of_nat (length cs)))
      by (rewrite E; apply getutf8len_chars; [assumption|rewrite <- E; unfold LONG_MAX, W64 in *; lia]).
    rewrite EL.
    cbn [obind].
    destruct (from_length_normal cs t (n + 1) (Z.of_nat (length cs) - (n + 1 - 1)) H E O)
      as (e & -> & Ht & _); try lia.
    cbn [obind]. eexists; split; [reflexivity|]. simpl. rewrite Ht. f_equal.
    replace (Z.to_nat (n + 1 - 1)) with (Z.to_nat n) by lia.
    apply firstn_all2. rewrite skipn_length. lia.
Qed.

Lemma string_skip_ub cs t (n : Z) :
  Forall is_char cs -> tval t = concat cs ->
  (Z.of_nat (length (tval t)) + Z.of_nat (length (tval t)) + 1 <= LONG_MAX)%Z ->
  (Z.of_nat (length cs) < n < Z.of_nat (length (tval t)))%Z ->
  string_skip t n = UB.
Proof.
  intros H E F [Hn1 Hn2]. unfold string_skip.
  destruct (Z.ltb_spec (Z.of_nat (length (tval t))) (n + 1)); [lia|].
  assert (EL : getutf8len (tval t) (length (tval t)) = Ok (Z.of_nat (length cs)))
      by (rewrite E; apply getutf8len_chars; [assumption|rewrite <- E; unfold LONG_MAX, W64 in *; lia]).
    rewrite EL.
  cbn [obind]. rewrite from_length_cut.
  - rewrite (cut_ub cs); [reflexivity|assumption|assumption|].
    unfold clip_b, clip_a.
    destruct (Z.ltb_spec (Z.of_nat (length cs) - (n + 1 - 1)) 0); lia.
  - unfold range_ok, in_long, LONG_MAX in *. repeat split; lia.
  - lia.
  - destruct (tval t); simpl in *; [lia|congruence].
  - lia.
  - lia.
Qed.

(** ** C05 *)
Lemma firstn_1_skipn {A} (l : list A) k x : nth_error l k = Some x -> firstn 1 (skipn k l) = [x].
Proof.
  revert l; induction k; intros [|y l]; try discriminate; intros E.
  - injection E as ->. reflexivity.
  - cbn [skipn]. apply IHk. assumption.
Qed.

Lemma string_at_wf cs o (n : Z) : Forall is_char cs -> fits (concat cs) -> (0 <= n <= LONG_MAX)%Z ->
  string_at (mkT (concat cs) o) n =
  Ok (if (n =? 0)%Z then None else option_map build_string (nth_error cs (Z.to_nat (n - 1)))).
Proof.
  intros H F Hn. unfold string_at. destruct (Z.ltb_spec n 0); [lia|]. cbn [tval].
  rewrite getutf8len_chars; [|assumption|apply fits_W64; assumption]. cbn [obind].
  pose proof (chars_length_le cs H) as HK. unfold fits, LONG_MAX in *.
  destruct (Z.eqb_spec n 0) as [->|Hn0].
  - change (wrap64 (0 - 1)) with 18446744073709551615%Z.
    destruct (Z.leb_spec (Z.of_nat (length cs)) 18446744073709551615); [reflexivity|lia].
  - assert (Ew : wrap64 (n - 1) = (n - 1)%Z) by (unfold wrap64, W64; apply Z.mod_small; lia).
    rewrite Ew. destruct (Z.leb_spec (Z.of_nat (length cs)) (n - 1)).
    + rewrite (proj2 (nth_error_None cs _)) by lia. reflexivity.
    + rewrite (bytes_at cs _ H) by lia. cbn [obind].
      rewrite (bytes_from cs _ 1 H) by lia. cbn [obind].
      rewrite (slice_chars cs _ 1 H). cbn [obind].
      destruct (nth_error cs (Z.to_nat (n - 1))) as [c|] eqn:En.
      * rewrite (firstn_1_skipn _ _ _ En). simpl. rewrite app_nil_r. reflexivity.
      * apply nth_error_None in En. lia.
Qed.

(** ** C06 *)

Lemma upto_nul_id t : no_nul t -> upto_nul t = t.
Proof. induction 1 as [|c t Hc Ht IH]; simpl; [reflexivity|]. destruct (N.eqb_spec c 0); [congruence|]. rewrite IH; reflexivity. Qed.

Lemma strncmp_ok a : forall b n, n <= length a -> n <= length b -> exists r, strncmp a b n = Ok r.
Proof.
  induction a as [|x a IH]; intros b n Ha Hb; destruct n as [|n]; simpl in *; try (eexists; reflexivity); try lia.
  destruct b as [|y b]; simpl in *; [lia|].
  destruct (x =? y)%N; [|eexists; reflexivity]. destruct (x =? 0)%N; [eexists; reflexivity|].
  apply IH; lia.
Qed.

Lemma strncmp_zero a : forall b, length a = length b ->
  forall r, strncmp a b (length b) = Ok r -> (r = 0%Z <-> upto_nul a = upto_nul b).
Proof.
  induction a as [|x a IH]; intros [|y b] Hl r E; simpl in *; try discriminate.
  - injection E as <-. tauto.
  - destruct (N.eqb_spec x y) as [->|Hne].
    + destruct (N.eqb_spec y 0); [injection E as <-; tauto|].
      rewrite (IH b (eq_add_S _ _ Hl) r E). split; [intros ->; reflexivity|intros X; injection X; auto].
    + injection E as <-. split; [lia|].
      destruct (N.eqb_spec x 0), (N.eqb_spec y 0); intros X; try discriminate; [subst; congruence|].
      injection X as -> _. congruence.
Qed.

Lemma eq_len_strncmp a b : exists r, (if (length a =? length b)%nat
    then do r <- strncmp a b (length b); Ok (r =? 0)%Z else Ok false) = Ok r /\ (r = true <-> same_text a b).
Proof.
  unfold same_text. destruct (Nat.eqb_spec (length a) (length b)) as [Hl|Hl].
  - destruct (strncmp_ok a b (length b)) as [r Hr]; try lia. rewrite Hr. cbn [obind].
    eexists; split; [reflexivity|]. rewrite <- (strncmp_zero _ _ Hl r Hr). destruct (Z.eqb_spec r 0); split; try tauto; intros; try discriminate; tauto.
  - exists false. split; [reflexivity|]. split; [discriminate|tauto].
Qed.

Lemma same_text_no_nul s t : no_nul t -> (same_text s t <-> s = t).
Proof.
  intros H. unfold same_text. rewrite (upto_nul_id t H). split; [|intros ->; split; [reflexivity|apply upto_nul_id; assumption]].
  intros [L E]. revert t H L E. induction s as [|c s IH]; intros t H L E; [simpl in E; assumption|].
  simpl in E. destruct (N.eqb_spec c 0).
  - subst t. simpl in L. lia.
  - destruct t as [|d t]; [discriminate|]. injection E as -> E. f_equal. apply IH; auto. inversion H; assumption.
Qed.

Lemma string_eq_char a b : exists r, string_eq a b = Ok r /\
  (r = true <-> length (tval a) = length (tval b) /\ upto_nul (tval a) = upto_nul (tval b)).
Proof.
  unfold string_eq. destruct (Nat.eqb_spec (length (tval b)) (length (tval a))) as [E|NE]; cbn [negb].
  - destruct (strncmp_ok (tval b) (tval a) (length (tval a))) as [r Hr]; try lia.
    rewrite Hr. cbn [obind]. eexists; split; [reflexivity|].
    pose proof (strncmp_zero _ _ E r Hr) as [Z1 Z2]. destruct (Z.eqb_spec r 0) as [e|ne].
    + split; [|reflexivity]. intros _. split; [congruence|]. symmetry; auto.
    + split; [discriminate|]. intros [_ X]. exfalso. apply ne, Z2. symmetry; assumption.
  - eexists; split; [reflexivity|]. split; [discriminate|]. intros [? _]; congruence.
Qed.

Lemma string_neq_char a b : exists r, string_eq a b = Ok r /\ string_neq a b = Ok (negb r).
Proof.
  unfold string_eq, string_neq. destruct (length (tval b) =? length (tval a))%nat eqn:E; cbn [negb].
  - apply Nat.eqb_eq in E. destruct (strncmp_ok (tval b) (tval a) (length (tval a))) as [r Hr]; try lia.
    rewrite Hr. cbn [obind]. eexists; split; reflexivity.
  - eexists; split; reflexivity.
Qed.

Lemma string_eq_no_nul a b : no_nul (tval a) -> no_nul (tval b) ->
  exists r, string_eq a b = Ok r /\ (r = true <-> tval a = tval b).
Proof.
  intros Ha Hb. destruct (string_eq_char a b) as (r & E & Hr). exists r. split; [assumption|].
  rewrite Hr, !upto_nul_id by assumption. split; [tauto|]. intros ->. auto.
Qed.

Lemma string_eq_refl a : string_eq a a = Ok true.
Proof. destruct (string_eq_char a a) as (r & E & Hr). rewrite E. f_equal. apply Hr. auto. Qed.

Lemma string_eq_sym a b : string_eq a b = string_eq b a.
Proof.
  destruct (string_eq_char a b) as (r & E & Hr). destruct (string_eq_char b a) as (r' & E' & Hr').
  rewrite E, E'. f_equal. destruct r, r'; try reflexivity; exfalso.
  - destruct (proj1 Hr eq_refl). assert (false = true) by (apply Hr'; auto). discriminate.
  - destruct (proj1 Hr' eq_refl). assert (false = true) by (apply Hr; auto). discriminate.
Qed.

Lemma string_eq_trans a b c : string_eq a b = Ok true -> string_eq b c = Ok true -> string_eq a c = Ok true.
Proof.
  intros Hab Hbc.
  destruct (string_eq_char a b) as (r1 & E1 & H1). destruct (string_eq_char b c) as (r2 & E2 & H2).
  destruct (string_eq_char a c) as (r3 & E3 & H3).
  rewrite E1 in Hab. rewrite E2 in Hbc. injection Hab as ->. injection Hbc as ->.
  rewrite E3. f_equal. apply H3. destruct (proj1 H1 eq_refl), (proj1 H2 eq_refl). split; congruence.
Qed.

(** ** C07 *)
Lemma strncmp_swap a : forall b n r, strncmp a b n = Ok r -> strncmp b a n = Ok (- r)%Z.
Proof.
  induction a as [|x a IH]; intros b n r E; destruct n as [|n]; simpl in *; try (injection E as <-; reflexivity).
  - discriminate.
  - destruct b as [|y b]; [discriminate|]. rewrite (N.eqb_sym y x).
    destruct (N.eqb_spec x y) as [->|].
    + destruct (y =? 0)%N; [injection E as <-; reflexivity|]. apply IH; assumption.
    + injection E as <-. f_equal. lia.
Qed.

Lemma compare_min a b : string_compare a b =
  strncmp (tval a) (tval b) (Nat.min (length (tval a)) (length (tval b))).
Proof.
  unfold string_compare. destruct (Nat.ltb_spec (length (tval a)) (length (tval b))); f_equal; lia.
Qed.

Lemma compare_swap a b : exists r, string_compare a b = Ok r /\ string_compare b a = Ok (- r)%Z.
Proof.
  rewrite !compare_min. destruct (strncmp_ok (tval a) (tval b) (Nat.min (length (tval a)) (length (tval b)))) as [r Hr]; try lia.
  exists r. split; [assumption|]. rewrite Nat.min_comm. apply strncmp_swap; assumption.
Qed.


Lemma strncmp_lex a : forall b n r, no_nul a -> strncmp a b n = Ok r ->
  Z.sgn r = sgn_of (lex (firstn n a) (firstn n b)).
Proof.
  induction a as [|x a IH]; intros b n r Ha E; destruct n as [|n]; simpl in *; try (injection E as <-; reflexivity).
  - discriminate.
  - destruct b as [|y b]; [discriminate|]. inversion Ha as [|? ? Hx Ha']; subst. simpl.
    destruct (N.eqb_spec x y) as [->|Hne].
    + rewrite N.compare_refl. destruct (N.eqb_spec y 0); [congruence|]. apply (IH b n r Ha' E).
    + injection E as <-. destruct (N.compare_spec x y); simpl; lia.
Qed.

Lemma compare_common_prefix a b : no_nul (tval a) ->
  exists r, string_compare a b = Ok r /\
    Z.sgn r = sgn_of (lex (firstn (length (tval b)) (tval a)) (firstn (length (tval a)) (tval b))).
Proof.
  intros Ha. rewrite compare_min.
  set (n := Nat.min (length (tval a)) (length (tval b))).
  destruct (strncmp_ok (tval a) (tval b) n) as [r Hr]; try (unfold n; lia).
  exists r. split; [assumption|]. rewrite (strncmp_lex _ _ _ _ Ha Hr). do 2 f_equal.
  - unfold n. destruct (Nat.min_spec (length (tval a)) (length (tval b))) as [[? ->]|[? ->]]; [|reflexivity].
    rewrite !firstn_all2; [reflexivity|lia|lia].
  - unfold n. destruct (Nat.min_spec (length (tval a)) (length (tval b))) as [[? ->]|[? ->]]; [reflexivity|].
    rewrite !firstn_all2; [reflexivity|lia|lia].
Qed.

Lemma lex_refl_eq a : forall b, lex a b = Eq <-> a = b.
Proof.
  induction a as [|x a IH]; intros [|y b]; simpl; split; try discriminate; try reflexivity.
  - destruct (N.compare_spec x y); try discriminate. subst. intros E. f_equal. apply IH; assumption.
  - intros E; injection E as -> ->. rewrite N.compare_refl. apply IH. reflexivity.
Qed.

Lemma compare_same_length a b : no_nul (tval a) -> length (tval a) = length (tval b) ->
  exists r, string_compare a b = Ok r /\ Z.sgn r = sgn_of (lex (tval a) (tval b)).
Proof.
  intros Ha Hl. destruct (compare_common_prefix a b Ha) as (r & E & Hs). exists r. split; [assumption|].
  rewrite Hs, <- Hl, Hl at 1. rewrite (firstn_all2 (tval a)) by lia. rewrite (firstn_all2 (tval b)) by lia. reflexivity.
Qed.

Lemma compare_derived a b : exists r, string_compare a b = Ok r /\
  string_before a b = Ok (r <? 0)%Z /\ string_after a b = Ok (0 <? r)%Z /\
  string_before_or_same a b = Ok (negb (0 <? r)%Z) /\ string_after_or_same a b = Ok (negb (r <? 0)%Z) /\
  string_before b a = Ok (0 <? r)%Z.
Proof.
  destruct (compare_swap a b) as (r & E & E'). exists r.
  unfold string_before, string_after, string_before_or_same, string_after_or_same. rewrite E, E'. cbn [obind].
  repeat split; f_equal; lia.
Qed.

(** ** C08 *)
Lemma string_append_ok a b : owned_ok a ->
  exists e, string_append a b = Ok e /\ tval (e_self e) = tval a ++ tval b /\ owned_ok (e_self e) /\
    ((tval a = [] -> towned a = false) -> e_lost e = false).
Proof.
  intros O. unfold string_append. destruct (Nat.eqb_spec (length (tval a) + length (tval b)) 0) as [Z|NZ].
  - eexists; split; [reflexivity|]. simpl.
    destruct (tval a) eqn:Ea, (tval b) eqn:Eb; simpl in Z; try lia. repeat split; auto.
  - rewrite !slice_all. cbn [obind]. destruct (Nat.ltb_spec 0 (length (tval a))).
    + unfold free_value. rewrite O by (destruct (tval a); simpl in *; [lia|congruence]).
      cbn [obind]. eexists; split; [reflexivity|]. simpl. repeat split; auto; try (unfold owned_ok; reflexivity).
    + eexists; split; [reflexivity|]. simpl. split; [reflexivity|]. split; [unfold owned_ok; reflexivity|].
      intros X; apply X. destruct (tval a); [reflexivity|simpl in *; lia].
Qed.

(** ** C11: memmem *)
Lemma text_eqb_eq a : forall b, text_eqb a b = true <-> a = b.
Proof.
  induction a as [|x a IH]; intros [|y b]; simpl; split; try discriminate; try reflexivity.
  - rewrite andb_true_iff, N.eqb_eq, IH. intros [-> ->]; reflexivity.
  - intros E; injection E as -> ->. rewrite N.eqb_refl. apply IH. reflexivity.
Qed.

Lemma memcmp_occurs h n i : length n <> 0 -> i <= length h -> (memcmp_at h i n = true <-> occurs_at h n i).
Proof.
  intros Hn Hi. unfold memcmp_at. rewrite text_eqb_eq. split.
  - intros E. exists (firstn i h), (skipn (length n) (skipn i h)). split.
    + rewrite <- E at 1. rewrite firstn_skipn, firstn_skipn. reflexivity.
    + apply firstn_length_le; assumption.
  - intros (pre & post & -> & <-). rewrite skipn_app, skipn_all, Nat.sub_diag. cbn [app skipn].
    rewrite firstn_app, firstn_all, Nat.sub_diag. simpl. apply app_nil_r.
Qed.

Lemma occurs_bound h n i : occurs_at h n i -> i + length n <= length h.
Proof. intros (pre & post & -> & <-). rewrite !app_length. lia. Qed.

Lemma memmem_up_some h n : forall count cur i, length n <> 0 -> cur + count + length n = length h + 1 ->
  memmem_up h n cur count = Some i ->
  occurs_at h n i /\ cur <= i /\ forall j, cur <= j -> occurs_at h n j -> i <= j.
Proof.
  induction count as [|c IH]; intros cur i Hn Hc E; cbn [memmem_up] in E; [discriminate|].
  destruct (memcmp_at h cur n) eqn:M.
  - injection E as <-. split; [apply memcmp_occurs; [assumption|lia|assumption]|]. split; [lia|]. auto.
  - destruct (IH (S cur) i Hn) as (O & L & Min); [lia|assumption|].
    split; [assumption|]. split; [lia|]. intros j Hj Oj.
    destruct (Nat.eq_dec j cur) as [->|]; [|apply Min; [lia|assumption]].
    apply memcmp_occurs in Oj; [congruence|assumption|lia].
Qed.

Lemma memmem_up_none h n : forall count cur, length n <> 0 -> cur + count + length n = length h + 1 ->
  memmem_up h n cur count = None -> forall j, cur <= j -> ~ occurs_at h n j.
Proof.
  induction count as [|c IH]; intros cur Hn Hc E j Hj Oj; cbn [memmem_up] in E.
  - apply occurs_bound in Oj. lia.
  - destruct (memcmp_at h cur n) eqn:M; [discriminate|].
    destruct (Nat.eq_dec j cur) as [->|].
    + apply memcmp_occurs in Oj; [congruence|assumption|lia].
    + apply (IH (S cur) Hn) with (j := j); try assumption; lia.
Qed.

Lemma memmem_down_some h n : forall count i, length n <> 0 -> count + length n <= length h + 1 ->
  memmem_down h n count = Some i ->
  occurs_at h n i /\ forall j, j < count -> occurs_at h n j -> j <= i.
Proof.
  induction count as [|c IH]; intros i Hn Hc E; cbn [memmem_down] in E; [discriminate|].
  destruct (memcmp_at h c n) eqn:M.
  - injection E as <-. split; [apply memcmp_occurs; [assumption|lia|assumption]|]. intros; lia.
  - destruct (IH i Hn) as (O & Max); [lia|assumption|]. split; [assumption|].
    intros j Hj Oj. destruct (Nat.eq_dec j c) as [->|]; [|apply Max; [lia|assumption]].
    apply memcmp_occurs in Oj; [congruence|assumption|lia].
Qed.

Lemma memmem_down_none h n : forall count, length n <> 0 -> count + length n <= length h + 1 ->
  memmem_down h n count = None -> forall j, j < count -> ~ occurs_at h n j.
Proof.
  induction count as [|c IH]; intros Hn Hc E j Hj Oj; cbn [memmem_down] in E; [lia|].
  destruct (memcmp_at h c n) eqn:M; [discriminate|].
  destruct (Nat.eq_dec j c) as [->|]; [|apply (IH Hn) with (j := j); try assumption; lia].
  apply memcmp_occurs in Oj; [congruence|assumption|lia].
Qed.

Lemma memmem_first h n : n <> [] ->
  match memmem h n false with
  | Some i => first_at h n i
  | None => ~ occurs h n
  end.
Proof.
  intros Hn. unfold memmem. assert (length n <> 0) by (destruct n; simpl; congruence).
  destruct (Nat.eqb_spec (length n) 0); [lia|].
  destruct (Nat.eqb_spec (length h) 0) as [Hh|Hh].
  { intros [i Oi]. apply occurs_bound in Oi. lia. }
  destruct (Nat.ltb_spec (length h) (length n)).
  { intros [i Oi]. apply occurs_bound in Oi. lia. }
  destruct (memmem_up h n 0 (length h - length n + 1)) as [i|] eqn:E.
  - apply memmem_up_some in E; [|assumption|lia]. destruct E as (O & _ & Min).
    split; [assumption|]. intros j; apply Min; lia.
  - intros [j Oj]. revert Oj. apply (fun q => memmem_up_none h n (length h - length n + 1) 0 H q E j); lia.
Qed.

Lemma memmem_last h n : n <> [] ->
  match memmem h n true with
  | Some i => last_at h n i
  | None => ~ occurs h n
  end.
Proof.
  intros Hn. unfold memmem. assert (length n <> 0) by (destruct n; simpl; congruence).
  destruct (Nat.eqb_spec (length n) 0); [lia|].
  destruct (Nat.eqb_spec (length h) 0) as [Hh|Hh].
  { intros [i Oi]. apply occurs_bound in Oi. lia. }
  destruct (Nat.ltb_spec (length h) (length n)).
  { intros [i Oi]. apply occurs_bound in Oi. lia. }
  destruct (memmem_down h n (length h - length n + 1)) as [i|] eqn:E.
  - apply memmem_down_some in E; [|assumption|lia]. destruct E as (O & Max).
    split; [assumption|]. intros j Oj. apply Max; [|assumption]. apply occurs_bound in Oj. lia.
  - intros [j Oj]. refine (memmem_down_none h n (length h - length n + 1) H _ E j _ Oj); [lia|].
    apply occurs_bound in Oj. lia.
Qed.

(** *** occurrences lie on character boundaries *)
Lemma app_eq_len {A} (a b x y : list A) : a ++ x = b ++ y -> length a = length b -> a = b /\ x = y.
Proof.
  revert b; induction a as [|u a IH]; intros [|v b] E L; simpl in *; try lia; [auto|].
  injection E as -> E. destruct (IH b E) as [-> ->]; [lia|auto].
Qed.


Lemma char_head_lead c : is_char c -> exists b r, c = b :: r /\ ((b < 128)%N \/ (192 <= b)%N) /\ Forall cont r.
Proof. intros H; inversion H; subst; eexists; eexists; (split; [reflexivity|]); (split; [lia|repeat first [assumption | apply Forall_nil | apply Forall_cons]]). Qed.

Lemma char_prefix c d x y : is_char c -> is_char d -> c ++ x = d ++ y -> c = d /\ x = y.
Proof.
  intros Hc Hd E.
  destruct (char_size c Hc) as (b & r & -> & Hs & _). destruct (char_size d Hd) as (b' & r' & -> & Hs' & _).
  assert (b = b') by (simpl in E; injection E; auto). subst b'.
  assert (Hl : length (b :: r) = length (b :: r')) by congruence.
  assert (E1 : b :: r = b :: r').
  { apply (f_equal (firstn (length (b :: r)))) in E.
    rewrite firstn_app, firstn_all, Nat.sub_diag, app_nil_r in E. rewrite Hl in E.
    rewrite firstn_app, firstn_all, Nat.sub_diag, app_nil_r in E. assumption. }
  assert (r = r') by congruence. subst r'. split; [reflexivity|]. apply app_inv_head in E. assumption.
Qed.

Lemma chars_prefix ps : forall cs post, Forall is_char ps -> Forall is_char cs ->
  concat ps ++ post = concat cs -> exists cs', cs = ps ++ cs' /\ post = concat cs'.
Proof.
  induction ps as [|p ps IH]; intros cs post Hp Hc E.
  - exists cs. split; [reflexivity|assumption].
  - inversion Hp as [|? ? Hp1 Hp2]; subst. cbn [concat] in E. rewrite <- app_assoc in E.
    destruct cs as [|c cs].
    { destruct (char_size p Hp1) as (b & r & -> & _). simpl in E. discriminate. }
    inversion Hc as [|? ? Hc1 Hc2]; subst. cbn [concat] in E.
    destruct (char_prefix p c _ _ Hp1 Hc1 E) as [-> E'].
    destruct (IH cs post Hp2 Hc2 E') as (cs' & -> & ->). exists cs'. split; reflexivity.
Qed.

Lemma sync cs : forall pre p post, Forall is_char cs -> is_char p ->
  pre ++ p ++ post = concat cs -> exists k, k <= length cs /\ pre = concat (firstn k cs) /\ p ++ post = concat (skipn k cs).
Proof.
  induction cs as [|c cs IH]; intros pre p post H Hp E.
  - destruct (char_size p Hp) as (b & r & -> & _). destruct pre; discriminate.
  - destruct pre as [|x pre].
    { exists 0. simpl. split; [lia|]. split; [reflexivity|assumption]. }
    inversion H as [|? ? Hc Hcs]; subst. cbn [concat] in E.
    (* the prefix covers the whole first character *)
    assert (length c <= length (x :: pre)).
    { destruct (le_lt_dec (length c) (length (x :: pre))) as [|Hlt]; [assumption|exfalso].
      destruct (char_head_lead p Hp) as (b & r & -> & Hb & _).
      destruct (char_head_lead c Hc) as (b' & r' & -> & _ & Hr').
      assert (nth_error (b' :: r') (length (x :: pre)) = Some b).
      { rewrite <- (nth_error_app1 _ (concat cs) Hlt), <- E.
        rewrite nth_error_app2 by lia. rewrite Nat.sub_diag. reflexivity. }
      simpl in H0. apply nth_error_In in H0. rewrite Forall_forall in Hr'. specialize (Hr' b H0).
      unfold cont in Hr'. lia. }
    assert (E1 : firstn (length c) (x :: pre) = c /\ skipn (length c) (x :: pre) ++ p ++ post = concat cs).
    { rewrite <- (firstn_skipn (length c) (x :: pre)) in E. rewrite <- app_assoc in E.
      assert (length (firstn (length c) (x :: pre)) = length c) by (apply firstn_length_le; assumption).
      apply app_eq_len in E; assumption. }
    destruct E1 as [E1 E2]. destruct (IH _ p post Hcs Hp E2) as (k & Hk & K1 & K2).
    exists (S k). simpl. split; [lia|]. split; [|assumption].
    rewrite <- K1. rewrite <- E1 at 1. apply eq_sym, firstn_skipn.
Qed.

Lemma occurs_chars cs ps i : Forall is_char cs -> Forall is_char ps -> ps <> [] ->
  occurs_at (concat cs) (concat ps) i ->
  exists k, chars_at cs ps k /\ i = length (concat (firstn k cs)).
Proof.
  intros Hc Hp Hne (pre & post & E & <-).
  destruct ps as [|p ps]; [congruence|]. inversion Hp as [|? ? Hp1 Hp2]; subst.
  cbn [concat] in E. rewrite <- app_assoc in E. symmetry in E.
  destruct (sync cs pre p (concat ps ++ post) Hc Hp1 E) as (k & Hk & K1 & K2).
  exists k. split; [|rewrite K1; reflexivity].
  rewrite app_assoc in K2. change (p ++ concat ps) with (concat (p :: ps)) in K2.
  destruct (chars_prefix (p :: ps) (skipn k cs) post Hp (Forall_skipn _ _ _ Hc) K2) as (cs' & E' & _).
  exists (firstn k cs), cs'. rewrite <- E', firstn_skipn. split; [reflexivity|]. apply firstn_length_le; assumption.
Qed.

Lemma chars_occurs cs ps k : chars_at cs ps k -> occurs_at (concat cs) (concat ps) (length (concat (firstn k cs))).
Proof.
  intros (pre & post & -> & <-). exists (concat pre), (concat post).
  rewrite !concat_app, firstn_app, firstn_all, Nat.sub_diag. simpl. rewrite app_nil_r. split; reflexivity.
Qed.

Lemma concat_firstn_mono cs j k : Forall is_char cs -> j < k -> k <= length cs ->
  length (concat (firstn j cs)) < length (concat (firstn k cs)).
Proof.
  revert j k; induction cs as [|c cs IH]; intros j k H Hjk Hk; simpl in Hk; [lia|].
  inversion H as [|? ? Hc Hcs]; subst. pose proof (char_nonempty c Hc).
  destruct k as [|k]; [lia|]. destruct j as [|j]; simpl; rewrite ?app_length; [simpl; lia|].
  specialize (IH j k Hcs ltac:(lia) ltac:(lia)). lia.
Qed.

Lemma chars_at_bound cs ps k : chars_at cs ps k -> k + length ps <= length cs.
Proof. intros (pre & post & -> & <-). rewrite !app_length. lia. Qed.

Lemma getutf8len_at cs k : Forall is_char cs -> fits (concat cs) -> k <= length cs ->
  getutf8len (concat cs) (length (concat (firstn k cs))) = Ok (Z.of_nat k).
Proof.
  intros H F Hk. rewrite (concat_split cs k) at 1.
  rewrite getutf8len_prefix; [|apply Forall_firstn; assumption|].
  - rewrite firstn_length_le by assumption. reflexivity.
  - apply fits_W64 in F. rewrite (concat_split cs k), app_length in F. lia.
Qed.

Lemma concat_nonempty ps : Forall is_char ps -> ps <> [] -> concat ps <> [].
Proof.
  intros H Hne E. apply Hne, concat_nil_chars; [assumption|]. rewrite E. reflexivity.
Qed.

Lemma index_of_chars cs ps o o' : Forall is_char cs -> Forall is_char ps -> ps <> [] -> fits (concat cs) ->
  (exists k, string_index_of (mkT (concat cs) o) (mkT (concat ps) o') = Ok (Some (Z.of_nat k + 1)%Z) /\
     chars_at cs ps k /\ forall j, chars_at cs ps j -> k <= j) \/
  (string_index_of (mkT (concat cs) o) (mkT (concat ps) o') = Ok None /\ forall k, ~ chars_at cs ps k).
Proof.
  intros Hc Hp Hne F. unfold string_index_of. cbn [tval].
  pose proof (memmem_first (concat cs) (concat ps) (concat_nonempty ps Hp Hne)) as M.
  destruct (memmem (concat cs) (concat ps) false) as [i|].
  - left. destruct M as [O Min]. destruct (occurs_chars cs ps i Hc Hp Hne O) as (k & Hk & ->).
    exists k. pose proof (chars_at_bound _ _ _ Hk).
    rewrite getutf8len_at by (try assumption; lia). split; [reflexivity|]. split; [assumption|].
    intros j Hj. destruct (le_lt_dec k j) as [|Hlt]; [assumption|exfalso].
    pose proof (Min _ (chars_occurs _ _ _ Hj)).
    pose proof (concat_firstn_mono cs j k Hc Hlt ltac:(lia)). lia.
  - right. split; [reflexivity|]. intros k Hk. apply M. exists (length (concat (firstn k cs))). apply chars_occurs; assumption.
Qed.

Lemma last_index_of_chars cs ps o o' : Forall is_char cs -> Forall is_char ps -> ps <> [] -> fits (concat cs) ->
  (exists k, string_last_index_of (mkT (concat cs) o) (mkT (concat ps) o') = Ok (Some (Z.of_nat k + 1)%Z) /\
     chars_at cs ps k /\ forall j, chars_at cs ps j -> j <= k) \/
  (string_last_index_of (mkT (concat cs) o) (mkT (concat ps) o') = Ok None /\ forall k, ~ chars_at cs ps k).
Proof.
  intros Hc Hp Hne F. unfold string_last_index_of. cbn [tval].
  pose proof (memmem_last (concat cs) (concat ps) (concat_nonempty ps Hp Hne)) as M.
  destruct (memmem (concat cs) (concat ps) true) as [i|].
  - left. destruct M as [O Max]. destruct (occurs_chars cs ps i Hc Hp Hne O) as (k & Hk & ->).
    exists k. pose proof (chars_at_bound _ _ _ Hk).
    rewrite getutf8len_at by (try assumption; lia). split; [reflexivity|]. split; [assumption|].
    intros j Hj. destruct (le_lt_dec j k) as [|Hlt]; [assumption|exfalso].
    pose proof (Max _ (chars_occurs _ _ _ Hj)). pose proof (chars_at_bound _ _ _ Hj).
    pose proof (concat_firstn_mono cs k j Hc Hlt ltac:(lia)). lia.
  - right. split; [reflexivity|]. intros k Hk. apply M. exists (length (concat (firstn k cs))). apply chars_occurs; assumption.
Qed.

Lemma contains_chars cs ps o o' : Forall is_char cs -> Forall is_char ps -> ps <> [] -> fits (concat cs) ->
  exists r, string_contains (mkT (concat cs) o) (mkT (concat ps) o') = Ok r /\
   (r = true <-> exists k, chars_at cs ps k).
Proof.
  intros Hc Hp Hne F. unfold string_contains.
  destruct (index_of_chars cs ps o o' Hc Hp Hne F) as [(k & -> & Hk & _)|[-> Hn]]; cbn [obind]; eexists; (split; [reflexivity|]).
  - destruct (Z.ltb_spec 0 (Z.of_nat k + 1)); [|lia]. split; [intros _; exists k; assumption|reflexivity].
  - split; [discriminate|]. intros [k Hk]. exfalso. apply (Hn k Hk).
Qed.

(** ** C09 *)
Lemma replace_loop_ok fuel : forall src ndl rpl out cap dlen, ndl <> [] ->
  length src < fuel ->
  dlen = (Z.of_nat (length out) + Z.of_nat (length src))%Z -> (dlen <= cap)%Z ->
  exists src' x cap' dlen', replace_loop fuel src ndl rpl out cap dlen = Some (Ok (src', out ++ x, cap', dlen')) /\
    replaced ndl rpl src (x ++ src') /\
    dlen' = (Z.of_nat (length (out ++ x)) + Z.of_nat (length src'))%Z /\ (dlen' <= cap')%Z.
Proof.
  induction fuel as [|fuel IH]; intros src ndl rpl out cap dlen Hn Hf Hd Hc; [lia|].
  cbn [replace_loop]. pose proof (memmem_first src ndl Hn) as M.
  destruct (memmem src ndl false) as [off|].
  - destruct M as [(pre & post & E & El) Min].
    assert (Hlen : length src = length pre + (length ndl + length post)) by (rewrite E, !app_length; reflexivity).
    assert (length ndl <> 0) by (destruct ndl; simpl; congruence).
    assert (E1 : firstn off src = pre).
    { rewrite E, <- El. rewrite firstn_app, firstn_all, Nat.sub_diag. simpl. apply app_nil_r. }
    assert (E2 : skipn (off + length ndl) src = post).
    { rewrite E, <- El. rewrite app_assoc, skipn_app, <- app_length, skipn_all, Nat.sub_diag. reflexivity. }
    rewrite E1, E2. set (nd := (dlen - Z.of_nat (length ndl) + Z.of_nat (length rpl))%Z).
    set (cap' := if (dlen <? nd)%Z then Z.max cap nd else cap).
    assert (Hcap : (nd <= cap')%Z) by (unfold cap'; destruct (Z.ltb_spec dlen nd); lia).
    assert (Hcap2 : (cap <= cap')%Z) by (unfold cap'; destruct (Z.ltb_spec dlen nd); lia).
    destruct (Z.ltb_spec cap' (Z.of_nat (length (out ++ pre)))) as [X|_].
    { exfalso. rewrite app_length in X. lia. }
    destruct (Z.ltb_spec cap' (Z.of_nat (length ((out ++ pre) ++ rpl)))) as [X|_].
    { exfalso. rewrite !app_length in X. unfold nd in *. lia. }
    cbn [orb].
    destruct (IH post ndl rpl ((out ++ pre) ++ rpl) cap' nd Hn) as (src' & x & cap'' & dlen' & -> & R & D & C).
    { lia. } { rewrite !app_length. unfold nd. lia. } { assumption. }
    exists src', (pre ++ rpl ++ x), cap'', dlen'. rewrite <- !app_assoc in D |- *.
    split; [reflexivity|]. split; [|split; assumption].
    rewrite E. rewrite <- !app_assoc. apply repl_step; [|assumption].
    rewrite E, El in *. split; [exists pre, post; split; [reflexivity|assumption]|assumption].
  - exists src, [], cap, dlen. rewrite app_nil_r. simpl. repeat split; auto. constructor. assumption.
Qed.

Lemma string_replace_ok t p r : owned_ok t -> tval p <> [] ->
  exists e, string_replace t p r = Some (Ok e) /\ replaced (tval p) (tval r) (tval t) (tval (e_self e)) /\
    owned_ok (e_self e).
Proof.
  intros O Hp. unfold string_replace.
  destruct (Nat.eqb_spec (length (tval p)) 0) as [Z|_]; [destruct (tval p); simpl in *; congruence|]. cbn [orb].
  destruct (Nat.eqb_spec (length (tval t)) 0) as [Z|NZ].
  - eexists; split; [reflexivity|]. simpl. split; [|assumption]. constructor.
    intros [i Oi]. apply occurs_bound in Oi. destruct (tval p); simpl in *; [congruence|lia].
  - destruct (replace_loop_ok (S (length (tval t))) (tval t) (tval p) (tval r) [] (Z.of_nat (length (tval t)))
      (Z.of_nat (length (tval t))) Hp ltac:(lia)) as (src' & x & cap' & dlen' & -> & R & D & C); [simpl; lia|lia|].
    cbn [app] in *. rewrite app_length.
    destruct (Z.ltb_spec cap' (Z.of_nat (length x + length src'))); [lia|].
    destruct (Z.eqb_spec (Z.of_nat (length x + length src')) dlen'); [|lia]. cbn [negb orb].
    unfold free_value. rewrite O by (destruct (tval t); simpl in *; congruence). cbn [obind].
    eexists; split; [reflexivity|]. simpl. split; [assumption|]. unfold owned_ok; reflexivity.
Qed.

Lemma string_replace_empty_pattern t p r : tval p = [] -> string_replace t p r = Some (Ok (mkE t false)).
Proof. intros E. unfold string_replace. rewrite E. reflexivity. Qed.

(** the specification determines the answer *)
Lemma occurs_at_det (p : text) pre post pre' post' :
  pre ++ p ++ post = pre' ++ p ++ post' -> length pre = length pre' -> pre = pre' /\ post = post'.
Proof.
  intros E L. apply app_eq_len in E; [|assumption]. destruct E as [-> E]. split; [reflexivity|].
  apply app_inv_head in E. assumption.
Qed.

Lemma replaced_det p r t u v : p <> [] -> replaced p r t u -> replaced p r t v -> u = v.
Proof.
  intros Hp H. revert v. induction H as [t Hno | pre post out [Ho Hmin] Hr IH]; intros v Hv.
  - inversion Hv as [|pre post out [Ho _]]; subst; [reflexivity|]. exfalso. apply Hno. eexists; exact Ho.
  - inversion Hv as [t' Hno | pre' post' out' [Ho' Hmin'] Hr' E]; subst.
    + exfalso. apply Hno. eexists; exact Ho.
    + assert (length pre = length pre').
      { rewrite E in Ho', Hmin'. pose proof (Hmin _ Ho'). rewrite <- E in Ho'.
        pose proof (Hmin' _ Ho). lia. }
      symmetry in E. destruct (occurs_at_det _ _ _ _ _ E H) as [-> ->]. f_equal. f_equal. apply IH. assumption.
Qed.

(** ** C10 *)
Definition glue (d : text) (parts : list text) : text := concat (map (fun p => p ++ d) parts).

Lemma joined_glue d parts last : joined d (parts ++ [last]) = glue d parts ++ last.
Proof.
  induction parts as [|p ps IH]; [reflexivity|].
  cbn [app]. unfold glue in *. cbn [map concat].
  rewrite <- !app_assoc, <- IH. destruct ps; reflexivity.
Qed.

Lemma split_loop_inv d : d <> [] -> forall rest buf k parts,
  k < length d -> (exists b0, buf = b0 ++ firstn k d) ->
  exists parts' buf', split_loop rest d buf k parts = Ok (parts', buf') /\
    glue d (map tval parts') ++ buf' = glue d (map tval parts) ++ buf ++ rest.
Proof.
  intros Hd. induction rest as [|c rest IH]; intros buf k parts Hk [b0 Hb].
  - exists parts, buf. cbn [split_loop]. rewrite app_nil_r. split; reflexivity.
  - cbn [split_loop].
    assert (Ehit : match d with [] => Ok false | _ => do x <- rd d k; Ok (c =? x)%N end =
      (do x <- rd d k; Ok (c =? x)%N)) by (destruct d; [congruence|reflexivity]).
    rewrite Ehit. unfold rd.
    destruct (nth_error d k) as [x|] eqn:En; [|apply nth_error_None in En; lia]. cbn [obind].
    assert (Efs : firstn (S k) d = firstn k d ++ [x]).
    { clear - En. revert d En; induction k; intros [|y d] E; simpl in *; try discriminate; [injection E as ->; reflexivity|].
      rewrite (IHk d E). reflexivity. }
    destruct (N.eqb_spec c x) as [->|Hne].
    + destruct (Nat.leb_spec (length d) (S k)).
      * assert (S k = length d) by lia.
        assert (Ed : firstn k d ++ [x] = d) by (rewrite <- Efs, H0; apply firstn_all).
        assert (Hlb : length buf + 1 = length b0 + length d).
        { rewrite Hb, app_length, firstn_length. lia. }
        destruct (Nat.ltb_spec (length buf + 1) (length d)); [lia|].
        destruct (IH [] 0 (parts ++ [build_string (firstn (length buf + 1 - length d) (buf ++ [x]))]))
          as (parts' & buf' & -> & E); [lia|exists []; reflexivity|].
        exists parts', buf'. split; [reflexivity|]. rewrite E, map_app. unfold glue. rewrite map_app, concat_app.
        cbn [map concat tval build_string]. rewrite app_nil_r, <- !app_assoc. f_equal.
        replace (length buf + 1 - length d) with (length b0) by lia.
        rewrite Hb, <- app_assoc, Ed, firstn_app, firstn_all, Nat.sub_diag.
        cbn [firstn]. rewrite app_nil_r. cbn [app]. rewrite <- !app_assoc. f_equal.
        rewrite <- Ed at 1. rewrite <- app_assoc. reflexivity.
      * destruct (IH (buf ++ [x]) (S k) parts) as (parts' & buf' & -> & E); [lia| |].
        { exists b0. rewrite Efs, Hb, app_assoc. reflexivity. }
        exists parts', buf'. split; [reflexivity|]. rewrite E, <- app_assoc. reflexivity.
    + destruct (IH (buf ++ [c]) 0 parts) as (parts' & buf' & -> & E); [lia|exists (buf ++ [c]); simpl; rewrite app_nil_r; reflexivity|].
      exists parts', buf'. split; [reflexivity|]. rewrite E, <- app_assoc. reflexivity.
Qed.

Lemma split_loop_nil_delim : forall rest buf parts, split_loop rest [] buf 0 parts = Ok (parts, buf ++ rest).
Proof.
  induction rest as [|c rest IH]; intros buf parts; cbn [split_loop obind].
  - rewrite app_nil_r. reflexivity.
  - rewrite IH, <- app_assoc. reflexivity.
Qed.

Lemma split_join t d : exists parts, string_split t d = Ok parts /\ joined (tval d) (map tval parts) = tval t.
Proof.
  unfold string_split. destruct (list_eq_dec N.eq_dec (tval d) []) as [E|Hd].
  - rewrite E, split_loop_nil_delim. cbn [obind app]. eexists; split; [reflexivity|]. reflexivity.
  - destruct (split_loop_inv (tval d) Hd (tval t) [] 0 []) as (parts & buf & -> & E).
    + destruct (tval d); simpl; [congruence|lia].
    + exists []; reflexivity.
    + cbn [obind]. eexists; split; [reflexivity|]. rewrite map_app. cbn [map tval build_string].
      rewrite joined_glue, E. reflexivity.
Qed.

(** single-byte separators *)
Lemma split_loop_byte x : forall rest buf parts, ~ In x buf -> Forall (fun p => ~ In x (tval p)) parts ->
  exists parts' buf', split_loop rest [x] buf 0 parts = Ok (parts', buf') /\ ~ In x buf' /\
    Forall (fun p => ~ In x (tval p)) parts'.
Proof.
  induction rest as [|c rest IH]; intros buf parts Hb Hp; cbn [split_loop].
  - exists parts, buf. repeat split; auto.
  - cbn [rd nth_error obind length]. destruct (N.eqb_spec c x) as [->|Hne].
    + destruct (Nat.ltb_spec (length buf + 1) 1); [lia|].
      apply IH; [auto|]. apply Forall_app. split; [assumption|]. constructor; [|constructor].
      cbn [tval build_string]. replace (length buf + 1 - 1) with (length buf) by lia.
      rewrite firstn_app, firstn_all, Nat.sub_diag. simpl. rewrite app_nil_r. assumption.
    + apply IH; [|assumption]. rewrite in_app_iff. simpl. intuition congruence.
Qed.

Lemma split_byte t x o : exists parts, string_split t (mkT [x] o) = Ok parts /\
  joined [x] (map tval parts) = tval t /\ Forall (fun p => ~ In x (tval p)) parts.
Proof.
  destruct (split_join t (mkT [x] o)) as (parts & E & J). exists parts. split; [assumption|]. split; [assumption|].
  unfold string_split in E. cbn [tval] in E.
  destruct (split_loop_byte x (tval t) [] []) as (p' & b' & E' & Hb & Hp); [auto|constructor|].
  rewrite E' in E. cbn [obind] in E. injection E as <-. apply Forall_app. split; [assumption|]. constructor; [assumption|constructor].
Qed.

(** separators that are one character, in well-formed texts *)

(** after a mismatch inside a character the rest of it is copied *)
Lemma split_loop_cont d r : forall rest buf parts, is_char d -> Forall cont r ->
  split_loop (r ++ rest) d buf 0 parts = split_loop rest d (buf ++ r) 0 parts.
Proof.
  induction r as [|x r IH]; intros rest buf parts Hd Hr; cbn [app].
  - rewrite app_nil_r. reflexivity.
  - inversion Hr as [|? ? Hx Hr']; subst. cbn [split_loop].
    destruct (char_head_lead d Hd) as (b & r' & -> & Hb & _). cbn [rd nth_error obind].
    destruct (N.eqb_spec x b) as [->|]; [unfold cont in Hx; lia|].
    rewrite IH by assumption. rewrite <- app_assoc. reflexivity.
Qed.

(** matching a proper prefix of [d] from state [k] *)
Lemma split_loop_prefix d m : forall k rest buf parts, k + length m < length d ->
  (forall i, i < length m -> nth_error d (k + i) = nth_error m i) ->
  split_loop (m ++ rest) d buf k parts = split_loop rest d (buf ++ m) (k + length m) parts.
Proof.
  induction m as [|x m IH]; intros k rest buf parts Hk Hm; cbn [app length].
  - rewrite app_nil_r, Nat.add_0_r. reflexivity.
  - cbn [split_loop]. simpl in Hk.
    assert (Hx : nth_error d k = Some x) by (rewrite <- (Nat.add_0_r k); apply (Hm 0); simpl; lia).
    destruct d as [|d0 d]; [simpl in Hk; lia|]. unfold rd. rewrite Hx. cbn [obind]. rewrite N.eqb_refl.
    destruct (Nat.leb_spec (length (d0 :: d)) (S k)); [lia|].
    rewrite IH; [|lia|].
    + rewrite <- app_assoc. f_equal. lia.
    + intros i Hi. replace (S k + i) with (k + S i) by lia. apply (Hm (S i)). simpl; lia.
Qed.

Lemma split_loop_mismatch d c rest buf k parts x : nth_error d k = Some x -> c <> x ->
  split_loop (c :: rest) d buf k parts = split_loop rest d (buf ++ [c]) 0 parts.
Proof.
  intros En Hne. cbn [split_loop]. destruct d as [|d0 d]; [destruct k; discriminate|].
  unfold rd. rewrite En. cbn [obind]. destruct (N.eqb_spec c x); [congruence|reflexivity].
Qed.

Lemma first_diff (a b : text) : length a = length b -> a <> b ->
  exists m x y ra rb, a = m ++ x :: ra /\ b = m ++ y :: rb /\ x <> y.
Proof.
  revert b; induction a as [|x a IH]; intros [|y b] Hl Hne; simpl in Hl; try lia; [congruence|].
  destruct (N.eq_dec x y) as [->|Hxy].
  - destruct (IH b) as (m & x' & y' & ra & rb & -> & -> & Hd); [lia|congruence|].
    exists (y :: m), x', y', ra, rb. repeat split; auto.
  - exists [], x, y, a, b. repeat split; auto.
Qed.

Lemma split_loop_char d c : is_char d -> is_char c -> forall rest buf parts,
  split_loop (c ++ rest) d buf 0 parts =
  if text_eqb c d then split_loop rest d [] 0 (parts ++ [build_string buf])
  else split_loop rest d (buf ++ c) 0 parts.
Proof.
  intros Hd Hc rest buf parts.
  destruct (text_eqb c d) eqn:E.
  - apply text_eqb_eq in E. subst c.
    (* all of d *)
    assert (exists m x, d = m ++ [x]) as (m & x & Em).
    { destruct (exists_last (l := d)) as (m & x & ->); [intros ->; inversion Hd|]. eexists; eexists; reflexivity. }
    rewrite Em at 1. rewrite <- app_assoc. rewrite split_loop_prefix.
    + cbn [app split_loop].
      assert (Eh : match d with [] => Ok false | _ => do z <- rd d (0 + length m); Ok (x =? z)%N end =
        (do z <- rd d (0 + length m); Ok (x =? z)%N)) by (rewrite Em; destruct m; reflexivity).
      rewrite Eh. unfold rd. rewrite Nat.add_0_l.
      assert (nth_error d (length m) = Some x) as -> by (rewrite Em, nth_error_app2, Nat.sub_diag by lia; reflexivity).
      cbn [obind]. rewrite N.eqb_refl.
      assert (length d = S (length m)) by (rewrite Em, app_length; simpl; lia).
      destruct (Nat.leb_spec (length d) (S (length m))); [|lia].
      rewrite app_length. destruct (Nat.ltb_spec (length buf + length m + 1) (length d)); [lia|].
      do 3 f_equal. replace (length buf + length m + 1 - length d) with (length buf) by lia.
      rewrite <- app_assoc, firstn_app, firstn_all, Nat.sub_diag. cbn [firstn]. rewrite app_nil_r. reflexivity.
    + rewrite Em, app_length. simpl. lia.
    + intros i Hi. rewrite Em, Nat.add_0_l, nth_error_app1 by assumption. reflexivity.
  - assert (Hne : c <> d) by (intros ->; rewrite (proj2 (text_eqb_eq d d) eq_refl) in E; discriminate).
    destruct (char_head_lead c Hc) as (b & r & Ec & Hb & Hr).
    destruct (char_head_lead d Hd) as (b' & r' & Ed & Hb' & Hr').
    destruct (N.eq_dec b b') as [Ebb|Hbb].
    + (* same lead byte, same length *)
      assert (Hl : length c = length d).
      { destruct (char_size c Hc) as (b1 & r1 & E1 & S1 & _). destruct (char_size d Hd) as (b2 & r2 & E2 & S2 & _).
        rewrite Ec in E1. rewrite Ed in E2. injection E1 as <- _. injection E2 as <- _. congruence. }
      destruct (first_diff c d Hl Hne) as (m & x & y & ra & rb & Em & Em' & Hxy).
      assert (Hm : m <> []).
      { intros ->. rewrite Ec in Em. rewrite Ed in Em'. simpl in Em, Em'. congruence. }
      assert (Hra : Forall cont ra).
      { rewrite Forall_forall in Hr |- *. intros z Hz. apply Hr. destruct m as [|m0 m]; [congruence|].
        rewrite Ec in Em. simpl in Em. injection Em as _ ->. apply in_or_app. right. right. assumption. }
      rewrite Em at 1. rewrite <- app_assoc. rewrite split_loop_prefix.
      * cbn [app]. rewrite (split_loop_mismatch d x _ _ _ _ y).
        { rewrite split_loop_cont by assumption. f_equal. rewrite Em, <- !app_assoc. reflexivity. }
        { rewrite Em', Nat.add_0_l, nth_error_app2, Nat.sub_diag by lia. reflexivity. }
        { assumption. }
      * rewrite Em', app_length. simpl. lia.
      * intros i Hi. rewrite Em', Nat.add_0_l, nth_error_app1 by assumption. reflexivity.
    + rewrite Ec. cbn [app]. rewrite (split_loop_mismatch d b _ _ _ _ b'); [|rewrite Ed; reflexivity|assumption].
      rewrite split_loop_cont by assumption. rewrite <- app_assoc. reflexivity.
Qed.

Lemma split_loop_chars d cs : is_char d -> Forall is_char cs -> forall cur parts,
  exists ps l, split_loop (concat cs) d (concat cur) 0 parts = Ok (parts ++ map build_string (map (@concat N) ps), concat l) /\
    split_chars d cs cur = ps ++ [l].
Proof.
  intros Hd H. induction H as [|c cs Hc Hcs IH]; intros cur parts.
  - exists [], cur. simpl. rewrite app_nil_r. split; reflexivity.
  - cbn [concat]. rewrite split_loop_char by assumption. cbn [split_chars]. destruct (text_eqb c d).
    + destruct (IH [] (parts ++ [build_string (concat cur)])) as (ps & l & E1 & E2).
      exists (cur :: ps), l. cbn [concat] in E1. rewrite E1, E2. cbn [map]. rewrite <- app_assoc. split; reflexivity.
    + destruct (IH (cur ++ [c]) parts) as (ps & l & E1 & E2). exists ps, l.
      rewrite concat_app in E1. cbn [concat] in E1. rewrite app_nil_r in E1. rewrite E1, E2. split; reflexivity.
Qed.

Lemma split_char_sep cs d o o' : Forall is_char cs -> is_char d ->
  string_split (mkT (concat cs) o) (mkT d o') =
  Ok (map build_string (map (@concat N) (split_chars d cs []))).
Proof.
  intros H Hd. unfold string_split. cbn [tval].
  destruct (split_loop_chars d cs Hd H [] []) as (ps & l & E1 & E2). cbn [concat] in E1.
  rewrite E1, E2, !map_app. reflexivity.
Qed.

(** the specification of [split_chars]: no part contains [d], and joining gives the sequence back *)
Lemma split_chars_no_sep d cs : forall cur, ~ In d cur -> Forall (fun p => ~ In d p) (split_chars d cs cur).
Proof.
  induction cs as [|c cs IH]; intros cur Hc; cbn [split_chars].
  - constructor; [assumption|constructor].
  - destruct (text_eqb c d) eqn:E.
    + constructor; [assumption|]. apply IH. auto.
    + apply IH. rewrite in_app_iff. simpl. intros [X|[X|[]]]; [auto|].
      subst. rewrite (proj2 (text_eqb_eq d d) eq_refl) in E. discriminate.
Qed.

(** ** C12 *)
Lemma string_minus_ok t s : exists r, string_minus t s = Ok r /\
  ((exists u, tval t = u ++ tval s /\ ans_text r = u) \/
   ((forall u, tval t <> u ++ tval s) /\ ans_text r = tval t)).
Proof.
  unfold string_minus. destruct (Nat.ltb_spec (length (tval t)) (length (tval s))).
  - eexists; split; [reflexivity|]. right. split; [|reflexivity]. intros u E. rewrite E, app_length in H. lia.
  - destruct (text_eqb (firstn (length (tval s)) (skipn (length (tval t) - length (tval s)) (tval t))) (tval s)) eqn:E.
    + eexists; split; [reflexivity|]. left. exists (firstn (length (tval t) - length (tval s)) (tval t)).
      split; [|reflexivity]. apply text_eqb_eq in E.
      rewrite firstn_all2 in E by (rewrite skipn_length; lia).
      transitivity (firstn (length (tval t) - length (tval s)) (tval t) ++ skipn (length (tval t) - length (tval s)) (tval t));
        [symmetry; apply firstn_skipn|f_equal; exact E].
    + eexists; split; [reflexivity|]. right. split; [|reflexivity]. intros u Eu.
      assert (text_eqb (firstn (length (tval s)) (skipn (length (tval t) - length (tval s)) (tval t))) (tval s) = true); [|congruence].
      apply text_eqb_eq. rewrite Eu, app_length.
      replace (length u + length (tval s) - length (tval s)) with (length u) by lia.
      rewrite skipn_app, skipn_all, Nat.sub_diag. cbn [app skipn]. apply firstn_all.
Qed.

(** ** C13 *)
Lemma isspace_ws c : isspace c = true <-> ws c.
Proof.
  unfold isspace, ws. simpl. lia.
Qed.

Lemma trim_begin_split s : forall i, exists l, trim_begin s i = i + length l /\ Forall ws l /\
  exists r, s = l ++ r /\ (forall c r', r = c :: r' -> isspace c = false).
Proof.
  induction s as [|c s IH]; intros i; cbn [trim_begin].
  - exists []. simpl. split; [lia|]. split; [constructor|]. exists []. split; [reflexivity|discriminate].
  - destruct (isspace c) eqn:E.
    + destruct (IH (S i)) as (l & -> & Hl & r & -> & Hr). exists (c :: l). simpl. split; [lia|].
      split; [constructor; [apply isspace_ws; assumption|assumption]|]. exists r. split; [reflexivity|assumption].
    + exists []. simpl. split; [lia|]. split; [constructor|]. exists (c :: s). split; [reflexivity|].
      intros c' r' X. injection X as <- <-. assumption.
Qed.

Lemma trim_end_split : forall k l x m, isspace x = false -> k = length m ->
  exists i m1 m2, trim_end (l ++ x :: m) (length l) k = Ok (length l + i) /\ i = length m1 /\ m = m1 ++ m2 /\
    Forall ws m2 /\ (forall c s', x :: m1 = s' ++ [c] -> isspace c = false).
Proof.
  assert (A : forall k l x m post, isspace x = false -> k = length m ->
    exists i m1 m2, trim_end (l ++ x :: m ++ post) (length l) k = Ok (length l + i) /\ i = length m1 /\ m = m1 ++ m2 /\
    Forall ws m2 /\ (forall c s', x :: m1 = s' ++ [c] -> isspace c = false)).
  { induction k as [|k IH]; intros l x m post Hx Hk.
    - destruct m; [|discriminate]. exists 0, [], []. cbn [trim_end]. rewrite Nat.add_0_r. repeat split; auto.
      intros c s' E. destruct s' as [|? [|]]; simpl in E; try discriminate. injection E as <-. assumption.
    - destruct (exists_last (l := m)) as (m' & y & ->); [intros ->; discriminate|].
      rewrite app_length in Hk. simpl in Hk. assert (Ek : k = length m') by lia.
      cbn [trim_end].
      assert (Erd : rd (l ++ x :: (m' ++ [y]) ++ post) (length l + S k) = Ok y).
      { unfold rd. rewrite nth_error_app2 by lia. replace (length l + S k - length l) with (S k) by lia.
        cbn [nth_error]. rewrite <- app_assoc, nth_error_app2 by lia. rewrite Ek, Nat.sub_diag. reflexivity. }
      rewrite Erd. cbn [obind]. destruct (isspace y) eqn:Ey.
      + rewrite <- app_assoc.
        destruct (IH l x m' ([y] ++ post) Hx Ek) as (i & m1 & m2 & E & Ei & Em & Hm2 & Hlast).
        exists i, m1, (m2 ++ [y]). rewrite E. split; [reflexivity|]. split; [assumption|]. split.
        { rewrite Em, app_assoc. reflexivity. }
        split; [|assumption]. apply Forall_app. split; [assumption|]. constructor; [apply isspace_ws; assumption|constructor].
      + exists (S k), (m' ++ [y]), []. split; [reflexivity|]. split; [rewrite app_length; simpl; lia|].
        split; [rewrite app_nil_r; reflexivity|]. split; [constructor|].
        intros c s' E. rewrite app_comm_cons in E. apply app_inj_tail in E. destruct E as [_ <-]. assumption. }
  intros k l x m Hx Hk. destruct (A k l x m [] Hx Hk) as (i & m1 & m2 & E & R). rewrite app_nil_r in E.
  exists i, m1, m2. split; assumption.
Qed.

Lemma string_trim_ok t : owned_ok t -> exists r, string_trim t = Ok r /\ trimmed (tval t) (ans_text r).
Proof.
  intros O. unfold string_trim.
  assert (Hnil : Forall ws (tval t) -> trimmed (tval t) []).
  { intros H. split; [exists (tval t), []; rewrite app_nil_r; repeat split; auto|].
    split; intros c s' E; [discriminate|destruct s'; discriminate]. }
  destruct (Nat.eqb_spec (length (tval t)) 0) as [Z|NZ].
  { eexists; split; [reflexivity|]. apply Hnil. destruct (tval t); [constructor|simpl in Z; lia]. }
  destruct (trim_begin_split (tval t) 0) as (l & -> & Hl & r & Er & Hr). rewrite Nat.add_0_l.
  destruct (Nat.eqb_spec (length l) (length (tval t))) as [El|Hll].
  { eexists; split; [reflexivity|]. apply Hnil. rewrite Er in *. rewrite app_length in El.
    destruct r; [rewrite app_nil_r; assumption|simpl in El; lia]. }
  destruct r as [|x m]; [exfalso; apply Hll; rewrite Er, app_nil_r; reflexivity|].
  specialize (Hr x m eq_refl).
  assert (Hk : length (tval t) - 1 - length l = length m) by (rewrite Er, app_length; simpl; lia).
  rewrite Hk.
  destruct (trim_end_split (length m) l x m Hr eq_refl) as (i & m1 & m2 & Ete & Ei & Em & Hm2 & Hlast).
  rewrite <- Er in Ete. rewrite Ete.
  cbn [obind].
  replace (length l + i + 1 - length l) with (length (x :: m1)) by (simpl; lia).
  assert (Es : slice (tval t) (length l) (length (x :: m1)) = Ok (x :: m1)).
  { rewrite Er, Em. change (l ++ x :: m1 ++ m2) with (l ++ (x :: m1) ++ m2). apply slice_mid. }
  rewrite Es. cbn [obind]. unfold free_value.
  rewrite O by (intros E; rewrite E in NZ; simpl in NZ; lia). cbn [obind].
  eexists; split; [reflexivity|]. cbn [ans_text e_self tval].
  split; [exists l, m2; rewrite Er, Em; repeat split; auto|]. split.
  - intros c s' E. injection E as <- <-. intros W. apply isspace_ws in W. congruence.
  - intros c s' E. intros W. apply isspace_ws in W. rewrite (Hlast _ _ E) in W. discriminate.
Qed.

Lemma trimmed_det t s s' : trimmed t s -> trimmed t s' -> s = s'.
Proof.
  (* both are the maximal block between the surrounding white space *)
  assert (Strip : forall l l' s r s' r', l ++ s ++ r = l' ++ s' ++ r' -> Forall ws l -> Forall ws l' ->
     Forall ws r -> Forall ws r' ->
     (forall c x, s = c :: x -> ~ ws c) -> (forall c x, s' = c :: x -> ~ ws c) -> s ++ r = s' ++ r' \/ (s = [] /\ s' = [])).
  { induction l as [|a l IH]; intros l' s0 r s0' r' E Hl Hl' Hr Hr' Hs Hs'.
    - destruct l' as [|b l']; [left; assumption|]. cbn [app] in E. inversion Hl' as [|? ? Hb Hl'']; subst.
      destruct s0 as [|c s0].
      + right. split; [reflexivity|]. destruct s0' as [|c' s0']; [reflexivity|]. exfalso.
        cbn [app] in E. rewrite Forall_forall in Hr. apply (Hs' c' s0' eq_refl), Hr. rewrite E. right.
        apply in_or_app. right. left. reflexivity.
      + cbn [app] in E. injection E as -> _. exfalso. apply (Hs b s0 eq_refl Hb).
    - destruct l' as [|b l'].
      + cbn [app] in E. inversion Hl as [|? ? Ha Hl'']; subst.
        destruct s0' as [|c s0'].
        * right. split; [|reflexivity]. destruct s0 as [|c' s0]; [reflexivity|]. exfalso.
          cbn [app] in E. rewrite Forall_forall in Hr'. apply (Hs c' s0 eq_refl), Hr'. rewrite <- E. right.
          apply in_or_app. right. left. reflexivity.
        * cbn [app] in E. injection E as -> _. exfalso. apply (Hs' c s0' eq_refl Ha).
      + cbn [app] in E. injection E as -> E. inversion Hl; inversion Hl'; subst. apply (IH l' s0 r s0' r' E); assumption. }
  intros [(l & r & E & Hl & Hr) [Hh Ht]] [(l' & r' & E' & Hl' & Hr') [Hh' Ht']].
  rewrite E in E'.
  destruct (Strip _ _ _ _ _ _ E' Hl Hl' Hr Hr' Hh Hh') as [X|[-> ->]]; [|reflexivity].
  (* reverse *)
  apply (f_equal (@rev N)) in X. rewrite !rev_app_distr in X.
  destruct (Strip (rev r) (rev r') (rev s) [] (rev s') []) as [Y|[Y1 Y2]].
  - rewrite !app_nil_r. assumption.
  - apply Forall_rev; assumption.
  - apply Forall_rev; assumption.
  - constructor.
  - constructor.
  - intros c x Y. apply (Ht c (rev x)). rewrite <- (rev_involutive s), Y. reflexivity.
  - intros c x Y. apply (Ht' c (rev x)). rewrite <- (rev_involutive s'), Y. reflexivity.
  - rewrite !app_nil_r in Y. rewrite <- (rev_involutive s), Y. apply rev_involutive.
  - rewrite <- (rev_involutive s), <- (rev_involutive s'), Y1, Y2. reflexivity.
Qed.

(** ** C14 *)
Lemma to_upper_ok t : owned_ok t -> tval t <> [] ->
  exists e, string_to_upper t = Ok e /\ Forall2 upper_of (tval t) (tval (e_self e)) /\ e_lost e = false.
Proof.
  intros O NE. unfold string_to_upper, free_value. rewrite (O NE). cbn [obind].
  eexists; split; [reflexivity|]. split; [|reflexivity]. cbn [e_self tval]. clear.
  induction (tval t) as [|c s IH]; simpl; constructor; auto.
  unfold upper_of, toupper. destruct ((97 <=? c)%N && (c <=? 122)%N) eqn:E; lia.
Qed.
Lemma to_lower_ok t : owned_ok t -> tval t <> [] ->
  exists e, string_to_lower t = Ok e /\ Forall2 lower_of (tval t) (tval (e_self e)) /\ e_lost e = false.
Proof.
  intros O NE. unfold string_to_lower, free_value. rewrite (O NE). cbn [obind].
  eexists; split; [reflexivity|]. split; [|reflexivity]. cbn [e_self tval]. clear.
  induction (tval t) as [|c s IH]; simpl; constructor; auto.
  unfold lower_of, tolower. destruct ((65 <=? c)%N && (c <=? 90)%N) eqn:E; lia.
Qed.

(** ** C51: histories *)
Definition tidy (t : txt) : Prop := towned t = true <-> tval t <> [].

Lemma tidy_owned t : tidy t -> owned_ok t.
Proof. intros [_ H]. exact H. Qed.

Lemma tidy_build s : tidy (build_string s).
Proof. split; destruct s; simpl; congruence. Qed.

(** what the history asks of the text before and after one message *)
Definition safe_step (t : text) (o : top) (t' : text) : Prop :=
  match o with
  | OUpper | OLower => t <> []
  | OReplace _ _ => t <> [] -> t' <> []
  | _ => True
  end.

Lemma tstep_tidy t o : tidy t ->
  (match o with OUpper | OLower => tval t <> [] | _ => True end) ->
  exists e, tstep t o = Some (Ok e) /\ e_lost e = false /\
   (safe_step (tval t) o (tval (e_self e)) -> tidy (e_self e)).
Proof.
  intros T S. pose proof (tidy_owned t T) as O. destruct o as [s| | |p r|]; cbn [tstep].
  - destruct (string_append_ok t (build_string s) O) as (e & E & V & O' & L). rewrite E.
    exists e. split; [reflexivity|].
    assert (Ht : tval t = [] -> towned t = false).
    { intros Hn. destruct (towned t) eqn:W; [|reflexivity]. exfalso. apply T in W. congruence. }
    split; [apply L, Ht|]. intros _. split; [|exact O'].
    intros W. rewrite V. unfold string_append in E. cbn [tval build_string] in *.
    destruct (Nat.eqb_spec (length (tval t) + length s) 0) as [Z|NZ].
    + injection E as <-. simpl in W. apply T in W. destruct (tval t); [congruence|discriminate].
    + intros X. apply (f_equal (@length N)) in X. rewrite app_length in X. simpl in X. lia.
  - destruct (to_upper_ok t O S) as (e & E & V & L). rewrite E. exists e.
    split; [reflexivity|]. split; [exact L|]. intros _. split; intros W.
    + intros X. rewrite X in V. inversion V as [Y|]. symmetry in Y. exact (S Y).
    + unfold string_to_upper in E. destruct (free_value t); cbn [obind] in E; [|discriminate E]. injection E as <-. reflexivity.
  - destruct (to_lower_ok t O S) as (e & E & V & L). rewrite E. exists e.
    split; [reflexivity|]. split; [exact L|]. intros _. split; intros W.
    + intros X. rewrite X in V. inversion V as [Y|]. symmetry in Y. exact (S Y).
    + unfold string_to_lower in E. destruct (free_value t); cbn [obind] in E; [|discriminate E]. injection E as <-. reflexivity.
  - destruct (list_eq_dec N.eq_dec p []) as [->|Hp].
    + rewrite string_replace_empty_pattern by reflexivity. eexists; split; [reflexivity|]. split; [reflexivity|]. intros _; exact T.
    + destruct (string_replace_ok t (build_string p) (build_string r) O Hp) as (e & E & R & O'). rewrite E.
      exists e. split; [reflexivity|].
      unfold string_replace in E. cbn [tval build_string] in E.
      destruct ((length p =? 0)%nat || (length (tval t) =? 0)%nat) eqn:G.
      { injection E as <-. split; [reflexivity|]. intros _; exact T. }
      destruct (replace_loop _ _ _ _ _ _ _) as [[[[[src out] cap] dlen]|]|] in E; try discriminate E.
      destruct (_ || _) in E; [discriminate E|]. destruct (free_value t); cbn [obind] in E; [|discriminate E]. injection E as <-.
      split; [reflexivity|]. simpl. intros X. split; [|reflexivity]. intros _. apply X.
      intros Y. rewrite Y in G. rewrite orb_true_r in G. discriminate.
  - unfold string_trim. destruct (string_trim_ok t O) as (r & E & TR). unfold string_trim in E. rewrite E.
    destruct r as [e|f].
    + exists e. destruct (Nat.eqb_spec (length (tval t)) 0) as [Z|NZ]; [discriminate|].
      destruct (_ =? _)%nat eqn:G in E; [discriminate|].
      destruct (trim_end _ _ _) as [i|] in E; [|discriminate]. cbn [obind] in E.
      unfold slice in E. destruct (_ <=? _)%nat eqn:G2 in E; [|discriminate]. cbn [obind] in E.
      destruct (free_value t); cbn [obind] in E; [|discriminate E]. injection E as <-. split; [reflexivity|]. split; [reflexivity|].
      intros _. split; [|reflexivity]. intros _. simpl.
      (* the slice is not empty: begin <= i < len *)
      cbn [ans_text e_self tval] in TR. intros X. rewrite X in TR.
      destruct TR as [(l & r & El & Hl & Hr) _]. cbn [app] in El.
      assert (W : Forall ws (tval t)) by (rewrite El; apply Forall_app; auto).
      destruct (trim_begin_split (tval t) 0) as (l0 & E0 & _ & r0 & Er0 & Hr0).
      rewrite E0 in G. apply Nat.eqb_neq in G. destruct r0 as [|c r0].
      * rewrite app_nil_r in Er0. subst. lia.
      * specialize (Hr0 c r0 eq_refl). rewrite Er0 in W. apply Forall_app in W. destruct W as [_ W]. inversion W; subst.
        assert (isspace c = true) by (apply isspace_ws; assumption). congruence.
    + exists (mkE t false). split; [reflexivity|]. split; [reflexivity|]. intros _; exact T.
Qed.

Inductive safe_hist : txt -> list top -> Prop :=
| sh_nil t : safe_hist t []
| sh_cons t o os :
    (match o with OUpper | OLower => tval t <> [] | _ => True end) ->
    (forall e, tstep t o = Some (Ok e) -> safe_step (tval t) o (tval (e_self e)) /\ safe_hist (e_self e) os) ->
    safe_hist t (o :: os).

Lemma thist_tidy os : forall t, tidy t -> safe_hist t os ->
  exists e, thist t os = Some (Ok e) /\ e_lost e = false /\ sweep_txt (e_self e) = Ok false.
Proof.
  induction os as [|o os IH]; intros t T S; cbn [thist].
  - eexists; split; [reflexivity|]. split; [reflexivity|]. simpl. unfold sweep_txt.
    destruct (tval t) eqn:E; [|unfold free_value; rewrite (tidy_owned t T) by congruence; reflexivity].
    destruct (towned t) eqn:W; [|reflexivity]. exfalso. apply T in W. congruence.
  - inversion S as [|? ? ? S1 S2]; subst. destruct (tstep_tidy t o T S1) as (e & E & L & Ti). rewrite E.
    destruct (S2 e E) as [S3 S4]. destruct (IH (e_self e) (Ti S3) S4) as (e' & -> & L' & Sw).
    eexists; split; [reflexivity|]. simpl. rewrite L, L'. split; [reflexivity|assumption].
Qed.

(** ** statements assembled for the property file *)
Lemma build_owned s : owned_ok (build_string s).
Proof. intros H. destruct s; [elim H; reflexivity|reflexivity]. Qed.

Lemma string_characters_partition cs o : Forall is_char cs ->
  exists l, string_characters (mkT (concat cs) o) = Some (Ok l) /\ map tval l = cs /\ Forall owned_ok l.
Proof.
  intros H. exists (map build_string cs). split; [apply string_characters_wf; assumption|].
  split; [apply map_tval_build|]. clear H. induction cs; simpl; constructor; [apply build_owned|assumption].
Qed.

Lemma string_eq_equiv a b c :
  string_eq a a = Ok true /\ string_eq a b = string_eq b a /\
  (string_eq a b = Ok true -> string_eq b c = Ok true -> string_eq a c = Ok true).
Proof. split; [apply string_eq_refl|]. split; [apply string_eq_sym|apply string_eq_trans]. Qed.

Lemma split_char_sep_full cs d o o' : Forall is_char cs -> is_char d ->
  exists parts, string_split (mkT (concat cs) o) (mkT d o') = Ok parts /\
    map tval parts = map (@concat N) (split_chars d cs []) /\
    Forall (fun p => ~ In d p) (split_chars d cs []).
Proof.
  intros H Hd. eexists. split; [apply split_char_sep; assumption|]. split; [apply map_tval_build|].
  apply split_chars_no_sep. auto.
Qed.

Lemma find_empty t o : string_index_of t (mkT [] o) = Ok None /\
  string_last_index_of t (mkT [] o) = Ok None /\ string_contains t (mkT [] o) = Ok false.
Proof. repeat split; reflexivity. Qed.

(** ** Filling in slots, truth value *)
Lemma fill_in_keyword prefix t name arg : owned_ok t -> name <> [] ->
  exists e, string_fill_in prefix t (build_string (name ++ [prefix])) arg = Some (Ok e) /\
    replaced name (tval arg) (tval t) (tval (e_self e)) /\ owned_ok (e_self e).
Proof.
  intros O N. unfold string_fill_in. cbn [tval build_string].
  rewrite rev_app_distr. cbn [rev app]. rewrite N.eqb_refl, app_length. cbn [length].
  replace (length name + 1 - 1) with (length name) by lia. rewrite firstn_app, firstn_all, Nat.sub_diag, firstn_O, app_nil_r.
  destruct (string_replace_ok t (build_string name) arg O N) as (e & E & R & O'). eauto.
Qed.
Lemma fill_in_plain prefix t name c arg : owned_ok t -> c <> prefix ->
  exists e, string_fill_in prefix t (build_string (name ++ [c])) arg = Some (Ok e) /\
    replaced (name ++ [c]) (tval arg) (tval t) (tval (e_self e)) /\ owned_ok (e_self e).
Proof.
  intros O N. unfold string_fill_in. cbn [tval build_string].
  rewrite rev_app_distr. cbn [rev app]. destruct (N.eqb_spec c prefix); [congruence|].
  destruct (string_replace_ok t (build_string (name ++ [c])) arg O) as (e & E & R & O'); [|eauto].
  simpl. destruct name; discriminate.
Qed.
Lemma fill_in_bare_prefix prefix t arg :
  string_fill_in prefix t (build_string [prefix]) arg = Some (Ok (mkE t false)).
Proof.
  unfold string_fill_in. cbn [tval build_string rev app length]. rewrite N.eqb_refl. reflexivity.
Qed.
Lemma to_boolean_spec t : string_to_boolean t = true <-> tval t <> [].
Proof.
  unfold string_to_boolean. destruct (tval t); simpl; split; congruence.
Qed.
