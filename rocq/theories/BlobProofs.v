From Coq Require Import String SpecFloat QArith Lqa.
From Verif Require Import Common Txt FloatProofs NumModel NumSpec NumProofs ListModel ListProofs BlobSpec BlobModel.
Require Import ZifyBool ZifyNat ZifyN.
Local Open Scope Z_scope.
Local Notation length := List.length.

(** ** Lists *)
Lemma set_nth_length {A} (l : list A) i x : (i < length l)%nat -> length (set_nth l i x) = length l.
Proof. intros H. unfold set_nth. rewrite app_length, firstn_length. cbn [List.length]. rewrite skipn_length. lia. Qed.
Lemma set_nth_same {A} (l : list A) i x : (i < length l)%nat -> nth_error (set_nth l i x) i = Some x.
Proof.
  intros H. unfold set_nth. rewrite nth_error_app2 by (rewrite firstn_length; lia).
  rewrite firstn_length, Nat.min_l, Nat.sub_diag by lia. reflexivity.
Qed.
Lemma set_nth_other {A} (l : list A) i j x : i <> j -> nth_error (set_nth l i x) j = nth_error l j \/ (length l <= i)%nat.
Proof.
  intros H. destruct (Nat.le_gt_cases (length l) i) as [G|G]; [now right|left]. unfold set_nth.
  destruct (Nat.lt_ge_cases j i) as [L|L].
  - rewrite nth_error_app1 by (rewrite firstn_length; lia). rewrite <- (firstn_skipn i l) at 2.
    rewrite nth_error_app1 by (rewrite firstn_length; lia). reflexivity.
  - rewrite nth_error_app2 by (rewrite firstn_length; lia). rewrite firstn_length, Nat.min_l by lia.
    destruct (j - i)%nat as [|d] eqn:D; [lia|]. cbn [nth_error].
    rewrite <- (firstn_skipn (S i) l) at 2. rewrite nth_error_app2 by (rewrite firstn_length; lia).
    rewrite firstn_length. f_equal. lia.
Qed.
Lemma set_nth_id {A} (l : list A) i x : nth_error l i = Some x -> set_nth l i x = l.
Proof.
  intros H. unfold set_nth. destruct (nth_error_split l i H) as (a & b & -> & <-).
  rewrite firstn_app, firstn_all, Nat.sub_diag. cbn [firstn]. rewrite app_nil_r.
  change (x :: b) with ([x] ++ b). rewrite app_assoc. replace (S (length a)) with (length (a ++ [x])) by (rewrite app_length; cbn; lia).
  rewrite skipn_app, skipn_all, Nat.sub_diag. cbn [skipn app]. now rewrite <- app_assoc.
Qed.
Lemma set_nth_twice {A} (l : list A) i x y : (i < length l)%nat -> set_nth (set_nth l i x) i y = set_nth l i y.
Proof.
  intros H. unfold set_nth. rewrite firstn_app, firstn_firstn, firstn_length, Nat.min_id.
  replace (i - Nat.min i (length l))%nat with 0%nat by lia. cbn [firstn]. rewrite app_nil_r. do 2 f_equal.
  rewrite skipn_app, firstn_length. rewrite (skipn_all2 (firstn i l)) by (rewrite firstn_length; lia).
  replace (S i - Nat.min i (length l))%nat with 1%nat by lia. reflexivity.
Qed.
Lemma skipn_exact {A} (a b : list A) n : length a = n -> skipn n (a ++ b) = b.
Proof. intros <-. now rewrite skipn_app, skipn_all, Nat.sub_diag. Qed.
(** [l] with the part that starts at [o] replaced *)
Definition patch {A} (l : list A) (o : nat) (new : list A) : list A := firstn o l ++ new ++ skipn (o + length new) l.
Lemma patch_nil {A} (l : list A) o : patch l o [] = l.
Proof. unfold patch. cbn [List.length app]. rewrite Nat.add_0_r. apply firstn_skipn. Qed.
Lemma patch_length {A} (l : list A) o new : (o + length new <= length l)%nat -> length (patch l o new) = length l.
Proof. intros H. unfold patch. rewrite !app_length, firstn_length, skipn_length. lia. Qed.
Lemma skipn_plus {A} (l : list A) a b : skipn a (skipn b l) = skipn (b + a) l.
Proof. revert l; induction b; intros l; [reflexivity|]. destruct l; cbn [skipn plus]; [now rewrite skipn_nil|apply IHb]. Qed.
Lemma patch_cons {A} (l : list A) o x new : (o + S (length new) <= length l)%nat ->
  patch (set_nth l o x) (S o) new = patch l o (x :: new).
Proof.
  intros H. unfold patch, set_nth.
  assert (E : firstn o l ++ x :: skipn (S o) l = (firstn o l ++ [x]) ++ skipn (S o) l) by now rewrite <- app_assoc.
  rewrite E.
  assert (L : length (firstn o l ++ [x]) = S o) by (rewrite app_length, firstn_length; cbn [List.length]; lia).
  assert (F1 : firstn (S o) ((firstn o l ++ [x]) ++ skipn (S o) l) = firstn o l ++ [x]).
  { rewrite firstn_app, L, Nat.sub_diag, (firstn_all2 (firstn o l ++ [x])) by lia. cbn [firstn]. now rewrite app_nil_r. }
  rewrite F1. rewrite skipn_app, L, (skipn_all2 (firstn o l ++ [x])) by lia. cbn [app].
  rewrite skipn_plus. rewrite <- app_assoc. cbn [app List.length]. do 4 f_equal. lia.
Qed.
Lemma patch_part {A} (l : list A) o new : (o + length new <= length l)%nat -> firstn (length new) (skipn o (patch l o new)) = new.
Proof.
  intros H. unfold patch. rewrite skipn_app, firstn_length, Nat.min_l by lia.
  rewrite (skipn_all2 (firstn o l)) by (rewrite firstn_length; lia). rewrite Nat.sub_diag. cbn [skipn app].
  rewrite firstn_app, Nat.sub_diag, firstn_all. cbn [firstn]. now rewrite app_nil_r.
Qed.
Lemma patch_rest {A} (l : list A) o new n : (o + length new <= length l)%nat ->
  firstn n (skipn (o + length new) (patch l o new)) = firstn n (skipn (o + length new) l).
Proof.
  intros H. unfold patch. rewrite app_assoc. rewrite skipn_app, app_length, firstn_length, Nat.min_l by lia.
  rewrite (skipn_all2 (firstn o l ++ new)) by (rewrite app_length, firstn_length; lia). now rewrite Nat.sub_diag.
Qed.

(** ** Memory *)
Definition blk (m : mem) (k : nat) (l : list mval) : Prop := nth_error m k = Some (Some l).
Lemma blk_lt m k l : blk m k l -> (k < length m)%nat.
Proof. intros H. apply nth_error_Some. unfold blk in H. congruence. Qed.
Lemma load_ok m k l off v : blk m k l -> 0 <= off -> nth_error l (Z.to_nat off) = Some v -> load m (PAddr k off) = Ok v.
Proof. intros B O V. unfold load. rewrite B, V. destruct (Z.leb_spec 0 off); [reflexivity|lia]. Qed.
Lemma load_inv m p v : load m p = Ok v -> exists k off l, p = PAddr k off /\ 0 <= off /\ blk m k l /\ nth_error l (Z.to_nat off) = Some v.
Proof.
  destruct p as [|k off|]; cbn [load]; try discriminate. destruct (nth_error m k) as [[l|]|] eqn:B; try discriminate.
  destruct (Z.leb_spec 0 off); [|discriminate]. destruct (nth_error l (Z.to_nat off)) as [w|] eqn:V; [|discriminate].
  intros [= ->]. exists k, off, l. auto.
Qed.
Lemma store_ok m k l off v : blk m k l -> 0 <= off < Z.of_nat (length l) ->
  store m (PAddr k off) v = Ok (set_nth m k (Some (set_nth l (Z.to_nat off) v))).
Proof. intros B O. unfold store. rewrite B. replace ((0 <=? off) && (off <? Z.of_nat (length l))) with true by lia. reflexivity. Qed.
Lemma blk_set m k l l' : blk m k l -> blk (set_nth m k (Some l')) k l'.
Proof. intros B. unfold blk. apply set_nth_same. now apply blk_lt with l. Qed.
Lemma blk_set_other m k j o l' : k <> j -> (k < length m)%nat -> (blk (set_nth m k o) j l' <-> blk m j l').
Proof. intros N L. unfold blk. destruct (set_nth_other m k j o N) as [E|E]; [now rewrite E|lia]. Qed.

Lemma store_all_ok vs : forall m k l off, blk m k l -> 0 <= off -> off + Z.of_nat (length vs) <= Z.of_nat (length l) ->
  store_all m (PAddr k off) vs = Ok (set_nth m k (Some (patch l (Z.to_nat off) vs))).
Proof.
  induction vs as [|v r IH]; intros m k l off B O L; cbn [store_all].
  - rewrite patch_nil, set_nth_id; auto.
  - cbn [List.length] in L. rewrite (store_ok m k l off v) by (auto; lia). cbn [obind padd].
    rewrite (IH _ k (set_nth l (Z.to_nat off) v)); [|now apply blk_set with l|lia|rewrite set_nth_length; lia].
    rewrite set_nth_twice by now apply blk_lt with l. do 3 f_equal.
    replace (Z.to_nat (off + 1)) with (S (Z.to_nat off)) by lia. apply patch_cons. lia.
Qed.

Lemma fill_loop_ok el : forall n m k l off i (zs : list Z), blk m k l -> 0 <= off -> length zs = n ->
  off + Z.of_nat i + Z.of_nat n <= Z.of_nat (length l) ->
  (forall j z, nth_error zs j = Some z -> exists a, rd_cell el (i + j) = Ok a /\ c_range (-128) 127 (tonum a) = Ok z) ->
  fill_loop m (PAddr k off) el i n =
  Ok (set_nth m k (Some (patch l (Z.to_nat off + i) (map (fun z => Byte (Z.to_N (z mod 256))) zs)))).
Proof.
  induction n as [|n IH]; intros m k l off i zs B O LZ L H; cbn [fill_loop].
  - destruct zs; [|discriminate]. cbn [map]. rewrite patch_nil, set_nth_id; auto.
  - destruct zs as [|z zs]; [discriminate|]. cbn [List.length] in LZ.
    destruct (H 0%nat z eq_refl) as (a & R & C). rewrite Nat.add_0_r in R. rewrite R. cbn [obind]. rewrite C. cbn [obind padd].
    rewrite (store_ok m k l) by (auto; lia). cbn [obind].
    rewrite (IH _ k (set_nth l (Z.to_nat (off + Z.of_nat i)) (Byte (Z.to_N (z mod 256)))) off (S i) zs).
    + rewrite set_nth_twice by now apply blk_lt with l. cbn [map]. do 3 f_equal.
      replace (Z.to_nat (off + Z.of_nat i)) with (Z.to_nat off + i)%nat by lia.
      replace (Z.to_nat off + S i)%nat with (S (Z.to_nat off + i)) by lia. apply patch_cons. rewrite map_length. lia.
    + now apply blk_set with l.
    + lia.
    + lia.
    + rewrite set_nth_length; lia.
    + intros j w E. replace (S i + j)%nat with (i + S j)%nat by lia. apply H. exact E.
Qed.

Section Reading.
Variable addr : ptr -> N.
Definition shown (v : mval) : num := of_Z (char_value (byte_of addr v)).
Lemma skipn_nth {A} (l : list A) i x : nth_error l i = Some x -> skipn i l = x :: skipn (S i) l.
Proof. revert l; induction i; intros [|y l] H; try discriminate; cbn in *; [now injection H as ->|now apply IHi]. Qed.
Lemma read_loop_ok n : forall m k l off i, blk m k l -> 0 <= off + i - 1 -> off + i - 1 + Z.of_nat n <= Z.of_nat (length l) ->
  read_loop addr m (PAddr k off) i n = Ok (map shown (firstn n (skipn (Z.to_nat (off + i - 1)) l))).
Proof.
  induction n as [|n IH]; intros m k l off i B O L; cbn [read_loop]; [reflexivity|].
  destruct (nth_error l (Z.to_nat (off + i - 1))) as [v|] eqn:V; [|apply nth_error_None in V; lia].
  cbn [padd]. replace (off + (i - 1)) with (off + i - 1) by lia.
  rewrite (load_ok m k l (off + i - 1) v) by (auto; lia). cbn [obind].
  rewrite (IH m k l off (i + 1)) by (auto; lia). cbn [obind].
  rewrite (skipn_nth l _ v V). cbn [firstn map].
  replace (Z.to_nat (off + (i + 1) - 1)) with (S (Z.to_nat (off + i - 1))) by lia. reflexivity.
Qed.
Lemma read_loop_inv n : forall m p i r, read_loop addr m p i n = Ok r -> (0 < n)%nat ->
  exists k off l, p = PAddr k off /\ blk m k l /\ 0 <= off + i - 1 /\ off + i - 1 + Z.of_nat n <= Z.of_nat (length l).
Proof.
  induction n as [|n IH]; intros m p i r H N; [lia|]. cbn [read_loop] in H.
  destruct (load m (padd p (i - 1))) as [v|] eqn:V; [|discriminate]. cbn [obind] in H.
  destruct (read_loop addr m p (i + 1) n) as [r'|] eqn:R; [|discriminate].
  destruct (load_inv _ _ _ V) as (k & off & l & P & O & B & E).
  destruct p as [|k' off'|]; cbn [padd] in P; try discriminate. injection P as -> <-.
  exists k, off', l. split; [reflexivity|]. split; [exact B|]. split; [lia|].
  destruct n as [|n].
  - assert (Z.to_nat (off' + (i - 1)) < length l)%nat by (apply nth_error_Some; congruence). lia.
  - destruct (IH _ _ _ _ R ltac:(lia)) as (k2 & off2 & l2 & [= <- <-] & B2 & O2 & L2).
    unfold blk in *. rewrite B in B2. injection B2 as <-. lia.
Qed.
End Reading.

(** ** Numbers *)
Lemma c_range_whole lo hi x z : is_number x z -> lo <= z <= hi -> c_range lo hi x = Ok z.
Proof.
  intros [F V] R. unfold c_range. rewrite (trunc_whole x z F V). replace ((lo <=? z) && (z <=? hi)) with true by lia. reflexivity.
Qed.
Lemma c_int_number x z : is_number x z -> - 2147483648 <= z <= 2147483647 -> c_int x = Ok z.
Proof. intros [F V] R. now apply c_int_whole. Qed.
Lemma is_number_of_Z z : Z.abs z <= 2 ^ 53 -> is_number (of_Z z) z.
Proof. apply of_Z_ok. Qed.
Lemma char_back z : -128 <= z <= 127 -> char_value (Z.to_N (z mod 256)) = z.
Proof.
  intros H. unfold char_value. pose proof (Z.mod_pos_bound z 256 eq_refl).
  destruct (N.ltb_spec (Z.to_N (z mod 256)) 128); Z.to_euclidean_division_equations; lia.
Qed.

(** ** Reading and filling *)
Section Ops.
Variable addr : ptr -> N.
Variable room : Z.
Lemma blob_read_ok s b p k off l from len i n : blob_ptr s b = Ok p -> p = PAddr k off -> blk (s_mem s) k l ->
  is_number (tonum from) i -> is_number (tonum len) n -> 0 < n <= 2147483647 -> - 2147483648 <= i -> i + n <= 2147483647 ->
  0 <= off + i - 1 -> off + i - 1 + n <= Z.of_nat (length l) ->
  blob_read addr s b from len = Ok (map (shown addr) (firstn (Z.to_nat n) (skipn (Z.to_nat (off + i - 1)) l))).
Proof.
  intros P -> B I Hn Npos I1 I2 O L. unfold blob_read.
  rewrite (c_int_number _ i I) by lia. cbn [obind]. rewrite (c_int_number _ n Hn) by lia. cbn [obind].
  replace (in_int (i + n)) with true by (symmetry; apply in_int_iff; lia). cbn [negb].
  destruct (Z.leb_spec n 0); [lia|]. rewrite P. cbn [obind]. rewrite (read_loop_ok addr _ _ k l) by (auto; lia). reflexivity.
Qed.
Lemma blob_read_inv s b from len i n r : blob_read addr s b from len = Ok r -> is_number (tonum from) i -> is_number (tonum len) n -> 0 < n ->
  - 2147483648 <= i <= 2147483647 -> n <= 2147483647 ->
  i + n <= 2147483647 /\
  exists k off l, blob_ptr s b = Ok (PAddr k off) /\ blk (s_mem s) k l /\ 0 <= off + i - 1 /\ off + i - 1 + n <= Z.of_nat (length l) /\
    r = map (shown addr) (firstn (Z.to_nat n) (skipn (Z.to_nat (off + i - 1)) l)).
Proof.
  intros H I Hn Npos I1 I2. unfold blob_read in H.
  rewrite (c_int_number _ i I) in H by lia. cbn [obind] in H. rewrite (c_int_number _ n Hn) in H by lia. cbn [obind] in H.
  destruct (in_int (i + n)) eqn:IN; [|discriminate]. apply in_int_iff in IN. cbn [negb] in H.
  destruct (Z.leb_spec n 0); [lia|]. destruct (blob_ptr s b) as [p|] eqn:P; [|discriminate]. cbn [obind] in H.
  split; [lia|]. destruct (read_loop_inv addr _ _ _ _ _ H ltac:(lia)) as (k & off & l & -> & B & O & L).
  exists k, off, l. split; [reflexivity|]. split; [exact B|]. split; [lia|]. split; [lia|].
  rewrite (read_loop_ok addr _ _ k l) in H by (auto; lia). now injection H as <-.
Qed.

Lemma fresh_cells (a : @arr arg) ls j x : ListProofs.fresh a ls -> nth_error ls j = Some x -> rd_cell (a_el a) j = Ok x.
Proof.
  intros (rest & E & _) H. unfold rd_cell. rewrite E. cbn [app].
  rewrite nth_error_app1 by (rewrite map_length; apply nth_error_Some; congruence).
  rewrite (map_nth_error Some _ _ H). reflexivity.
Qed.
Lemma fresh_head (a : @arr arg) ls : ListProofs.fresh a ls -> a_head a = length ls.
Proof. intros (rest & _ & _ & H & _). cbn in H. lia. Qed.

Lemma Forall2_len {A B} (R : A -> B -> Prop) l l' : Forall2 R l l' -> length l = length l'.
Proof. induction 1; cbn; lia. Qed.
(** The values [zs], as numbers *)
Definition values (ls : list arg) (zs : list Z) : Prop := Forall2 (fun a z => is_number (tonum a) z) ls zs.
Definition chars (zs : list Z) : Prop := Forall (fun z => -128 <= z <= 127) zs.
Lemma blob_fill_ok s b k off l a ls zs : blob_ptr s b = Ok (PAddr k off) -> blk (s_mem s) k l -> 0 <= off ->
  ListProofs.fresh a ls -> values ls zs -> chars zs -> off + Z.of_nat (length ls) <= Z.of_nat (length l) ->
  blob_fill s b (Some a) =
  Ok (mkS (set_nth (s_mem s) k (Some (patch l (Z.to_nat off) (map (fun z => Byte (Z.to_N (z mod 256))) zs)))) (s_blobs s)).
Proof.
  intros P B O F V C L. unfold blob_fill. rewrite (fresh_head a ls F). pose proof (Forall2_len _ _ _ V) as LV.
  destruct (Nat.eqb_spec (length ls) 0) as [E|E].
  - destruct ls; [|discriminate]. destruct zs; [|discriminate]. cbn [map]. rewrite patch_nil, set_nth_id by exact B. now destruct s.
  - rewrite P. cbn [obind].
    rewrite (fill_loop_ok (a_el a) (length ls) (s_mem s) k l off 0 zs); auto; [|lia|].
    + cbn [obind]. rewrite Nat.add_0_r. reflexivity.
    + intros j z H. cbn [plus].
      assert (exists x, nth_error ls j = Some x /\ is_number (tonum x) z) as (x & X & Nz).
      { clear - V H. revert j H. induction V as [|x z' ls' zs' X V IH]; intros [|j] H; try discriminate; cbn in *.
        - injection H as <-. eauto.
        - now apply IH. }
      exists x. split; [now apply fresh_cells with ls|]. apply c_range_whole; auto.
      unfold chars in C. rewrite Forall_forall in C. apply C. now apply nth_error_In with j.
Qed.
End Ops.

Section Blobs.
Variable addr : ptr -> N.
Variable room : Z.
(** Two Blobs whose memory is not the same *)
Definition apart (s : st) (b b' : nat) : Prop :=
  forall k o k' o', blob_ptr s b = Ok (PAddr k o) -> blob_ptr s b' = Ok (PAddr k' o') -> k <> k'.

Definition same_block (m m' : mem) (p : ptr) : Prop := match p with PAddr k _ => nth_error m k = nth_error m' k | _ => True end.
Lemma load_same m m' p : same_block m m' p -> load m p = load m' p.
Proof. destruct p; cbn; auto. now intros ->. Qed.
Lemma same_padd m m' p n : same_block m m' p -> same_block m m' (padd p n).
Proof. destruct p; cbn; auto. Qed.
Lemma read_same m m' p n : same_block m m' p -> forall i, read_loop addr m p i n = read_loop addr m' p i n.
Proof.
  intros S. induction n as [|n IH]; intros i; cbn [read_loop]; [reflexivity|].
  rewrite (load_same m m') by now apply same_padd. now rewrite IH.
Qed.
Lemma str_same m m' n : forall p, same_block m m' p -> str_loop addr m p n = str_loop addr m' p n.
Proof.
  induction n as [|n IH]; intros p S; cbn [str_loop]; [reflexivity|].
  rewrite (load_same m m' p S). rewrite (IH (padd p 1)) by now apply same_padd. reflexivity.
Qed.
Lemma frame m m' bl bl' b : nth_error bl' b = nth_error bl b -> (forall p, nth_error bl b = Some (Some p) -> same_block m' m p) ->
  (forall from len, blob_read addr (mkS m' bl') b from len = blob_read addr (mkS m bl) b from len) /\
  blob_text addr (mkS m' bl') b = blob_text addr (mkS m bl) b.
Proof.
  intros E H. unfold blob_read, blob_text, blob_ptr. cbn [s_mem s_blobs]. rewrite E.
  destruct (nth_error bl b) as [[p|]|] eqn:P; [|split; reflexivity|split; reflexivity].
  specialize (H p eq_refl). cbn [obind]. split.
  - intros from len. destruct (c_int (tonum from)) as [i|]; [|reflexivity]. destruct (c_int (tonum len)) as [n|]; [|reflexivity].
    cbn [obind]. now rewrite (read_same m' m p _ H).
  - rewrite (str_same m' m _ p H). destruct p as [|k o|]; cbn [block_size same_block] in *; try reflexivity. now rewrite H.
Qed.

Lemma blob_ptr_nth s b p : blob_ptr s b = Ok p <-> nth_error (s_blobs s) b = Some (Some p).
Proof.
  unfold blob_ptr. destruct (nth_error (s_blobs s) b) as [[q|]|]; split; intros H; try discriminate; congruence.
Qed.
Lemma shown_chars zs : chars zs -> map (shown addr) (map (fun z => Byte (Z.to_N (z mod 256))) zs) = map of_Z zs.
Proof. induction 1 as [|z zs H _ IH]; cbn [map]; [reflexivity|]. rewrite IH. f_equal. unfold shown. cbn [byte_of]. now rewrite char_back. Qed.

(** What is written is read; the rest of the Blob and other memory stay as they were. *)
Lemma fill_read s b one n1 n old a ls zs : is_number (tonum one) 1 -> is_number (tonum n1) n -> 0 < n < 2147483647 ->
  blob_read addr s b one n1 = Ok old -> ListProofs.fresh a ls -> values ls zs -> chars zs -> Z.of_nat (length ls) <= n ->
  exists s', blob_fill s b (Some a) = Ok s' /\ blob_read addr s' b one n1 = Ok (map of_Z zs ++ skipn (length zs) old) /\
    (forall b', apart s b b' ->
      (forall from len, blob_read addr s' b' from len = blob_read addr s b' from len) /\ blob_text addr s' b' = blob_text addr s b').
Proof.
  intros I1 In Hn R F V C L.
  destruct (blob_read_inv addr s b one n1 1 n old R I1 In) as (_ & k & off & l & P & B & O & LE & ->); try lia.
  replace (off + 1 - 1) with off in * by lia.
  rewrite (blob_fill_ok s b k off l a ls zs) by (auto; lia). eexists. split; [reflexivity|]. pose proof (Forall2_len _ _ _ V) as LV.
  set (new := map (fun z => Byte (Z.to_N (z mod 256))) zs).
  assert (LN : length new = length ls) by (unfold new; rewrite map_length; lia).
  set (s' := mkS _ _). split.
  - rewrite (blob_read_ok addr s' b (PAddr k off) k off (patch l (Z.to_nat off) new) one n1 1 n);
      [| |reflexivity|subst s'; cbn [s_mem]; now apply blk_set with l|exact I1|exact In|lia|lia|lia|lia|rewrite patch_length; lia].
    2: { subst s'. unfold blob_ptr in *. cbn [s_blobs]. exact P. }
    replace (off + 1 - 1) with off by lia. f_equal.
    replace (Z.to_nat n) with (length new + (Z.to_nat n - length new))%nat by lia.
    set (r := (Z.to_nat n - length new)%nat).
    assert (FA : forall (q : list mval) x y, firstn (x + y) q = firstn x q ++ firstn y (skipn x q)).
    { clear. intros q x y. revert q. induction x; intros q; [reflexivity|]. destruct q; cbn; [now rewrite firstn_nil|now rewrite IHx]. }
    rewrite FA, FA, !map_app, patch_part by lia. rewrite !skipn_plus, patch_rest by lia.
    unfold new at 1. rewrite shown_chars by exact C. f_equal.
    rewrite skipn_exact by (rewrite map_length, firstn_length, skipn_length; lia). reflexivity.
  - intros b' AP. subst s'. destruct s as [m bl]. cbn [s_mem s_blobs] in *. apply frame; [reflexivity|].
    intros p Hp. destruct p as [|k' o'|]; cbn [same_block]; auto.
    assert (N : k <> k'). { apply (AP k off k' o'); [exact P|]. now apply blob_ptr_nth. }
    pose proof (set_nth_other m k k' (Some (patch l (Z.to_nat off) new)) N) as [E|E]; [exact E|].
    pose proof (blk_lt _ _ _ B). lia.
Qed.

(** A new Blob *)
Lemma alloc_ok m n m' p : alloc room m n = Some (m', p) -> 0 <= n ->
  p = PAddr (length m) 8 /\ n < 2147483640 /\ exists w z, m' = m ++ [Some (w ++ repeat (Byte 0) z)] /\ length w = 8%nat /\ n <= Z.of_nat z <= n + 1.
Proof.
  unfold alloc. intros H N. set (w := bucket (n + 8)) in *.
  assert (W : n + 8 <= w <= n + 9) by (unfold w, bucket; destruct ((n + 8 =? 32) || (n + 8 =? 64) || (n + 8 =? 128)); lia).
  destruct ((2147483647 <? w) || (room <? w)) eqn:E; [discriminate|]. injection H as <- <-.
  split; [reflexivity|]. split; [lia|]. exists (map Byte (le_Z 8 w)), (Z.to_nat (w - 8)).
  split; [reflexivity|]. split; [rewrite map_length; reflexivity|]. lia.
Qed.
Lemma blk_app m x : blk (m ++ [Some x]) (length m) x.
Proof. unfold blk. now rewrite nth_error_app2, Nat.sub_diag by lia. Qed.
Lemma new_ptr m bl p : blob_ptr (mkS m (bl ++ [Some p])) (length bl) = Ok p.
Proof. apply blob_ptr_nth. cbn [s_blobs]. rewrite nth_error_app2, Nat.sub_diag by lia. reflexivity. Qed.
Lemma frame_app m x bl y b : (b < length bl)%nat -> (forall k o, nth_error bl b = Some (Some (PAddr k o)) -> (k < length m)%nat) ->
  (forall from len, blob_read addr (mkS (m ++ [x]) (bl ++ [y])) b from len = blob_read addr (mkS m bl) b from len) /\
  blob_text addr (mkS (m ++ [x]) (bl ++ [y])) b = blob_text addr (mkS m bl) b.
Proof.
  intros L H. apply frame; [now rewrite nth_error_app1|]. intros p P. destruct p as [|k o|]; cbn [same_block]; auto.
  rewrite nth_error_app1; auto. now apply (H k o).
Qed.

Definition inside (s : st) : Prop := forall b k o, nth_error (s_blobs s) b = Some (Some (PAddr k o)) -> (k < length (s_mem s))%nat.
Lemma repeat_shown n : map (shown addr) (repeat (Byte 0) n) = repeat (of_Z 0) n.
Proof. induction n; cbn [repeat map]; [reflexivity|]. rewrite IHn. reflexivity. Qed.
Lemma firstn_repeat {A} (x : A) n k : (n <= k)%nat -> firstn n (repeat x k) = repeat x n.
Proof. revert k; induction n; intros [|k] H; cbn; try reflexivity; [lia|]. now rewrite IHn by lia. Qed.
Lemma new_read s a n s' b one n1 : is_number (tonum a) n -> 0 <= n -> blob_new room s a = Ok (Some (s', b)) ->
  is_number (tonum one) 1 -> is_number (tonum n1) n -> b = length (s_blobs s) /\
  blob_read addr s' b one n1 = Ok (repeat (of_Z 0) (Z.to_nat n)) /\ (0 < n -> blob_text addr s' b = Ok []) /\ (inside s -> inside s') /\
  (inside s -> forall b', (b' < b)%nat -> apart s' b b' /\
     (forall from len, blob_read addr s' b' from len = blob_read addr s b' from len) /\ blob_text addr s' b' = blob_text addr s b').
Proof.
  intros A N H I1 In. unfold blob_new in H. destruct (c_range 0 18446744073709551615 (tonum a)) as [n'|] eqn:CR; [|discriminate].
  assert (n' = n). { unfold c_range in CR. destruct A as [FA VA]. rewrite (trunc_whole _ n FA VA) in CR. destruct (_ && _); congruence. }
  subst n'. cbn [obind] in H. destruct (alloc room (s_mem s) n) as [[m p]|] eqn:AL; [|discriminate]. injection H as <- <-.
  destruct (alloc_ok _ _ _ _ AL N) as (-> & SM & w & z & -> & LW & ZN). destruct s as [m bl]. cbn [s_mem s_blobs] in *.
  split; [reflexivity|]. split; [|split; [|split]].
  - destruct (Z.eq_dec n 0) as [->|NZ].
    + unfold blob_read. rewrite (c_int_number _ 1 I1) by lia. cbn [obind]. rewrite (c_int_number _ 0 In) by lia. reflexivity.
    + rewrite (blob_read_ok addr _ (length bl) (PAddr (length m) 8) (length m) 8 (w ++ repeat (Byte 0) z) one n1 1 n);
        [|apply new_ptr|reflexivity|cbn [s_mem]; apply blk_app|exact I1|exact In|lia|lia|lia|lia|rewrite app_length, LW, repeat_length; lia].
      f_equal. change (Z.to_nat (8 + 1 - 1)) with 8%nat. rewrite skipn_exact by exact LW. rewrite firstn_repeat by lia. apply repeat_shown.
  - intros NZ. unfold blob_text. rewrite new_ptr. cbn [obind s_mem block_size]. rewrite (blk_app m). cbn [str_loop].
    rewrite (load_ok _ (length m) (w ++ repeat (Byte 0) z) 8 (Byte 0)); [reflexivity|apply blk_app|lia|].
    change (Z.to_nat 8) with 8%nat. rewrite nth_error_app2 by lia. rewrite LW. destruct z as [|z]; [lia|reflexivity].
  - intros IS b k o. cbn [s_blobs s_mem]. rewrite app_length. cbn [List.length]. intros H.
    destruct (Nat.lt_ge_cases b (length bl)) as [L|L].
    + rewrite nth_error_app1 in H by auto. specialize (IS b k o H). cbn [s_mem] in IS. lia.
    + rewrite nth_error_app2 in H by auto. destruct (b - length bl)%nat as [|[]]; cbn in H; try discriminate. injection H as <- <-. lia.
  - intros IS b' L. split.
    + intros k o k' o' P P'. rewrite new_ptr in P. injection P as <- <-. apply blob_ptr_nth in P'. cbn [s_blobs] in P'.
      rewrite nth_error_app1 in P' by auto. specialize (IS b' k' o' P'). cbn [s_mem] in IS. lia.
    + apply frame_app; auto. intros k o H. exact (IS b' k o H).
Qed.

(** Texts *)
Lemma str_loop_ok t : forall m k l off rest n, blk m k l -> 0 <= off -> skipn (Z.to_nat off) l = map Byte t ++ Byte 0 :: rest ->
  ~ In 0%N t -> (length t < n)%nat -> str_loop addr m (PAddr k off) n = Ok t.
Proof.
  induction t as [|c t IH]; intros m k l off rest n B O E NZ L; (destruct n as [|n]; [cbn in L; lia|]); cbn [str_loop map app] in *.
  - assert (V : nth_error l (Z.to_nat off) = Some (Byte 0)).
    { rewrite <- (firstn_skipn (Z.to_nat off) l), E. destruct (Nat.le_gt_cases (length l) (Z.to_nat off)) as [G|G].
      - rewrite skipn_all2 in E by lia. discriminate.
      - rewrite nth_error_app2, firstn_length, Nat.min_l, Nat.sub_diag by (rewrite ?firstn_length; lia). reflexivity. }
    rewrite (load_ok m k l off _ B O V). reflexivity.
  - assert (V : nth_error l (Z.to_nat off) = Some (Byte c)).
    { rewrite <- (firstn_skipn (Z.to_nat off) l), E. destruct (Nat.le_gt_cases (length l) (Z.to_nat off)) as [G|G].
      - rewrite skipn_all2 in E by lia. discriminate.
      - rewrite nth_error_app2, firstn_length, Nat.min_l, Nat.sub_diag by (rewrite ?firstn_length; lia). reflexivity. }
    rewrite (load_ok m k l off _ B O V). cbn [obind byte_of padd]. destruct (N.eqb_spec c 0) as [->|NC]; [destruct NZ; now left|].
    rewrite (IH m k l (off + 1) rest n); [reflexivity|exact B|lia| |intros X; apply NZ; now right|cbn in L; lia].
    replace (Z.to_nat (off + 1)) with (Z.to_nat off + 1)%nat by lia. rewrite <- skipn_plus, E. reflexivity.
Qed.
Lemma filter_len {A} (f : A -> bool) l : (length (filter f l) <= length l)%nat.
Proof. induction l; cbn; [lia|]. destruct (f a); cbn; lia. Qed.
Lemma utf8_text s t r : blob_utf8 room s t = r -> r = Ok None \/ exists s' b, r = Ok (Some (s', b)) /\ b = length (s_blobs s) /\
  let cs := filter (fun c => negb (c =? 0)%N) t in
  blob_text addr s' b = Ok cs /\
  (forall one n1, is_number (tonum one) 1 -> is_number (tonum n1) (Z.of_nat (length cs)) ->
     blob_read addr s' b one n1 = Ok (map (fun c => of_Z (char_value c)) cs)) /\
  (inside s -> inside s') /\
  (inside s -> forall b', (b' < b)%nat -> apart s' b b' /\
     (forall from len, blob_read addr s' b' from len = blob_read addr s b' from len) /\ blob_text addr s' b' = blob_text addr s b').
Proof.
  intros <-. unfold blob_utf8. destruct (alloc room (s_mem s) (Z.of_nat (length t) + 1)) as [[m p]|] eqn:AL; [|now left]. right.
  destruct (alloc_ok _ _ _ _ AL ltac:(lia)) as (-> & SM & w & z & -> & LW & ZN). destruct s as [m bl]. cbn [s_mem s_blobs] in *.
  set (cs := filter _ t). pose proof (filter_len (fun c => negb (c =? 0)%N) t) as FL. fold cs in FL.
  set (l := w ++ repeat (Byte 0) z). assert (LL : length l = (8 + z)%nat) by (unfold l; rewrite app_length, repeat_length; lia).
  rewrite (store_all_ok _ _ (length m) l) by (try apply blk_app; rewrite ?map_length, ?app_length; cbn [List.length]; lia).
  cbn [obind]. set (l' := patch l (Z.to_nat 8) (map Byte (cs ++ [0%N]))).
  assert (B : blk (set_nth (m ++ [Some l]) (length m) (Some l')) (length m) l') by (apply blk_set with l, blk_app).
  assert (LL' : length l' = (8 + z)%nat) by (unfold l'; rewrite patch_length; [exact LL|change (Z.to_nat 8) with 8%nat; rewrite map_length, app_length; cbn [List.length]; lia]).
  assert (M : set_nth (m ++ [Some l]) (length m) (Some l') = m ++ [Some l']).
  { unfold set_nth. rewrite firstn_app, firstn_all, Nat.sub_diag. cbn [firstn]. rewrite app_nil_r. rewrite skipn_all2 by (rewrite app_length; cbn; lia). reflexivity. }
  rewrite M in *. clear M.
  assert (SK : exists rest, skipn 8 l' = map Byte cs ++ Byte 0 :: rest).
  { unfold l', patch. change (Z.to_nat 8) with 8%nat. eexists. rewrite skipn_exact by (rewrite firstn_length; lia). rewrite map_app, <- app_assoc. reflexivity. }
  destruct SK as (rest & SK).
  eexists _, _. split; [reflexivity|]. split; [reflexivity|]. split; [|split; [|split]].
  - unfold blob_text. rewrite new_ptr. cbn [obind s_mem block_size]. unfold blk in B. rewrite B.
    apply (str_loop_ok cs _ (length m) l' 8 rest); [exact B|lia|exact SK| |lia].
    intros X. unfold cs in X. apply filter_In in X. destruct X as [_ X]. discriminate.
  - intros one n1 I1 In. destruct (Z.eq_dec (Z.of_nat (length cs)) 0) as [E|NE].
    + unfold blob_read. rewrite (c_int_number _ 1 I1) by lia. cbn [obind]. rewrite (c_int_number _ _ In) by lia. cbn [obind]. rewrite E. destruct cs; [reflexivity|cbn in E; lia].
    + rewrite (blob_read_ok addr _ (length bl) (PAddr (length m) 8) (length m) 8 l' one n1 1 (Z.of_nat (length cs)));
        [|apply new_ptr|reflexivity|exact B|exact I1|exact In|lia|lia|lia|lia|lia].
      f_equal. change (Z.to_nat (8 + 1 - 1)) with 8%nat. rewrite SK, Nat2Z.id. rewrite firstn_app, map_length, Nat.sub_diag.
      rewrite firstn_all2 by (rewrite map_length; lia). cbn [firstn]. rewrite app_nil_r, map_map. reflexivity.
  - intros IS b k o. cbn [s_blobs s_mem]. rewrite app_length. cbn [List.length]. intros H.
    destruct (Nat.lt_ge_cases b (length bl)) as [L|L].
    + rewrite nth_error_app1 in H by auto. specialize (IS b k o H). cbn [s_mem] in IS. lia.
    + rewrite nth_error_app2 in H by auto. destruct (b - length bl)%nat as [|[]]; cbn in H; try discriminate. injection H as <- <-. lia.
  - intros IS b' L. split.
    + intros k o k' o' P P'. rewrite new_ptr in P. injection P as <- <-. apply blob_ptr_nth in P'. cbn [s_blobs] in P'.
      rewrite nth_error_app1 in P' by auto. specialize (IS b' k' o' P'). cbn [s_mem] in IS. lia.
    + apply frame_app; auto. intros k o H. exact (IS b' k o H).
Qed.

(** Freeing *)
Lemma free_ok s b s' : blob_free s b = Ok s' ->
  blob_free s' b = Ok s' /\ blob_text addr s' b = UB /\
  (forall one n1 i n, is_number (tonum one) i -> is_number (tonum n1) n -> int_range i -> 0 < n <= 2147483647 -> blob_read addr s' b one n1 = UB) /\
  (forall a, (0 < a_head a)%nat -> blob_fill s' b (Some a) = UB) /\
  (forall b', apart s b b' -> b <> b' ->
      (forall from len, blob_read addr s' b' from len = blob_read addr s b' from len) /\ blob_text addr s' b' = blob_text addr s b').
Proof.
  unfold blob_free. destruct (blob_ptr s b) as [p|] eqn:P; [|discriminate]. cbn [obind].
  set (om := match p with PNull => _ | _ => _ end). destruct om as [m|] eqn:OM; [|discriminate]. cbn [obind]. intros [= <-].
  assert (LB : (b < length (s_blobs s))%nat) by (apply blob_ptr_nth in P; apply nth_error_Some; congruence).
  assert (P' : blob_ptr (mkS m (set_nth (s_blobs s) b (Some PNull))) b = Ok PNull).
  { apply blob_ptr_nth. cbn [s_blobs]. now apply set_nth_same. }
  split; [|split; [|split; [|split]]].
  - rewrite P'. cbn [obind s_mem s_blobs]. now rewrite set_nth_twice.
  - unfold blob_text. rewrite P'. reflexivity.
  - intros one n1 i n I1 In R Hn. unfold blob_read. rewrite (c_int_number _ i I1) by exact R. cbn [obind]. rewrite (c_int_number _ n In) by lia.
    cbn [obind]. destruct (in_int (i + n)); [|reflexivity]. cbn [negb]. destruct (Z.leb_spec n 0); [lia|]. rewrite P'. cbn [obind s_mem].
    destruct (Z.to_nat n) eqn:E; [lia|]. reflexivity.
  - intros a H. unfold blob_fill. destruct (Nat.eqb_spec (a_head a) 0); [lia|]. rewrite P'. cbn [obind s_mem].
    destruct (a_head a); [lia|]. cbn [fill_loop]. destruct (rd_cell (a_el a) 0) as [x|]; [|reflexivity]. cbn [obind].
    destruct (c_range (-128) 127 (tonum x)); reflexivity.
  - intros b' AP NB. destruct s as [m0 bl]. cbn [s_mem s_blobs] in *. apply frame.
    { destruct (set_nth_other bl b b' (Some PNull) NB); [auto|lia]. }
    intros q Q. destruct q as [|k' o'|]; cbn [same_block]; auto.
    destruct p as [|k o|]; subst om; cbn in OM; [now injection OM as <-| |discriminate].
    destruct (Z.eq_dec o 8) as [->|N8].
    + destruct (nth_error m0 k) as [[l|]|] eqn:B; try discriminate. injection OM as <-.
      assert (N : k <> k') by (apply (AP k 8 k' o'); [exact P|now apply blob_ptr_nth]).
      destruct (set_nth_other m0 k k' None N) as [E|E]; [exact E|]. assert (k < length m0)%nat by (apply nth_error_Some; congruence). lia.
    + destruct o as [|q|q]; try discriminate OM. do 3 (destruct q as [q|q|]; try discriminate OM). destruct q; try discriminate OM. now contradiction N8.
Qed.
End Blobs.
