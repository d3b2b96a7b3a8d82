From Verif Require Import Common TextModel TextSpec.
Require Import ZifyBool ZifyNat ZifyN.

(** ** Sizes of lead bytes *)
Lemma size_sweep :
  forallb (fun c =>
    Nat.eqb (utf8size c)
      (if (c <? 192)%N then 1 else if (c <? 224)%N then 2 else if (c <? 240)%N then 3 else 4))
    (map N.of_nat (seq 0 256)) = true.
Proof. vm_compute. reflexivity. Qed.

Lemma utf8size_ranges c : (c < 256)%N ->
  utf8size c = (if (c <? 192)%N then 1 else if (c <? 224)%N then 2 else if (c <? 240)%N then 3 else 4).
Proof.
  intros Hc. pose proof size_sweep as H. rewrite forallb_forall in H.
  specialize (H c). apply Nat.eqb_eq, H.
  apply in_map_iff. exists (N.to_nat c). split; [lia|]. apply in_seq. lia.
Qed.

Lemma utf8size_pos c : 1 <= utf8size c.
Proof.
  unfold utf8size. destruct (N.land c 240 =? 240)%N; [lia|].
  destruct (N.land c 224 =? 224)%N; [lia|]. destruct (N.land c 192 =? 192)%N; lia.
Qed.

Lemma size_cont c : cont c -> utf8size c = 1.
Proof. intros [H1 H2]. rewrite utf8size_ranges by lia. destruct (c <? 192)%N eqn:E; lia. Qed.

(** the head of a character announces its number of bytes *)
Lemma char_size c : is_char c -> exists b r, c = b :: r /\ utf8size b = length c /\
  Forall (fun x => utf8size x = 1) r.
Proof.
  intros H; inversion H; subst; eexists; eexists; (split; [reflexivity|]);
  rewrite utf8size_ranges by lia;
  (split; [repeat match goal with |- context [if ?b then _ else _] => destruct b eqn:? end; simpl; lia
         | repeat constructor; apply size_cont; assumption]).
Qed.

Lemma char_nonempty c : is_char c -> 1 <= length c.
Proof. intros H; inversion H; simpl; lia. Qed.

Lemma chars_length_le cs : Forall is_char cs -> length cs <= length (concat cs).
Proof.
  induction 1 as [|c cs Hc Hcs IH]; simpl; [lia|].
  rewrite app_length. pose proof (char_nonempty c Hc). lia.
Qed.

(** ** Length *)
Lemma extra_app s1 s2 m j : utf8_extra s1 (length s1) = Ok j ->
  utf8_extra (s1 ++ s2) (length s1 + m) = (do k <- utf8_extra s2 m; Ok (j + k)%Z).
Proof.
  revert j. induction s1 as [|c s1 IH]; simpl; intros j H.
  - injection H as <-. destruct (utf8_extra s2 m); reflexivity.
  - destruct (utf8_extra s1 (length s1)) as [k|] eqn:E; [|discriminate].
    simpl in H. injection H as <-. rewrite (IH k eq_refl).
    destruct (utf8_extra s2 m); simpl; [f_equal; lia|reflexivity].
Qed.

Lemma extra_ones r : Forall (fun x => utf8size x = 1) r -> utf8_extra r (length r) = Ok 0%Z.
Proof.
  induction 1 as [|x r Hx Hr IH]; simpl; [reflexivity|].
  rewrite IH, Hx. reflexivity.
Qed.

Lemma extra_char c : is_char c -> utf8_extra c (length c) = Ok (Z.of_nat (length c) - 1)%Z.
Proof.
  intros Hc. destruct (char_size c Hc) as (b & r & -> & Hs & Hr). simpl utf8_extra.
  rewrite (extra_ones r Hr). cbn [obind]. rewrite Hs. f_equal. lia.
Qed.

Lemma extra_chars cs : Forall is_char cs ->
  utf8_extra (concat cs) (length (concat cs)) =
  Ok (Z.of_nat (length (concat cs)) - Z.of_nat (length cs))%Z.
Proof.
  induction 1 as [|c cs Hc Hcs IH]; [reflexivity|].
  cbn [concat]. rewrite app_length.
  rewrite (extra_app _ _ _ _ (extra_char c Hc)), IH. cbn [obind length]. f_equal.  lia.
Qed.

Lemma getutf8len_prefix cs t : Forall is_char cs -> (Z.of_nat (length (concat cs)) < W64)%Z ->
  getutf8len (concat cs ++ t) (length (concat cs)) = Ok (Z.of_nat (length cs)).
Proof.
  intros H HW. unfold getutf8len.
  rewrite <- (Nat.add_0_r (length (concat cs))) at 1.
  rewrite (extra_app _ _ _ _ (extra_chars cs H)). cbn [utf8_extra obind].
  pose proof (chars_length_le cs H).
  f_equal. unfold wrap64, W64 in *. rewrite Z.add_0_r.
  rewrite (Z.mod_small (Z.of_nat (length (concat cs)) - Z.of_nat (length cs))) by lia.
  rewrite Z.mod_small; lia.
Qed.

Lemma getutf8len_chars cs : Forall is_char cs -> (Z.of_nat (length (concat cs)) < W64)%Z ->
  getutf8len (concat cs) (length (concat cs)) = Ok (Z.of_nat (length cs)).
Proof.
  intros H HW. rewrite <- (getutf8len_prefix cs [] H HW), app_nil_r. reflexivity.
Qed.

(** ** Bytes of a number of characters *)
Lemma nth_error_skip {A} (l : list A) n x : nth_error (skipn n l) 0 = Some x -> nth_error l n = Some x.
Proof. revert l; induction n; intros [|y l]; simpl; try discriminate; auto. Qed.

Lemma bytes_utf8_chars : forall cs pre post bytes start,
  Forall is_char cs -> start + bytes = length pre ->
  bytes_utf8 (pre ++ concat cs ++ post) start (length cs) bytes = Ok (bytes + length (concat cs)).
Proof.
  induction cs as [|c cs IH]; intros pre post bytes start H Hl; cbn [length bytes_utf8 concat app].
  - f_equal. simpl. lia.
  - inversion H as [|? ? Hc Hcs]; subst.
    destruct (char_size c Hc) as (b & r & -> & Hs & Hr).
    unfold rd. rewrite nth_error_app2 by lia. rewrite Hl, Nat.sub_diag. cbn [nth_error app obind].
    rewrite Hs.
    replace (pre ++ b :: (r ++ concat cs) ++ post) with ((pre ++ (b :: r)) ++ concat cs ++ post)
      by (rewrite <- !app_assoc; reflexivity).
    rewrite IH; [f_equal; simpl; rewrite app_length; lia | assumption | rewrite app_length; lia].
Qed.

Lemma bytes_utf8_over cs : forall pre bytes start k,
  Forall is_char cs -> start + bytes = length pre -> length cs < k ->
  bytes_utf8 (pre ++ concat cs) start k bytes = UB.
Proof.
  induction cs as [|c cs IH]; intros pre bytes start k H Hl Hk; destruct k as [|k]; try (simpl in Hk; lia).
  - cbn [bytes_utf8]. unfold rd. rewrite (proj2 (nth_error_None _ _)); [reflexivity|].
    simpl. rewrite app_nil_r. lia.
  - cbn [bytes_utf8 concat]. inversion H as [|? ? Hc Hcs]; subst.
    destruct (char_size c Hc) as (b & r & -> & Hs & Hr).
    unfold rd. rewrite nth_error_app2 by lia. rewrite Hl, Nat.sub_diag. cbn [nth_error app obind].
    rewrite Hs.
    replace (pre ++ b :: r ++ concat cs) with ((pre ++ (b :: r)) ++ concat cs)
      by (rewrite <- !app_assoc; reflexivity).
    apply IH; [assumption | rewrite app_length; lia | simpl in Hk; lia].
Qed.

Lemma concat_split {A} (cs : list (list A)) k :
  concat cs = concat (firstn k cs) ++ concat (skipn k cs).
Proof. rewrite <- concat_app, firstn_skipn. reflexivity. Qed.

Lemma Forall_firstn {A} (P : A -> Prop) l k : Forall P l -> Forall P (firstn k l).
Proof. intros H. rewrite Forall_forall in *. intros x Hx. apply H. rewrite <- (firstn_skipn k l).
  apply in_or_app; auto. Qed.
Lemma Forall_skipn {A} (P : A -> Prop) l k : Forall P l -> Forall P (skipn k l).
Proof. intros H. rewrite Forall_forall in *. intros x Hx. apply H. rewrite <- (firstn_skipn k l).
  apply in_or_app; auto. Qed.

Lemma bytes_at cs a : Forall is_char cs -> a <= length cs ->
  getBytesUtf8 (concat cs) 0 a = Ok (length (concat (firstn a cs))).
Proof.
  intros H Ha. unfold getBytesUtf8. rewrite (concat_split cs a).
  pose proof (bytes_utf8_chars (firstn a cs) [] (concat (skipn a cs)) 0 0
    (Forall_firstn _ _ _ H) eq_refl) as E.
  rewrite (firstn_length_le cs Ha) in E. exact E.
Qed.

Lemma bytes_from cs a b : Forall is_char cs -> a + b <= length cs ->
  getBytesUtf8 (concat cs) (length (concat (firstn a cs))) b =
  Ok (length (concat (firstn b (skipn a cs)))).
Proof.
  intros H Ha. unfold getBytesUtf8. rewrite (concat_split cs a).
  rewrite (concat_split (skipn a cs) b).
  assert (Hl : length (firstn b (skipn a cs)) = b) by (rewrite firstn_length, skipn_length; lia).
  pose proof (bytes_utf8_chars (firstn b (skipn a cs)) (concat (firstn a cs))
    (concat (skipn b (skipn a cs))) 0 (length (concat (firstn a cs)))
    (Forall_firstn _ _ _ (Forall_skipn _ _ _ H))) as E.
  rewrite Hl in E. apply E. lia.
Qed.

Lemma bytes_at_over cs a : Forall is_char cs -> length cs < a -> getBytesUtf8 (concat cs) 0 a = UB.
Proof.
  intros H Ha. apply (bytes_utf8_over cs [] 0 0); [assumption|reflexivity|assumption].
Qed.

Lemma bytes_from_over cs a b : Forall is_char cs -> a <= length cs -> length cs < a + b ->
  getBytesUtf8 (concat cs) (length (concat (firstn a cs))) b = UB.
Proof.
  intros H Ha Hb. unfold getBytesUtf8. rewrite (concat_split cs a).
  apply bytes_utf8_over; [apply Forall_skipn; assumption | lia | rewrite skipn_length; lia].
Qed.

Lemma slice_chars cs a b : Forall is_char cs ->
  slice (concat cs) (length (concat (firstn a cs))) (length (concat (firstn b (skipn a cs)))) =
  Ok (concat (firstn b (skipn a cs))).
Proof.
  intros H. unfold slice.
  rewrite (concat_split cs a), (concat_split (skipn a cs) b).
  rewrite !app_length.
  destruct (Nat.leb_spec (length (concat (firstn a cs)) + length (concat (firstn b (skipn a cs))))
    (length (concat (firstn a cs)) + (length (concat (firstn b (skipn a cs))) +
       length (concat (skipn b (skipn a cs)))))); [|lia].
  f_equal. rewrite skipn_app, skipn_all, Nat.sub_diag. cbn [app skipn].
  rewrite firstn_app, firstn_all, Nat.sub_diag. simpl. apply app_nil_r.
Qed.
