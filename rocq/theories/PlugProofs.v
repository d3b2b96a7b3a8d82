(** Proofs about the database, passwords and the percolator (PlugModel.v). *)
From Coq Require Import ZArith Lia SpecFloat QArith Qabs Lqa.
From Verif Require Import Common CodecSpec FloatSpec FloatProofs NumModel NumSpec NumProofs PhysSpec PhysModel PhysProofs RegexModel PlugSpec PlugModel.
Local Open Scope nat_scope.

Lemma teq : forall a b : text, text_eqb a b = true <-> a = b.
Proof.
  induction a as [|x a IH]; destruct b as [|y b]; simpl; split; intros H; try congruence; auto.
  - apply andb_true_iff in H as [H1 H2]. apply N.eqb_eq in H1. apply IH in H2. congruence.
  - injection H as -> ->. rewrite N.eqb_refl. simpl. now apply IH.
Qed.
Lemma teqf : forall a b : text, text_eqb a b = false <-> a <> b.
Proof. intros a b. rewrite <- teq. destruct (text_eqb a b); split; congruence. Qed.

(** ** Parameters *)
Lemma array_get_S : forall (l : list text) i, array_get l (Z.of_nat (S i)) = nth_error l i.
Proof.
  intros l i. unfold array_get.
  replace (Z.of_nat (S i) - 1)%Z with (Z.of_nat i) by lia. rewrite Nat2Z.id.
  destruct (Z.of_nat (length l) <=? Z.of_nat i)%Z eqn:E; simpl.
  - symmetry. apply nth_error_None. apply Z.leb_le in E. lia.
  - destruct (Z.of_nat i <? 0)%Z eqn:F; auto. apply Z.ltb_lt in F. lia.
Qed.
Lemma param_values_S : forall nil l k i, i + k <= length l ->
  param_values nil l k (Z.of_nat (S i)) = map dropped (firstn k (skipn i l)).
Proof.
  intros nil l. induction k as [|k IH]; intros i H; [reflexivity|].
  cbn [param_values]. rewrite array_get_S.
  destruct (nth_error l i) as [t|] eqn:E; [|apply nth_error_None in E; lia].
  assert (skipn i l = t :: skipn (S i) l) as ->.
  { clear -E. revert i E. induction l as [|x l IH]; intros [|i] E; simpl in *; try discriminate; [injection E as ->; reflexivity|]. now apply IH. }
  cbn [firstn map]. f_equal. replace (Z.of_nat (S i) + 1)%Z with (Z.of_nat (S (S i))) by lia. apply IH. lia.
Qed.
Lemma removelast_firstn' : forall {A} (l : list A), removelast l = firstn (length l - 1) l.
Proof.
  induction l as [|x [|y l] IH]; [reflexivity|reflexivity|]. change (removelast (x :: y :: l)) with (x :: removelast (y :: l)).
  rewrite IH. cbn [length]. replace (S (S (length l)) - 1) with (S (length l)) by lia. replace (S (length l) - 1) with (length l) by lia. reflexivity.
Qed.
Lemma params_lemma : forall nil l, param_values nil l (length l) 0 = match l with [] => [] | _ => dropped nil :: map dropped (removelast l) end.
Proof.
  intros nil l. destruct l as [|x l]; [reflexivity|]. remember (x :: l) as m eqn:E.
  assert (length m = S (length m - 1)) as Hl by (subst m; simpl; lia).
  rewrite Hl at 1. cbn [param_values].
  assert (array_get m 0 = None) as ->.
  { unfold array_get. change (0 - 1 <? 0)%Z with true. rewrite orb_true_r. reflexivity. }
  f_equal. change (0 + 1)%Z with (Z.of_nat 1). rewrite param_values_S by lia. rewrite removelast_firstn'. reflexivity.
Qed.

(** ** Rows *)
Lemma fold_plain : forall t, plain_name t -> fold_name false t = t.
Proof.
  induction t as [|c t IH]; intros H; [reflexivity|]. apply Forall_cons_iff in H as [[H1 H2] H3]. cbn [fold_name].
  destruct (c =? 34)%N eqn:E; [apply N.eqb_eq in E; congruence|]. rewrite IH by auto. f_equal.
  unfold lower. destruct (65 <=? c)%N eqn:A; auto. destruct (c <=? 90)%N eqn:B; auto.
  apply N.leb_le in A. apply N.leb_le in B. exfalso. apply H1. lia.
Qed.
Lemma first_column_spec : forall cols n i j, NoDup cols -> nth_error cols j = Some n -> first_column cols n i = Some (i + j).
Proof.
  induction cols as [|c cols IH]; intros n i j D H; [destruct j; discriminate|].
  apply NoDup_cons_iff in D as [D1 D2]. destruct j as [|j]; simpl in *.
  - injection H as ->. replace (text_eqb n n) with true by (symmetry; now apply teq). f_equal. lia.
  - destruct (text_eqb c n) eqn:E.
    + apply teq in E. subst. exfalso. apply D1. eapply nth_error_In. exact H.
    + rewrite (IH n (S i) j) by auto. f_equal. lia.
Qed.
Lemma get_put : forall m k v n, get (put m k v) n = if text_eqb k n then Some v else get m n.
Proof.
  intros m k v n. unfold put. cbn [get]. destruct (text_eqb k n) eqn:E; auto.
  induction m as [|[k' v'] m IH]; simpl; auto.
  destruct (text_eqb k' k) eqn:F; simpl.
  - apply teq in F. subst k'. rewrite E. exact IH.
  - now rewrite IH.
Qed.
Lemma row_map_spec : forall cols row todo m, NoDup cols -> Forall plain_name cols -> length row = length cols -> (forall f, In f todo -> In f cols) ->
  exists m', row_map cols row todo m = Ok m' /\
    (forall j c v, In c todo -> nth_error cols j = Some c -> nth_error row j = Some v -> get m' c = Some (written v)) /\
    (forall n, ~ In n todo -> get m' n = get m n).
Proof.
  intros cols row todo m D P L. revert m. induction todo as [|f todo IH]; intros m S.
  - exists m. split; [reflexivity|]. split; [intros j c v []|auto].
  - cbn [row_map].
    destruct (In_nth_error cols f (S f (or_introl eq_refl))) as [j J].
    unfold fnumber. rewrite fold_plain by (rewrite Forall_forall in P; apply P, S; now left).
    rewrite (first_column_spec cols f 0 j D J). cbn [Nat.add].
    destruct (nth_error row j) as [v|] eqn:V.
    2: { apply nth_error_None in V. assert (j < length cols) by (apply nth_error_Some; congruence). lia. }
    destruct (IH (put m f (written v)) (fun x K => S x (or_intror K))) as (m' & M1 & M2 & M3).
    exists m'. split; [exact M1|]. split.
    + intros i c w K I W. destruct (in_dec (list_eq_dec N.eq_dec) c todo) as [T|T]; [now apply (M2 i)|].
      destruct K as [->|K]; [|contradiction]. rewrite M3 by auto. rewrite get_put.
      replace (text_eqb c c) with true by (symmetry; now apply teq).
      assert (i = j) as ->. { apply (proj1 (NoDup_nth_error cols) D); [apply nth_error_Some; congruence|congruence]. }
      congruence.
    + intros n K. rewrite M3 by (intro; apply K; now right). rewrite get_put.
      replace (text_eqb f n) with false; [reflexivity|]. symmetry. apply teqf. intro; subst. apply K. now left.
Qed.
Lemma rows_maps_spec : forall cols rows, NoDup cols -> Forall plain_name cols -> Forall (fun l => length l = length cols) rows ->
  exists ms, rows_maps cols rows = Ok ms /\ Forall2 (fun m row => tells (get m) cols row written) ms rows.
Proof.
  intros cols rows D P. induction rows as [|row rows IH]; intros H; [exists []; split; [reflexivity|constructor]|].
  apply Forall_cons_iff in H as [H1 H2]. destruct (IH H2) as (ms & E & F).
  destruct (row_map_spec cols row cols [] D P H1 (fun f K => K)) as (m & M1 & M2 & M3).
  exists (m :: ms). cbn [rows_maps]. rewrite M1. cbn [obind]. rewrite E. cbn [obind]. split; [reflexivity|]. constructor; [|exact F].
  split; [|exact M3]. intros j c v J V. apply (M2 j); auto. eapply nth_error_In. exact J.
Qed.
Lemma query_lemma : forall server nil command params,
  let r := server (dropped command) (param_values nil params (length params) 0) in
  shaped r -> NoDup (columns r) -> Forall plain_name (columns r) ->
  exists ms, pg_query server nil true command params = Ok (Rows ms) /\ Forall2 (fun m row => tells (get m) (columns r) row written) ms (cells r).
Proof.
  intros server nil command params r Sh D P. destruct (rows_maps_spec _ _ D P Sh) as (ms & E & F).
  exists ms. split; [|exact F]. unfold pg_query. fold r. rewrite E. reflexivity.
Qed.
Lemma close_lemma : forall n, Nat.iter (S n) (fun p => pg_close (fst p) (snd p)) (true, 0) = (false, 1).
Proof.
  induction n as [|n IH]; [reflexivity|].
  change (Nat.iter (S (S n)) (fun p => pg_close (fst p) (snd p)) (true, 0))
    with ((fun p => pg_close (fst p) (snd p)) (Nat.iter (S n) (fun p => pg_close (fst p) (snd p)) (true, 0))).
  rewrite IH. reflexivity.
Qed.

(** ** Passwords *)
Lemma c_string_zero : forall t, In 0%N t -> c_string t = Ok (until_zero t).
Proof.
  induction t as [|c t IH]; intros H; [destruct H|]. cbn [c_string until_zero]. destruct (c =? 0)%N eqn:E; [reflexivity|].
  destruct H as [->|H]; [discriminate|]. rewrite IH by auto. reflexivity.
Qed.
Lemma c_string_none : forall t, ~ In 0%N t -> c_string t = UB.
Proof.
  induction t as [|c t IH]; intros H; [reflexivity|]. cbn [c_string]. destruct (c =? 0)%N eqn:E.
  - apply N.eqb_eq in E. subst. exfalso. apply H. now left.
  - rewrite IH; [reflexivity|]. intro. apply H. now right.
Qed.
Lemma password_lemma : forall hash check salt pw s r, hashing hash check -> password_new hash salt pw s = (r, length s) ->
  (forall q, password_verify check r (Some (AText (length s))) q = Ok (check (until_zero (hash salt pw)) q)) /\
  password_verify check r (Some (AText (length s))) pw = Ok true /\
  (forall i, i < length s -> nth_error r i = nth_error s i).
Proof.
  intros hash check salt pw s r (H1 & H2 & H3) E. unfold password_new in E. injection E as <-.
  assert (K : forall q, password_verify check (s ++ [hash salt pw]) (Some (AText (length s))) q = Ok (check (until_zero (hash salt pw)) q)).
  { intros q. unfold password_verify. rewrite nth_error_app2 by lia. rewrite Nat.sub_diag. cbn [nth_error].
    destruct (H1 salt pw) as [_ Z]. unfold c_text.
    destruct (hash salt pw) as [|c t] eqn:F; [destruct Z|]. rewrite c_string_zero by exact Z. reflexivity. }
  split; [exact K|]. split; [rewrite K; f_equal; apply H2|]. intros i Hi. now apply nth_error_app1.
Qed.
Lemma prototype_lemma hash check s q : hashing hash check -> password_verify check s None q = Ok false.
Proof. intros (_ & _ & H). unfold password_verify. now rewrite H. Qed.
Lemma from_text_lemma : forall check s r t q, nth_error s r = Some t ->
  password_verify check s (Some (from_hash (AText r))) q =
    match t with [] => Ok (check [] q) | _ => if in_dec N.eq_dec 0%N t then Ok (check (until_zero t) q) else UB end.
Proof.
  intros check s r t q H. unfold password_verify, from_hash. rewrite H. unfold c_text.
  destruct t as [|c t]; [reflexivity|]. destruct (in_dec N.eq_dec 0%N (c :: t)) as [Z|Z].
  - now rewrite c_string_zero.
  - now rewrite c_string_none.
Qed.

(** ** The percolator *)
Local Open Scope Z_scope.
Lemma at_lt : forall a ka b kb, at_pos a ka -> at_pos b kb -> SFltb a b = (ka <? kb).
Proof.
  intros a ka b kb [FA VA] [FB VB].
  destruct (ka <? kb) eqn:E.
  - apply SFltb_Q; auto. rewrite VA, VB. apply QZ_lt. now apply Z.ltb_lt.
  - destruct (SFltb a b) eqn:F; auto. apply SFltb_Q in F; auto. rewrite VA, VB in F. apply (proj1 (QZ_lt _ _)) in F. apply Z.ltb_ge in E. lia.
Qed.
Lemma number_set_same : forall s r v, (r < length s)%nat -> number_at (set_number s r v) r = Ok v.
Proof.
  intros s r v H. unfold number_at, set_number. rewrite nth_error_app2; rewrite firstn_length; [|lia].
  replace (r - Nat.min r (length s))%nat with 0%nat by lia. reflexivity.
Qed.
Lemma number_set_other : forall s r r' v, (r < length s)%nat -> r' <> r -> nth_error (set_number s r v) r' = nth_error s r'.
Proof.
  intros s r r' v H N. unfold set_number.
  destruct (Nat.ltb r' r) eqn:E.
  - apply Nat.ltb_lt in E. rewrite nth_error_app1 by (rewrite firstn_length; lia).
    rewrite <- (firstn_skipn r s) at 2. rewrite nth_error_app1 by (rewrite firstn_length; lia). reflexivity.
  - apply Nat.ltb_ge in E. rewrite nth_error_app2 by (rewrite firstn_length; lia). rewrite firstn_length.
    rewrite Nat.min_l by lia. destruct (r' - r)%nat as [|k] eqn:K; [lia|]. cbn [nth_error].
    rewrite <- (firstn_skipn (S r) s) at 2. rewrite nth_error_app2 by (rewrite firstn_length; lia).
    rewrite firstn_length, Nat.min_l by lia. f_equal. lia.
Qed.
Lemma set_length : forall s r v, (r < length s)%nat -> length (set_number s r v) = length s.
Proof. intros. unfold set_number. rewrite app_length, firstn_length. cbn [length]. rewrite skipn_length. lia. Qed.

Definition holds (s : numbers) (r : nat) (k : Z) : Prop := exists v, nth_error s r = Some v /\ at_pos v k.
Lemma holds_lt : forall s r k, holds s r k -> (r < length s)%nat.
Proof. intros s r k (v & H & _). apply nth_error_Some. congruence. Qed.

Lemma K_unit : K = unit. Proof. reflexivity. Qed.
Lemma brew_lemma : forall s p kc kw, coffee p <> water p -> holds s (coffee p) kc -> holds s (water p) kw ->
  Z.abs kc < 2 ^ 52 -> Z.abs kw < 2 ^ 52 ->
  if kc <? unit then brew s p = Ok (s, NoCoffee)
  else if kw <? 2 * unit then brew s p = Ok (s, NoWater)
  else exists s', brew s p = Ok (s', Coffee) /\ holds s' (coffee p) (kc - unit) /\ holds s' (water p) (kw - 2 * unit) /\
       (forall r, r <> coffee p -> r <> water p -> nth_error s' r = nth_error s r).
Proof.
  intros s p kc kw NE HC HW BC BW. pose proof (holds_lt _ _ _ HC) as LC. pose proof (holds_lt _ _ _ HW) as LW.
  destruct HC as (c & C1 & C2). destruct HW as (w & W1 & W2).
  assert (O1 : at_pos (of_Z 1) unit) by (apply (at_whole 1); vm_compute; discriminate).
  assert (O2 : at_pos (of_Z 2) (2 * unit)) by (apply (at_whole 2); vm_compute; discriminate).
  assert (B : brew s p = if kc <? unit then Ok (s, NoCoffee) else if kw <? 2 * unit then Ok (s, NoWater)
                         else Ok (set_number (set_number s (coffee p) (sub64 c (of_Z 1))) (water p) (sub64 w (of_Z 2)), Coffee)).
  { unfold brew. assert (number_at s (coffee p) = Ok c) as -> by (unfold number_at; now rewrite C1).
    assert (number_at s (water p) = Ok w) as -> by (unfold number_at; now rewrite W1). cbn [obind].
    rewrite (at_lt c kc _ _ C2 O1), (at_lt w kw _ _ W2 O2).
    destruct (kc <? unit); [reflexivity|]. destruct (kw <? 2 * unit); [reflexivity|].
    unfold number_at. rewrite number_set_other by auto. rewrite W1. reflexivity. }
  destruct (kc <? unit) eqn:E1; [exact B|]. destruct (kw <? 2 * unit) eqn:E2; [exact B|].
  apply Z.ltb_ge in E1. apply Z.ltb_ge in E2.
  eexists. split; [exact B|]. clear B. unfold unit in *. split; [|split].
  - exists (sub64 c (of_Z 1)). split.
    + rewrite number_set_other by (rewrite ?set_length; auto).
      pose proof (number_set_same s (coffee p) (sub64 c (of_Z 1)) LC) as Q. unfold number_at in Q.
      destruct (nth_error (set_number s (coffee p) (sub64 c (of_Z 1))) (coffee p)); congruence.
    + apply at_sub; auto. lia.
  - exists (sub64 w (of_Z 2)). split.
    + match goal with |- nth_error (set_number ?x ?y ?z) _ = _ => pose proof (number_set_same x y z) as Q end.
      rewrite set_length in Q by auto. specialize (Q LW). unfold number_at in Q.
      match type of Q with match ?x with _ => _ end = _ => destruct x; congruence end.
    + apply at_sub; auto. lia.
  - intros r R1 R2. rewrite !number_set_other by (rewrite ?set_length; auto). reflexivity.
Qed.

Definition why (kc kw : Z) : drink := if kc / unit <=? kw / (2 * unit) then NoCoffee else NoWater.
Lemma cups_step : forall kc kw, unit <= kc -> 2 * unit <= kw -> cups kc kw = S (cups (kc - unit) (kw - 2 * unit)) /\ why kc kw = why (kc - unit) (kw - 2 * unit).
Proof.
  intros kc kw H1 H2. unfold cups, why, unit in *.
  replace ((kc - 1048576) / 1048576) with (kc / 1048576 - 1) by (replace (kc - 1048576) with (kc + (-1) * 1048576) by ring; rewrite Z.div_add by lia; ring).
  replace ((kw - 2 * 1048576) / (2 * 1048576)) with (kw / (2 * 1048576) - 1)
    by (replace (kw - 2 * 1048576) with (kw + (-1) * (2 * 1048576)) by ring; rewrite Z.div_add by lia; ring).
  assert (1 <= kc / 1048576) by (apply Z.div_le_lower_bound; lia).
  assert (1 <= kw / (2 * 1048576)) by (apply Z.div_le_lower_bound; lia).
  split; [lia|].
  destruct (kc / 1048576 <=? kw / (2 * 1048576)) eqn:A; destruct (kc / 1048576 - 1 <=? kw / (2 * 1048576) - 1) eqn:B; auto;
    apply Z.leb_le in A || apply Z.leb_gt in A; apply Z.leb_le in B || apply Z.leb_gt in B; lia.
Qed.
Lemma cups_none : forall kc kw, 0 <= kc -> 0 <= kw -> kc < unit \/ kw < 2 * unit -> cups kc kw = 0%nat.
Proof.
  intros kc kw A B H. unfold cups, unit in *. destruct H.
  - rewrite (Z.div_small kc) by lia. pose proof (Z.div_pos kw (2 * 1048576)). lia.
  - rewrite (Z.div_small kw) by lia. pose proof (Z.div_pos kc 1048576). lia.
Qed.
Lemma brews_lemma : forall n s p kc kw, coffee p <> water p -> holds s (coffee p) kc -> holds s (water p) kw ->
  0 <= kc < 2 ^ 52 -> 0 <= kw < 2 ^ 52 ->
  exists s', brews n s p = Ok (s', repeat Coffee (Nat.min n (cups kc kw)) ++ repeat (if kc <? unit * (1 + Z.of_nat (cups kc kw)) then NoCoffee else NoWater) (n - cups kc kw)) /\
    holds s' (coffee p) (kc - unit * Z.of_nat (Nat.min n (cups kc kw))) /\
    holds s' (water p) (kw - 2 * unit * Z.of_nat (Nat.min n (cups kc kw))) /\
    (forall r, r <> coffee p -> r <> water p -> nth_error s' r = nth_error s r).
Proof.
  induction n as [|n IH]; intros s p kc kw NE HC HW BC BW.
  - exists s. cbn [brews]. rewrite Nat.min_0_l. cbn [repeat Nat.sub app]. rewrite !Z.mul_0_r, !Z.sub_0_r. auto.
  - pose proof (brew_lemma s p kc kw NE HC HW ltac:(lia) ltac:(lia)) as B. cbn [brews].
    destruct (kc <? unit) eqn:E1; [|destruct (kw <? 2 * unit) eqn:E2].
    + apply Z.ltb_lt in E1. rewrite B. cbn [obind fst snd].
      pose proof (cups_none kc kw ltac:(lia) ltac:(lia) (or_introl E1)) as C.
      destruct (IH s p kc kw NE HC HW BC BW) as (s' & S1 & S2 & S3 & S4). rewrite C in *. rewrite Nat.min_0_r in *.
      rewrite S1. cbn [obind fst snd]. exists s'. split; [|auto].
      rewrite Nat.sub_0_r. cbn [Z.of_nat repeat app]. rewrite Nat.sub_0_r.
      replace (kc <? unit * (1 + 0)) with true by (symmetry; apply Z.ltb_lt; lia). reflexivity.
    + apply Z.ltb_ge in E1. apply Z.ltb_lt in E2. rewrite B. cbn [obind fst snd].
      pose proof (cups_none kc kw ltac:(lia) ltac:(lia) (or_intror E2)) as C.
      destruct (IH s p kc kw NE HC HW BC BW) as (s' & S1 & S2 & S3 & S4). rewrite C in *. rewrite Nat.min_0_r in *.
      rewrite S1. cbn [obind fst snd]. exists s'. split; [|auto].
      rewrite Nat.sub_0_r. cbn [Z.of_nat repeat app]. rewrite Nat.sub_0_r.
      replace (kc <? unit * (1 + 0)) with false by (symmetry; apply Z.ltb_ge; lia). reflexivity.
    + apply Z.ltb_ge in E1. apply Z.ltb_ge in E2. destruct B as (s1 & B1 & B2 & B3 & B4). rewrite B1. cbn [obind fst snd].
      destruct (cups_step kc kw E1 E2) as [C _].
      assert (0 < unit) as UP by reflexivity.
      destruct (IH s1 p _ _ NE B2 B3 ltac:(lia) ltac:(lia)) as (s' & S1 & S2 & S3 & S4).
      rewrite S1. cbn [obind fst snd]. rewrite C. cbn [Nat.min repeat app Nat.sub]. exists s'. split; [|split; [|split]].
      * f_equal. f_equal. f_equal. f_equal. f_equal.
        destruct (kc - unit <? unit * (1 + Z.of_nat (cups (kc - unit) (kw - 2 * unit)))) eqn:X;
        destruct (kc <? unit * (1 + Z.of_nat (S (cups (kc - unit) (kw - 2 * unit))))) eqn:Y; auto;
        apply Z.ltb_lt in X || apply Z.ltb_ge in X; apply Z.ltb_lt in Y || apply Z.ltb_ge in Y; lia.
      * replace (kc - unit * Z.of_nat (S (Nat.min n (cups (kc - unit) (kw - 2 * unit))))) with
          (kc - unit - unit * Z.of_nat (Nat.min n (cups (kc - unit) (kw - 2 * unit)))) by lia. exact S2.
      * replace (kw - 2 * unit * Z.of_nat (S (Nat.min n (cups (kc - unit) (kw - 2 * unit))))) with
          (kw - 2 * unit - 2 * unit * Z.of_nat (Nat.min n (cups (kc - unit) (kw - 2 * unit)))) by lia. exact S3.
      * intros r R1 R2. rewrite S4 by auto. now apply B4.
Qed.
