From Verif Require Import Common ListSpec TextModel ListModel TextSpec TextProofs.
Require Import ZifyBool ZifyNat ZifyN.

Section P.
Context {A : Type} (nil : A).
Notation arr := (arr A).

(** representation: stale cells, the sequence, at least one spare cell *)
Definition rep (a : arr) (st l : list A) : Prop :=
  exists rest, a_el a = map Some (st ++ l) ++ rest /\ a_tail a = length st /\
    a_head a = length st + length l /\ a_len a = length (a_el a) /\ rest <> [].
Definition holds (a : arr) (l : list A) : Prop := exists st, rep a st l.
(** a list from which nothing has been shifted *)
Definition fresh (a : arr) (l : list A) : Prop := rep a [] l.

Lemma fresh_holds a l : fresh a l -> holds a l.
Proof. intros H; exists []; exact H. Qed.

Lemma rd_mid (p : list (option A)) x q : rd_cell (p ++ Some x :: q) (length p) = Ok x.
Proof. unfold rd_cell. rewrite nth_error_app2, Nat.sub_diag by lia. reflexivity. Qed.

Lemma wr_mid (p : list (option A)) c q x : wr_cell (p ++ c :: q) (length p) x = Ok (p ++ Some x :: q).
Proof.
  unfold wr_cell. rewrite app_length. simpl length.
  destruct (Nat.ltb_spec (length p) (length p + S (length q))); [|lia].
  rewrite firstn_app, firstn_all, Nat.sub_diag. simpl firstn. rewrite app_nil_r.
  f_equal. f_equal. f_equal. replace (S (length p)) with (length (p ++ [c])) by (rewrite app_length; simpl; lia).
  rewrite <- (app_nil_r (p ++ [c])) at 1. change (p ++ c :: q) with (p ++ [c] ++ q). rewrite app_assoc.
  rewrite app_nil_r, skipn_app, skipn_all, Nat.sub_diag. reflexivity.
Qed.

Lemma rd_rep a st l i x : rep a st l -> nth_error l i = Some x -> rd_cell (a_el a) (a_tail a + i) = Ok x.
Proof.
  intros (rest & E & T & _) N. rewrite E, T. unfold rd_cell.
  assert (i < length l) by (apply nth_error_Some; congruence).
  rewrite nth_error_app1 by (rewrite map_length, app_length; lia).
  rewrite nth_error_map, nth_error_app2 by lia.
  replace (length st + i - length st) with i by lia. rewrite N. reflexivity.
Qed.

Lemma array_new_fresh : fresh array_new [].
Proof. exists [None]. repeat split; try reflexivity. discriminate. Qed.

Lemma grow_rep (a : arr) st l : rep a st l ->
  let '(len, el) := if (a_len a <=? a_head a + 1)%nat
                    then (a_len a * 3, grow (a_len a * 3) (a_el a)) else (a_len a, a_el a) in
  exists r0 r1 rest, el = map Some (st ++ l) ++ r0 :: r1 :: rest /\ len = length el.
Proof.
  intros (rest & E & T & H & L & NE).
  assert (Hel : length (a_el a) = length st + length l + length rest)
    by (rewrite E, app_length, map_length, app_length; lia).
  destruct rest as [|r0 rest]; [congruence|]. simpl in Hel.
  destruct (Nat.leb_spec (a_len a) (a_head a + 1)).
  - assert (G : length (grow (a_len a * 3) (a_el a)) = a_len a * 3).
    { unfold grow. rewrite app_length, repeat_length. lia. }
    destruct rest as [|r1 rest].
    + unfold grow. destruct (a_len a * 3 - length (a_el a)) as [|k] eqn:K; [lia|].
      exists r0, None, (repeat None k). rewrite E at 1. rewrite <- app_assoc. split; [reflexivity|].
      unfold grow in G. rewrite K in G. symmetry; exact G.
    + exists r0, r1, (rest ++ repeat None (a_len a * 3 - length (a_el a))). split; [|symmetry; exact G].
      unfold grow. rewrite E at 1. rewrite <- app_assoc. reflexivity.
  - destruct rest as [|r1 rest]; [simpl in Hel; lia|]. exists r0, r1, rest. split; [assumption|assumption].
Qed.

Lemma push_rep a st l x : rep a st l -> exists a', array_push a x = Ok a' /\ rep a' st (l ++ [x]).
Proof.
  intros R. pose proof (grow_rep a st l R) as G. unfold array_push.
  destruct R as (rest & E & T & H & L & NE).
  destruct (if (a_len a <=? a_head a + 1)%nat then _ else _) as [len el].
  destruct G as (r0 & r1 & rest' & -> & Hl).
  assert (Eh : a_head a = length (map Some (st ++ l))) by (rewrite map_length, app_length; assumption).
  rewrite Eh, wr_mid. cbn [obind]. eexists; split; [reflexivity|].
  exists (r1 :: rest'). cbn [a_el a_tail a_head a_len].
  split; [rewrite !map_app, <- !app_assoc; reflexivity|]. split; [assumption|].
  split; [rewrite map_length, !app_length; simpl; lia|]. split; [|discriminate].
  rewrite Hl, !app_length. reflexivity.
Qed.

Lemma unshift_rep a st l x : rep a st l -> exists a' st', array_unshift a x = Ok a' /\ rep a' st' (x :: l) /\
  (st = [] -> st' = []).
Proof.
  intros R. pose proof (grow_rep a st l R) as G. unfold array_unshift.
  destruct R as (rest & E & T & H & L & NE).
  destruct (a_tail a) as [|t] eqn:Et.
  - destruct st; [|discriminate]. cbn [app length] in *.
    destruct (if (a_len a <=? a_head a + 1)%nat then _ else _) as [len el].
    destruct G as (r0 & r1 & rest' & -> & Hl).
    unfold move_up. rewrite app_length, map_length. simpl length. rewrite H.
    destruct (Nat.leb_spec (0 + length l + 1 + 1) (length l + S (S (length rest')))); [|lia]. cbn [obind].
    replace (0 + length l + 1) with (length (map Some l ++ [r0])) by (rewrite app_length, map_length; simpl; lia).
    replace (map Some l ++ r0 :: r1 :: rest') with ((map Some l ++ [r0]) ++ r1 :: rest') by (rewrite <- app_assoc; reflexivity).
    assert (F : firstn (length (map Some l ++ [r0])) ((map Some l ++ [r0]) ++ r1 :: rest') = map Some l ++ [r0])
      by (rewrite firstn_app, firstn_all, Nat.sub_diag; simpl; apply app_nil_r).
    rewrite F.
    assert (S1 : skipn (S (length (map Some l ++ [r0]))) ((map Some l ++ [r0]) ++ r1 :: rest') = rest').
    { replace (S (length (map Some l ++ [r0]))) with (length ((map Some l ++ [r0]) ++ [r1])) by (rewrite app_length; simpl; lia).
      change (r1 :: rest') with ([r1] ++ rest'). rewrite app_assoc, skipn_app, skipn_all, Nat.sub_diag. reflexivity. }
    rewrite S1.
    assert (exists c, firstn 1 ((map Some l ++ [r0]) ++ r1 :: rest') = [c]) as [c ->].
    { destruct l; simpl; eexists; reflexivity. }
    pose proof (wr_mid [] c ((map Some l ++ [r0]) ++ rest') x) as W. cbn [app length] in W.
    cbn [app]. rewrite W. cbn [obind]. eexists; exists []; split; [reflexivity|]. split; [|reflexivity].
    exists (r0 :: rest'). cbn [a_el a_tail a_head a_len app length].
    split; [simpl; rewrite <- app_assoc; reflexivity|]. split; [reflexivity|].
    split; [rewrite app_length, map_length; simpl; lia|]. split; [|discriminate].
    rewrite Hl. simpl. rewrite ?app_length, ?map_length. simpl. rewrite ?app_length, ?map_length. simpl. lia.
  - destruct (exists_last (l := st)) as (st' & y & ->); [intros ->; discriminate|].
    rewrite app_length in T. simpl in T. assert (t = length st') by lia. subst t.
    rewrite E. rewrite <- app_assoc. cbn [app]. rewrite map_app. cbn [map]. rewrite <- app_assoc. cbn [app].
    replace (length st') with (length (map (@Some A) st')) by apply map_length.
    rewrite wr_mid. cbn [obind]. eexists; exists st'; split; [reflexivity|].
    split; [|intros X; destruct st'; discriminate].
    exists rest. cbn [a_el a_tail a_head a_len].
    split; [rewrite map_app; cbn [map]; rewrite <- app_assoc; reflexivity|].
    split; [apply map_length|]. split; [rewrite H, app_length; simpl; lia|]. split; [|assumption].
    rewrite L, E, !app_length, !map_length, !app_length. simpl. rewrite app_length, map_length. simpl. lia.
Qed.

Lemma pop_rep a st l : rep a st l -> exists a', array_pop nil a = Ok (seq_last nil l, a') /\ rep a' st (removelast l).
Proof.
  intros R. pose proof R as (rest & E & T & H & L & NE). unfold array_pop.
  destruct (Nat.leb_spec (a_head a) (a_tail a)).
  - assert (length l = 0) by lia. destruct l; [|simpl in *; lia]. exists a. split; [reflexivity|]. assumption.
  - destruct (exists_last (l := l)) as (l' & y & ->); [intros ->; simpl in *; lia|].
    rewrite app_length in H. simpl in H.
    assert (Ex : rd_cell (a_el a) (a_head a - 1) = Ok y).
    { replace (a_head a - 1) with (a_tail a + length l') by lia. apply (rd_rep a st (l' ++ [y])); [assumption|].
      rewrite nth_error_app2, Nat.sub_diag by lia. reflexivity. }
    rewrite Ex. cbn [obind]. eexists; split.
    + unfold seq_last, seq_at. rewrite app_length. simpl length.
      destruct (Z.ltb_spec (Z.of_nat (length l' + 1)) 1); [lia|].
      replace (Z.to_nat (Z.of_nat (length l' + 1) - 1)) with (length l') by lia.
      rewrite nth_error_app2, Nat.sub_diag by lia. reflexivity.
    + rewrite removelast_last. exists (Some y :: rest). cbn [a_el a_tail a_head a_len].
      split; [rewrite E, !map_app, <- !app_assoc; reflexivity|].
      split; [assumption|]. split; [lia|]. split; [assumption|discriminate].
Qed.

Lemma shift_rep a st l : rep a st l -> exists a' st', array_shift nil a = Ok (seq_at nil l 1, a') /\ rep a' st' (tl l).
Proof.
  intros R. pose proof R as (rest & E & T & H & L & NE). unfold array_shift.
  destruct (Nat.leb_spec (a_head a) (a_tail a)).
  - assert (length l = 0) by lia. destruct l; [|simpl in *; lia]. exists a, st. split; [reflexivity|]. assumption.
  - destruct l as [|y l]; [simpl in *; lia|].
    pose proof (rd_rep a st (y :: l) 0 y R eq_refl) as Ex. rewrite Nat.add_0_r in Ex. rewrite Ex. cbn [obind].
    eexists; exists (st ++ [y]); split; [reflexivity|]. exists rest. cbn [a_el a_tail a_head a_len tl].
    split; [rewrite E, <- app_assoc; reflexivity|]. split; [rewrite app_length; simpl; lia|].
    split; [rewrite app_length; simpl in *; lia|]. split; assumption.
Qed.

Definition small (a : arr) : Prop := (Z.of_nat (a_head a) <= LONG_MAX)%Z.

Lemma get_rep a st l n : rep a st l -> in_int n = true -> in_int (n - 1) = true ->
  small a -> array_get nil a n = Ok (seq_at nil l n).
Proof.
  intros R I1 I2 HW. unfold array_get, seq_at. rewrite I1, I2. cbn [negb andb].
  pose proof R as (rest & E & T & H & L & NE). unfold small, LONG_MAX in HW.
  destruct (Z.ltb_spec n 1).
  - destruct (Z.ltb_spec (n - 1) 0); [|lia]. rewrite orb_true_r. reflexivity.
  - destruct (Z.ltb_spec (n - 1) 0); [lia|]. rewrite orb_false_r.
    unfold in_int, INT_MAX in *.
    assert (W1 : wrap64 (n - 1) = (n - 1)%Z) by (unfold wrap64, W64; apply Z.mod_small; lia).
    rewrite W1.
    assert (W2 : wrap64 (n - 1 + Z.of_nat (a_tail a)) = (n - 1 + Z.of_nat (a_tail a))%Z)
      by (unfold wrap64, W64; apply Z.mod_small; lia).
    rewrite W2. destruct (Z.leb_spec (Z.of_nat (a_head a)) (n - 1 + Z.of_nat (a_tail a))).
    + assert (nth_error l (Z.to_nat (n - 1)) = None) as -> by (apply nth_error_None; lia). reflexivity.
    + destruct (nth_error l (Z.to_nat (n - 1))) as [x|] eqn:N.
      * apply (rd_rep a st l); assumption.
      * apply nth_error_None in N. lia.
Qed.

Lemma alen_rep a st l : rep a st l -> small a -> alen a = Z.of_nat (length l).
Proof.
  intros (rest & E & T & H & L & NE) HW. unfold alen, wrap64, small, LONG_MAX, W64 in *.
  rewrite Z.mod_small; lia.
Qed.

Lemma seq_at_nth (l : list A) i x : nth_error l i = Some x -> seq_at nil l (Z.of_nat i + 1) = x.
Proof.
  intros N. unfold seq_at. destruct (Z.ltb_spec (Z.of_nat i + 1) 1); [lia|].
  replace (Z.to_nat (Z.of_nat i + 1 - 1)) with i by lia. rewrite N. reflexivity.
Qed.
Lemma seq_at_out (l : list A) n : (n < 1)%Z \/ (Z.of_nat (length l) < n)%Z -> seq_at nil l n = nil.
Proof.
  intros N. unfold seq_at. destruct (Z.ltb_spec n 1); [reflexivity|].
  assert (nth_error l (Z.to_nat (n - 1)) = None) as -> by (apply nth_error_None; lia). reflexivity.
Qed.

Lemma end_rep a st l k : rep a st l -> k < length l ->
  rd_cell (a_el a) (a_tail a + k) = Ok (seq_at nil l (Z.of_nat k + 1)).
Proof.
  intros R K. destruct (nth_error l k) as [x|] eqn:N; [|apply nth_error_None in N; lia].
  rewrite (rd_rep a st l k x R N). f_equal. symmetry. apply seq_at_nth; assumption.
Qed.

Lemma first_rep a st l : rep a st l -> small a -> array_first nil a = Ok (seq_at nil l 1).
Proof.
  intros R S. unfold array_first. rewrite (alen_rep a st l R S).
  destruct (Z.ltb_spec (Z.of_nat (length l)) 1).
  - rewrite seq_at_out by lia. reflexivity.
  - rewrite <- (Nat.add_0_r (a_tail a)). apply (end_rep a st l 0 R). lia.
Qed.
Lemma last_rep a st l : rep a st l -> small a -> array_last nil a = Ok (seq_last nil l).
Proof.
  intros R S. unfold array_last, seq_last. rewrite (alen_rep a st l R S).
  destruct (Z.ltb_spec (Z.of_nat (length l)) 1).
  - rewrite seq_at_out by lia. reflexivity.
  - rewrite (end_rep a st l _ R) by lia. do 2 f_equal. lia.
Qed.
Lemma second_last_rep a st l : rep a st l -> small a -> array_second_last nil a = Ok (seq_second_last nil l).
Proof.
  intros R S. unfold array_second_last, seq_second_last. rewrite (alen_rep a st l R S).
  destruct (Z.ltb_spec (Z.of_nat (length l)) 2).
  - rewrite seq_at_out by lia. reflexivity.
  - rewrite (end_rep a st l _ R) by lia. do 2 f_equal. lia.
Qed.

Lemma count_rep a st l : rep a st l -> array_count a = Z.of_nat (length l).
Proof. intros (rest & E & T & H & L & NE). unfold array_count. lia. Qed.

Lemma push_n_rep n : forall a st l x, rep a st l -> exists a', push_n a x n = Ok a' /\ rep a' st (l ++ repeat x n).
Proof.
  induction n as [|n IH]; intros a st l x R; cbn [push_n repeat].
  - exists a. rewrite app_nil_r. split; [reflexivity|assumption].
  - destruct (push_rep a st l x R) as (a1 & -> & R1). cbn [obind].
    destruct (IH a1 st (l ++ [x]) x R1) as (a2 & -> & R2). exists a2. split; [reflexivity|].
    rewrite <- app_assoc in R2. exact R2.
Qed.

Lemma fill_rep a st l n x : rep a st l -> (n < W64)%Z ->
  exists a', array_fill a n x = Ok a' /\ rep a' st (l ++ repeat x (Z.to_nat n)).
Proof.
  intros R N. unfold array_fill. destruct (Z.ltb_spec n 1).
  - exists a. replace (Z.to_nat n) with 0 by lia. simpl. rewrite app_nil_r. split; [reflexivity|assumption].
  - destruct (Z.leb_spec W64 n); [lia|]. apply push_n_rep. assumption.
Qed.

(** ** C25 *)
Definition op_ok (o : lop (A := A)) : Prop :=
  match o with LAt n => in_int n = true /\ in_int (n - 1) = true | LFill n _ => (n < W64)%Z | _ => True end.
Definition op_growth (o : lop (A := A)) : Z :=
  match o with LPush _ | LUnshift _ => 1 | LFill n _ => Z.max 0 n | _ => 0 end%Z.
Definition growth (os : list (lop (A := A))) : Z := fold_right (fun o z => (op_growth o + z)%Z) 0%Z os.

Lemma growth_nonneg os : (0 <= growth os)%Z.
Proof. induction os as [|o os IH]; cbn [growth fold_right]; [lia|]. fold (growth os). destruct o; cbn [op_growth]; lia. Qed.

Lemma rep_head a st l : rep a st l -> a_head a = length st + length l.
Proof. intros (rest & E & T & H & L & NE). assumption. Qed.

Lemma rep_tail a st l : rep a st l -> a_tail a = length st.
Proof. intros (rest & E & T & H & L & NE). assumption. Qed.

Lemma step_rep a st l o : rep a st l -> op_ok o -> small a ->
  exists a' st' r, list_step nil a o = Ok (a', r) /\ seq_step nil l o = (fst (seq_step nil l o), r) /\ rep a' st' (fst (seq_step nil l o)) /\ (Z.of_nat (a_head a') <= Z.of_nat (a_head a) + op_growth o)%Z.
Proof.
  intros R O S. pose proof (rep_head _ _ _ R) as HH. pose proof (rep_tail _ _ _ R) as HT.
  destruct o as [x|x| | |n| | | | |n x]; cbn [list_step seq_step fst op_growth].
  - destruct (push_rep a st l x R) as (a' & E & R'). rewrite E. cbn [obind]. exists a', st, Same.
    split; [reflexivity|]. split; [reflexivity|]. split; [assumption|].
    rewrite (rep_head _ _ _ R'), HH, app_length. simpl. lia.
  - destruct (unshift_rep a st l x R) as (a' & st' & E & R' & _). rewrite E. cbn [obind]. exists a', st', Same.
    split; [reflexivity|]. split; [reflexivity|]. split; [assumption|].
    unfold array_unshift in E. destruct (a_tail a) eqn:Et.
    + assert (st = []) by (destruct st; [reflexivity|simpl in HT; lia]). subst.
      destruct (if (a_len a <=? a_head a + 1)%nat then _ else _) as [len el] in E.
      destruct (move_up el (a_head a + 1)) in E; cbn [obind] in E; [|discriminate E].
      destruct (wr_cell _ 0 x) in E; cbn [obind] in E; [|discriminate E]. injection E as <-. cbn [a_head]. lia.
    + destruct (wr_cell _ n x) in E; cbn [obind] in E; [|discriminate E]. injection E as <-. cbn [a_head]. lia.
  - destruct (pop_rep a st l R) as (a' & E & R'). rewrite E. cbn [obind]. exists a', st, (Elem (seq_last nil l)).
    split; [reflexivity|]. split; [reflexivity|]. split; [assumption|].
    rewrite (rep_head _ _ _ R'), HH. assert (length (removelast l) <= length l); [|lia].
    destruct l as [|y l]; [simpl; lia|]. destruct (exists_last (l := y :: l)) as (l' & z & ->); [discriminate|].
    rewrite removelast_last, app_length. lia.
  - destruct (shift_rep a st l R) as (a' & st' & E & R'). rewrite E. cbn [obind]. exists a', st', (Elem (seq_at nil l 1)).
    split; [reflexivity|]. split; [reflexivity|]. split; [assumption|].
    unfold array_shift in E. destruct (_ <=? _)%nat in E; [injection E as _ <-; lia|].
    destruct (rd_cell (a_el a) (a_tail a)) in E; cbn [obind] in E; [|discriminate E]. injection E as _ <-. cbn [a_head]. lia.
  - destruct O as [O1 O2]. rewrite (get_rep a st l n R O1 O2 S). cbn [obind]. exists a, st, (Elem (seq_at nil l n)).
    repeat split; auto. lia.
  - rewrite (first_rep a st l R S). cbn [obind]. exists a, st, (Elem (seq_at nil l 1)). repeat split; auto; lia.
  - rewrite (last_rep a st l R S). cbn [obind]. exists a, st, (Elem (seq_last nil l)). repeat split; auto; lia.
  - rewrite (second_last_rep a st l R S). cbn [obind]. exists a, st, (Elem (seq_second_last nil l)). repeat split; auto; lia.
  - rewrite (count_rep a st l R). exists a, st, (Num (Z.of_nat (length l))). repeat split; auto; lia.
  - destruct (fill_rep a st l n x R O) as (a' & E & R'). rewrite E. cbn [obind]. exists a', st, Same.
    split; [reflexivity|]. split; [reflexivity|]. split; [assumption|].
    rewrite (rep_head _ _ _ R'), HH, app_length, repeat_length. lia.
Qed.

Lemma run_rep os : forall a st l, rep a st l -> Forall op_ok os ->
  (Z.of_nat (a_head a) + growth os <= LONG_MAX)%Z ->
  exists a' rs, list_run nil a os = Ok (a', rs) /\ seq_run nil l os = (fst (seq_run nil l os), rs) /\ holds a' (fst (seq_run nil l os)).
Proof.
  induction os as [|o os IH]; intros a st l R O G; cbn [list_run seq_run].
  - exists a, []. split; [reflexivity|]. split; [reflexivity|]. exists st. assumption.
  - inversion O as [|? ? O1 O2]; subst. cbn [growth fold_right] in G. fold (growth os) in G.
    pose proof (growth_nonneg os).
    assert (0 <= op_growth o)%Z by (destruct o; simpl; lia).
    destruct (step_rep a st l o R O1) as (a1 & st1 & r & E1 & E2 & R1 & G1); [unfold small; lia|].
    rewrite E1, E2. cbn [obind fst].
    destruct (IH a1 st1 _ R1 O2) as (a2 & rs & E3 & E4 & H2); [lia|].
    rewrite E3. cbn [obind]. rewrite E4. cbn [fst]. exists a2, (r :: rs).
    split; [reflexivity|]. split; [reflexivity|]. assumption.
Qed.

Lemma run_new os : Forall op_ok os -> (growth os <= LONG_MAX)%Z ->
  exists a, list_run nil array_new os = Ok (a, snd (seq_run nil [] os)) /\ holds a (fst (seq_run nil [] os)).
Proof.
  intros O G. destruct (run_rep os array_new [] [] array_new_fresh O) as (a & rs & E1 & E2 & H); [simpl; lia|].
  exists a. rewrite E2. cbn [snd fst]. split; assumption.
Qed.

(** ** C26 *)
Lemma put_fresh a l x n : fresh a l -> (1 <= n < W64)%Z ->
  exists a', array_put nil a x n = Ok (a', false) /\ fresh a' (seq_put nil l x n).
Proof.
  intros R [N1 N2]. unfold array_put, seq_put. destruct (Z.ltb_spec n 1); [lia|]. destruct (Z.leb_spec W64 n); [lia|].
  set (p := Z.to_nat (n - 1)). rewrite (rep_tail _ _ _ R). cbn [length].
  pose proof (rep_head _ _ _ R) as HH. cbn [length] in HH. rewrite HH. cbn [Nat.add].
  assert (P1 : exists a1 l1, (if (length l <=? p)%nat
            then do b <- push_n a nil (p + 1 - length l); Ok (mkA (a_len b) (p + 1) (a_tail b) (a_el b))
            else Ok a) = Ok a1 /\ fresh a1 l1 /\ l1 = l ++ repeat nil (p + 1 - length l)).
  { destruct (Nat.leb_spec (length l) p).
    - destruct (push_n_rep (p + 1 - length l) a [] l nil R) as (b & -> & Rb). cbn [obind].
      eexists; eexists; split; [reflexivity|]. split; [|reflexivity].
      destruct Rb as (rest & E & T & Hb & L & NE). exists rest. cbn [a_el a_tail a_head a_len].
      split; [assumption|]. split; [assumption|]. split; [|split; assumption].
      rewrite app_length, repeat_length. cbn [length]. lia.
    - exists a, l. split; [reflexivity|]. split; [assumption|].
      replace (p + 1 - length l) with 0 by lia. simpl. rewrite app_nil_r. reflexivity. }
  destruct P1 as (a1 & l1 & -> & R1 & El1). cbn [obind].
  destruct (Nat.ltb_spec p 0); [lia|]. cbn [obind].
  assert (Hp : p < length l1) by (rewrite El1, app_length, repeat_length; lia).
  destruct (nth_error l1 p) as [y|] eqn:Ny; [|apply nth_error_None in Ny; lia].
  destruct (nth_error_split _ _ Ny) as (u & v & Eu & Lu).
  destruct R1 as (rest & E & T & Hb & L & NE).
  rewrite E. cbn [app]. rewrite Eu, map_app. cbn [map]. rewrite <- app_assoc. cbn [app].
  rewrite <- Lu. replace (length u) with (length (map (@Some A) u)) by apply map_length. rewrite wr_mid. cbn [obind].
  eexists; split; [reflexivity|]. rewrite map_length.
  assert (Q1 : firstn (length u) (l ++ repeat nil (length u - length l)) = u).
  { assert (X : firstn p l1 = u) by (rewrite Eu, <- Lu, firstn_app, firstn_all, Nat.sub_diag; simpl; apply app_nil_r).
    transitivity (firstn p l1); [|exact X]. rewrite El1, Lu.
    destruct (Nat.leb_spec (length l) p).
    - replace (p + 1 - length l) with ((p - length l) + 1) by lia. rewrite repeat_app, app_assoc.
      assert (Lp : length (l ++ repeat nil (p - length l)) = p) by (rewrite app_length, repeat_length; lia).
      rewrite (firstn_app p (l ++ repeat nil (p - length l)) (repeat nil 1)), Lp, Nat.sub_diag.
      cbn [firstn]. rewrite app_nil_r. reflexivity.
    - replace (p - length l) with 0 by lia. replace (p + 1 - length l) with 0 by lia. reflexivity. }
  assert (Q2 : skipn (S (length u)) l = v).
  { assert (X : skipn (S p) l1 = v).
    { rewrite Eu, <- Lu. replace (S (length u)) with (length (u ++ [y])) by (rewrite app_length; simpl; lia).
      change (u ++ y :: v) with (u ++ [y] ++ v). rewrite app_assoc, skipn_app, skipn_all, Nat.sub_diag. reflexivity. }
    rewrite <- X, El1, Lu. destruct (Nat.leb_spec (length l) p).
    - rewrite skipn_app. rewrite !skipn_all2; [reflexivity| |lia]. rewrite repeat_length. lia.
    - replace (p + 1 - length l) with 0 by lia. simpl repeat. rewrite app_nil_r. reflexivity. }
  rewrite Q1, Q2. exists rest. cbn [a_el a_tail a_head a_len app length].
  split; [rewrite map_app, <- app_assoc; reflexivity|]. split; [assumption|].
  split; [rewrite Hb; cbn [length]; rewrite Eu, !app_length; simpl; lia|]. split; [|assumption].
  rewrite L, E, !app_length. cbn [app]. rewrite Eu, !map_length, !app_length. simpl. rewrite ?app_length, ?map_length. lia.
Qed.

(** what [seq_put] means *)
Lemma seq_put_same l x n : (1 <= n)%Z -> seq_at nil (seq_put nil l x n) n = x.
Proof.
  intros N. unfold seq_at, seq_put. destruct (Z.ltb_spec n 1); [lia|]. set (p := Z.to_nat (n - 1)).
  assert (L : length (firstn p (l ++ repeat nil (p - length l))) = p)
    by (rewrite firstn_length, app_length, repeat_length; lia).
  rewrite nth_error_app2 by lia. rewrite L, Nat.sub_diag. reflexivity.
Qed.
Lemma seq_put_other l x n k : (1 <= n)%Z -> k <> n -> seq_at nil (seq_put nil l x n) k = seq_at nil l k.
Proof.
  intros N K. unfold seq_at, seq_put. destruct (Z.ltb_spec k 1); [reflexivity|]. set (p := Z.to_nat (n - 1)).
  set (q := Z.to_nat (k - 1)).
  assert (L : length (firstn p (l ++ repeat nil (p - length l))) = p)
    by (rewrite firstn_length, app_length, repeat_length; lia).
  assert (q <> p) by lia.
  destruct (lt_eq_lt_dec q p) as [[Hq|Hq]|Hq]; [|lia|].
  - rewrite nth_error_app1 by lia.
    assert (F : forall (m : list A), nth_error (firstn p m) q = nth_error m q).
    { intros m. rewrite <- (firstn_skipn p m) at 2.
      destruct (le_lt_dec (length m) q).
      - rewrite (firstn_all2 m) by lia. rewrite (skipn_all2 m) by lia. rewrite app_nil_r. reflexivity.
      - rewrite nth_error_app1; [reflexivity|]. rewrite firstn_length. lia. }
    rewrite F. destruct (le_lt_dec (length l) q).
    + rewrite nth_error_app2 by lia.
      assert (nth_error (repeat nil (p - length l)) (q - length l) = Some nil) as ->.
      { apply nth_error_repeat. lia. }
      assert (nth_error l q = None) as -> by (apply nth_error_None; lia). reflexivity.
    + rewrite nth_error_app1 by lia. reflexivity.
  - rewrite nth_error_app2 by lia. rewrite L. destruct (q - p) as [|d] eqn:D; [lia|]. cbn [nth_error].
    assert (E : nth_error (skipn (S p) l) d = nth_error l q).
    { replace q with (S p + d) by lia. generalize (S p). clear. intros m. revert l.
      induction m; intros l; [reflexivity|]. destruct l; [simpl; destruct d; reflexivity|]. simpl. apply IHm. }
    rewrite E. reflexivity.
Qed.

Lemma put_bounds a x n : (n < 1)%Z -> array_put nil a x n = Ok (a, true).
Proof. intros N. unfold array_put. destruct (Z.ltb_spec n 1); [reflexivity|lia]. Qed.

(** ** C27, C30 *)
Lemma get_push_rep k : forall src st l dst m i, rep src st l -> small src -> fresh dst m ->
  (in_int (i - 1) = true) -> (in_int (i + Z.of_nat k) = true) ->
  exists d, get_push nil src dst i k = Ok d /\
    fresh d (m ++ map (fun j => seq_at nil l (i + Z.of_nat j)) (seq 0 k)).
Proof.
  induction k as [|k IH]; intros src st l dst m i R S F I1 I2; cbn [get_push seq map].
  - exists dst. rewrite app_nil_r. split; [reflexivity|assumption].
  - unfold in_int, INT_MAX in *.
    rewrite (get_rep src st l i R); [|unfold in_int, INT_MAX; lia|unfold in_int, INT_MAX; lia|assumption]. cbn [obind].
    destruct (push_rep dst [] m (seq_at nil l i) F) as (d & -> & Fd). cbn [obind].
    destruct (IH src st l d _ (i + 1)%Z R S Fd) as (d' & -> & F'); [lia|lia|].
    exists d'. split; [reflexivity|].
    rewrite <- app_assoc in F'. cbn [app] in F'. rewrite Z.add_0_r.
    rewrite <- seq_shift, map_map.
    assert (Em : map (fun j => seq_at nil l (i + 1 + Z.of_nat j)) (seq 0 k) =
                 map (fun x => seq_at nil l (i + Z.of_nat (Datatypes.S x))) (seq 0 k)).
    { apply map_ext. intros j. f_equal. lia. }
    rewrite <- Em. assumption.
Qed.

Lemma seq_all l : map (fun j => seq_at nil l (1 + Z.of_nat j)) (seq 0 (length l)) = l.
Proof.
  assert (G : forall (l p : list A), map (fun j => seq_at nil (p ++ l) (1 + Z.of_nat j)) (seq (length p) (length l)) = l).
  { induction l0 as [|x l0 IH]; intros p; [reflexivity|]. cbn [length seq map]. f_equal.
    - rewrite Z.add_comm. apply seq_at_nth. rewrite nth_error_app2, Nat.sub_diag by lia. reflexivity.
    - specialize (IH (p ++ [x])). rewrite <- app_assoc in IH. cbn [app] in IH.
      rewrite app_length in IH. simpl in IH. rewrite Nat.add_1_r in IH. exact IH. }
  apply (G l []).
Qed.

Lemma seq_sub_full l start len : seq_sub nil l start len = map (fun k => seq_at nil l (start + Z.of_nat k)) (seq 0 (Z.to_nat len)).
Proof. reflexivity. Qed.

Lemma from_length_rep a st l start len : rep a st l -> small a ->
  in_int (start - 1) = true -> in_int start = true -> in_int len = true -> in_int (start + len) = true -> (0 <= len)%Z ->
  exists r, array_from_length nil a start len = Ok r /\ fresh r (seq_sub nil l start len).
Proof.
  intros R S I0 I1 I2 I3 H. unfold array_from_length. rewrite I1, I2, I3. cbn [negb andb].
  destruct (get_push_rep (Z.to_nat len) a st l array_new [] start R S array_new_fresh) as (d & -> & F).
  - assumption.
  - rewrite Z2Nat.id by assumption. assumption.
  - exists d. split; [reflexivity|]. assumption.
Qed.

Lemma copy_into_fresh src l dst m : fresh src l -> (Z.of_nat (length l) < INT_MAX)%Z -> fresh dst m ->
  exists d, copy_into nil src dst = Ok d /\ fresh d (m ++ l).
Proof.
  intros R H F. unfold copy_into. rewrite (rep_tail _ _ _ R), (rep_head _ _ _ R). cbn [length]. rewrite Nat.sub_0_r.
  cbn [Nat.add].
  destruct (get_push_rep (length l) src [] l dst m (Z.of_nat 0 + 1) R) as (d & E & Fd).
  - unfold small. rewrite (rep_head _ _ _ R). cbn [length]. unfold INT_MAX, LONG_MAX in *. lia.
  - assumption.
  - reflexivity.
  - unfold in_int, INT_MAX in *. lia.
  - exists d. split; [exact E|]. change (Z.of_nat 0 + 1)%Z with 1%Z in Fd. rewrite seq_all in Fd. assumption.
Qed.

Lemma add_fresh a b l m : fresh a l -> fresh b m ->
  (Z.of_nat (length l) < INT_MAX)%Z -> (Z.of_nat (length m) < INT_MAX)%Z ->
  exists r, array_add nil a b = Ok r /\ fresh r (l ++ m).
Proof.
  intros Ra Rb Ha Hb. unfold array_add.
  destruct (copy_into_fresh a l array_new [] Ra Ha array_new_fresh) as (d & -> & Fd). cbn [obind app] in *.
  apply copy_into_fresh; assumption.
Qed.

Lemma copy_fresh a l : fresh a l -> (Z.of_nat (length l) < INT_MAX)%Z ->
  exists r, array_copy nil a = Ok r /\ fresh r l.
Proof. intros R H. apply (copy_into_fresh a l array_new [] R H array_new_fresh). Qed.

Lemma seq_sub_prefix l n : (0 <= n <= Z.of_nat (length l))%Z -> seq_sub nil l 1 n = firstn (Z.to_nat n) l.
Proof.
  intros H. unfold seq_sub. transitivity (firstn (Z.to_nat n) (map (fun j => seq_at nil l (1 + Z.of_nat j)) (seq 0 (length l))));
    [|rewrite seq_all; reflexivity]. rewrite firstn_map. f_equal.
  assert (G : forall k m s, k <= m -> firstn k (seq s m) = seq s k).
  { induction k; intros m s Hk; [reflexivity|]. destruct m; [lia|]. simpl. f_equal. apply IHk. lia. }
  symmetry. apply G. lia.
Qed.

Lemma seq_sub_suffix l n : (1 <= n <= Z.of_nat (length l) + 1)%Z ->
  seq_sub nil l n (1 + Z.of_nat (length l) - n) = skipn (Z.to_nat (n - 1)) l.
Proof.
  intros H. unfold seq_sub.
  transitivity (skipn (Z.to_nat (n - 1)) (map (fun j => seq_at nil l (1 + Z.of_nat j)) (seq 0 (length l))));
    [|rewrite seq_all; reflexivity]. rewrite skipn_map.
  assert (G : forall k m s, k <= m -> skipn k (seq s m) = seq (s + k) (m - k)).
  { induction k; intros m s Hk; [simpl; rewrite Nat.add_0_r, Nat.sub_0_r; reflexivity|].
    destruct m; [lia|]. simpl. rewrite IHk by lia. f_equal; lia. }
  rewrite G by lia. set (p := Z.to_nat (n - 1)).
  replace (Z.to_nat (1 + Z.of_nat (length l) - n)) with (length l - p) by lia.
  cbn [Nat.add]. generalize (length l - p). intros c.
  assert (G2 : forall c s, map (fun k => seq_at nil l (n + Z.of_nat k)) (seq s c) =
    map (fun j => seq_at nil l (1 + Z.of_nat j)) (seq (p + s) c)).
  { clear c. induction c; intros s; [reflexivity|]. cbn [seq map]. f_equal.
    - f_equal. lia.
    - rewrite IHc. f_equal. f_equal. lia. }
  rewrite (G2 c 0), Nat.add_0_r. reflexivity.
Qed.

(** splice: any receiver, a replacement from which nothing was shifted *)
Lemma splice_rep a st l r m from len : rep a st l -> fresh r m -> small a ->
  (1 <= from)%Z -> (0 <= len)%Z ->
  (from + len + Z.of_nat (length l) + Z.of_nat (length m) + 2 < INT_MAX)%Z ->
  exists d, array_splice nil a from len r = Ok d /\
    fresh d (seq_sub nil l 1 (from - 1) ++ m ++ skipn (Z.to_nat (from + len - 1)) l).
Proof.
  intros R F S H1 H2 Hb. unfold array_splice.
  destruct (from_length_rep a st l 1 (from - 1) R S) as (n1 & -> & F1); try (unfold in_int, INT_MAX in *; lia). cbn [obind].
  assert (L1 : length (seq_sub nil l 1 (from - 1)) = Z.to_nat (from - 1)) by (unfold seq_sub; rewrite map_length, seq_length; reflexivity).
  destruct (add_fresh n1 r _ _ F1 F) as (n2 & -> & F2); try (unfold INT_MAX in *; lia). cbn [obind].
  rewrite (count_rep a st l R). destruct (Z.leb_spec (from + len) (Z.of_nat (length l))).
  - destruct (from_length_rep a st l (from + len) (1 + Z.of_nat (length l) - (from + len)) R S) as (rs & -> & Fr);
      try (unfold in_int, INT_MAX in *; lia). cbn [obind].
    assert (Lr : length (seq_sub nil l (from + len) (1 + Z.of_nat (length l) - (from + len))) = Z.to_nat (1 + Z.of_nat (length l) - (from + len)))
      by (unfold seq_sub; rewrite map_length, seq_length; reflexivity).
    destruct (add_fresh n2 rs _ _ F2 Fr) as (d & -> & Fd).
    + rewrite app_length, L1. unfold INT_MAX in *. lia.
    + unfold INT_MAX in *. lia.
    + exists d. split; [reflexivity|]. rewrite <- app_assoc in Fd.
      rewrite seq_sub_suffix in Fd by lia. assumption.
  - exists n2. split; [reflexivity|]. rewrite (skipn_all2 l) by lia. rewrite app_nil_r. assumption.
Qed.

(** ** C28 *)
Lemma find_loop_spec (str : A -> list N) needle : forall (l : list A) el i,
  (forall k x, nth_error l k = Some x -> rd_cell el (i + k) = Ok x) ->
  match find_loop str el needle i (length l) with
  | Ok (Some z) => exists k x, z = (Z.of_nat (i + k) + 1)%Z /\ nth_error l k = Some x /\ same_text (str x) needle /\
       (forall j y, j < k -> nth_error l j = Some y -> ~ same_text (str y) needle)
  | Ok None => forall x, In x l -> ~ same_text (str x) needle
  | UB => False
  end.
Proof.
  clear nil. induction l as [|x l IH]; intros el i Hrd; cbn [length find_loop].
  - intros x [].
  - pose proof (Hrd 0 x eq_refl) as E. rewrite Nat.add_0_r in E. rewrite E. cbn [obind].
    destruct (eq_len_strncmp (str x) needle) as (b & -> & Hb). cbn [obind]. destruct b.
    + exists 0, x. rewrite Nat.add_0_r. split; [reflexivity|]. split; [reflexivity|]. split; [apply Hb; reflexivity|]. intros j y Hj. lia.
    + assert (Hx : ~ same_text (str x) needle) by (intros X; apply Hb in X; discriminate).
      assert (Hrd' : forall k y, nth_error l k = Some y -> rd_cell el (i + 1 + k) = Ok y).
      { intros k y Hk. replace (i + 1 + k) with (i + S k) by lia. apply Hrd. assumption. }
      specialize (IH el (i + 1) Hrd').
      destruct (find_loop str el needle (i + 1) (length l)) as [[z|]|]; [| |assumption].
      * destruct IH as (k & y & -> & N & Hh & Hbef). exists (S k), y.
        split; [lia|]. split; [assumption|]. split; [assumption|].
        intros j w Hj Hw. destruct j as [|j]; [injection Hw as <-; assumption|]. apply (Hbef j w); [lia|assumption].
      * intros y [<-|Hy]; [assumption|apply IH; assumption].
Qed.

Lemma find_exact (str : A -> list N) a st l needle : rep a st l ->
  (exists k x, array_index_of str a needle = Ok (Some (Z.of_nat (length st) + Z.of_nat k + 1)%Z) /\ nth_error l k = Some x /\
     same_text (str x) needle /\ (forall j y, j < k -> nth_error l j = Some y -> ~ same_text (str y) needle)) \/
  (array_index_of str a needle = Ok None /\ forall x, In x l -> ~ same_text (str x) needle).
Proof.
  clear nil. intros R. unfold array_index_of. rewrite (rep_tail _ _ _ R), (rep_head _ _ _ R).
  replace (length st + length l - length st) with (length l) by lia.
  pose proof (find_loop_spec str needle l (a_el a) (length st)) as P.
  assert (Hrd : forall k x, nth_error l k = Some x -> rd_cell (a_el a) (length st + k) = Ok x).
  { intros k x N. pose proof (rd_rep a st l k x R N) as E. rewrite (rep_tail _ _ _ R) in E. exact E. }
  specialize (P Hrd).
  destruct (find_loop str (a_el a) needle (length st) (length l)) as [[z|]|]; [| |destruct P].
  - left. destruct P as (k & x & -> & N & Hh & Hb). exists k, x. split; [do 2 f_equal; lia|]. auto.
  - right. split; [reflexivity|assumption].
Qed.

Lemma find_fresh (str : A -> list N) a l needle : fresh a l -> no_nul needle ->
  (exists k x, array_index_of str a needle = Ok (Some (Z.of_nat k + 1)%Z) /\ nth_error l k = Some x /\
     str x = needle /\ (forall j y, j < k -> nth_error l j = Some y -> str y <> needle)) \/
  (array_index_of str a needle = Ok None /\ forall x, In x l -> str x <> needle).
Proof.
  clear nil. intros R NN. destruct (find_exact str a [] l needle R) as [(k & x & E & N & H & B)|(E & H)].
  - left. exists k, x. split; [exact E|]. split; [assumption|]. split; [apply same_text_no_nul; assumption|].
    intros j y Hj Hy X. apply (B j y Hj Hy). apply same_text_no_nul; assumption.
  - right. split; [assumption|]. intros x Hx X. apply (H x Hx). apply same_text_no_nul; assumption.
Qed.

(** ** C29 *)
Lemma min_loop_all {V} (ltb : V -> V -> bool) (num : A -> V) el : forall (l : list A) i best,
  (forall k x, nth_error l k = Some x -> rd_cell el (i + k) = Ok x) ->
  min_loop ltb num el i (length l) best =
  Ok (match l with
      | [] => best
      | x :: l' => if (i =? 0)%nat then fold_left (fun b y => if ltb (num y) b then num y else b) l' (num x)
                   else fold_left (fun b y => if ltb (num y) b then num y else b) l best
      end).
Proof.
  induction l as [|x l IH]; intros i best Hrd; cbn [length min_loop]; [reflexivity|].
  pose proof (Hrd 0 x eq_refl) as E. rewrite Nat.add_0_r in E. rewrite E. cbn [obind].
  rewrite IH.
  - destruct (Nat.eqb_spec (i + 1) 0); [lia|]. destruct (Nat.eqb_spec i 0); cbn [orb fold_left]; destruct l; reflexivity.
  - intros k y Hk. replace (i + 1 + k) with (i + S k) by lia. apply Hrd. assumption.
Qed.

Lemma fold_min_least {V} (ltb : V -> V -> bool) (num : A -> V) :
  (forall x, ltb x x = false) -> (forall x y z, ltb y x = false -> ltb z y = false -> ltb z x = false) ->
  (forall x y, ltb x y = true -> ltb y x = false) ->
  forall l b, let r := fold_left (fun b y => if ltb (num y) b then num y else b) l b in
  (r = b \/ exists x, In x l /\ r = num x) /\ ltb b r = false /\ (forall x, In x l -> ltb (num x) r = false).
Proof.
  intros Irr Tr As. induction l as [|x l IH]; intros b; cbn [fold_left].
  - split; [left; reflexivity|]. split; [apply Irr|intros x []].
  - specialize (IH (if ltb (num x) b then num x else b)). cbv zeta in IH.
    set (r := fold_left _ l _) in *. destruct IH as (W & B & All).
    destruct (ltb (num x) b) eqn:L.
    + split; [|split].
      * destruct W as [W|(y & Hy & W)]; right; [exists x; split; [left; reflexivity|assumption]|exists y; split; [right; assumption|assumption]].
      * apply (Tr r (num x) b); [assumption|]. apply As. assumption.
      * intros y [<-|Hy]; [assumption|apply All; assumption].
    + split; [|split; [assumption|]].
      * destruct W as [W|(y & Hy & W)]; [left; assumption|right; exists y; split; [right; assumption|assumption]].
      * intros y [<-|Hy]; [|apply All; assumption]. apply (Tr r b (num x)); assumption.
Qed.

Lemma min_exact {V} (ltb : V -> V -> bool) zero (num : A -> V) a st l : rep a st l ->
  (forall x, ltb x x = false) -> (forall x y z, ltb y x = false -> ltb z y = false -> ltb z x = false) ->
  (forall x y, ltb x y = true -> ltb y x = false) ->
  exists m, array_min ltb zero num a = Ok m /\
    (st ++ l = [] -> m = zero) /\ (st ++ l <> [] -> (exists x, In x (st ++ l) /\ m = num x) /\ forall x, In x (st ++ l) -> ltb (num x) m = false).
Proof.
  intros R Irr Tr As. unfold array_min. rewrite (rep_head _ _ _ R), <- app_length.
  assert (Hrd : forall k x, nth_error (st ++ l) k = Some x -> rd_cell (a_el a) (0 + k) = Ok x).
  { intros k x N. destruct R as (rest & E & _). unfold rd_cell. rewrite E, nth_error_app1, nth_error_map; cbn [Nat.add]; [rewrite N; reflexivity|].
    rewrite map_length. apply nth_error_Some. congruence. }
  clear R. revert Hrd. generalize (st ++ l). clear st l. intros l Hrd.
  rewrite (min_loop_all ltb num (a_el a) l 0 zero).
  - eexists; split; [reflexivity|]. destruct l as [|x l]; [split; [reflexivity|congruence]|].
    split; [discriminate|]. intros _. simpl (0 =? 0)%nat. cbn iota.
    destruct (fold_min_least ltb num Irr Tr As l (num x)) as (W & B & All).
    split.
    + destruct W as [W|(y & Hy & W)]; [exists x; split; [left; reflexivity|assumption]|exists y; split; [right; assumption|assumption]].
    + intros y [<-|Hy]; [assumption|apply All; assumption].
  - exact Hrd.
Qed.

Lemma max_exact {V} (ltb : V -> V -> bool) zero (num : A -> V) a st l : rep a st l ->
  (forall x, ltb x x = false) -> (forall x y z, ltb y x = false -> ltb z y = false -> ltb z x = false) ->
  (forall x y, ltb x y = true -> ltb y x = false) ->
  exists m, array_max ltb zero num a = Ok m /\
    (st ++ l = [] -> m = zero) /\ (st ++ l <> [] -> (exists x, In x (st ++ l) /\ m = num x) /\ forall x, In x (st ++ l) -> ltb m (num x) = false).
Proof.
  intros R Irr Tr As.
  destruct (min_exact (fun x y => ltb y x) zero num a st l R) as (m & E & H); auto.
  - intros x y z H1 H2. apply (Tr z y x); assumption.
  - exists m. split; [exact E|exact H].
Qed.

(** ** join *)
Lemma join_loop_spec (str : A -> list N) glue tail : forall (l : list A) el i acc,
  (forall k x, nth_error l k = Some x -> rd_cell el (i + k) = Ok x) -> tail < i ->
  join_loop str glue el tail i (length l) acc = Ok (acc ++ concat (map (fun x => glue ++ str x) l)).
Proof.
  induction l as [|x l IH]; intros el i acc Hrd Hi; cbn [length join_loop map concat].
  - rewrite app_nil_r. reflexivity.
  - pose proof (Hrd 0 x eq_refl) as E. rewrite Nat.add_0_r in E. rewrite E. cbn [obind].
    destruct (Nat.eqb_spec i tail); [lia|]. rewrite IH; [|intros k y Hk; replace (i + 1 + k) with (i + S k) by lia; apply Hrd; assumption|lia].
    rewrite <- !app_assoc. reflexivity.
Qed.

Lemma join_rep (str : A -> list N) a st l glue : rep a st l -> array_join str a glue = Ok (joined glue (map str l)).
Proof.
  clear nil.
  intros R. unfold array_join. rewrite (rep_head _ _ _ R), (rep_tail _ _ _ R).
  replace (length st + length l - length st) with (length l) by lia.
  assert (Hrd : forall k x, nth_error l k = Some x -> rd_cell (a_el a) (length st + k) = Ok x).
  { intros k x N. pose proof (rd_rep a st l k x R N) as E. rewrite (rep_tail _ _ _ R) in E. exact E. }
  destruct l as [|x l]; cbn [length join_loop map]; [reflexivity|].
  pose proof (Hrd 0 x eq_refl) as E. rewrite Nat.add_0_r in E. rewrite E. cbn [obind]. rewrite Nat.eqb_refl.
  rewrite join_loop_spec; [|intros k y Hk; replace (length st + 1 + k) with (length st + S k) by lia; apply Hrd; assumption|lia].
  f_equal. clear. revert x. induction l as [|y l IH]; intros x; cbn [map concat joined]; [apply app_nil_r|].
  f_equal. rewrite <- app_assoc. f_equal. apply (IH y).
Qed.

(** ** Exact behaviour after elements have been shifted off *)
Lemma copy_into_exact src st l dst m : rep src st l -> fresh dst m ->
  (2 * Z.of_nat (length st) + Z.of_nat (length l) < INT_MAX)%Z ->
  exists d, copy_into nil src dst = Ok d /\
    fresh d (m ++ seq_sub nil l (Z.of_nat (length st) + 1) (Z.of_nat (length l))).
Proof.
  intros R F H. unfold copy_into. rewrite (rep_tail _ _ _ R), (rep_head _ _ _ R).
  replace (length st + length l - length st) with (length l) by lia.
  destruct (get_push_rep (length l) src st l dst m (Z.of_nat (length st) + 1) R) as (d & E & Fd).
  - unfold small. rewrite (rep_head _ _ _ R). unfold INT_MAX, LONG_MAX in *. lia.
  - assumption.
  - unfold in_int, INT_MAX in *. lia.
  - unfold in_int, INT_MAX in *. lia.
  - exists d. split; [exact E|]. unfold seq_sub. rewrite Nat2Z.id. assumption.
Qed.


(** ** put:at: after elements have been shifted off *)
Definition set_tail (t : nat) (a : arr) : arr := mkA (a_len a) (a_head a) t (a_el a).
Lemma push_tail t a x : array_push (set_tail t a) x = (do b <- array_push a x; Ok (set_tail t b)).
Proof.
  unfold array_push, set_tail. cbn [a_len a_head a_el a_tail].
  destruct (if (a_len a <=? a_head a + 1)%nat then _ else _) as [len el].
  destruct (wr_cell el (a_head a) x); reflexivity.
Qed.
Lemma push_n_tail t n : forall a x, push_n (set_tail t a) x n = (do b <- push_n a x n; Ok (set_tail t b)).
Proof.
  induction n as [|n IH]; intros a x; cbn [push_n]; [reflexivity|].
  rewrite push_tail. destruct (array_push a x); cbn [obind]; [apply IH|reflexivity].
Qed.
Lemma put_tail a x n : (1 <= n)%Z -> a_tail a <= Z.to_nat (n - 1) ->
  array_put nil a x n = (do r <- array_put nil (set_tail 0 a) x n; Ok (set_tail (a_tail a) (fst r), snd r)).
Proof.
  intros N T. assert (E : a = set_tail (a_tail a) (set_tail 0 a)) by (destruct a; reflexivity).
  unfold array_put. destruct (Z.ltb_spec n 1); [lia|]. destruct (W64 <=? n)%Z; [reflexivity|].
  set (q := Z.to_nat (n - 1)) in *. cbn [set_tail a_head a_tail].
  destruct (Nat.ltb_spec q (a_tail a)); [lia|]. destruct (Nat.ltb_spec q 0); [lia|].
  destruct (a_head a <=? q)%nat.
  - rewrite E at 1. rewrite push_n_tail.
    destruct (push_n (set_tail 0 a) nil (q + 1 - a_head a)) as [b|]; cbn [obind]; [|reflexivity].
    cbn [set_tail a_len a_tail a_el a_head]. destruct (wr_cell (a_el b) q x); reflexivity.
  - cbn [obind set_tail a_len a_tail a_el a_head]. destruct (wr_cell (a_el a) q x); reflexivity.
Qed.

Lemma map_repeat {B C} (f : B -> C) x n : map f (repeat x n) = repeat (f x) n.
Proof. induction n; simpl; congruence. Qed.

Lemma clear_down_ok n : forall el p, p + n < length el ->
  clear_down nil el p n = Ok (firstn (p + 1) el ++ repeat (Some nil) n ++ skipn (p + 1 + n) el).
Proof.
  induction n as [|n IH]; intros el p H; cbn [clear_down].
  - cbn [repeat app]. rewrite Nat.add_0_r, firstn_skipn. reflexivity.
  - unfold wr_cell. destruct (Nat.ltb_spec (p + S n) (length el)); [|lia]. cbn [obind].
    set (el' := firstn (p + S n) el ++ Some nil :: skipn (S (p + S n)) el).
    assert (L : length (firstn (p + S n) el) = p + S n) by (rewrite firstn_length; lia).
    rewrite IH by (unfold el'; rewrite app_length, L; lia). f_equal.
    assert (F : firstn (p + 1) el' = firstn (p + 1) el).
    { unfold el'. rewrite firstn_app, L. replace (p + 1 - (p + S n)) with 0 by lia. cbn [firstn]. rewrite app_nil_r, firstn_firstn. f_equal. lia. }
    assert (K : skipn (p + 1 + n) el' = Some nil :: skipn (p + 1 + S n) el).
    { unfold el'. rewrite skipn_app, L. rewrite skipn_all2 by lia. replace (p + 1 + n - (p + S n)) with 0 by lia. rewrite skipn_O. cbn [app].
      do 2 f_equal. lia. }
    rewrite F, K. f_equal. replace (S n) with (n + 1) by lia. rewrite repeat_app, <- app_assoc. reflexivity.
Qed.

Lemma put_exact a st l x n : rep a st l -> (1 <= n < W64)%Z ->
  exists a', array_put nil a x n = Ok (a', false) /\
    ((Z.of_nat (length st) < n)%Z -> rep a' st (seq_put nil l x (n - Z.of_nat (length st)))) /\
    ((n <= Z.of_nat (length st))%Z ->
       rep a' (firstn (Z.to_nat (n - 1)) st)
         (x :: repeat nil (length st - Z.to_nat n) ++ match l with [] => [] | _ :: l' => nil :: l' end)).
Proof.
  intros R [N1 N2]. set (p := Z.to_nat (n - 1)).
  destruct (Z_lt_le_dec (Z.of_nat (length st)) n) as [D|D].
  - assert (F : fresh (set_tail 0 a) (st ++ l)).
    { destruct R as (rest & E & T & H & L & NE). exists rest. cbn [set_tail a_el a_tail a_head a_len app length].
      repeat split; auto. rewrite app_length. lia. }
    destruct (put_fresh _ _ x n F ltac:(lia)) as (a0 & E0 & F0).
    rewrite put_tail; [|lia|rewrite (rep_tail _ _ _ R); lia]. rewrite E0. cbn [obind fst snd].
    eexists; split; [reflexivity|]. split; [|lia]. intros _.
    assert (S1 : seq_put nil (st ++ l) x n = st ++ seq_put nil l x (n - Z.of_nat (length st))).
    { unfold seq_put. fold p. replace (Z.to_nat (n - Z.of_nat (length st) - 1)) with (p - length st) by lia.
      assert (length st <= p) by lia.
      rewrite app_length. replace (p - (length st + length l)) with (p - length st - length l) by lia.
      rewrite <- app_assoc. rewrite (firstn_app p st). rewrite (firstn_all2 st) by lia. rewrite <- app_assoc. f_equal. f_equal. f_equal.
      rewrite skipn_app, (skipn_all2 st) by lia. cbn [app]. f_equal. lia. }
    rewrite S1 in F0. destruct F0 as (rest & E & T & H & L & NE). cbn [app length] in *.
    rewrite (rep_tail _ _ _ R). exists rest. cbn [set_tail a_el a_tail a_head a_len]. repeat split; auto.
    rewrite H, app_length. reflexivity.
  - unfold array_put. destruct (Z.ltb_spec n 1); [lia|]. destruct (Z.leb_spec W64 n); [lia|]. fold p.
    rewrite (rep_tail _ _ _ R), (rep_head _ _ _ R).
    destruct (Nat.leb_spec (length st + length l) p); [lia|]. cbn [obind].
    destruct (Nat.ltb_spec p (length st)); [|lia].
    destruct R as (rest & E & T & H' & L & NE).
    assert (Lel : length (a_el a) = length st + length l + length rest) by (rewrite E, app_length, map_length, app_length; reflexivity).
    assert (0 < length rest) by (destruct rest; [congruence|simpl; lia]).
    rewrite clear_down_ok by lia. cbn [obind a_el a_len a_head a_tail].
    replace (p + 1 + (length st - p)) with (length st + 1) by lia.
    assert (Sp : exists y, firstn (p + 1) (a_el a) = map Some (firstn p st) ++ [y]).
    { rewrite E. rewrite firstn_app, map_length, app_length. replace (p + 1 - (length st + length l)) with 0 by lia.
      cbn [firstn]. rewrite app_nil_r, map_app, firstn_app, map_length. replace (p + 1 - length st) with 0 by lia. cbn [firstn]. rewrite app_nil_r.
      destruct (nth_error st p) as [y|] eqn:Ny; [|apply nth_error_None in Ny; lia].
      destruct (nth_error_split _ _ Ny) as (u & v & Eu & Lu). exists (Some y).
      rewrite Eu, <- Lu, (firstn_app (length u)), firstn_all, Nat.sub_diag. cbn [firstn]. rewrite app_nil_r.
      rewrite map_app. cbn [map]. replace (map Some u ++ Some y :: map Some v) with ((map (@Some A) u ++ [Some y]) ++ map Some v) by (rewrite <- app_assoc; reflexivity).
      rewrite firstn_app, app_length, map_length. cbn [length]. rewrite Nat.sub_diag. cbn [firstn]. rewrite app_nil_r.
      rewrite firstn_all2; [reflexivity|]. rewrite app_length, map_length. reflexivity. }
    destruct Sp as (y & ->). rewrite <- app_assoc. cbn [app].
    assert (Lf : length (map (@Some A) (firstn p st)) = p) by (rewrite map_length, firstn_length; lia).
    match goal with |- context [wr_cell (?m ++ ?c :: ?q) p x] => pose proof (wr_mid m c q x) as W end.
    rewrite Lf in W. rewrite W. clear W. cbn [obind]. eexists; split; [reflexivity|]. split; [lia|]. intros _.
    assert (K : exists rest', skipn (length st + 1) (a_el a) = map Some (tl l) ++ rest' /\ length rest' + length (tl l) + 1 = length rest + length l /\
                (l <> [] -> rest' <> [])).
    { rewrite E, map_app, <- app_assoc, skipn_app, map_length, skipn_all2 by (rewrite map_length; lia).
      replace (length st + 1 - length st) with 1 by lia. cbn [app]. destruct l as [|z l'].
      - destruct rest as [|r rest']; [congruence|]. exists rest'. cbn. repeat split; [lia|congruence].
      - exists rest. cbn. repeat split; auto. lia. }
    destruct K as (rest' & K1 & K2 & K3). rewrite K1.
    assert (Pn : length st - Z.to_nat n = length st - p - 1) by lia. rewrite Pn.
    destruct l as [|z l'].
    + exists (Some nil :: rest'). cbn [a_el a_tail a_head a_len tl map app length] in *.
      assert (Q : length st - p = (length st - p - 1) + 1) by lia.
      assert (Q' : repeat (Some nil) (length st - p) = repeat (Some nil) (length st - p - 1) ++ [Some nil]) by (rewrite Q at 1; apply repeat_app).
      repeat split; try rewrite Q'.
      * rewrite app_nil_r, map_app. cbn [map]. rewrite map_repeat, <- !app_assoc. cbn [app repeat]. rewrite <- ?app_assoc. reflexivity.
      * rewrite firstn_length. lia.
      * rewrite app_nil_r, repeat_length, firstn_length. lia.
      * rewrite app_length, Lf. cbn [length]. rewrite !app_length, repeat_length. cbn [length]. lia.
      * discriminate.
    + exists rest'. cbn [a_el a_tail a_head a_len tl] in *.
      assert (Q : length st - p = (length st - p - 1) + 1) by lia.
      assert (Q' : repeat (Some nil) (length st - p) = repeat (Some nil) (length st - p - 1) ++ [Some nil]) by (rewrite Q at 1; apply repeat_app).
      repeat split; try rewrite Q'.
      * rewrite map_app. cbn [map]. rewrite map_app, map_repeat. cbn [map]. rewrite <- !app_assoc. cbn [app repeat]. rewrite <- ?app_assoc. reflexivity.
      * rewrite firstn_length. lia.
      * cbn [length]. rewrite app_length, repeat_length, firstn_length. cbn [length] in *. lia.
      * rewrite app_length, Lf. cbn [length]. rewrite !app_length, repeat_length, map_length. cbn [length] in *. lia.
      * apply K3. discriminate.
Qed.
End P.
