(** Proofs about the Json plugin: a text of the language is read as the value it denotes. *)
From Verif Require Import Common NumModel JsonModel JsonSpec JsonProofs JsonTok JsonRun TextProofs.
Local Open Scope nat_scope.

Scheme jval_ind3 := Minimality for jval Sort Prop
  with jelems_ind3 := Minimality for jelems Sort Prop
  with jmembers_ind3 := Minimality for jmembers Sort Prop.
Combined Scheme json_ind from jval_ind3, jelems_ind3, jmembers_ind3.

Ltac assoc := cbn [app]; repeat (rewrite <- ?app_assoc; cbn [app]).
Ltac lens := repeat (progress (rewrite ?app_length; cbn [length])); try lia.

Lemma slice_mid : forall pre t r, slice (pre ++ t ++ r) (length pre) (length t) = Ok t.
Proof.
  intros pre t r. unfold slice. destruct (Nat.leb_spec (length pre + length t) (length (pre ++ t ++ r))); [|rewrite !app_length in *; lia].
  rewrite skipn_app, skipn_all, Nat.sub_diag, app_nil_l. cbn [skipn]. rewrite firstn_app, firstn_all, Nat.sub_diag. cbn [firstn]. now rewrite app_nil_r.
Qed.
Lemma delim_in : forall w c r, blanks w -> In c [44; 93; 125]%N -> delim (w ++ c :: r).
Proof.
  intros w c r H I. destruct H as [|x w Hx H].
  - exists c, r. split; [reflexivity|]. cbn [In] in I. repeat (destruct I as [<-|I]; [now split|]). destruct I.
  - exists x, (w ++ c :: r). split; [reflexivity|]. cbn [In] in Hx. repeat (destruct Hx as [<-|Hx]; [now split|]). destruct Hx.
Qed.
Definition addn (m : nat) (t : tok) : tok := mkTok (k_type t) (k_start t) (k_end t) (m + k_size t) (k_parent t).
Definition seg_ok (base : nat) (s : option nat) (seg : list tok) : Prop :=
  forall j t, nth_error seg j = Some t -> is_open t = false /\
    (k_parent t = s \/ exists q, k_parent t = Some q /\ base <= q < base + j).
Lemma seg_nil : forall b s, seg_ok b s [].
Proof. intros b s [|j] t H; discriminate. Qed.
Lemma seg_app : forall b s x y, seg_ok b s x -> seg_ok (b + length x) s y -> seg_ok b s (x ++ y).
Proof.
  intros b s x y H K j t E. destruct (Nat.lt_ge_cases j (length x)) as [L|L].
  - rewrite nth_error_app1 in E by assumption. now apply H.
  - rewrite nth_error_app2 in E by assumption. destruct (K _ _ E) as (A & [P|(q & P & Q)]); (split; [assumption|]); [now left|].
    right. exists q. split; [assumption|]. lia.
Qed.
Lemma seg_cons : forall b s t x, is_open t = false -> k_parent t = s -> seg_ok (S b) (Some b) x -> seg_ok b s (t :: x).
Proof.
  intros b s t x O P H [|j] u E; cbn in E.
  - inversion E; subst. auto.
  - destruct (H _ _ E) as (A & [Q|(q & Q & R)]); (split; [assumption|]); right.
    + exists b. split; [assumption|]. lia.
    + exists q. split; [assumption|]. lia.
Qed.
Lemma seg_inside : forall (X seg : list tok), seg_ok (S (length X)) (Some (length X)) seg ->
  forall j t, nth_error seg j = Some t -> is_open t = false /\ exists q, k_parent t = Some q /\ length X <= q < S (length X + j).
Proof.
  intros X seg H j t E. destruct (H _ _ E) as (A & [Q|(q & Q & R)]); (split; [assumption|]).
  - exists (length X). split; [assumption|]. lia.
  - exists q. split; [assumption|]. lia.
Qed.
Lemma upd_addn : forall l o m, upd_tok (upd_tok l o add_size) o (addn m) = upd_tok l o (addn (S m)).
Proof. intros l o m. rewrite upd_upd. apply upd_ext. intros t. unfold addn, add_size. cbn. f_equal. lia. Qed.
Lemma upd_one : forall l o, upd_tok l o add_size = upd_tok l o (addn 1).
Proof. intros l o. now apply upd_ext. Qed.

Section Grammar.
Variables (room : Z -> Z) (readn : text -> outcome num) (name : jv -> text).
Hypothesis HR : forall n, (0 <= n -> n <= room n)%Z.
Let number (t : text) (x : num) : Prop := readn t = Ok x.
Let D := dump room readn name.

Definition ok (t r : text) : Prop := (exists t', t = 123%N :: t') \/ delim r.

Definition Pn (v : jv) (t : text) (n : nat) : Prop :=
  (forall r pos c, ok t r -> crun (t ++ r) pos c = crun r (pos + length t) (c + n)) /\
  forall cap js pre pos r s l c, js = pre ++ t ++ r -> pos = length pre -> ok t r -> super_in l s ->
    prim_refused l s = Some false -> length l + n <= cap ->
    exists seg, length seg = n /\ seg_ok (length l) s seg /\
      lrun cap (t ++ r) pos s l c = lrun cap r (pos + length t) s (bumped l s ++ seg) (c + n) /\
      (forall t', t = 123%N :: t' -> exists o seg', seg = o :: seg' /\ k_type o = TObject) /\
      forall A B f, length A = length l -> n < f -> D js (A ++ seg ++ B) f (length l) false = Ok (v, length l + n, false).
Definition Pval (v : jv) (t : text) : Prop := exists n, Pn v t n.

Definition Pel (vs : list jv) (t : text) : Prop := exists n,
  (forall r pos c, crun (t ++ 93%N :: r) pos c = crun (93%N :: r) (pos + length t) (c + n)) /\
  forall cap js pre pos r o obj l c, js = pre ++ t ++ 93%N :: r -> pos = length pre -> nth_error l o = Some obj ->
    k_type obj = TArray -> length l + n <= cap ->
    exists seg, length seg = n /\ seg_ok (length l) (Some o) seg /\
      lrun cap (t ++ 93%N :: r) pos (Some o) l c =
      lrun cap (93%N :: r) (pos + length t) (Some o) (upd_tok l o (addn (length vs)) ++ seg) (c + n) /\
      forall A B f, length A = length l -> n < f ->
        dump_list (D js (A ++ seg ++ B) f) (length vs) (length l) false = Ok (vs, length l + n, false).

Definition Pmem (kvs : list (text * jv)) (t : text) : Prop := exists n,
  (forall r pos c, crun (t ++ 125%N :: r) pos c = crun (125%N :: r) (pos + length t) (c + n)) /\
  forall cap js pre pos r o l c, js = pre ++ t ++ 125%N :: r -> pos = length pre -> o < length l -> length l + n <= cap ->
    exists seg s', length seg = n /\ seg_ok (length l) (Some o) seg /\
      lrun cap (t ++ 125%N :: r) pos (Some o) l c =
      lrun cap (125%N :: r) (pos + length t) s' (upd_tok l o (addn (length kvs)) ++ seg) (c + n) /\
      forall A B f acc, length A = length l -> n < f ->
        dump_map name (D js (A ++ seg ++ B) f) (length kvs) (length l) false acc = Ok (puts kvs acc, length l + n, false).

Lemma refused_in : forall l s b, prim_refused l s = Some b -> super_in l s.
Proof. intros l [i|] b H; cbn in *; [|exact I]. destruct (nth_error l i) eqn:E; [|discriminate]. apply nth_error_Some. congruence. Qed.

(** *** Tokens of a text *)
Lemma dump_nth : forall (A B : list tok) t seg, nth_error (A ++ (t :: seg) ++ B) (length A) = Some t.
Proof. intros A B t seg. rewrite nth_error_app2, Nat.sub_diag by lia. reflexivity. Qed.
Lemma D_text : forall js pre q b r k A B seg f i t, js = pre ++ q :: b ++ r -> r <> [] -> coded b k 0 -> length A = i ->
  k_type t = TString -> k_start t = S (length pre) -> k_end t = Some (S (length pre) + length b) ->
  D js (A ++ (t :: seg) ++ B) (S f) i false = Ok (JText k, S i, false).
Proof.
  intros js pre q b r k A B seg f i t -> RN C <- T S0 E0. unfold D. cbn [dump]. rewrite dump_nth, E0, S0, T.
  assert (R1 : 0 < length r) by (destruct r; [congruence|cbn; lia]).
  destruct (Nat.leb_spec (length (pre ++ q :: b ++ r)) (S (length pre))) as [L|L]; [exfalso; revert L; lens|].
  destruct (Nat.ltb_spec (S (length pre) + length b) (S (length pre))); [lia|].
  replace (S (length pre) + length b - S (length pre)) with (length b) by lia.
  destruct (Nat.ltb_spec (length (pre ++ q :: b ++ r)) (length b)) as [L2|L2]; [exfalso; revert L2; lens|]. cbn [orb].
  replace (pre ++ q :: b ++ r) with ((pre ++ [q]) ++ b ++ r) by (now assoc).
  replace (S (length pre)) with (length (pre ++ [q])) by lens.
  rewrite slice_mid. cbn [obind]. rewrite (unescape_ok _ _ _ HR C). reflexivity.
Qed.

Lemma prim_case : forall v c t', starts_prim c = true -> solid (c :: t') ->
  (forall js pre r, js = pre ++ (c :: t') ++ r ->
     (if (c =? 116)%N then Ok (JBool true)
      else if (c =? 102)%N then Ok (JBool false)
      else if (c =? 110)%N then Ok JNil
      else if ((c =? 45) || ((48 <=? c) && (c <=? 57)))%N then
        do s <- slice js (length pre) (length (c :: t')); do x <- readn s; Ok (JNum x)
      else Ok JNil) = Ok v) -> Pval v (c :: t').
Proof.
  intros v c t' SP SO HV. exists 1. assert (N1 : c <> 123%N) by (intros ->; discriminate).
  assert (OK : forall r, ok (c :: t') r -> delim r) by (intros r [(x & E)|E]; [inversion E; congruence|assumption]).
  split.
  - intros r pos n O. apply OK in O. cbn [app]. erewrite crun_prim; [|assumption|exact (solid_scan (c :: t') r pos SO O)].
    f_equal. lia.
  - intros cap js pre pos r s l n E P O SI PR L. apply OK in O.
    exists [mkTok TPrim pos (Some (pos + length (c :: t'))) 0 s].
    split; [reflexivity|]. split; [apply seg_cons; [reflexivity|reflexivity|apply seg_nil]|]. split; [|split].
    + change ((c :: t') ++ r) with (c :: (t' ++ r)).
      erewrite lrun_prim; [|assumption|assumption|lia|assumption|exact (solid_scan (c :: t') r pos SO O)].
      f_equal. lia.
    + intros t2 E2. inversion E2. congruence.
    + intros A B f LA LF. destruct f as [|f]; [lia|]. unfold D. cbn [dump]. rewrite <- LA, dump_nth. cbn [k_end k_start k_type].
      rewrite E at 1 2. subst pos.
      destruct (Nat.leb_spec (length (pre ++ (c :: t') ++ r)) (length pre)) as [K|K]; [exfalso; revert K; lens|].
      destruct (Nat.ltb_spec (length pre + length (c :: t')) (length pre)); [lia|].
      replace (length pre + length (c :: t') - length pre) with (length (c :: t')) by lia.
      destruct (Nat.ltb_spec (length (pre ++ (c :: t') ++ r)) (length (c :: t'))) as [K2|K2]; [exfalso; revert K2; lens|]. cbn [orb].
      assert (RD : rd js (length pre) = Ok c).
      { unfold rd. subst js. now rewrite nth_error_app2, Nat.sub_diag by lia. }
      rewrite RD. cbn [obind]. rewrite (HV js pre r E). cbn [obind]. f_equal. f_equal. f_equal. lia.
Qed.

Lemma text_case : forall b t, body b t -> Pval (JText t) (34%N :: b ++ [34%N]).
Proof.
  intros b t H. exists 1. split.
  - intros r pos c _. assoc. erewrite crun_string; [|apply (body_scan _ _ H)].
    f_equal; lens.
  - intros cap js pre pos r s l c E P _ SI PR L. exists [mkTok TString (S pos) (Some (S pos + length b)) 0 s].
    split; [reflexivity|]. split; [apply seg_cons; [reflexivity|reflexivity|apply seg_nil]|]. split; [|split].
    + assoc. erewrite lrun_string; [|assumption|lia|apply (body_scan _ _ H)]. f_equal; lens.
    + intros t2 E2. inversion E2.
    + intros A B f LA LF. destruct f as [|f]; [lia|]. rewrite Nat.add_1_r. subst pos.
      eapply (D_text js pre 34%N b (34%N :: r)); try reflexivity; try assumption.
      * rewrite E. now assoc.
      * discriminate.
      * now apply body_coded.
Qed.

(** *** Lists *)
Lemma dump_list_S : forall d m i fl, dump_list d (S m) i fl =
  (do (v, i1, f1) <- d i fl; do (l, i2, f2) <- dump_list d m i1 f1; Ok (v :: l, i2, f2)).
Proof. reflexivity. Qed.
Lemma dump_map_S : forall d m i fl acc, dump_map name d (S m) i fl acc =
  (do (k, i1, f1) <- d i fl; do (v, i2, f2) <- d i1 f1;
   if f2 then Ok (acc, i2, f2) else dump_map name d m i2 f2 (jput acc (key_of name k) v)).
Proof. reflexivity. Qed.

Lemma elem_step : forall w1 w2 v t n, blanks w1 -> blanks w2 -> Pn v t n ->
  forall cap js pre pos r x o obj l c, js = pre ++ w1 ++ t ++ w2 ++ x :: r -> pos = length pre -> In x [44; 93; 125]%N ->
    nth_error l o = Some obj -> k_type obj = TArray -> length l + n <= cap ->
    exists seg, length seg = n /\ seg_ok (length l) (Some o) seg /\
      lrun cap (w1 ++ t ++ w2 ++ x :: r) pos (Some o) l c =
      lrun cap (x :: r) (pos + length w1 + length t + length w2) (Some o) (upd_tok l o add_size ++ seg) (c + n) /\
      forall A B f, length A = length l -> n < f -> D js (A ++ seg ++ B) f (length l) false = Ok (v, length l + n, false).
Proof.
  intros w1 w2 v t n W1 W2 (_ & H) cap js pre pos r x o obj l c E P I NO T L.
  assert (PR : prim_refused l (Some o) = Some false) by (unfold prim_refused; now rewrite NO, T).
  destruct (H cap js (pre ++ w1) (pos + length w1) (w2 ++ x :: r) (Some o) l c) as (seg & LS & SO & RUN & _ & DU).
  - rewrite E. now assoc.
  - subst pos. lens.
  - right. now apply delim_in.
  - eapply refused_in, PR.
  - assumption.
  - assumption.
  - exists seg. split; [assumption|]. split; [assumption|]. split; [|assumption].
    rewrite lrun_blanks by assumption. rewrite RUN. rewrite lrun_blanks by assumption. reflexivity.
Qed.
Lemma elem_count : forall w1 w2 v t n, blanks w1 -> blanks w2 -> Pn v t n -> forall r x pos c, In x [44; 93; 125]%N ->
  crun (w1 ++ t ++ w2 ++ x :: r) pos c = crun (x :: r) (pos + length w1 + length t + length w2) (c + n).
Proof.
  intros w1 w2 v t n W1 W2 (H & _) r x pos c I. rewrite crun_blanks by assumption.
  rewrite H by (right; now apply delim_in). now rewrite crun_blanks by assumption.
Qed.

Lemma elems_last : forall w1 w2 v t, blanks w1 -> blanks w2 -> Pval v t -> Pel [v] (w1 ++ t ++ w2).
Proof.
  intros w1 w2 v t W1 W2 (n & H). exists n. split.
  - intros r pos c. assoc. rewrite (elem_count _ _ _ _ _ W1 W2 H) by (cbn; tauto). f_equal. lens.
  - intros cap js pre pos r o obj l c E P NO T L.
    destruct (elem_step _ _ _ _ _ W1 W2 H cap js pre pos r 93%N o obj l c) as (seg & LS & SO & RUN & DU); try assumption.
    { rewrite E. now assoc. } { cbn; tauto. }
    exists seg. split; [assumption|]. split; [assumption|]. split.
    + assoc. rewrite RUN, upd_one. cbn [length]. f_equal. lens.
    + intros A B f LA LF. cbn [length]. rewrite dump_list_S, DU by assumption. reflexivity.
Qed.
Lemma elems_more : forall w1 w2 v t l u, blanks w1 -> blanks w2 -> Pval v t -> Pel l u -> Pel (v :: l) (w1 ++ t ++ w2 ++ 44%N :: u).
Proof.
  intros w1 w2 v t vs u W1 W2 (n & H) (m & K1 & K2). exists (n + m). split.
  - intros r pos c. assoc. rewrite (elem_count _ _ _ _ _ W1 W2 H) by (cbn; tauto).
    rewrite crun_skip by (cbn; tauto). rewrite K1. f_equal; lens.
  - intros cap js pre pos r o obj l c E P NO T L.
    destruct (elem_step _ _ _ _ _ W1 W2 H cap js pre pos (u ++ 93%N :: r) 44%N o obj l c) as (seg & LS & SO & RUN & DU); try assumption.
    { rewrite E. now assoc. } { cbn; tauto. } { lia. }
    assert (OL : o < length l) by (apply nth_error_Some; congruence).
    set (l1 := upd_tok l o add_size ++ seg) in *.
    assert (NO1 : nth_error l1 o = Some (add_size obj)).
    { unfold l1. rewrite nth_error_app1 by (now rewrite upd_len). rewrite upd_nth, Nat.eqb_refl. now rewrite NO. }
    assert (L1 : length l1 = length l + n) by (unfold l1; rewrite app_length, upd_len; lia).
    destruct (K2 cap js (pre ++ w1 ++ t ++ w2 ++ [44%N]) (S (pos + length w1 + length t + length w2)) r o (add_size obj) l1 (c + n))
      as (seg2 & LS2 & SO2 & RUN2 & DU2).
    { rewrite E. now assoc. } { subst pos. lens. } { assumption. } { assumption. } { lia. }
    exists (seg ++ seg2). split; [rewrite app_length; lia|]. split.
    { apply seg_app; [assumption|]. rewrite LS, <- L1. assumption. } split.
    + assoc. rewrite RUN. rewrite (lrun_comma _ _ _ _ _ _ _ NO1). cbn [add_size k_type]. rewrite T, RUN2. unfold l1.
      rewrite upd_app1 by (now rewrite upd_len). rewrite upd_addn. cbn [length]. rewrite <- app_assoc. f_equal; lens.
    + intros A B f LA LF. cbn [length]. rewrite dump_list_S. rewrite <- (app_assoc seg seg2 B). rewrite DU by (assumption || lia). cbn [obind].
      rewrite <- L1. rewrite (app_assoc A seg). rewrite DU2; [cbn [obind]; f_equal; f_equal; f_equal; lia|rewrite app_length; lia|lia].
Qed.

(** A bracketed run of items, whatever they are. *)
Lemma list_empty_case : forall w, blanks w -> Pval (JList []) (91%N :: w ++ [93%N]).
Proof.
  intros w W. exists 1. split.
  - intros r pos c _. assoc. rewrite (crun_open false), crun_blanks by assumption. rewrite (crun_close false). f_equal; lens.
  - intros cap js pre pos r s l c E P _ SI PR L.
    exists [mkTok TArray pos (Some (S (S pos + length w))) 0 s].
    split; [reflexivity|]. split; [apply seg_cons; [reflexivity|reflexivity|apply seg_nil]|]. split; [|split].
    + assoc. rewrite (lrun_open cap false) by (assumption || lia). rewrite lrun_blanks by assumption.
      rewrite (walk_run cap false); [|reflexivity|reflexivity|intros [|j] t Ej; discriminate]. cbn [set_end k_type k_start k_size k_parent].
      f_equal; lens.
    + intros t2 E2; inversion E2.
    + intros A B f LA LF. destruct f as [|f]; [lia|]. unfold D. cbn [dump]. rewrite <- LA, dump_nth. cbn [k_end k_start k_type k_size].
      assert (LJ : length js = length pre + (2 + length w) + length r) by (rewrite E; lens). rewrite LJ. subst pos.
      destruct (Nat.leb_spec (length pre + (2 + length w) + length r) (length pre)); [lia|].
      destruct (Nat.ltb_spec (S (S (length pre) + length w)) (length pre)); [lia|].
      destruct (Nat.ltb_spec (length pre + (2 + length w) + length r) (S (S (length pre) + length w) - length pre)); [lia|]. cbn [orb].
      cbn. now rewrite Nat.add_1_r.
Qed.
Lemma map_empty_case : forall w, blanks w -> Pval (JMap []) (123%N :: w ++ [125%N]).
Proof.
  intros w W. exists 1. split.
  - intros r pos c _. assoc. rewrite (crun_open true), crun_blanks by assumption. rewrite (crun_close true). f_equal; lens.
  - intros cap js pre pos r s l c E P _ SI PR L.
    exists [mkTok TObject pos (Some (S (S pos + length w))) 0 s].
    split; [reflexivity|]. split; [apply seg_cons; [reflexivity|reflexivity|apply seg_nil]|]. split; [|split].
    + assoc. rewrite (lrun_open cap true) by (assumption || lia). rewrite lrun_blanks by assumption.
      rewrite (walk_run cap true); [|reflexivity|reflexivity|intros [|j] t Ej; discriminate]. cbn [set_end k_type k_start k_size k_parent].
      f_equal; lens.
    + intros t2 E2. now eexists _, _.
    + intros A B f LA LF. destruct f as [|f]; [lia|]. unfold D. cbn [dump]. rewrite <- LA, dump_nth. cbn [k_end k_start k_type k_size].
      assert (LJ : length js = length pre + (2 + length w) + length r) by (rewrite E; lens). rewrite LJ. subst pos.
      destruct (Nat.leb_spec (length pre + (2 + length w) + length r) (length pre)); [lia|].
      destruct (Nat.ltb_spec (S (S (length pre) + length w)) (length pre)); [lia|].
      destruct (Nat.ltb_spec (length pre + (2 + length w) + length r) (S (S (length pre) + length w) - length pre)); [lia|]. cbn [orb].
      cbn. now rewrite Nat.add_1_r.
Qed.
Lemma list_case : forall vs t, Pel vs t -> Pval (JList vs) (91%N :: t ++ [93%N]).
Proof.
  intros vs t (n & H1 & H2). exists (S n). split.
  - intros r pos c _. assoc. rewrite (crun_open false), H1. rewrite (crun_close false). f_equal; lens.
  - intros cap js pre pos r s l c E P _ SI PR L.
    set (o := length l). set (ob := mkTok TArray pos None 0 s). set (l1 := bumped l s ++ [ob]).
    assert (LB : length (bumped l s) = o) by apply bumped_len.
    assert (L1 : length l1 = S o) by (unfold l1; rewrite app_length, LB; cbn; lia).
    destruct (H2 cap js (pre ++ [91%N]) (S pos) r o ob l1 (S c)) as (seg & LS & SO & RUN & DU).
    { rewrite E. now assoc. } { subst pos. lens. }
    { unfold l1. rewrite nth_error_app2, LB, Nat.sub_diag by lia. reflexivity. } { reflexivity. } { lia. }
    exists (set_end (S (S pos + length t)) (addn (length vs) ob) :: seg).
    split; [cbn; lia|]. split; [apply seg_cons; [reflexivity|reflexivity|now rewrite <- L1]|]. split; [|split].
    + assoc. rewrite (lrun_open cap false) by (assumption || lia). fold ob l1. fold o. rewrite RUN.
      unfold l1. rewrite <- LB, upd_app2_0. rewrite <- app_assoc. cbn [app].
      rewrite (walk_run cap false); [|reflexivity|reflexivity|apply seg_inside; rewrite LB; now rewrite <- L1].
      cbn [addn k_parent ob]. f_equal; lens.
    + intros t2 E2; inversion E2.
    + intros A B f LA LF. destruct f as [|f]; [lia|]. unfold D. cbn [dump]. fold o in LA |- *. rewrite <- LA, dump_nth.
      cbn [k_end k_start k_type k_size set_end addn ob].
      assert (LJ : length js = length pre + (2 + length t) + length r) by (rewrite E; lens). rewrite LJ. subst pos.
      destruct (Nat.leb_spec (length pre + (2 + length t) + length r) (length pre)); [lia|].
      destruct (Nat.ltb_spec (S (S (length pre) + length t)) (length pre)); [lia|].
      destruct (Nat.ltb_spec (length pre + (2 + length t) + length r) (S (S (length pre) + length t) - length pre)); [lia|]. cbn [orb].
      rewrite Nat.add_0_r. rewrite LA, <- L1.
      match goal with |- context [dump room readn name js (A ++ (?tk :: seg) ++ B)] =>
        replace (A ++ (tk :: seg) ++ B) with ((A ++ [tk]) ++ seg ++ B) by (now assoc) end.
      change (dump room readn name) with D. rewrite DU; [cbn [obind]; f_equal; f_equal; f_equal; lia|rewrite app_length; cbn; lia|lia].
Qed.

(** *** Maps *)
Lemma member_step : forall w1 w2 w3 w4 b k v t n, blanks w1 -> blanks w2 -> blanks w3 -> blanks w4 -> body b k -> Pn v t n ->
  forall cap js pre pos r x o l c, js = pre ++ w1 ++ 34%N :: b ++ 34%N :: w2 ++ 58%N :: w3 ++ t ++ w4 ++ x :: r -> pos = length pre ->
    In x [44; 93; 125]%N -> o < length l -> length l + S n <= cap ->
    exists key seg, length seg = n /\ seg_ok (length l) (Some o) (key :: seg) /\ k_type key = TString /\ k_parent key = Some o /\
      lrun cap (w1 ++ 34%N :: b ++ 34%N :: w2 ++ 58%N :: w3 ++ t ++ w4 ++ x :: r) pos (Some o) l c =
      lrun cap (x :: r) (pos + length (w1 ++ 34%N :: b ++ 34%N :: w2 ++ 58%N :: w3 ++ t ++ w4)) (Some (length l))
           (upd_tok l o add_size ++ key :: seg) (c + S n) /\
      forall A B f, length A = length l -> S n < f ->
        D js (A ++ (key :: seg) ++ B) f (length l) false = Ok (JText k, S (length l), false) /\
        D js (A ++ (key :: seg) ++ B) f (S (length l)) false = Ok (v, length l + S n, false).
Proof.
  intros w1 w2 w3 w4 b k v t n W1 W2 W3 W4 HB (_ & H) cap js pre pos r x o l c E P I OL L.
  set (p0 := pos + length w1).
  set (key := mkTok TString (S p0) (Some (S p0 + length b)) 0 (Some o)).
  set (l1 := upd_tok l o add_size ++ [key]).
  assert (L1 : length l1 = S (length l)) by (unfold l1; rewrite app_length, upd_len; cbn; lia).
  assert (NK : nth_error l1 (length l) = Some key).
  { unfold l1. rewrite nth_error_app2, upd_len, Nat.sub_diag by (rewrite upd_len; lia). reflexivity. }
  assert (PR : prim_refused l1 (Some (length l)) = Some false) by (unfold prim_refused; now rewrite NK).
  destruct (H cap js (pre ++ w1 ++ 34%N :: b ++ 34%N :: w2 ++ 58%N :: w3) (S (S (S p0 + length b) + length w2) + length w3)
              (w4 ++ x :: r) (Some (length l)) l1 (S c)) as (seg & LS & SO & RUN & _ & DU).
  { rewrite E. now assoc. } { unfold p0. subst pos. lens. } { right. now apply delim_in. } { eapply refused_in, PR. } { assumption. } { lia. }
  exists (add_size key), seg. split; [assumption|]. split; [apply seg_cons; [reflexivity|reflexivity|now rewrite <- L1]|].
  split; [reflexivity|]. split; [reflexivity|]. split.
  - rewrite lrun_blanks by assumption. fold p0. erewrite lrun_string; [|exact OL|lia|apply (body_scan _ _ HB)].
    cbn [bumped]. fold key l1. rewrite lrun_blanks by assumption.
    rewrite lrun_colon by (unfold l1; now destruct (upd_tok l o add_size)).
    rewrite lrun_blanks by assumption. replace (length l1 - 1) with (length l) by lia. rewrite RUN. cbn [bumped]. unfold l1.
    replace (upd_tok (upd_tok l o add_size ++ [key]) (length l) add_size) with (upd_tok l o add_size ++ [add_size key]).
    2: { pose proof (upd_app2_0 (upd_tok l o add_size) key [] add_size) as U. rewrite upd_len in U. symmetry; exact U. }
    rewrite <- app_assoc. cbn [app]. rewrite lrun_blanks by assumption. unfold p0. f_equal; lens.
  - intros A B f LA LF. split.
    + destruct f as [|f]; [lia|].
      eapply (D_text js (pre ++ w1) 34%N b (34%N :: w2 ++ 58%N :: w3 ++ t ++ w4 ++ x :: r)); try reflexivity; try assumption.
      * rewrite E. now assoc.
      * discriminate.
      * now apply body_coded.
      * cbn. unfold p0. subst pos. lens.
      * cbn. unfold p0. subst pos. do 2 f_equal. lens.
    + rewrite <- L1. replace (A ++ (add_size key :: seg) ++ B) with ((A ++ [add_size key]) ++ seg ++ B) by (now assoc).
      rewrite DU; [f_equal; f_equal; f_equal; lia|rewrite app_length; cbn; lia|lia].
Qed.
Lemma member_count : forall w1 w2 w3 w4 b k v t n, blanks w1 -> blanks w2 -> blanks w3 -> blanks w4 -> body b k -> Pn v t n ->
  forall r x pos c, In x [44; 93; 125]%N ->
    crun (w1 ++ 34%N :: b ++ 34%N :: w2 ++ 58%N :: w3 ++ t ++ w4 ++ x :: r) pos c =
    crun (x :: r) (pos + length (w1 ++ 34%N :: b ++ 34%N :: w2 ++ 58%N :: w3 ++ t ++ w4)) (c + S n).
Proof.
  intros w1 w2 w3 w4 b k v t n W1 W2 W3 W4 HB (H & _) r x pos c I. rewrite crun_blanks by assumption.
  erewrite crun_string; [|apply (body_scan _ _ HB)]. rewrite crun_blanks by assumption.
  rewrite crun_skip by (cbn; tauto). rewrite crun_blanks by assumption. rewrite H by (right; now apply delim_in).
  rewrite crun_blanks by assumption. f_equal; lens.
Qed.
Lemma members_last : forall w1 w2 w3 w4 b k v t, blanks w1 -> blanks w2 -> blanks w3 -> blanks w4 -> body b k -> Pval v t ->
  Pmem [(k, v)] (w1 ++ 34%N :: b ++ 34%N :: w2 ++ 58%N :: w3 ++ t ++ w4).
Proof.
  intros w1 w2 w3 w4 b k v t W1 W2 W3 W4 HB (n & H). exists (S n). split.
  - intros r pos c. rewrite <- (member_count _ _ _ _ _ _ _ _ _ W1 W2 W3 W4 HB H) by (cbn; tauto). now assoc.
  - intros cap js pre pos r o l c E P OL L.
    destruct (member_step _ _ _ _ _ _ _ _ _ W1 W2 W3 W4 HB H cap js pre pos r 125%N o l c)
      as (key & seg & LS & SO & KT & KP & RUN & DU); try assumption.
    { rewrite E. now assoc. } { cbn; tauto. }
    exists (key :: seg), (Some (length l)). split; [cbn; lia|]. split; [assumption|]. split.
    + cbn [length]. rewrite <- upd_one, <- RUN. now assoc.
    + intros A B f acc LA LF. cbn [length]. destruct (DU A B f LA LF) as (D1 & D2).
      rewrite dump_map_S, D1. cbn [obind]. rewrite D2. reflexivity.
Qed.
Lemma members_more : forall w1 w2 w3 w4 b k v t kvs u, blanks w1 -> blanks w2 -> blanks w3 -> blanks w4 -> body b k -> Pval v t ->
  Pmem kvs u -> Pmem ((k, v) :: kvs) (w1 ++ 34%N :: b ++ 34%N :: w2 ++ 58%N :: w3 ++ t ++ w4 ++ 44%N :: u).
Proof.
  intros w1 w2 w3 w4 b k v t kvs u W1 W2 W3 W4 HB (n & H) (m & K1 & K2). exists (S n + m).
  set (mt := w1 ++ 34%N :: b ++ 34%N :: w2 ++ 58%N :: w3 ++ t ++ w4).
  assert (MT : length (w1 ++ 34%N :: b ++ 34%N :: w2 ++ 58%N :: w3 ++ t ++ w4 ++ 44%N :: u) = length mt + S (length u)) by (unfold mt; lens).
  split.
  - intros r pos c. rewrite MT. assoc. rewrite (member_count _ _ _ _ _ _ _ _ _ W1 W2 W3 W4 HB H) by (cbn; tauto).
    rewrite crun_skip by (cbn; tauto). fold mt. rewrite K1. f_equal; lia.
  - intros cap js pre pos r o l c E P OL L.
    destruct (member_step _ _ _ _ _ _ _ _ _ W1 W2 W3 W4 HB H cap js pre pos (u ++ 125%N :: r) 44%N o l c)
      as (key & seg & LS & SO & KT & KP & RUN & DU); try assumption.
    { rewrite E. now assoc. } { cbn; tauto. } { lia. }
    fold mt in RUN. set (l1 := upd_tok l o add_size ++ key :: seg) in *.
    assert (L1 : length l1 = length l + S n) by (unfold l1; rewrite app_length, upd_len; cbn; lia).
    assert (NK : nth_error l1 (length l) = Some key).
    { unfold l1. rewrite nth_error_app2, upd_len, Nat.sub_diag by (rewrite upd_len; lia). reflexivity. }
    destruct (K2 cap js (pre ++ mt ++ [44%N]) (S (pos + length mt)) r o l1 (c + S n)) as (seg2 & s' & LS2 & SO2 & RUN2 & DU2).
    { rewrite E. unfold mt. now assoc. } { subst pos. lens. } { lia. } { lia. }
    exists ((key :: seg) ++ seg2), s'. split; [rewrite app_length; cbn; lia|]. split.
    { apply seg_app; [assumption|]. cbn [length]. rewrite LS, <- L1. assumption. } split.
    + rewrite MT. assoc. rewrite RUN. rewrite (lrun_comma _ _ _ _ _ _ _ NK), KT, KP, RUN2. unfold l1.
      rewrite upd_app1 by (now rewrite upd_len). rewrite upd_addn. cbn [length]. rewrite <- app_assoc. f_equal; lia.
    + intros A B f acc LA LF. cbn [length]. destruct (DU A (seg2 ++ B) f LA ltac:(lia)) as (D1 & D2).
      rewrite <- (app_assoc (key :: seg)). rewrite dump_map_S, D1. cbn [obind]. rewrite D2. cbn [obind].
      rewrite <- L1. rewrite (app_assoc A (key :: seg)). rewrite DU2; [|rewrite app_length; cbn; lia|lia].
      f_equal. f_equal. f_equal. lia.
Qed.
Lemma map_case : forall kvs t, Pmem kvs t -> Pval (denotes kvs) (123%N :: t ++ [125%N]).
Proof.
  intros kvs t (n & H1 & H2). exists (S n). split.
  - intros r pos c _. assoc. rewrite (crun_open true), H1. rewrite (crun_close true). f_equal; lens.
  - intros cap js pre pos r s l c E P _ SI PR L.
    set (o := length l). set (ob := mkTok TObject pos None 0 s). set (l1 := bumped l s ++ [ob]).
    assert (LB : length (bumped l s) = o) by apply bumped_len.
    assert (L1 : length l1 = S o) by (unfold l1; rewrite app_length, LB; cbn; lia).
    destruct (H2 cap js (pre ++ [123%N]) (S pos) r o l1 (S c)) as (seg & s' & LS & SO & RUN & DU).
    { rewrite E. now assoc. } { subst pos. lens. } { lia. } { lia. }
    exists (set_end (S (S pos + length t)) (addn (length kvs) ob) :: seg).
    split; [cbn; lia|]. split; [apply seg_cons; [reflexivity|reflexivity|now rewrite <- L1]|]. split; [|split].
    + assoc. rewrite (lrun_open cap true) by (assumption || lia). fold ob l1. fold o. rewrite RUN.
      unfold l1. rewrite <- LB, upd_app2_0. rewrite <- app_assoc. cbn [app].
      rewrite (walk_run cap true); [|reflexivity|reflexivity|apply seg_inside; rewrite LB; now rewrite <- L1].
      cbn [addn k_parent ob]. f_equal; lens.
    + intros t2 E2. now eexists _, _.
    + intros A B f LA LF. destruct f as [|f]; [lia|]. unfold D. cbn [dump]. fold o in LA |- *. rewrite <- LA, dump_nth.
      cbn [k_end k_start k_type k_size set_end addn ob].
      assert (LJ : length js = length pre + (2 + length t) + length r) by (rewrite E; lens). rewrite LJ. subst pos.
      destruct (Nat.leb_spec (length pre + (2 + length t) + length r) (length pre)); [lia|].
      destruct (Nat.ltb_spec (S (S (length pre) + length t)) (length pre)); [lia|].
      destruct (Nat.ltb_spec (length pre + (2 + length t) + length r) (S (S (length pre) + length t) - length pre)); [lia|]. cbn [orb].
      rewrite Nat.add_0_r. rewrite LA, <- L1.
      match goal with |- context [dump room readn name js (A ++ (?tk :: seg) ++ B)] =>
        replace (A ++ (tk :: seg) ++ B) with ((A ++ [tk]) ++ seg ++ B) by (now assoc) end.
      change (dump room readn name) with D. rewrite DU; [|rewrite app_length; cbn; lia|lia].
      cbn [obind]. unfold denotes. rewrite puts_denotes. f_equal; f_equal; f_equal; lia.
Qed.

Theorem grammar : (forall v t, jval number v t -> Pval v t) /\ (forall l t, jelems number l t -> Pel l t) /\
  (forall kvs t, jmembers number kvs t -> Pmem kvs t).
Proof.
  apply json_ind.
  - apply (prim_case JNil 110%N [117; 108; 108]%N); [reflexivity|repeat (constructor; [lia|]); constructor|reflexivity].
  - apply (prim_case (JBool true) 116%N [114; 117; 101]%N); [reflexivity|repeat (constructor; [lia|]); constructor|reflexivity].
  - apply (prim_case (JBool false) 102%N [97; 108; 115; 101]%N); [reflexivity|repeat (constructor; [lia|]); constructor|reflexivity].
  - intros x t ((c & r & -> & C) & S0) NX. apply prim_case.
    + unfold starts_prim. destruct C as [->|C]; [reflexivity|]. destruct (N.leb_spec 48 c); [|lia]. destruct (N.leb_spec c 57); [|lia].
      cbn. now rewrite orb_true_r.
    + assumption.
    + intros js pre r0 ->. rewrite slice_mid. cbn [obind]. unfold number in NX. rewrite NX. cbn [obind].
      rewrite !(proj2 (N.eqb_neq c _)) by (destruct C; lia).
      destruct C as [->|C]; [reflexivity|]. destruct (N.leb_spec 48 c); [|lia]. destruct (N.leb_spec c 57); [|lia].
      cbn. now rewrite orb_true_r.
  - intros b t H. now apply text_case.
  - intros w H. now apply list_empty_case.
  - intros l t _ H. now apply list_case.
  - intros w H. now apply map_empty_case.
  - intros kvs t _ H. now apply map_case.
  - intros w1 w2 v t W1 W2 _ H. now apply elems_last.
  - intros w1 w2 v t l u W1 W2 _ H _ K. now apply elems_more.
  - intros w1 w2 w3 w4 b k v t W1 W2 W3 W4 HB _ H. now apply members_last.
  - intros w1 w2 w3 w4 b k v t l u W1 W2 W3 W4 HB _ H _ K. now apply members_more.
Qed.
End Grammar.
