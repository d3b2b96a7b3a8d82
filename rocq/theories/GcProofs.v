From Verif Require Import Common GcModel GcSpec.

Lemma points_edges o x : points o x <-> exists e, In e (edges o) /\ target e = x.
Proof.
  unfold points, is_element, is_key, is_value, edges. split.
  - intros [[A I]|[(v & [I|I])|(k & [I|I])]].
    + exists (Follow x). rewrite A. split; auto. apply in_or_app. left. now apply in_map.
    + exists (Touch x). split; auto. rewrite !in_app_iff. right. left. apply in_flat_map.
      exists (x, v). simpl. auto.
    + exists (Touch x). split; auto. rewrite !in_app_iff. right. right. apply in_flat_map.
      exists (x, v). simpl. auto.
    + exists (Follow x). split; auto. rewrite !in_app_iff. right. left. apply in_flat_map.
      exists (k, x). simpl. auto.
    + exists (Follow x). split; auto. rewrite !in_app_iff. right. right. apply in_flat_map.
      exists (k, x). simpl. auto.
  - intros (e & I & <-). rewrite !in_app_iff in I. destruct I as [I|[I|I]].
    + destruct (o_array o); [|destruct I]. apply in_map_iff in I. destruct I as (y & <- & I). auto.
    + apply in_flat_map in I. destruct I as ((k & v) & I & [<-|[<-|[]]]); simpl; eauto.
    + apply in_flat_map in I. destruct I as ((k & v) & I & [<-|[<-|[]]]); simpl; eauto.
Qed.
Lemma touch_key o k : In (Touch k) (edges o) -> is_key o k.
Proof.
  unfold edges, is_key. rewrite !in_app_iff. intros [I|[I|I]].
  - destruct (o_array o); [|destruct I]. apply in_map_iff in I. destruct I as (y & E & I). discriminate.
  - apply in_flat_map in I. destruct I as ((k' & v) & I & [E|[E|[]]]); inversion E; subst; eauto.
  - apply in_flat_map in I. destruct I as ((k' & v) & I & [E|[E|[]]]); inversion E; subst; eauto.
Qed.

(** Heaps up to marks. *)
Definition bare (o : obj) : obj := with_mark o false.
Definition shape (h : heap) : heap := map (fun io => (fst io, bare (snd io))) h.
Lemma get_shape h i : get (shape h) i = option_map bare (get h i).
Proof.
  induction h as [|[j o] h IH]; simpl; auto. destruct (Nat.eqb i j); auto.
Qed.
Lemma shape_get h h' i o : shape h = shape h' -> get h i = Some o ->
  exists o', get h' i = Some o' /\ bare o' = bare o.
Proof.
  intros S G. pose proof (get_shape h i) as A. pose proof (get_shape h' i) as B.
  rewrite S, B, G in A. simpl in A. destruct (get h' i) as [o'|]; [|discriminate].
  exists o'. split; [reflexivity|].
  assert (F : forall a b : obj, Some a = Some b -> a = b) by (intros a b E; now injection E).
  exact (F _ _ A).
Qed.
Lemma bare_points o o' x : bare o = bare o' -> points o x -> points o' x.
Proof.
  intros E. assert (points (bare o) x -> points (bare o') x) by (now rewrite E). exact H.
Qed.
Lemma bare_edges o o' : bare o = bare o' -> edges o = edges o'.
Proof. intros E. change (edges (bare o) = edges (bare o')). now rewrite E. Qed.
Lemma bare_key o o' k : bare o = bare o' -> is_key o k -> is_key o' k.
Proof. intros E. assert (is_key (bare o) k -> is_key (bare o') k) by (now rewrite E). exact H. Qed.

Definition marked (h : heap) (i : oid) : Prop := exists o, get h i = Some o /\ o_mark o = true.

Lemma shape_put h i b : shape (put_mark h i b) = shape h.
Proof.
  induction h as [|[j o] h IH]; simpl; auto. destruct (Nat.eqb i j); simpl; auto. now rewrite IH.
Qed.
Lemma get_put h i b j : get (put_mark h i b) j =
  if Nat.eqb i j then option_map (fun o => with_mark o b) (get h j) else get h j.
Proof.
  induction h as [|[k o] h IH]; simpl.
  - destruct (Nat.eqb i j); reflexivity.
  - destruct (Nat.eqb i k) eqn:A; simpl.
    + apply Nat.eqb_eq in A. subst k. rewrite (Nat.eqb_sym j i).
      destruct (Nat.eqb i j) eqn:B; auto.
    + destruct (Nat.eqb j k) eqn:B; auto.
      apply Nat.eqb_eq in B. subst k. now rewrite A.
Qed.
Lemma marked_put h i j : marked (put_mark h i true) j <->
  (marked h j \/ (j = i /\ exists o, get h i = Some o)).
Proof.
  unfold marked. rewrite get_put. destruct (Nat.eqb i j) eqn:E.
  - apply Nat.eqb_eq in E. subst j. destruct (get h i) as [o|]; simpl; split.
    + intros _. right. eauto.
    + intros _. eexists. split; [reflexivity|reflexivity].
    + intros (o & A & _). discriminate.
    + intros [(o & A & _)|(_ & o & A)]; discriminate.
  - apply Nat.eqb_neq in E. split; [tauto|]. intros [A|[A _]]; [auto|congruence].
Qed.

(** Number of objects without mark. *)
Fixpoint unmarked (h : heap) : nat :=
  match h with [] => 0 | (_, o) :: r => (if o_mark o then 0 else 1) + unmarked r end.
Lemma unmarked_put h i : unmarked (put_mark h i true) <= unmarked h.
Proof.
  induction h as [|[j o] h IH]; simpl; auto. destruct (Nat.eqb i j); simpl; [destruct (o_mark o)|]; lia.
Qed.
Lemma unmarked_put_lt h i o : get h i = Some o -> o_mark o = false ->
  S (unmarked (put_mark h i true)) = unmarked h.
Proof.
  induction h as [|[j x] h IH]; simpl; [discriminate|]. destruct (Nat.eqb i j); simpl.
  - intros E M. injection E as ->. rewrite M. simpl. lia.
  - intros E M. rewrite <- (IH E M). lia.
Qed.
Lemma unmarked_len h : unmarked h <= length h.
Proof. induction h as [|[j o] h IH]; simpl; [lia|]. destruct (o_mark o); lia. Qed.

Section Mark.
(** The heap before marking, up to marks, and the set of objects that may be visited. *)
Variable h0 : heap.
Variable Q : oid -> Prop.
Hypothesis Q_closed : forall x, Q x -> exists o, get h0 x = Some o /\ forall y, points o y -> Q y.
Hypothesis Q_keys : forall x o k ok y, Q x -> get h0 x = Some o -> is_key o k ->
  get h0 k = Some ok -> ~ points ok y.

Definition succ (x y : oid) : Prop := exists o, get h0 x = Some o /\ points o y.

Definition good_step (h h' : heap) : Prop :=
  shape h' = shape h0 /\
  (forall x, marked h x -> marked h' x) /\
  unmarked h' <= unmarked h /\
  (forall x, marked h' x -> ~ marked h x -> exists y, Q y /\ succ y x) /\
  (forall x y, marked h' x -> ~ marked h x -> succ x y -> marked h' y).

Lemma marked_dec h x : marked h x \/ ~ marked h x.
Proof.
  unfold marked. destruct (get h x) as [o|].
  - destruct (o_mark o) eqn:M; [left; eauto|]. right. intros (o' & E & N). congruence.
  - right. intros (o' & E & _). discriminate.
Qed.

Lemma good_refl h : shape h = shape h0 -> good_step h h.
Proof. intros S. repeat split; auto; intros; contradiction. Qed.

Lemma good_trans a b c : good_step a b -> good_step b c -> good_step a c.
Proof.
  intros (S1 & G1 & U1 & R1 & K1) (S2 & G2 & U2 & R2 & K2). repeat split; auto; try lia.
  - intros x M N. destruct (marked_dec b x) as [MB|NB]; auto.
  - intros x y M N SU. destruct (marked_dec b x) as [MB|NB]; eauto.
Qed.

Lemma visit_ok rec : (* the recursive call works on objects of Q with enough fuel *)
  forall n,
  (forall h x, shape h = shape h0 -> Q x -> unmarked h < n ->
     exists h', rec h x = GOk h' /\ good_step h h' /\ (forall y, succ x y -> marked h' y)) ->
  forall i es, Q i -> (forall e, In e es -> exists o, get h0 i = Some o /\ In e (edges o)) ->
  forall h, shape h = shape h0 -> unmarked h <= n ->
  exists h', visit rec h es = GOk h' /\ good_step h h' /\
             (forall e, In e es -> marked h' (target e)).
Proof.
  intros n REC i es QI. induction es as [|e es IH]; intros ES h SH UN.
  - exists h. split; [reflexivity|]. split; [now apply good_refl|]. intros e [].
  - destruct (ES e (or_introl eq_refl)) as (o & G0 & IE).
    assert (PT : points o (target e)) by (apply points_edges; eauto).
    assert (SU : succ i (target e)) by (exists o; auto).
    assert (QT : Q (target e)).
    { destruct (Q_closed i QI) as (o' & G' & C). rewrite G0 in G'. injection G' as <-. auto. }
    destruct (Q_closed _ QT) as (ot & GT & _).
    destruct (shape_get h0 h _ ot (eq_sym SH) GT) as (ot' & GT' & BT).
    assert (ES' : forall e0, In e0 es -> exists o0, get h0 i = Some o0 /\ In e0 (edges o0)).
    { intros e0 I0. apply ES. now right. }
    destruct e as [x|k]; simpl in *.
    + rewrite GT'. destruct (o_mark ot') eqn:M.
      * destruct (IH ES' h SH UN) as (h' & V & GS & MT). exists h'. split; [exact V|].
        split; [exact GS|]. intros e [<-|I]; [|auto]. simpl.
        destruct GS as (_ & GR & _). apply GR. exists ot'. auto.
      * set (h1 := put_mark h x true).
        assert (S1 : shape h1 = shape h0) by (unfold h1; rewrite shape_put; auto).
        pose proof (unmarked_put_lt h x ot' GT' M) as U1. fold h1 in U1.
        destruct (REC h1 x S1 QT) as (h2 & E2 & G2 & SC2); [lia|].
        rewrite E2.
        assert (U2 : unmarked h2 <= n) by (destruct G2 as (_ & _ & U2 & _); lia).
        destruct (IH ES' h2 (proj1 G2) U2) as (h' & V & G3 & MT).
        exists h'. split; [exact V|].
        assert (NX : ~ marked h x). { intros (z & Z1 & Z2). congruence. }
        assert (M1 : marked h1 x). { apply marked_put. right. eauto. }
        assert (G12 : good_step h h2).
        { destruct G2 as (S2 & GR2 & UU2 & R2 & K2). split; [exact S2|].
          split. { intros z MZ. apply GR2. apply marked_put. auto. }
          split; [lia|]. split.
          - intros z MZ NZ. destruct (marked_dec h1 z) as [MZ1|NZ1]; [|auto].
            apply marked_put in MZ1. destruct MZ1 as [?|[-> _]]; [contradiction|]. eauto.
          - intros z y MZ NZ SZ. destruct (marked_dec h1 z) as [MZ1|NZ1]; [|eauto].
            apply marked_put in MZ1. destruct MZ1 as [?|[-> _]]; [contradiction|]. auto. }
        split; [eapply good_trans; eauto|].
        intros e [<-|I]; [|auto]. simpl. destruct G3 as (_ & GR3 & _). apply GR3.
        destruct G2 as (_ & GR2 & _). auto.
    + rewrite GT'. set (h1 := put_mark h k true).
      assert (S1 : shape h1 = shape h0) by (unfold h1; rewrite shape_put; auto).
      pose proof (unmarked_put h k) as U1. fold h1 in U1.
      destruct (IH ES' h1 S1) as (h' & V & G3 & MT); [lia|].
      exists h'. split; [exact V|].
      assert (LEAF : forall y, ~ succ k y).
      { intros y (ok & GK & PK). exact (Q_keys i o k ok y QI G0 (touch_key _ _ IE) GK PK). }
      assert (G1 : good_step h h1).
      { split; [exact S1|]. split. { intros z MZ. apply marked_put. auto. }
        split; [lia|]. split.
        - intros z MZ NZ. apply marked_put in MZ. destruct MZ as [?|[-> _]]; [contradiction|]. eauto.
        - intros z y MZ NZ SZ. apply marked_put in MZ. destruct MZ as [?|[-> _]]; [contradiction|].
          elim (LEAF y SZ). }
      split; [eapply good_trans; eauto|].
      intros e [<-|I]; [|auto]. simpl. destruct G3 as (_ & GR3 & _). apply GR3.
      apply marked_put. right. eauto.
Qed.

Lemma mark_ok fuel : forall h i, shape h = shape h0 -> Q i -> unmarked h < fuel ->
  exists h', gc_mark fuel h i = GOk h' /\ good_step h h' /\ (forall y, succ i y -> marked h' y).
Proof.
  induction fuel as [|f IH]; intros h i SH QI UN; [lia|].
  destruct (Q_closed i QI) as (o0 & G0 & _).
  destruct (shape_get h0 h i o0 (eq_sym SH) G0) as (o & G & B).
  destruct (visit_ok (gc_mark f) f IH i (edges o) QI) with (h := h) as (h' & V & GS & MT); auto.
  - intros e IE. exists o0. split; auto. rewrite <- (bare_edges o o0 B). auto.
  - lia.
  - exists h'. simpl. rewrite G. split; [exact V|]. split; [exact GS|].
    intros y (o' & G' & P). rewrite G0 in G'. injection G' as <-.
    apply points_edges in P. destruct P as (e & IE & <-). apply MT.
    rewrite (bare_edges o o0 B). auto.
Qed.

Lemma roots_ok fuel rs : (forall c, In c rs -> Q c) -> forall h, shape h = shape h0 ->
  unmarked h < fuel ->
  exists h', mark_roots fuel h rs = GOk h' /\ good_step h h' /\
             (forall c y, In c rs -> succ c y -> marked h' y).
Proof.
  induction rs as [|c rs IH]; intros QR h SH UN.
  - exists h. split; [reflexivity|]. split; [now apply good_refl|]. intros c y [].
  - destruct (mark_ok fuel h c SH (QR c (or_introl eq_refl)) UN) as (h1 & E1 & G1 & M1).
    destruct (IH (fun x I => QR x (or_intror I)) h1 (proj1 G1)) as (h2 & E2 & G2 & M2).
    { destruct G1 as (_ & _ & U & _). lia. }
    exists h2. simpl. rewrite E1. split; [exact E2|]. split; [eapply good_trans; eauto|].
    intros x y [<-|I] SU; [|eauto]. destruct G2 as (_ & GR & _). auto.
Qed.

End Mark.

Lemma get_in h i o : get h i = Some o -> In (i, o) h.
Proof.
  induction h as [|[j x] h IH]; simpl; [discriminate|]. destruct (Nat.eqb i j) eqn:E; auto.
  apply Nat.eqb_eq in E. intros H. injection H as ->. subst. auto.
Qed.
Lemma in_get h i o : NoDup (map fst h) -> In (i, o) h -> get h i = Some o.
Proof.
  induction h as [|[j x] h IH]; simpl; [tauto|]. intros ND I. inversion ND as [|? ? N1 N2]; subst.
  destruct I as [E|I].
  - injection E as -> ->. now rewrite Nat.eqb_refl.
  - destruct (Nat.eqb i j) eqn:E; auto. apply Nat.eqb_eq in E. subst. elim N1.
    change j with (fst (j, o)). now apply in_map.
Qed.
Lemma shape_ids h : map fst (shape h) = map fst h.
Proof. unfold shape. rewrite map_map. now apply map_ext. Qed.

Lemma get_sweep h i : NoDup (map fst h) ->
  get (gc_sweep false h) i = match get h i with
                             | Some o => if o_mark o || o_sticky o then Some (with_mark o false) else None
                             | None => None
                             end.
Proof.
  induction h as [|[j o] h IH]; simpl; auto. intros ND. inversion ND as [|? ? N1 N2]; subst.
  rewrite orb_false_r. destruct (Nat.eqb i j) eqn:E.
  - apply Nat.eqb_eq in E. subst j.
    destruct (o_mark o), (o_sticky o); simpl; rewrite ?Nat.eqb_refl; auto.
    rewrite IH by auto. destruct (get h i) as [o'|] eqn:G; auto.
    apply get_in in G. elim N1. change i with (fst (i, o')). now apply in_map.
  - destruct (negb (o_mark o) && negb (o_sticky o)); simpl; rewrite ?E; auto.
Qed.
Lemma sweep_ids h : NoDup (map fst h) -> NoDup (map fst (gc_sweep false h)).
Proof.
  induction h as [|[j o] h IH]; simpl; auto. intros ND. inversion ND as [|? ? N1 N2]; subst.
  rewrite orb_false_r.
  destruct (negb (o_mark o) && negb (o_sticky o)); simpl; auto. constructor; auto.
  intros H. apply N1. apply in_map_iff in H. destruct H as ((k & x) & E & I). simpl in E. subst k.
  unfold gc_sweep in I. apply in_flat_map in I. destruct I as ((k & y) & I & C). simpl in C.
  destruct (_ || _); [destruct C|]. destruct C as [C|[]]. injection C as -> _.
  change j with (fst (j, y)). now apply in_map.
Qed.
Lemma sweep_unmarked h i o : In (i, o) (gc_sweep false h) -> o_mark o = false.
Proof.
  unfold gc_sweep. rewrite in_flat_map. intros ((k & y) & I & C). simpl in C.
  destruct (_ || _); [destruct C|]. destruct C as [C|[]]. injection C as _ <-. reflexivity.
Qed.

Lemma clear_shape h : (forall i o, In (i, o) h -> o_mark o = false) -> shape h = h.
Proof.
  induction h as [|[j o] h IH]; simpl; auto. intros M. rewrite IH by eauto. do 2 f_equal.
  specialize (M j o (or_introl eq_refl)). destruct o; simpl in *. unfold bare, with_mark. simpl.
  now rewrite M.
Qed.

(** The collection keeps exactly the sticky and the reachable objects, unchanged. *)
Lemma collect_exact h roots fuel : sound h roots -> plain_keys h roots -> length h < fuel ->
  exists h', gc_collect fuel h roots = GOk h' /\
    (forall i o, get h' i = Some o <->
       get h i = Some o /\ (o_sticky o = true \/ reach h roots i)) /\
    sound h' roots /\ plain_keys h' roots /\ (forall x, reach h' roots x <-> reach h roots x).
Proof.
  intros [SR SC SM SI] PK FU.
  set (Q := fun x => In x roots \/ reach h roots x).
  assert (QC : forall x, Q x -> exists o, get h x = Some o /\ forall y, points o y -> Q y).
  { intros x [I|R].
    - destruct (SR x I) as (o & G & _). exists o. split; auto. intros y P. right.
      eapply reach_root; eauto.
    - destruct (SC x R) as (o & G). exists o. split; auto. intros y P. right.
      eapply reach_step; eauto. }
  assert (QK : forall x o k ok y, Q x -> get h x = Some o -> is_key o k ->
                 get h k = Some ok -> ~ points ok y) by exact PK.
  pose proof (unmarked_len h) as UL.
  destruct (roots_ok h Q QC QK fuel roots) with (h := h) as (h1 & E1 & G1 & M1); auto.
  { intros c I. now left. } { lia. }
  destruct G1 as (S1 & GR1 & _ & R1 & K1).
  assert (CL : forall x, ~ marked h x).
  { intros x (o & G & M). apply get_in in G. apply SM in G. congruence. }
  assert (MR : forall x, marked h1 x <-> reach h roots x).
  { intros x. split.
    - intros M. destruct (R1 x M (CL x)) as (y & [I|R] & o & G & P).
      + eapply reach_root; eauto.
      + eapply reach_step; eauto.
    - induction 1 as [c o x I G P|y o x R IH G P].
      + apply (M1 c x I). exists o. auto.
      + apply (K1 y x IH (CL y)). exists o. auto. }
  assert (ND1 : NoDup (map fst h1)).
  { rewrite <- (shape_ids h1), S1, shape_ids. auto. }
  assert (GE : forall i o, get (gc_sweep false h1) i = Some o <->
       get h i = Some o /\ (o_sticky o = true \/ reach h roots i)).
  { intros i o. rewrite (get_sweep h1 i ND1).
    assert (B : option_map bare (get h1 i) = get h i).
    { rewrite <- get_shape, S1, get_shape.
      destruct (get h i) as [x|] eqn:G; auto. simpl. f_equal. apply get_in in G. apply SM in G.
      destruct x; simpl in *. unfold bare, with_mark. simpl. now rewrite G. }
    destruct (get h1 i) as [o1|] eqn:G1; simpl in B.
    - specialize (MR i). unfold marked in MR. rewrite G1 in MR. rewrite <- B. fold (bare o1).
      destruct (o_mark o1) eqn:M; simpl.
      + split.
        * intros E. split; auto. right. apply MR. eauto.
        * tauto.
      + destruct (o_sticky o1) eqn:ST; simpl.
        * split; [|tauto]. intros E. split; auto. left. injection E as <-. exact ST.
        * split; [discriminate|]. intros [E [S'|R]].
          -- injection E as <-. simpl in S'. congruence.
          -- apply MR in R. destruct R as (o' & E' & M'). congruence.
    - rewrite <- B. split; [discriminate|]. intros [E _]. discriminate. }
  exists (gc_sweep false h1). unfold gc_collect. rewrite E1. split; [reflexivity|].
  split; [exact GE|].
  assert (RE : forall x, reach (gc_sweep false h1) roots x <-> reach h roots x).
  { intros x. split.
    - induction 1 as [c o x I G P|y o x R IH G P].
      + apply GE in G. eapply reach_root; [exact I|apply G|exact P].
      + apply GE in G. eapply reach_step; [exact IH|apply G|exact P].
    - intros R. induction R as [c o x I G P|y o x R IH G P].
      + eapply reach_root; [exact I| |exact P]. apply GE. split; auto.
        destruct (SR c I) as (o' & G' & ST). left. congruence.
      + eapply reach_step; [exact IH| |exact P]. apply GE. auto. }
  split; [|split; [|exact RE]].
  - constructor.
    + intros c I. destruct (SR c I) as (o & G & ST). exists o. split; auto. apply GE. auto.
    + intros x R. apply RE in R. destruct (SC x R) as (o & G). exists o. apply GE. auto.
    + intros i o. apply sweep_unmarked.
    + now apply sweep_ids.
  - intros x o k ok y QX G IK GK. apply GE in G. apply GE in GK.
    eapply PK; [|apply G|exact IK|apply GK].
    destruct QX as [I|R]; [auto|]. right. now apply RE.
Qed.

(** A second collection in a row changes nothing. *)
Lemma collect_idempotent h roots fuel h1 : sound h roots -> plain_keys h roots -> length h < fuel ->
  gc_collect fuel h roots = GOk h1 ->
  exists h2, gc_collect fuel h1 roots = GOk h2 /\ forall i, get h2 i = get h1 i.
Proof.
  intros S P F E. destruct (collect_exact h roots fuel S P F) as (h' & E' & G & S1 & P1 & R).
  rewrite E in E'. injection E' as <-.
  assert (L : length h1 <= length h).
  { unfold gc_collect in E. destruct (mark_roots fuel h roots) as [hm| |] eqn:M; try discriminate.
    injection E as <-.
    assert (SH : length hm = length h).
    { set (Q := fun x => In x roots \/ reach h roots x).
      destruct (roots_ok h Q) with (fuel := fuel) (rs := roots) (h := h) as (hm' & EM & GS & _).
      - intros x [I|RR].
        + destruct (s_roots _ _ S x I) as (o & GG & _). exists o. split; auto. intros y PP. right.
          eapply reach_root; eauto.
        + destruct (s_reach _ _ S x RR) as (o & GG). exists o. split; auto. intros y PP. right.
          eapply reach_step; eauto.
      - exact P.
      - intros c I. now left.
      - reflexivity.
      - pose proof (unmarked_len h). lia.
      - rewrite M in EM. injection EM as <-. destruct GS as (SS & _).
        assert (LL : length (shape hm) = length (shape h)) by now rewrite SS.
        unfold shape in LL. rewrite !map_length in LL. exact LL. }
    rewrite <- SH. clear. induction hm as [|[j o] hm IH]; simpl; [lia|].
    rewrite app_length. destruct (_ || _); simpl; lia. }
  destruct (collect_exact h1 roots fuel S1 P1) as (h2 & E2 & G2 & _); [lia|].
  exists h2. split; [exact E2|]. intros i.
  destruct (get h1 i) as [o|] eqn:GI.
  - apply G2. split; auto. apply G in GI. destruct GI as [_ [ST|RR]]; auto. right. now apply R.
  - destruct (get h2 i) as [o|] eqn:GI2; auto. apply G2 in GI2. destruct GI2 as [GI2 _]. congruence.
Qed.

(** The final sweep removes everything. *)
Lemma sweep_all h : gc_sweep true h = [].
Proof. induction h as [|[j o] h IH]; simpl; auto. rewrite orb_true_r. auto. Qed.

(** Prototypes survive if they are permanent or also reachable in another way. *)
Lemma collect_links h roots fuel h' : sound h roots -> plain_keys h roots -> length h < fuel ->
  (forall i o p, get h i = Some o -> (In i roots \/ reach h roots i) -> o_link o = Some p ->
     exists po, get h p = Some po /\ (o_sticky po = true \/ reach h roots p)) ->
  gc_collect fuel h roots = GOk h' ->
  forall i o p, get h i = Some o -> (In i roots \/ reach h roots i) -> o_link o = Some p ->
    exists po, get h' p = Some po /\ get h p = Some po.
Proof.
  intros S P F L E i o p G R LK. destruct (collect_exact h roots fuel S P F) as (h1 & E' & GE & _).
  rewrite E in E'. injection E' as <-. destruct (L i o p G R LK) as (po & GP & A).
  exists po. split; auto. apply GE. auto.
Qed.
