(** Garbage collection: property theorems. *)
From Verif Require Import Common GcModel GcSpec GcProofs.

(** A demonstration heap.  0 is the world (scope), 1 a second scope; 10 and 11 are names;
    2 is a list holding 3 and 4, 3 and 4 refer to each other; 5 and 6 are a garbage cycle;
    7 is a permanent object nobody refers to. *)
Definition leaf (b : bool) (n : N) : obj :=
  {| o_array := false; o_elems := []; o_props := []; o_meths := []; o_link := None;
     o_sticky := b; o_mark := false; o_data := n |}.
Definition node (arr : bool) (es : list oid) (ps ms : list (oid * oid)) (l : option oid)
  (b : bool) (n : N) : obj :=
  {| o_array := arr; o_elems := es; o_props := ps; o_meths := ms; o_link := l;
     o_sticky := b; o_mark := false; o_data := n |}.
Definition demo : heap :=
  [ (0, node false [] [(10, 2)] [] None true 0);
    (1, node false [] [(11, 4)] [] None true 1);
    (2, node true [3; 4] [] [] (Some 7) false 2);
    (3, node false [] [(10, 4)] [] None false 3);
    (4, node false [] [] [(11, 3)] None false 4);
    (5, node true [6] [] [] None false 5);
    (6, node true [5] [] [] None false 6);
    (7, leaf true 7); (10, leaf false 8); (11, leaf false 9) ]%nat.
Definition kept (r : gres) : list oid := match r with GOk h => map fst h | _ => [] end.

(** * C36, full statement: with prototypes counted and without assuming anything about keys,
    [forall h roots, sound h roots -> reach_link h roots x -> x survives unchanged].
    It is false twice (see the refutations).  Proved: it holds for references through
    elements, property and method keys and values, when key objects are plain, and then
    nothing else survives but permanent objects; all of it for cyclic graphs of any size,
    and the marking needs no more recursion depth than there are objects. *)
Theorem C36_collect_exact_partial : forall h roots fuel,
  sound h roots -> plain_keys h roots -> length h < fuel ->
  exists h', gc_collect fuel h roots = GOk h' /\
    (forall i o, get h' i = Some o <->
       get h i = Some o /\ (o_sticky o = true \/ reach h roots i)) /\
    sound h' roots /\ plain_keys h' roots /\ (forall x, reach h' roots x <-> reach h roots x).
Proof. exact collect_exact. Qed.
Print Assumptions C36_collect_exact_partial.

Lemma demo_sound : sound demo [1; 0]%nat /\ plain_keys demo [1; 0]%nat.
Proof.
  assert (R : forall x, reach demo [1; 0]%nat x -> In x [2; 3; 4; 10; 11]%nat).
  { assert (ST : forall y o x, In y [0; 1; 2; 3; 4; 10; 11]%nat -> get demo y = Some o -> points o x ->
                   In x [2; 3; 4; 10; 11]%nat).
    { intros y o x I G P. apply points_edges in P. destruct P as (e & IE & <-).
      simpl in I.
      decompose [or] I; try contradiction; subst y; vm_compute in G; injection G as <-; simpl in IE;
        decompose [or] IE; try contradiction; subst e; simpl; tauto. }
    intros x R. induction R as [c o x I G P|y o x R IH G P].
    - eapply ST; [|exact G|exact P]. simpl in I |- *. tauto.
    - eapply ST; [|exact G|exact P]. simpl in IH |- *. tauto. }
  split.
  - constructor.
    + intros c [<-|[<-|[]]]; eexists; split; reflexivity.
    + intros x H. apply R in H. simpl in H.
      decompose [or] H; try contradiction; subst x; eexists; reflexivity.
    + intros i o I. simpl in I. decompose [or] I; try contradiction;
        match goal with E : (_, _) = (_, _) |- _ => injection E as _ <- end; reflexivity.
    + simpl. repeat (constructor; [simpl; intuition discriminate|]). constructor.
  - intros x o k ok y QX G IK GK P.
    assert (KX : In k [10; 11]%nat).
    { destruct IK as (v & [I|I]); apply get_in in G; simpl in G;
        decompose [or] G; try contradiction;
        match goal with E : (_, _) = (_, _) |- _ => injection E as _ <- end; simpl in I;
        decompose [or] I; try contradiction;
        match goal with E : (_, _) = (_, _) |- _ => injection E as <- _ end; simpl; tauto. }
    apply points_edges in P. destruct P as (e & IE & _).
    destruct KX as [<-|[<-|[]]]; vm_compute in GK; injection GK as <-; exact IE.
Qed.
Example C36_example : kept (gc_collect 11 demo [1; 0]%nat) = [0; 1; 2; 3; 4; 7; 10; 11]%nat.
Proof. vm_compute. reflexivity. Qed.

(** A second collection in a row removes nothing more. *)
Theorem C36_collect_stable : forall h roots fuel h1,
  sound h roots -> plain_keys h roots -> length h < fuel -> gc_collect fuel h roots = GOk h1 ->
  exists h2, gc_collect fuel h1 roots = GOk h2 /\ forall i, get h2 i = get h1 i.
Proof. exact collect_idempotent. Qed.
Print Assumptions C36_collect_stable.

(** Prototypes stay when they are permanent (all the built-in ones but Clock are) or
    reachable in another way. *)
Theorem C36_prototypes_partial : forall h roots fuel h',
  sound h roots -> plain_keys h roots -> length h < fuel ->
  (forall i o p, get h i = Some o -> (In i roots \/ reach h roots i) -> o_link o = Some p ->
     exists po, get h p = Some po /\ (o_sticky po = true \/ reach h roots p)) ->
  gc_collect fuel h roots = GOk h' ->
  forall i o p, get h i = Some o -> (In i roots \/ reach h roots i) -> o_link o = Some p ->
    exists po, get h' p = Some po /\ get h p = Some po.
Proof. exact collect_links. Qed.
Print Assumptions C36_prototypes_partial.
Example C36_prototypes_example : exists h' po,
  gc_collect 11 demo [1; 0]%nat = GOk h' /\ o_link (node true [3; 4]%nat [] [] (Some 7%nat) false 2) = Some 7%nat /\
  get h' 7 = Some po.
Proof. eexists. eexists. split; [vm_compute; reflexivity|]. split; reflexivity. Qed.

(** At the end of the program everything is released. *)
Theorem C36_final_sweep : forall h, gc_sweep true h = [].
Proof. exact sweep_all. Qed.
Print Assumptions C36_final_sweep.

(** An object reachable only as a prototype is freed while an object made from it lives. *)
Theorem C36_prototype_refuted : exists h roots h' i p,
  sound h roots /\ plain_keys h roots /\ reach h roots i /\ reach_link h roots p /\
  gc_collect 10 h roots = GOk h' /\
  (exists o, get h' i = Some o /\ o_link o = Some p) /\ get h' p = None.
Proof.
  exists [ (0, node false [] [(2, 3)] [] None true 0); (2, leaf false 1);
           (3, node false [] [] [] (Some 4) false 2); (4, leaf false 3) ]%nat, [0]%nat.
  eexists. exists 3%nat, 4%nat.
  set (h := [_; _; _; _]).
  assert (R3 : reach h [0]%nat 3).
  { eapply reach_root; [left; reflexivity|reflexivity|]. right. right. exists 2%nat. left. now left. }
  assert (R : forall x, reach h [0]%nat x -> In x [2; 3]%nat).
  { assert (ST : forall y o x, In y [0; 2; 3]%nat -> get h y = Some o -> points o x -> In x [2; 3]%nat).
    { intros y o x I G P. apply points_edges in P. destruct P as (e & IE & <-). simpl in I.
      decompose [or] I; try contradiction; subst y; vm_compute in G; injection G as <-; simpl in IE;
        decompose [or] IE; try contradiction; subst e; simpl; tauto. }
    intros x RX. induction RX as [c o x I G P|y o x RX IH G P].
    - eapply ST; [|exact G|exact P]. simpl in I |- *. tauto.
    - eapply ST; [|exact G|exact P]. simpl in IH |- *. tauto. }
  split; [|split; [|split; [exact R3|split]]].
  - constructor.
    + intros c [<-|[]]; eexists; split; reflexivity.
    + intros x H. apply R in H. simpl in H.
      decompose [or] H; try contradiction; subst x; eexists; reflexivity.
    + intros i o I. simpl in I. decompose [or] I; try contradiction;
        match goal with E : (_, _) = (_, _) |- _ => injection E as _ <- end; reflexivity.
    + simpl. repeat (constructor; [simpl; intuition discriminate|]). constructor.
  - intros x o k ok y QX G IK GK P.
    assert (KX : k = 2%nat).
    { destruct IK as (v & [I|I]); apply get_in in G; simpl in G;
        decompose [or] G; try contradiction;
        match goal with E : (_, _) = (_, _) |- _ => injection E as _ <- end; simpl in I;
        decompose [or] I; try contradiction;
        match goal with E : (_, _) = (_, _) |- _ => injection E as <- _ end; reflexivity. }
    subst k. apply points_edges in P. destruct P as (e & IE & _).
    vm_compute in GK. injection GK as <-. exact IE.
  - eapply rl_step with (y := 3%nat); [|reflexivity|right; reflexivity].
    eapply rl_root; [left; reflexivity|reflexivity|]. left. right. right. exists 2%nat. left. now left.
  - split; [vm_compute; reflexivity|]. split; [eexists; split; reflexivity|reflexivity].
Qed.
Print Assumptions C36_prototype_refuted.

(** An object that is used as a key is marked without looking inside; when it is met again
    as a value it already has its mark and is skipped, so what it refers to is freed. *)
Theorem C36_key_contents_refuted : exists h roots h' k m,
  sound h roots /\ reach h roots m /\
  gc_collect 10 h roots = GOk h' /\
  (exists o, get h' k = Some o /\ points o m) /\ get h' m = None.
Proof.
  (* the world has a variable (name 2) holding the text 3; 3 is its own key in map 5 (name 4);
     3 carries an own property (name 6) with value 7 *)
  exists [ (0, node false [] [(4, 5); (2, 3)] [] None true 0); (2, leaf false 1); (4, leaf false 2);
           (5, node false [] [(3, 2)] [] None false 3); (3, node false [] [(6, 7)] [] None false 4);
           (6, leaf false 5); (7, leaf false 6) ]%nat, [0]%nat.
  eexists. exists 3%nat, 7%nat.
  set (h := [_; _; _; _; _; _; _]).
  assert (R : forall x, reach h [0]%nat x -> In x [2; 3; 4; 5; 6; 7]%nat).
  { assert (ST : forall y o x, In y [0; 2; 3; 4; 5; 6; 7]%nat -> get h y = Some o -> points o x ->
                   In x [2; 3; 4; 5; 6; 7]%nat).
    { intros y o x I G P. apply points_edges in P. destruct P as (e & IE & <-). simpl in I.
      decompose [or] I; try contradiction; subst y; vm_compute in G; injection G as <-; simpl in IE;
        decompose [or] IE; try contradiction; subst e; simpl; tauto. }
    intros x RX. induction RX as [c o x I G P|y o x RX IH G P].
    - eapply ST; [|exact G|exact P]. simpl in I |- *. tauto.
    - eapply ST; [|exact G|exact P]. simpl in IH |- *. tauto. }
  split; [|split].
  - constructor.
    + intros c [<-|[]]; eexists; split; reflexivity.
    + intros x H. apply R in H. simpl in H.
      decompose [or] H; try contradiction; subst x; eexists; reflexivity.
    + intros i o I. simpl in I. decompose [or] I; try contradiction;
        match goal with E : (_, _) = (_, _) |- _ => injection E as _ <- end; reflexivity.
    + simpl. repeat (constructor; [simpl; intuition discriminate|]). constructor.
  - eapply reach_step with (y := 3%nat); [|reflexivity|].
    + eapply reach_root; [left; reflexivity|reflexivity|]. right. right. exists 2%nat. left. simpl. auto.
    + right. right. exists 6%nat. left. now left.
  - split; [vm_compute; reflexivity|]. split; [|reflexivity].
    eexists. split; [reflexivity|]. right. right. exists 6%nat. left. now left.
Qed.
Print Assumptions C36_key_contents_refuted.

(** A permanent object that no scope refers to survives but its contents do not: it is left
    with references to freed objects. *)
Theorem C36_permanent_contents_refuted : exists h roots h' i x,
  sound h roots /\ plain_keys h roots /\
  (forall j o y, get h j = Some o -> points o y -> exists oy, get h y = Some oy) /\
  gc_collect 10 h roots = GOk h' /\
  (exists o, get h' i = Some o /\ points o x) /\ get h' x = None.
Proof.
  exists [ (0, leaf true 0); (3, node true [4] [] [] None true 2); (4, leaf false 3) ]%nat, [0]%nat.
  eexists. exists 3%nat, 4%nat.
  set (h := [_; _; _]).
  assert (NP : forall x, ~ points (leaf true 0) x).
  { intros x P. apply points_edges in P. destruct P as (e & IE & _). exact IE. }
  assert (R : forall x, ~ reach h [0]%nat x).
  { intros x RX. induction RX as [c o x I G P|y o x RX IH G P]; [|exact IH].
    destruct I as [<-|[]]. vm_compute in G. injection G as <-. exact (NP x P). }
  split; [|split; [|split]].
  - constructor.
    + intros c [<-|[]]; eexists; split; reflexivity.
    + intros x H. elim (R x H).
    + intros i o I. simpl in I. decompose [or] I; try contradiction;
        match goal with E : (_, _) = (_, _) |- _ => injection E as _ <- end; reflexivity.
    + simpl. repeat (constructor; [simpl; intuition discriminate|]). constructor.
  - intros x o k ok y [I|QX] G IK GK P; [|elim (R x QX)].
    destruct I as [<-|[]]. vm_compute in G. injection G as <-.
    apply (NP k). right. now left.
  - intros j o y G P. apply get_in in G. apply points_edges in P. destruct P as (e & IE & <-).
    simpl in G. decompose [or] G; try contradiction;
      match goal with E : (_, _) = (_, _) |- _ => injection E as _ <- end; simpl in IE;
      decompose [or] IE; try contradiction; subst e; eexists; reflexivity.
  - split; [vm_compute; reflexivity|]. split; [|reflexivity].
    eexists. split; [reflexivity|]. left. split; [reflexivity|now left].
Qed.
Print Assumptions C36_permanent_contents_refuted.
