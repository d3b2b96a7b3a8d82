(** Proofs about the exported tree: it determines the program. *)
From Verif Require Import Common NumModel NumSpec NumProofs ErrModel ParseModel ExpModel.
Local Open Scope N_scope.

(** ** Numbers before a semicolon *)
Definition plain_c (c : N) : Prop := c <> 59 /\ c <> 93.
Lemma written_plain z : Forall plain_c (written_int z).
Proof.
  assert (D : forall n, Forall plain_c (dec n)).
  { intros n. destruct (dec_spec n) as (_ & D & _). revert D. apply Forall_impl. intros c. unfold digit, plain_c. lia. }
  unfold written_int. destruct (z <? 0)%Z; [constructor; [unfold plain_c; lia|]|]; apply D.
Qed.
Lemma written_ne z : written_int z <> [].
Proof. unfold written_int. destruct (z <? 0)%Z; [discriminate|]. apply dec_spec. Qed.
Lemma dec_inj n m : dec n = dec m -> n = m.
Proof. intros E. destruct (dec_spec n) as (_ & _ & _ & A), (dec_spec m) as (_ & _ & _ & B). rewrite E in A. lia. Qed.
Lemma dec_no_minus n r : dec n <> 45 :: r.
Proof. intros E. destruct (dec_spec n) as (_ & D & _). rewrite E in D. inversion D as [|? ? C _]. unfold digit in C. lia. Qed.
Lemma written_inj a b : written_int a = written_int b -> a = b.
Proof.
  unfold written_int. destruct (Z.ltb_spec a 0), (Z.ltb_spec b 0); intros E.
  - injection E as E. apply dec_inj in E. lia.
  - symmetry in E. now apply dec_no_minus in E.
  - now apply dec_no_minus in E.
  - apply dec_inj in E. lia.
Qed.
Lemma upto_inj a : forall b r s, Forall (fun c => c <> 59) a -> Forall (fun c => c <> 59) b -> a ++ 59 :: r = b ++ 59 :: s -> a = b /\ r = s.
Proof.
  induction a as [|c a IH]; intros [|d b] r s A B E; cbn [app] in E.
  - injection E as ->. auto.
  - injection E as <- _. inversion B; congruence.
  - injection E as -> _. inversion A; congruence.
  - injection E as -> E. inversion A; inversion B; subst. destruct (IH b r s) as [-> ->]; auto.
Qed.
Lemma written_semi z : Forall (fun c => c <> 59) (written_int z).
Proof. eapply Forall_impl; [|apply written_plain]. unfold plain_c. tauto. Qed.
Lemma dec_semi n : Forall (fun c => c <> 59) (dec n).
Proof. destruct (dec_spec n) as (_ & D & _). revert D. apply Forall_impl. intros c. unfold digit. lia. Qed.
Lemma app_len_inj {A} (a : list A) : forall b r s, length a = length b -> a ++ r = b ++ s -> a = b /\ r = s.
Proof. induction a as [|c a IH]; intros [|d b] r s L E; try discriminate; [auto|]. cbn in *. injection E as -> E. destruct (IH b r s) as [-> ->]; auto. Qed.

(** ** Trees *)
Lemma tree_ind' (P : tree -> Prop) : (forall ty m v ns, Forall P ns -> P (T ty m v ns)) -> forall t, P t.
Proof.
  intros H. fix F 1. intros [ty m v ns]. apply H. induction ns as [|n ns IH]; [constructor|]. constructor; [apply F|exact IH].
Qed.
Lemma item_head t : exists c r, item t = c :: r /\ c <> 93.
Proof.
  destruct t as [ty m v ns]. cbn [item]. pose proof (written_ne ty) as NE. pose proof (written_plain ty) as P. destruct (written_int ty) as [|c w]; [congruence|].
  inversion P as [|? ? C _]; subst. cbn [app]. eexists. eexists. split; [reflexivity|]. apply C.
Qed.
Definition unique (t : tree) : Prop := forall u r s, item t ++ r = item u ++ s -> t = u /\ r = s.
Lemma forest_unique l : Forall unique l -> forall l' r s, concat (map item l) ++ 93 :: r = concat (map item l') ++ 93 :: s -> l = l' /\ r = s.
Proof.
  induction 1 as [|t l U _ IH]; intros [|u l'] r s E; cbn [map concat app] in E.
  - injection E as ->. auto.
  - destruct (item_head u) as (c & w & EU & NC). rewrite EU in E. cbn [app] in E. injection E as <- _. congruence.
  - destruct (item_head t) as (c & w & ET & NC). rewrite ET in E. cbn [app] in E. injection E as -> _. congruence.
  - rewrite <- !app_assoc in E. apply U in E. destruct E as [-> E]. apply IH in E. destruct E as [-> ->]. auto.
Qed.
Lemma item_unique t : unique t.
Proof.
  induction t as [ty m v ns IH] using tree_ind'. intros [ty' m' v' ns'] r s E. cbn [item] in E. rewrite <- !app_assoc in E. cbn [app] in E.
  apply upto_inj in E; [|apply written_semi..]. destruct E as [E1 E]. apply written_inj in E1. subst ty'.
  apply upto_inj in E; [|apply written_semi..]. destruct E as [E1 E]. apply written_inj in E1. subst m'.
  apply upto_inj in E; [|apply dec_semi..]. destruct E as [E1 E]. apply dec_inj in E1. apply Nat2N.inj in E1.
  apply app_len_inj in E; [|exact E1]. destruct E as [-> E]. injection E as E.
  destruct ns as [|n ns], ns' as [|n' ns']; cbn [app] in E.
  - injection E as ->. auto.
  - discriminate.
  - discriminate.
  - injection E as E. rewrite <- !app_assoc in E. cbn [app] in E. 
    assert (E2 : concat (map item (n :: ns)) ++ 93 :: 59 :: r = concat (map item (n' :: ns')) ++ 93 :: 59 :: s) by (cbn [map concat]; rewrite <- !app_assoc; exact E).
    apply (forest_unique (n :: ns) IH (n' :: ns')) in E2. destruct E2 as [-> E2]. clear E. rename E2 into E. injection E as ->. auto.
Qed.
(** a forest at the end of a text *)
Lemma forest_end l : forall l', concat (map item l) = concat (map item l') -> l = l'.
Proof.
  induction l as [|t l IH]; intros [|u l'] E; cbn [map concat] in E; [reflexivity| | |].
  - destruct (item_head u) as (c & w & EU & _). rewrite EU in E. discriminate.
  - destruct (item_head t) as (c & w & ET & _). rewrite ET in E. discriminate.
  - apply item_unique in E. destruct E as [-> E]. f_equal. apply IH, E.
Qed.

(** ** Programs *)
Lemma map_inj {A B} (f : A -> B) l : (forall x, In x l -> forall y, f x = f y -> x = y) -> forall l', map f l = map f l' -> l = l'.
Proof.
  induction l as [|x l IH]; intros H [|y l'] E; try discriminate; [reflexivity|]. cbn [map] in E. assert (E1 : f x = f y) by congruence. assert (E2 : map f l = map f l') by congruence.
  f_equal; [apply H; [now left|exact E1]|]. apply IH; [|exact E2]. intros z I. apply H. now right.
Qed.
Lemma parameter_inj a b : parameter a = parameter b -> a = b. Proof. now intros [= ->]. Qed.
Fixpoint nsize (n : node) : nat :=
  match n with
  | NRef _ _ | NStr _ | NNum _ => 1
  | NNested e | NRet e => S (nsize e)
  | NBlock _ body => S (list_sum (map nsize body))
  | NExpr r ms => S (nsize r + list_sum (map msize ms))
  | NAssign r e => S (nsize r + nsize e)
  end
with msize (m : msg) : nat :=
  match m with MUna _ | MNone => 1 | MBin _ a => S (nsize a) | MKw _ args => S (list_sum (map nsize args)) end.
Lemma sum_in {A} (f : A -> nat) l x : In x l -> (f x <= list_sum (map f l))%nat.
Proof. induction l as [|y l IH]; intros []; cbn [map list_sum fold_right]; [subst; lia|]. apply IH in H. unfold list_sum in *. lia. Qed.
Lemma nodes_inj k : (forall n, (nsize n <= k)%nat -> forall n', of_node n = of_node n' -> n = n') /\
                    (forall m, (msize m <= k)%nat -> forall m', of_msg m = of_msg m' -> m = m').
Proof.
  induction k as [|k [IN IM]].
  - split; [intros []|intros []]; cbn; lia.
  - split.
    + intros n L n' E. destruct n as [m v|v|v|e|ps body|r ms|r e|e], n' as [m' v'|v'|v'|e'|ps' body'|r' ms'|r' e'|e']; cbn [of_node] in E; try discriminate E; cbn [nsize] in L.
      * injection E as A ->. f_equal. lia.
      * now injection E as ->.
      * now injection E as ->.
      * injection E as A. f_equal. apply IN; [lia|exact A].
      * injection E as A B. f_equal; [apply (map_inj parameter); [intros; now apply parameter_inj|exact A]|].
        apply (map_inj of_node); [|exact B]. intros x I. apply IN. pose proof (sum_in nsize body x I). lia.
      * injection E as A B. f_equal; [apply IN; [lia|exact A]|]. apply (map_inj of_msg); [|exact B]. intros x I. apply IM. pose proof (sum_in msize ms x I). lia.
      * injection E as A B. f_equal; apply IN; (lia || assumption).
      * injection E as A. f_equal. apply IN; [lia|exact A].
    + intros m L m' E. destruct m as [v|v a|v args|], m' as [v'|v' a'|v' args'|]; cbn [of_msg] in E; try discriminate E; cbn [msize] in L.
      * now injection E as ->.
      * injection E as -> A. f_equal. apply IN; [lia|exact A].
      * injection E as -> B. f_equal. apply (map_inj of_node); [|exact B]. intros x I. apply IN. pose proof (sum_in nsize args x I). lia.
      * reflexivity.
Qed.
Lemma node_inj n n' : of_node n = of_node n' -> n = n'. Proof. apply (proj1 (nodes_inj (nsize n))). lia. Qed.
Lemma export_text p : export p = Ok (concat (map item (map of_node p ++ [end_of_program]))).
Proof. unfold export, export_tree, of_program. destruct (map of_node p ++ [end_of_program]) eqn:E; [destruct p; discriminate|reflexivity]. Qed.
Lemma export_inj p q t : export p = Ok t -> export q = Ok t -> p = q.
Proof.
  rewrite !export_text. intros A B. assert (E : concat (map item (map of_node p ++ [end_of_program])) = concat (map item (map of_node q ++ [end_of_program]))) by congruence.
  apply forest_end in E. apply app_inj_tail in E. destruct E as [E _]. apply (map_inj of_node) in E; [exact E|]. intros x _. apply node_inj.
Qed.
