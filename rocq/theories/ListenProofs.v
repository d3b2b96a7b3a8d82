(** Proofs about listeners (ListenModel.v). *)
From Coq Require Import ZArith Lia.
From Verif Require Import Common CodecSpec ListenSpec ListenModel.

Lemma teq : forall a b : text, text_eqb a b = true <-> a = b.
Proof.
  induction a as [|x a IH]; destruct b as [|y b]; simpl; split; intros H; try congruence; auto.
  - apply andb_true_iff in H as [H1 H2]. apply N.eqb_eq in H1. apply IH in H2. congruence.
  - injection H as -> ->. rewrite N.eqb_refl. simpl. now apply IH.
Qed.
Lemma teqf : forall a b : text, text_eqb a b = false <-> a <> b.
Proof. intros a b. rewrite <- teq. destruct (text_eqb a b); split; congruence. Qed.

Lemma find_own : forall ms o n, find ms o n = own ms o n.
Proof.
  unfold own. induction ms as [|[[o' n'] m] r IH]; intros o n; simpl; auto.
  unfold same at 1; simpl. destruct (Nat.eqb o' o) eqn:E; simpl; [|apply IH].
  destruct (text_eqb n' n) eqn:F; destruct (list_eq_dec N.eq_dec n' n) as [G|G]; simpl; auto.
  - apply teq in F. contradiction.
  - apply teqf in F. contradiction.
Qed.
Lemma lookup_answer : forall ms c n, lookup [] ms c n = answer ms c n.
Proof.
  unfold answer. induction c as [|o r IH]; intros n; simpl; auto.
  rewrite find_own. destruct (own ms o n) as [m|]; simpl; [|apply IH].
  destruct m; reflexivity.
Qed.

Definition flag (f : flags) (k : kind) : bool :=
  match k with
  | Step => f_step f | Timer => f_timer f | KeyUp => f_keyup f | KeyDown => f_keydown f | Click => f_click f
  | PadDown => f_paddown f | PadUp => f_padup f
  end.

Section P.
Variables (names : kind -> text) (ending : text) (chain proto : list nat) (react : list heard -> nat -> list cmd).
Variables (button : nat -> text) (abxy : nat -> bool) (up : text) (media : nat -> bool).
Hypothesis apart : told_apart names.

Lemma set_flag_same : forall f k v, flag (set_flag names f (names k) v) k = v.
Proof.
  intros f k v. unfold set_flag.
  repeat match goal with
         | |- context [text_eqb ?a ?b] =>
             let E := fresh in destruct (text_eqb a b) eqn:E; [apply teq in E; apply apart in E; subst k; reflexivity|apply teqf in E]
         end.
  destruct k; congruence.
Qed.
Lemma set_flag_other : forall f n k v, n <> names k -> flag (set_flag names f n v) k = flag f k.
Proof.
  intros f n k v H. unfold set_flag.
  repeat match goal with
         | |- context [text_eqb ?a ?b] =>
             let E := fresh in destruct (text_eqb a b) eqn:E; [apply teq in E; subst n; destruct k; simpl; congruence|]
         end.
  reflexivity.
Qed.
Lemma set_flag_true : forall f n k, flag f k = true -> flag (set_flag names f n true) k = true.
Proof.
  intros f n k H. destruct (list_eq_dec N.eq_dec n (names k)) as [->|N].
  - apply set_flag_same.
  - now rewrite set_flag_other.
Qed.

(** who listens in the chain has a flag *)
Definition inv (s : st) : Prop := forall k b, answer (methods s) chain (names k) = Some (User b) -> flag (fl s) k = true.
Definition same_as (s : st) (p : scene) : Prop :=
  methods s = table_of p /\ flow s = failed p /\ brk s = leaving p /\ fx s = remapped p /\ seen s = log p.
Definition calm (s : st) : Prop := forall k, answer (methods s) chain (names k) <> Some Ends.
Definition R (s : st) (p : scene) : Prop := same_as s p /\ (flow s = true \/ inv s) /\ calm s.

Lemma own_cons : forall ms o n m o' n', own ((o, n, m) :: ms) o' n' = if same o o' n n' then Some m else own ms o' n'.
Proof. intros. unfold own; simpl. destruct (same o o' n n'); reflexivity. Qed.

Lemma answer_cong : forall ms ms' c n n', (forall o, In o c -> own ms o n = own ms' o n') -> answer ms c n = answer ms' c n'.
Proof.
  intros ms ms' c n n' H. unfold answer.
  assert (flat_map (fun o => match own ms o n with Some m => [m] | None => [] end) c =
          flat_map (fun o => match own ms' o n' with Some m => [m] | None => [] end) c) as ->; [|reflexivity].
  induction c as [|x c IH]; simpl; auto. rewrite (H x) by (now left). rewrite IH; auto. intros o K. apply H. now right.
Qed.
Lemma answer_cons_name : forall ms o n m c n', n <> n' -> answer ((o, n, m) :: ms) c n' = answer ms c n'.
Proof.
  intros ms o n m c n' H. apply answer_cong. intros x _. rewrite own_cons.
  unfold same. destruct (list_eq_dec N.eq_dec n n'); [contradiction|]. now rewrite andb_false_r.
Qed.
Lemma answer_cons_out : forall ms o n m c n', ~ In o c -> answer ((o, n, m) :: ms) c n' = answer ms c n'.
Proof.
  intros ms o n m c n' H. apply answer_cong. intros x K. rewrite own_cons.
  unfold same. destruct (Nat.eqb o x) eqn:E; auto. apply Nat.eqb_eq in E. subst. contradiction.
Qed.
Lemma answer_cons_ends : forall ms o n b c n', answer ((o, n, User b) :: ms) c n' = Some Ends -> answer ms c n' = Some Ends.
Proof.
  intros ms o n b c n'. unfold answer. induction c as [|x c IH]; simpl; auto.
  rewrite own_cons. destruct (same o x n n'); simpl; [discriminate|]. destruct (own ms x n'); simpl; auto.
Qed.

Definition place (o : nat) (n : text) : Prop := media o = true \/ ~ In o chain \/ forall k, n <> names k.

Lemma on_do_inv : forall s o n i b, inv s -> place o n ->
  inv (if media o then media_on_do names s o n i (Block b) else object_on_do s o n i (Block b)).
Proof.
  intros s o n i b I P. destruct (media o) eqn:M.
  - intros k b' H. unfold media_on_do in *. unfold object_on_do in *. destruct i; simpl in *.
    + destruct (list_eq_dec N.eq_dec n (names k)) as [->|N].
      * apply set_flag_same.
      * rewrite answer_cons_name in H by auto. apply set_flag_true. now apply (I k b').
    + apply set_flag_true. now apply (I k b').
  - intros k b' H. unfold object_on_do in *. destruct i; simpl in *.
    + destruct P as [P|[P|P]]; [congruence| |].
      * rewrite answer_cons_out in H by auto. now apply (I k b').
      * rewrite answer_cons_name in H by auto. now apply (I k b').
    + now apply (I k b').
Qed.

(** flags after something under [Caught] *)
Lemma thing_inv : forall s o n i, inv s ->
  inv (if media o then media_on_do names s o n i Thing else object_on_do s o n i Thing).
Proof.
  intros s o n i I. destruct (media o); intros k b' H; unfold media_on_do in *; unfold object_on_do in *; destruct i; simpl in *;
    try apply set_flag_true; now apply (I k b').
Qed.
Lemma nothing_inv : forall s o n i, inv s -> (forall k, n <> names k) ->
  inv (if media o then media_on_do names s o n i Nothing else object_on_do s o n i Nothing).
Proof.
  intros s o n i I P. destruct (media o); intros k b' H; unfold media_on_do in *; unfold object_on_do in *; destruct i; simpl in *;
    try rewrite set_flag_other by auto; now apply (I k b').
Qed.

Lemma perform_inv_c : forall c s, plain names media chain (Caught c) -> inv s -> inv (perform names media s c).
Proof.
  induction c as [o n i l| | |v|c IH]; intros s P I; simpl; destruct (flow s) eqn:F; auto.
  - destruct l.
    + apply on_do_inv; auto.
    + apply nothing_inv; auto.
    + apply thing_inv; auto.
  - apply (IH s P I).
Qed.
Lemma perform_inv : forall c s, plain names media chain c -> inv s ->
  flow (perform names media s c) = true \/ inv (perform names media s c).
Proof.
  intros c s P I. destruct c as [o n i l| | |v|c]; try (right; apply perform_inv_c; auto; fail).
  - simpl. destruct (flow s) eqn:F; [auto|]. destruct l.
    + right. apply on_do_inv; auto.
    + left. destruct (media o); unfold media_on_do, object_on_do; destruct i; reflexivity.
    + left. destruct (media o); unfold media_on_do, object_on_do; destruct i; reflexivity.
Qed.

Lemma perform_same : forall c s p, same_as s p -> same_as (perform names media s c) (does p c).
Proof.
  induction c as [o n i l| | |v|c IH]; intros s p (H1 & H2 & H3 & H4 & H5); simpl; rewrite H2; destruct (failed p) eqn:F;
    try (repeat split; simpl; congruence).
  - assert (same_as (object_on_do s o n i l)
             (if i then match l with Block b => mkS ((o, n, User b) :: table_of p) false (leaving p) (remapped p) (log p)
              | _ => mkS (table_of p) true (leaving p) (remapped p) (log p) end
              else mkS (table_of p) true (leaving p) (remapped p) (log p))).
    { destruct i, l; repeat split; simpl; congruence. }
    assert (same_as (media_on_do names s o n i l)
             (if i then match l with Block b => mkS ((o, n, User b) :: table_of p) false (leaving p) (remapped p) (log p)
              | _ => mkS (table_of p) true (leaving p) (remapped p) (log p) end
              else mkS (table_of p) true (leaving p) (remapped p) (log p))).
    { destruct i, l; repeat split; simpl; congruence. }
    destruct (media o), i, l; assumption.
  - destruct (IH s p) as (K1 & K2 & K3 & K4 & K5); [repeat split; auto; congruence|].
    repeat split; simpl; auto.
Qed.

Lemma perform_flow : forall c s, flow s = true -> perform names media s c = s.
Proof. destruct c; intros s H; simpl; rewrite H; auto. Qed.
Lemma performs_flow : forall l s, flow s = true -> fold_left (perform names media) l s = s.
Proof. induction l; intros s H; simpl; auto. rewrite perform_flow; auto. Qed.
Lemma does_failed : forall c p, failed p = true -> does p c = p.
Proof. destruct c; intros p H; simpl; rewrite H; auto. Qed.

Lemma perform_calm : forall c s, calm s -> calm (perform names media s c).
Proof.
  induction c as [o n i l| | |v|c IH]; intros s C; simpl; destruct (flow s) eqn:F; auto.
  - assert (calm (object_on_do s o n i l)).
    { destruct i, l; auto. intros k K. simpl in K. apply answer_cons_ends in K. now apply (C k). }
    destruct (media o); auto. intros k K. apply (H k). destruct i, l; exact K.
  - intros k K. simpl in K. now apply (IH s C k).
Qed.
Lemma performs_R : forall l s p, Forall (plain names media chain) l -> R s p ->
  R (fold_left (perform names media) l s) (fold_left does l p).
Proof.
  induction l as [|c l IH]; intros s p P H; simpl; auto.
  apply Forall_cons_iff in P as [P1 P2]. apply IH; auto.
  destruct H as (S & I & C). split; [apply perform_same; auto|]. split; [|now apply perform_calm].
  destruct I as [I|I]; [left; now rewrite perform_flow|apply perform_inv; auto].
Qed.

Hypothesis plays : forall h b, Forall (plain names media chain) (react h b).

Lemma R_log : forall s p f b b' h, R s p -> failed p = false -> f = false -> b = b' ->
  R (mkSt (fl s) (methods s) f b (fx s) (h ++ seen s)) (mkS (table_of p) false b' (remapped p) (h ++ log p)).
Proof.
  intros s p f b b' h ((H1 & H2 & H3 & H4 & H5) & I & C) F -> ->. split; [repeat split; simpl; congruence|]. split; [|exact C].
  destruct I as [I|I]; [congruence|right; exact I].
Qed.
Lemma send_R : forall c s p n a, R s p -> R (send names react media [] c s n a) (say react c p (n, a)).
Proof.
  intros c s p n a H. pose proof H as ((H1 & H2 & H3 & H4 & H5) & I & C).
  unfold send, say. destruct (failed p) eqn:F; [rewrite H2; auto|].
  destruct (flow s) eqn:G; [discriminate|].
  rewrite lookup_answer. cbn [fst snd].
  replace (answer (methods s) c n) with (answer (table_of p) c n) by congruence.
  destruct (answer (table_of p) c n) as [[b| |]|]; auto.
  - replace (react (log p) b) with (react (seen s) b) by congruence. apply performs_R; [apply plays|].
    apply (R_log s p false (brk s) (leaving p) [mkH b n a]); auto.
  - apply (R_log s p false true true []); auto.
Qed.

(** without a flag nobody hears *)
Lemma unheard : forall s p k a, R s p -> flag (fl s) k = false -> say react chain p (names k, a) = p.
Proof.
  intros s p k a ((H1 & H2 & H3 & H4 & H5) & I & C) F. unfold say.
  destruct (failed p) eqn:G; auto. simpl fst.
  destruct (answer (table_of p) chain (names k)) as [[b| |]|] eqn:A; auto.
  - exfalso. destruct I as [I|I]; [congruence|]. rewrite <- H1 in A. apply I in A. congruence.
  - exfalso. apply (C k). now rewrite H1.
Qed.
Lemma flagged_R : forall s p k a, R s p ->
  R (if flag (fl s) k then send names react media [] chain s (names k) a else s) (say react chain p (names k, a)).
Proof.
  intros s p k a H. destruct (flag (fl s) k) eqn:F; [now apply send_R|]. rewrite (unheard s); auto.
Qed.
Lemma timers_R : forall l s p, R s p -> R (timers names chain react media [] s l) (says chain react p (timers_messages names l)).
Proof.
  intros l s p H. unfold timers, says, timers_messages.
  destruct (f_timer (fl s)) eqn:F.
  - clear F. revert s p H. induction l as [|i l IH]; intros s p H; simpl; auto. apply IH. now apply send_R.
  - revert p H. induction l as [|i l IH]; intros p H; simpl; auto.
    rewrite (unheard s p Timer); auto.
Qed.

Lemma polling_R : forall l s p, R s p ->
  R (fst (polling names ending chain proto react button abxy up media [] s l)) (fst (goes names ending chain proto react button abxy up p l)) /\
  snd (polling names ending chain proto react button abxy up media [] s l) = snd (goes names ending chain proto react button abxy up p l).
Proof.
  induction l as [|[d h] l IH]; intros s p H; [simpl; auto|].
  cbn [polling goes].
  pose proof (timers_R d s p H) as K.
  remember (timers names chain react media [] s d) as s1. remember (says chain react p (timers_messages names d)) as p1.
  assert (PAD : forall k (x : arg) (b : nat), R s1 p1 ->
    let s2 := if flag (fl s1) k then send names react media [] chain s1 (names k) [x] else s1 in
    let p2 := says chain react p1 [(names k, [x])] in
    R (if (fx s2 =? 1)%Z && abxy b then send names react media [] chain s2 (names k) [AText up] else s2)
      (says chain react p2 (skipn 1 ((names k, [x]) :: if (remapped p2 =? 1)%Z && abxy b then [(names k, [AText up])] else [])))).
  { intros k x b K1 s2 p2. assert (R s2 p2) as K2 by (apply flagged_R; auto).
    assert (fx s2 = remapped p2) as -> by (destruct K2 as ((_ & _ & _ & ? & _) & _); auto).
    cbn [skipn]. destruct ((remapped p2 =? 1)%Z && abxy b); cbn [says fold_left]; [apply send_R; auto|exact K2]. }
  destruct h as [k|k|lft times x y|b|b| |]; cbn [dispatch messages].
  - apply IH. apply (flagged_R s1 p1 KeyUp [AText k] K).
  - apply IH. apply (flagged_R s1 p1 KeyDown [AText k] K).
  - apply IH. destruct (lft && Nat.eqb times 1); cbn [andb says fold_left]; [|exact K].
    apply (flagged_R s1 p1 Click [ANum x; ANum y] K).
  - apply IH. apply (PAD PadDown (AText (button b)) b K).
  - apply IH. apply (PAD PadUp (AText (button b)) b K).
  - cbn [fst snd]. split; [|reflexivity].
    pose proof (send_R proto s1 p1 ending [] K) as ((H1 & H2 & H3 & H4 & H5) & I & C).
    split; [repeat split; simpl; auto|]. split; [left; reflexivity|exact C].
  - apply IH. exact K.
Qed.

Lemma round_R : forall f s p, R s p ->
  R (fst (round names ending chain proto react button abxy up media [] s f)) (fst (goes_on names ending chain proto react button abxy up p f)) /\
  snd (round names ending chain proto react button abxy up media [] s f) = snd (goes_on names ending chain proto react button abxy up p f).
Proof.
  intros f s p H. unfold round, goes_on.
  assert (flow s = failed p) as -> by (destruct H as ((_ & ? & _) & _); auto).
  destruct (failed p) eqn:F; [simpl; auto|].
  pose proof (flagged_R s p Step [] H) as K. cbn [flag] in K.
  remember (if f_step (fl s) then send names react media [] chain s (names Step) [] else s) as s1.
  cbn [says fold_left]. remember (say react chain p (names Step, [])) as p1.
  assert (brk s1 = leaving p1) as -> by (destruct K as ((_ & _ & ? & _) & _); auto).
  destruct (leaving p1).
  - cbn [fst snd]. split; [|reflexivity]. destruct K as ((H1 & H2 & H3 & H4 & H5) & I & C).
    split; [repeat split; simpl; auto|]. split; [exact I|exact C].
  - apply polling_R. now apply timers_R.
Qed.
Lemma rounds_R : forall l s p, R s p ->
  R (fst (rounds names ending chain proto react button abxy up media [] s l)) (fst (shows names ending chain proto react button abxy up p l)) /\
  snd (rounds names ending chain proto react button abxy up media [] s l) = snd (shows names ending chain proto react button abxy up p l).
Proof.
  induction l as [|f l IH]; intros s p H; [simpl; auto|]. cbn [rounds shows].
  destruct (round_R f s p H) as [K1 K2].
  destruct (round names ending chain proto react button abxy up media [] s f) as [s1 q].
  destruct (goes_on names ending chain proto react button abxy up p f) as [p1 q']. cbn [fst snd] in *. subst q'.
  destruct q; [simpl; auto|]. now apply IH.
Qed.
End P.

(** ** Nothing is invented: what is heard is some of what happened, in that order, once each *)
Lemma among_app {A} : forall (a b c d : list A), among a b -> among c d -> among (a ++ c) (b ++ d).
Proof.
  intros a b c d H. revert c d. induction H; intros c d K; simpl.
  - induction l; simpl; auto. now constructor.
  - constructor; auto.
  - constructor; auto.
Qed.
Lemma among_refl {A} : forall l : list A, among l l.
Proof. induction l; constructor; auto. Qed.
Definition said (h : heard) : text * list arg := (what h, args h).

Section O.
Variables (names : kind -> text) (ending : text) (chain proto : list nat) (react : list heard -> nat -> list cmd).
Variables (button : nat -> text) (abxy : nat -> bool) (up : text) (media : nat -> bool) (busy : list nat).

Definition adds (s s' : st) (m : list (text * list arg)) : Prop :=
  exists l, map said (rev (seen s')) = map said (rev (seen s)) ++ l /\ among l m.
Lemma adds_none : forall s s' m, seen s' = seen s -> adds s s' m.
Proof. intros s s' m E. unfold adds. rewrite E. exists []. split; [now rewrite app_nil_r|constructor]. Qed.
Lemma adds_trans : forall a b c m n, adds a b m -> adds b c n -> adds a c (m ++ n).
Proof.
  intros a b c m n (l & H1 & H2) (k & H3 & H4). exists (l ++ k). split; [rewrite H3, H1; now rewrite app_assoc|now apply among_app].
Qed.

Lemma perform_seen : forall c s, seen (perform names media s c) = seen s.
Proof.
  induction c as [o n i l| | |v|c IH]; intros s; simpl; destruct (flow s); auto.
  - destruct (media o), i, l; reflexivity.
  - simpl. apply IH.
Qed.
Lemma performs_seen : forall l s, seen (fold_left (perform names media) l s) = seen s.
Proof. induction l; intros s; simpl; auto. rewrite IHl. apply perform_seen. Qed.
Lemma send_adds : forall c s n a, adds s (send names react media busy c s n a) [(n, a)].
Proof.
  intros c s n a. unfold send. destruct (flow s) eqn:F; [now apply adds_none|].
  destruct (lookup busy (methods s) c n) as [[b| |]|]; try (now apply adds_none).
  exists [(n, a)]. rewrite performs_seen. simpl. rewrite map_app. split; [reflexivity|apply among_refl].
Qed.
Lemma if_adds : forall (b : bool) s s' m, adds s s' m -> adds s (if b then s' else s) m.
Proof. intros [|] s s' m H; auto. now apply adds_none. Qed.
Lemma timers_adds : forall l s, adds s (timers names chain react media busy s l) (timers_messages names l).
Proof.
  intros l s. unfold timers. apply if_adds. revert s. induction l as [|i l IH]; intros s; simpl; [now apply adds_none|].
  apply (adds_trans s (send names react media busy chain s (names Timer) [ANum i]) _ [(names Timer, [ANum i])]); [apply send_adds|apply IH].
Qed.
Lemma dispatch_adds : forall s h, adds s (fst (dispatch names ending chain proto react button abxy up media busy s h))
  (stands names ending button abxy up h).
Proof.
  intros s h. destruct h as [k|k|lft times x y|b|b| |]; cbn [dispatch stands messages fst].
  - apply if_adds, send_adds.
  - apply if_adds, send_adds.
  - destruct (lft && Nat.eqb times 1); cbn [andb]; [apply if_adds, send_adds|now apply adds_none].
  - cbv zeta.
    assert (K : adds s (if f_paddown (fl s) then send names react media busy chain s (names PadDown) [AText (button b)] else s) [(names PadDown, [AText (button b)])])
      by apply if_adds, send_adds.
    remember (if f_paddown (fl s) then send names react media busy chain s (names PadDown) [AText (button b)] else s) as s2 eqn:E2. clear E2.
    change (?a :: ?l) with ([a] ++ l). apply (adds_trans s s2); [exact K|].
    destruct (abxy b); rewrite ?andb_false_r; cbn [andb]; [rewrite andb_true_r; apply if_adds, send_adds|now apply adds_none].
  - cbv zeta.
    assert (K : adds s (if f_padup (fl s) then send names react media busy chain s (names PadUp) [AText (button b)] else s) [(names PadUp, [AText (button b)])])
      by apply if_adds, send_adds.
    remember (if f_padup (fl s) then send names react media busy chain s (names PadUp) [AText (button b)] else s) as s2 eqn:E2. clear E2.
    change (?a :: ?l) with ([a] ++ l). apply (adds_trans s s2); [exact K|].
    destruct (abxy b); rewrite ?andb_false_r; cbn [andb]; [rewrite andb_true_r; apply if_adds, send_adds|now apply adds_none].
  - destruct (send_adds proto s ending []) as (l & H1 & H2). exists l. auto.
  - now apply adds_none.
Qed.
Lemma polling_adds : forall l s, adds s (fst (polling names ending chain proto react button abxy up media busy s l))
  (flat_map (fun p => timers_messages names (fst p) ++ stands names ending button abxy up (snd p)) l).
Proof.
  induction l as [|[d h] l IH]; intros s; [now apply adds_none|]. cbn [polling flat_map fst snd].
  pose proof (timers_adds d s) as K1. pose proof (dispatch_adds (timers names chain react media busy s d) h) as K2.
  destruct (dispatch names ending chain proto react button abxy up media busy (timers names chain react media busy s d) h) as [s2 q].
  cbn [fst] in K2. pose proof (adds_trans _ _ _ _ _ K1 K2) as K.
  destruct q; cbn [fst].
  - destruct K as (x & X1 & X2). exists x. split; auto.
    rewrite <- (app_nil_r x). apply among_app; [exact X2|constructor].
  - apply (adds_trans _ _ _ _ _ K). apply IH.
Qed.
Lemma round_adds : forall f s, adds s (fst (round names ending chain proto react button abxy up media busy s f)) (may names ending button abxy up f).
Proof.
  intros f s. unfold round, may. destruct (flow s); [now apply adds_none|].
  assert (adds s (if f_step (fl s) then send names react media busy chain s (names Step) [] else s) [(names Step, [])]) as K by apply if_adds, send_adds.
  destruct (if f_step (fl s) then send names react media busy chain s (names Step) [] else s) as [f1 m1 w1 b1 x1 l1] eqn:E.
  cbn [brk]. change (?a :: ?l) with ([a] ++ l). destruct b1.
  - cbn [fst]. destruct K as (l & H1 & H2). exists l. split; [exact H1|].
    rewrite <- (app_nil_r l). apply among_app; [auto|constructor].
  - apply (adds_trans _ _ _ _ _ K). eapply adds_trans; [apply timers_adds|apply polling_adds].
Qed.
Lemma rounds_adds : forall l s, adds s (fst (rounds names ending chain proto react button abxy up media busy s l)) (flat_map (may names ending button abxy up) l).
Proof.
  induction l as [|f l IH]; intros s; [now apply adds_none|]. cbn [rounds flat_map].
  pose proof (round_adds f s) as K.
  destruct (round names ending chain proto react button abxy up media busy s f) as [s1 q]. cbn [fst] in K.
  destruct q; cbn [fst].
  - destruct K as (x & H1 & H2). exists x. split; auto. rewrite <- (app_nil_r x). apply among_app; [auto|constructor].
  - apply (adds_trans _ _ _ _ _ K). apply IH.
Qed.

(** ** After an error nothing is heard *)
Lemma send_flow : forall c s n a, flow s = true -> send names react media busy c s n a = s.
Proof. intros. unfold send. now rewrite H. Qed.
Lemma timers_flow : forall l s, flow s = true -> timers names chain react media busy s l = s.
Proof.
  intros l s H. unfold timers. destruct (f_timer (fl s)); auto. induction l; simpl; auto. now rewrite send_flow.
Qed.
Lemma polling_flow : forall l s, flow s = true ->
  seen (fst (polling names ending chain proto react button abxy up media busy s l)) = seen s /\
  flow (fst (polling names ending chain proto react button abxy up media busy s l)) = true.
Proof.
  induction l as [|[d h] l IH]; intros s H; [simpl; auto|]. cbn [polling].
  rewrite timers_flow by auto.
  assert (forall c n a, (if c : bool then send names react media busy chain s n a else s) = s) as E.
  { intros [|] n a; auto. now apply send_flow. }
  destruct h as [k|k|lft times x y|b|b| |]; cbn [dispatch]; cbv zeta; rewrite ?E; try (now apply IH).
  rewrite send_flow by auto. cbn. auto.
Qed.
Lemma rounds_flow : forall l s, flow s = true ->
  seen (fst (rounds names ending chain proto react button abxy up media busy s l)) = seen s /\
  (l <> [] -> snd (rounds names ending chain proto react button abxy up media busy s l) = true).
Proof. intros [|f l] s H; simpl; [split; [reflexivity|congruence]|]. unfold round. rewrite H. simpl. auto. Qed.
End O.

(** ** Listeners that do nothing of the kind: all of what happened is heard *)
Definition no_quit (f : frame) : Prop := Forall (fun p => snd p <> Quitted) (happened f).

Section T.
Variables (names : kind -> text) (ending : text) (chain proto : list nat).
Variables (button : nat -> text) (abxy : nat -> bool) (up : text) (tbl : table).
Hypothesis calm_tbl : forall k, answer tbl chain (names k) <> Some Ends.
Let react (_ : list heard) (_ : nat) : list cmd := [].
Let sc (l : list heard) : scene := mkS tbl false false 0 l.

Lemma says_static : forall l L, Forall (fun m => exists k, fst m = names k) l ->
  says chain react (sc L) l = sc (rev (flat_map (hears chain tbl) l) ++ L).
Proof.
  induction l as [|m l IH]; intros L H; [reflexivity|].
  apply Forall_cons_iff in H as [[k K] H]. cbn [says fold_left flat_map].
  assert (say react chain (sc L) m = sc (rev (hears chain tbl m) ++ L)) as ->.
  { unfold say, hears, sc. cbn [failed table_of]. pose proof (calm_tbl k) as C. rewrite <- K in C.
    destruct (answer tbl chain (fst m)) as [[b| |]|] eqn:A; try reflexivity. congruence. }
  change (fold_left (say react chain) l ?x) with (says chain react x l).
  rewrite IH by auto. rewrite rev_app_distr, app_assoc. reflexivity.
Qed.
Lemma timers_named : forall l, Forall (fun m : text * list arg => exists k, fst m = names k) (timers_messages names l).
Proof. intros l. apply Forall_forall. intros x H. apply in_map_iff in H as (i & <- & _). now exists Timer. Qed.
Lemma messages_named : forall h b, Forall (fun m => exists k, fst m = names k) (messages names button abxy up b h).
Proof.
  intros h b. destruct h; cbn [messages]; repeat match goal with |- context [if ?x then _ else _] => destruct x end;
    repeat (apply Forall_cons; [eexists; reflexivity|]); apply Forall_nil.
Qed.
Lemma goes_static : forall l L, Forall (fun p => snd p <> Quitted) l ->
  goes names ending chain proto react button abxy up (sc L) l =
  (sc (rev (flat_map (hears chain tbl) (flat_map (fun p => timers_messages names (fst p) ++ messages names button abxy up false (snd p)) l)) ++ L), false).
Proof.
  induction l as [|[d h] l IH]; intros L H; [reflexivity|].
  apply Forall_cons_iff in H as [H1 H2]. cbn [snd] in H1.
  assert (goes names ending chain proto react button abxy up (sc L) ((d, h) :: l) =
          goes names ending chain proto react button abxy up
            (sc (rev (flat_map (hears chain tbl) (timers_messages names d ++ messages names button abxy up false h)) ++ L)) l) as ->.
  { cbn [goes]. rewrite says_static by apply timers_named.
    assert (forall L', says chain react (sc L') (messages names button abxy up false h) =
                       sc (rev (flat_map (hears chain tbl) (messages names button abxy up false h)) ++ L')) as E
      by (intros; apply says_static, messages_named).
    rewrite flat_map_app, rev_app_distr, <- app_assoc.
    destruct h; try congruence; rewrite E; try reflexivity. }
  rewrite IH by auto. cbn [flat_map fst snd]. f_equal. f_equal.
  rewrite !flat_map_app, !rev_app_distr, !app_assoc. reflexivity.
Qed.
Lemma goes_on_static : forall f L, no_quit f ->
  goes_on names ending chain proto react button abxy up (sc L) f =
  (sc (rev (flat_map (hears chain tbl) (frame_messages names button abxy up false f)) ++ L), false).
Proof.
  intros f L H. unfold goes_on.
  assert (failed (sc L) = false) as -> by reflexivity. cbv zeta.
  rewrite says_static by (apply Forall_cons; [now exists Step|apply Forall_nil]).
  match goal with |- context [leaving (sc ?x)] => assert (leaving (sc x) = false) as -> by reflexivity end.
  rewrite says_static by apply timers_named. rewrite goes_static by exact H.
  unfold frame_messages. f_equal. f_equal. cbn [flat_map].
  rewrite app_nil_r, !flat_map_app, !rev_app_distr, !app_assoc. reflexivity.
Qed.
Lemma shows_static : forall l L, Forall no_quit l ->
  shows names ending chain proto react button abxy up (sc L) l =
  (sc (rev (flat_map (hears chain tbl) (flat_map (frame_messages names button abxy up false) l)) ++ L), false).
Proof.
  induction l as [|f l IH]; intros L H; [reflexivity|]. apply Forall_cons_iff in H as [H1 H2].
  cbn [shows]. rewrite goes_on_static by auto. rewrite IH by auto.
  cbn [flat_map]. rewrite flat_map_app, rev_app_distr, app_assoc. reflexivity.
Qed.
End T.

(** *** The start *)
Definition natives (names : kind -> text) (chain : list nat) (ms : table) : Prop :=
  forall k m, answer ms chain (names k) = Some m -> m = Idle.
Lemma initial_R : forall names chain ms, natives names chain ms -> R names chain (initial ms) (mkS ms false false 0 []).
Proof.
  intros names chain ms H. split; [repeat split|]. split.
  - right. intros k b K. simpl in K. apply H in K. discriminate.
  - intros k K. simpl in K. apply H in K. discriminate.
Qed.

Lemma setup_table : forall (l : list (nat * text * nat)) ms L,
  fold_left does (map (fun e => OnDo (fst (fst e)) (snd (fst e)) true (Block (snd e))) l) (mkS ms false false 0 L) =
  mkS (rev (map (fun e => (fst (fst e), snd (fst e), User (snd e))) l) ++ ms) false false 0 L.
Proof.
  induction l as [|[[o n] b] l IH]; intros ms L; [reflexivity|]. cbn [map fold_left does failed fst snd table_of leaving remapped log].
  rewrite IH. cbn [rev]. now rewrite <- app_assoc.
Qed.
Lemma setup_calm : forall (l : list (nat * text * nat)) ms c n,
  answer (rev (map (fun e => (fst (fst e), snd (fst e), User (snd e))) l) ++ ms) c n = Some Ends -> answer ms c n = Some Ends.
Proof.
  intros l ms c n. rewrite <- map_rev. induction (rev l) as [|[[o m] b] r IH]; simpl; auto.
  intros H. apply IH. now apply answer_cons_ends in H.
Qed.

Lemma heard_lemma : forall names ending chain proto react button abxy up media ms setup frames,
  told_apart names -> natives names chain ms ->
  Forall (plain names media chain) setup -> (forall h b, Forall (plain names media chain) (react h b)) ->
  let r := rounds names ending chain proto react button abxy up media [] (fold_left (perform names media) setup (initial ms)) frames in
  let p := shows names ending chain proto react button abxy up (fold_left does setup (mkS ms false false 0 [])) frames in
  seen (fst r) = log (fst p) /\ methods (fst r) = table_of (fst p) /\ flow (fst r) = failed (fst p) /\ snd r = snd p.
Proof.
  intros names ending chain proto react button abxy up media ms setup frames A N S P r p.
  pose proof (performs_R names chain media A setup _ _ S (initial_R names chain ms N)) as K.
  destruct (rounds_R names ending chain proto react button abxy up media A P frames _ _ K) as [((H1 & H2 & H3 & H4 & H5) & _) H6].
  repeat split; assumption.
Qed.

Lemma static_lemma : forall names ending chain proto button abxy up media ms (setup : list (nat * text * nat)) frames,
  told_apart names -> natives names chain ms -> Forall no_quit frames ->
  Forall (fun e => media (fst (fst e)) = true \/ ~ In (fst (fst e)) chain \/ forall k, snd (fst e) <> names k) setup ->
  let r := rounds names ending chain proto (fun _ _ => []) button abxy up media []
             (fold_left (perform names media) (map (fun e => OnDo (fst (fst e)) (snd (fst e)) true (Block (snd e))) setup) (initial ms)) frames in
  rev (seen (fst r)) =
    flat_map (hears chain (rev (map (fun e => (fst (fst e), snd (fst e), User (snd e))) setup) ++ ms))
             (flat_map (frame_messages names button abxy up false) frames) /\
  snd r = false.
Proof.
  intros names ending chain proto button abxy up media ms setup frames A N Q S r.
  assert (S' : Forall (plain names media chain) (map (fun e : nat * text * nat => OnDo (fst (fst e)) (snd (fst e)) true (Block (snd e))) setup)).
  { apply Forall_map. exact S. }
  assert (P : forall (h : list heard) (b : nat), Forall (plain names media chain) ((fun _ _ => []) h b)) by (intros; apply Forall_nil).
  destruct (heard_lemma names ending chain proto (fun _ _ => []) button abxy up media ms _ frames A N S' P) as (H1 & _ & _ & H2).
  unfold r. rewrite H1, H2, setup_table.
  rewrite (shows_static names ending chain proto button abxy up _); auto.
  - cbn [fst snd log]. rewrite app_nil_r, rev_involutive. auto.
  - intros k K. apply setup_calm in K. apply N in K. discriminate.
Qed.

(** ** [end]: at most one more step is heard, and the screen is left *)
Section L.
Variables (names : kind -> text) (ending : text) (chain proto : list nat) (react : list heard -> nat -> list cmd).
Variables (button : nat -> text) (abxy : nat -> bool) (up : text) (media : nat -> bool) (busy : list nat).
Lemma perform_brk : forall c s, brk s = true -> brk (perform names media s c) = true.
Proof.
  induction c as [o n i l| | |v|c IH]; intros s H; simpl; destruct (flow s); auto.
  - destruct (media o), i, l; assumption.
  - simpl. now apply IH.
Qed.
Lemma performs_brk : forall l s, brk s = true -> brk (fold_left (perform names media) l s) = true.
Proof. induction l; intros s H; simpl; auto. apply IHl. now apply perform_brk. Qed.
Lemma send_brk : forall c s n a, brk s = true -> brk (send names react media busy c s n a) = true.
Proof.
  intros c s n a H. unfold send. destruct (flow s); auto. destruct (lookup busy (methods s) c n) as [[b| |]|]; auto.
  now apply performs_brk.
Qed.
Lemma leaves_lemma : forall s f l, brk s = true ->
  snd (rounds names ending chain proto react button abxy up media busy s (f :: l)) = true /\
  adds s (fst (rounds names ending chain proto react button abxy up media busy s (f :: l))) [(names Step, [])].
Proof.
  intros s f l H. cbn [rounds].
  assert (snd (round names ending chain proto react button abxy up media busy s f) = true /\
          adds s (fst (round names ending chain proto react button abxy up media busy s f)) [(names Step, [])]) as [K1 K2].
  { unfold round. destruct (flow s); [split; [reflexivity|now apply adds_none]|]. cbv zeta.
    assert (brk (if f_step (fl s) then send names react media busy chain s (names Step) [] else s) = true) as ->
      by (destruct (f_step (fl s)); [now apply send_brk|auto]).
    split; [reflexivity|]. cbn [fst].
    destruct (f_step (fl s)); [|now apply adds_none].
    destruct (send_adds names react media busy chain s (names Step) []) as (x & X1 & X2). exists x. auto. }
  destruct (round names ending chain proto react button abxy up media busy s f) as [s1 q]. cbn [fst snd] in *. subst q. auto.
Qed.
End L.
