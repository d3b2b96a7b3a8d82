(** Proofs about the evaluator: variables, methods, loops, truth values and errors. *)
From Coq Require Import Lia.
From Verif Require Import Common TextModel TextProofs NumModel LexModel ParseModel EvalModel EvalSpec EvalParse EvalProofs.
Open Scope nat_scope.

Lemma teq_dec (a b : text) : {a = b} + {a <> b}.
Proof. apply list_eq_dec, N.eq_dec. Qed.
Lemma teqb_false a b : text_eqb a b = false <-> a <> b.
Proof. rewrite <- (text_eqb_eq a b). destruct (text_eqb a b); split; congruence. Qed.
Lemma teqb_refl a : text_eqb a a = true. Proof. now apply text_eqb_eq. Qed.

(** ** Tables *)
Lemma binds_cons k' v' t k v : binds ((k', v') :: t) k v <-> (k' = k /\ v' = v) \/ (k' <> k /\ binds t k v).
Proof.
  unfold binds. split.
  - intros ([|(a, b) pre] & post & E & N); cbn in E; [injection E as <- <- <-; auto|]. injection E as <- <- ->.
    right. cbn in N. split; [tauto|]. exists pre, post. split; auto.
  - intros [(-> & ->)|(NE & pre & post & -> & N)].
    + exists [], t. auto.
    + exists ((k', v') :: pre), post. cbn. split; auto. intros [?|?]; auto.
Qed.
Lemma binds_nil k v : ~ binds [] k v. Proof. intros ([|] & post & E & _); discriminate. Qed.
Lemma binds_fun t k v v' : binds t k v -> binds t k v' -> v = v'.
Proof.
  induction t as [|(a, b) t IH]; [intros H; now apply binds_nil in H|]. rewrite !binds_cons.
  intros [(? & ?)|(? & ?)] [(? & ?)|(? & ?)]; auto; congruence.
Qed.
Lemma find_binds t k v : find_prop t k = Some v <-> binds t k v /\ v <> null.
Proof.
  induction t as [|(a, b) t IH]; cbn [find_prop].
  - split; [discriminate|]. intros (H & _). now apply binds_nil in H.
  - rewrite binds_cons. destruct (text_eqb a k) eqn:E.
    + apply text_eqb_eq in E. subst a. destruct (Nat.eqb_spec b null); split.
      * discriminate. * intros ([(_ & <-)|(? & _)] & NZ); congruence.
      * intros [= <-]. auto. * intros ([(_ & <-)|(? & _)] & NZ); congruence.
    + apply teqb_false in E. rewrite IH. split; intros (? & ?); [tauto|]. destruct H as [(? & _)|(_ & ?)]; [congruence|auto].
Qed.
Lemma find_binds_none t k : find_prop t k = None <-> forall v, binds t k v -> v = null.
Proof.
  split.
  - intros E v B. destruct (Nat.eq_dec v null); auto. assert (find_prop t k = Some v) by (now apply find_binds). congruence.
  - intros H. destruct (find_prop t k) eqn:E; auto. apply find_binds in E. destruct E as (B & NZ). now apply H in B.
Qed.
Lemma del_binds t k k' v : k' <> k -> (binds (del_prop t k) k' v <-> binds t k' v).
Proof.
  intros NE. induction t as [|(a, b) t IH]; cbn [del_prop]; [tauto|]. destruct (text_eqb a k) eqn:E.
  - apply text_eqb_eq in E. subst a. rewrite binds_cons. split; [auto|]. intros [(? & _)|(_ & ?)]; [congruence|auto].
  - rewrite !binds_cons, IH. tauto.
Qed.

Lemma deref_at s a o : deref a s = Done o s <-> object_at s a o.
Proof.
  unfold deref, object_at. destruct a; [split; [discriminate|intros (? & _); congruence]|].
  destruct (nth_error (heap s) (S a)); split; try discriminate; intros H.
  - injection H as <-. split; auto. - destruct H. congruence. - now destruct H.
Qed.
Lemma deref_state s a o s' : deref a s = Done o s' -> s' = s /\ object_at s a o.
Proof.
  unfold deref, object_at. destruct a; [discriminate|]. destruct (nth_error (heap s) (S a)) eqn:E; [|discriminate].
  intros [= <- <-]. auto.
Qed.
Lemma object_fun s a o o' : object_at s a o -> object_at s a o' -> o = o'.
Proof. intros (_ & E) (_ & E'). congruence. Qed.
Lemma bind_done A B (m : M A) (f : A -> M B) s b s' : bind m f s = Done b s' <-> exists a s1, m s = Done a s1 /\ f a s1 = Done b s'.
Proof.
  unfold bind. split.
  - destruct (m s); try discriminate. eauto.
  - intros (x & s1 & -> & H). exact H.
Qed.
Lemma bind_eq A B (m : M A) (f : A -> M B) s a s1 : m s = Done a s1 -> bind m f s = f a s1.
Proof. unfold bind. now intros ->. Qed.

(** ** Variables *)
Lemma find_in_inner s k c v : forall l, innermost s l k c v -> (forall x, In x l -> exists o, object_at s x o) ->
  find_in l k s = Done (Some (c, v)) s.
Proof.
  induction l as [|x l IH]; intros (pre & post & E & F & D) V; [now destruct pre|]. cbn [find_in].
  destruct (V x (or_introl eq_refl)) as (o & O). rewrite (bind_eq _ _ _ _ _ _ _ (proj2 (deref_at s x o) O)).
  destruct pre as [|y pre]; cbn in E; injection E as -> ->.
  - destruct D as (o' & O' & B & NZ). rewrite (object_fun _ _ _ _ O O'). rewrite (proj2 (find_binds _ _ _) (conj B NZ)). reflexivity.
  - inversion_clear F as [|? ? L F']. assert (find_prop (o_props o) k = None) as ->.
    { apply find_binds_none. intros z B. destruct (Nat.eq_dec z null); auto. exfalso. apply (L z). exists o. auto. }
    apply IH; [exists pre, post; auto|]. intros z Hz. apply V. now right.
Qed.
Lemma find_in_none s k : forall l, nowhere s l k -> (forall x, In x l -> exists o, object_at s x o) -> find_in l k s = Done None s.
Proof.
  induction l as [|x l IH]; intros F V; [reflexivity|]. cbn [find_in].
  destruct (V x (or_introl eq_refl)) as (o & O). rewrite (bind_eq _ _ _ _ _ _ _ (proj2 (deref_at s x o) O)).
  inversion_clear F as [|? ? L F']. assert (find_prop (o_props o) k = None) as ->.
  { apply find_binds_none. intros z B. destruct (Nat.eq_dec z null); auto. exfalso. apply (L z). exists o. auto. }
  apply IH; auto. intros z Hz. apply V. now right.
Qed.
Lemma innermost_or_nowhere s l k : (forall x, In x l -> exists o, object_at s x o) ->
  (exists c v, innermost s l k c v) \/ nowhere s l k.
Proof.
  induction l as [|x l IH]; intros V; [right; constructor|]. destruct (V x (or_introl eq_refl)) as (o & O).
  assert (D : (exists v, defines s x k v) \/ lacks s x k).
  { destruct (find_prop (o_props o) k) as [v|] eqn:E.
    - left. exists v, o. apply find_binds in E. tauto.
    - right. intros v (o' & O' & B & NZ). rewrite (object_fun _ _ _ _ O' O) in B. now apply (proj1 (find_binds_none _ _) E) in B. }
  destruct D as [(v & D)|L]; [left; exists x, v, [], l; auto|].
  destruct (IH ltac:(intros; apply V; now right)) as [(c & v & pre & post & -> & F & D)|F].
  - left. exists c, v, (x :: pre), post. auto.
  - right. now constructor.
Qed.
Lemma good_scopes s : good s -> forall x, In x (ctxs s) -> exists o, object_at s x o.
Proof.
  intros G x Hx. destruct (g_scopes _ G) as (_ & F). rewrite Forall_forall in F. apply F in Hx.
  destruct (nth_error (heap s) x) as [o|] eqn:E; [exists o; split; auto; lia|]. apply nth_error_None in E. lia.
Qed.
Lemma good_std s a : good s -> 0 < a < 13 -> exists o, object_at s a o.
Proof.
  intros G L. pose proof (g_std _ G). destruct (nth_error (heap s) a) as [o|] eqn:E; [exists o; split; auto; lia|].
  apply nth_error_None in E. lia.
Qed.

Section Flow.
Variable w : words.

Lemma raise_raised t s e : good s -> raised s (with_errs (with_flow (with_heap s (heap s ++ [mkObj (VText t) [] [] a_string false false]))
  (length (heap s))) e) t.
Proof.
  intros G. pose proof (g_std _ G). split; cbn; auto.
  - eexists. split; [split; [cbn; lia|]|]; [cbn [heap with_errs with_flow with_heap]; rewrite nth_error_app2 by lia; rewrite Nat.sub_diag; reflexivity|reflexivity].
  - intros a L. now rewrite nth_error_app1.
Qed.
Lemma key_error_raised m k s : good s -> exists s', key_error m k s = Done tt s' /\ raised s s' (m ++ k).
Proof.
  intros G. pose proof (raise_raised (m ++ k) s (errs s) G) as R. eexists. split; [reflexivity|].
  destruct R as [R1 R2 R3 R4 R5 R6]. split; auto.
Qed.
Lemma error_raised t s : good s -> exists s', error t s = Done tt s' /\ raised s s' t.
Proof. intros G. eexists. split; [reflexivity|]. now apply raise_raised. Qed.
Lemma set_updated s c k x o : object_at s c o -> exists s', set_property c k x s = Done tt s' /\ updated s s' c k x.
Proof.
  intros O. unfold set_property, change. rewrite (bind_eq _ _ _ _ _ _ _ (proj2 (deref_at s c o) O)). eexists. split; [reflexivity|].
  destruct O as (NZ & E). assert (L : c < length (heap s)) by (apply nth_error_Some; congruence). split; cbn.
  - now split.
  - apply replace_length.
  - intros a NE. rewrite nth_replace. destruct (Nat.eqb_spec c a); [congruence|auto].
  - intros o' (_ & E'). rewrite E in E'. injection E' as <-. eexists. split; [split; [exact NZ|]|].
    + cbn. rewrite nth_replace, Nat.eqb_refl. apply Nat.ltb_lt in L. rewrite L. reflexivity.
    + cbn. unfold set_prop. repeat split; auto.
      * apply binds_cons. auto.
      * rewrite binds_cons, del_binds by auto. intros [(? & _)|(_ & ?)]; [congruence|auto].
      * rewrite binds_cons, del_binds by auto. auto.
Qed.
Lemma calmed s : flow s = null -> negb (flow s =? null) = false. Proof. now intros ->. Qed.

Lemma find_inner s k c v : good s -> flow s = null -> innermost s (ctxs s) k c v -> find w k s = Done v s.
Proof.
  intros G F H. unfold find, bind at 1, get. rewrite calmed by auto.
  now rewrite (bind_eq _ _ _ _ _ _ _ (find_in_inner s k c v _ H (good_scopes _ G))).
Qed.
Lemma find_world s k v : good s -> flow s = null -> nowhere s (ctxs s) k -> defines s a_world k v -> find w k s = Done v s.
Proof.
  intros G F H D. unfold find, bind at 1, get. rewrite calmed by auto.
  rewrite (bind_eq _ _ _ _ _ _ _ (find_in_none s k _ H (good_scopes _ G))).
  assert (I : innermost s [a_world] k a_world v) by (exists [], []; auto).
  now rewrite (bind_eq _ _ _ _ _ _ _ (find_in_inner s k _ _ _ I ltac:(intros x [<-|[]]; apply good_std; auto; unfold a_world; lia))).
Qed.
Lemma find_missing s k : good s -> flow s = null -> nowhere s (ctxs s) k -> lacks s a_world k ->
  exists s', find w k s = Done a_nil s' /\ raised s s' (e_key w ++ k).
Proof.
  intros G F H D. unfold find, bind at 1, get. rewrite calmed by auto.
  rewrite (bind_eq _ _ _ _ _ _ _ (find_in_none s k _ H (good_scopes _ G))).
  assert (I : nowhere s [a_world] k) by (constructor; auto).
  rewrite (bind_eq _ _ _ _ _ _ _ (find_in_none s k _ I ltac:(intros x [<-|[]]; apply good_std; auto; unfold a_world; lia))).
  destruct (key_error_raised (e_key w) k s G) as (s' & E & R). exists s'. split; auto. now rewrite (bind_eq _ _ _ _ _ _ _ E).
Qed.
Lemma assign_inner s k c v x : good s -> flow s = null -> innermost s (ctxs s) k c v ->
  exists s', assign w k x s = Done x s' /\ updated s s' c k x.
Proof.
  intros G F H. unfold assign, bind at 1, get. rewrite calmed by auto. unfold set.
  pose proof H as (pre & post & _ & _ & (o & O & _)). destruct (set_updated s c k x o O) as (s' & E & U). exists s'. split; auto.
  unfold bind at 1. unfold bind at 1. unfold get. rewrite (bind_eq _ _ _ _ _ _ _ (find_in_inner s k c v _ H (good_scopes _ G))). now rewrite E.
Qed.
Lemma assign_missing s k x : good s -> flow s = null -> nowhere s (ctxs s) k ->
  exists s', assign w k x s = Done x s' /\ raised s s' (e_assign w ++ k).
Proof.
  intros G F H. unfold assign, bind at 1, get. rewrite calmed by auto. unfold set.
  destruct (key_error_raised (e_assign w) k s G) as (s' & E & R). exists s'. split; auto.
  unfold bind at 1. unfold bind at 1. unfold get. rewrite (bind_eq _ _ _ _ _ _ _ (find_in_none s k _ H (good_scopes _ G))). now rewrite E.
Qed.
Lemma local_inner s k x c r : good s -> flow s = null -> ctxs s = c :: r ->
  exists s', assign_local k x s = Done x s' /\ updated s s' c k x.
Proof.
  intros G F E. unfold assign_local, bind at 1, get. rewrite calmed by auto. rewrite E.
  destruct (good_scopes s G c) as (o & O); [rewrite E; now left|]. destruct (set_updated s c k x o O) as (s' & Es & U).
  exists s'. split; auto. now rewrite (bind_eq _ _ _ _ _ _ _ Es).
Qed.
Lemma own_found s k c m v : good s -> flow s = null -> innermost s (ctxs s) (w_me w) c m -> defines s m k v ->
  find_in_my w k s = Done v s.
Proof.
  intros G F H (o & O & B & NZ). unfold find_in_my. rewrite (bind_eq _ _ _ _ _ _ _ (find_inner s _ c m G F H)).
  rewrite (bind_eq _ _ _ _ _ _ _ (proj2 (deref_at s m o) O)). unfold bind at 1, get. rewrite calmed by auto.
  now rewrite (proj2 (find_binds _ _ _) (conj B NZ)).
Qed.
Lemma own_missing s k c m o : good s -> flow s = null -> innermost s (ctxs s) (w_me w) c m -> object_at s m o -> lacks s m k ->
  exists s', find_in_my w k s = Done a_nil s' /\ raised s s' (e_key w ++ k).
Proof.
  intros G F H O L. unfold find_in_my. rewrite (bind_eq _ _ _ _ _ _ _ (find_inner s _ c m G F H)).
  rewrite (bind_eq _ _ _ _ _ _ _ (proj2 (deref_at s m o) O)). unfold bind at 1, get. rewrite calmed by auto.
  assert (find_prop (o_props o) k = None) as ->.
  { apply find_binds_none. intros z B. destruct (Nat.eq_dec z null); auto. exfalso. apply (L z). exists o. auto. }
  destruct (key_error_raised (e_key w) k s G) as (s' & E & R). exists s'. split; auto. now rewrite (bind_eq _ _ _ _ _ _ _ E).
Qed.
Lemma own_assigned s k c m o x : good s -> flow s = null -> innermost s (ctxs s) (w_me w) c m -> object_at s m o ->
  exists s', assign_my w k x s = Done x s' /\ updated s s' m k x.
Proof.
  intros G F H O. unfold assign_my. rewrite (bind_eq _ _ _ _ _ _ _ (find_inner s _ c m G F H)). unfold bind at 1, get.
  rewrite calmed by auto. destruct (set_updated s m k x o O) as (s' & Es & U). exists s'. split; auto. now rewrite (bind_eq _ _ _ _ _ _ _ Es).
Qed.
(** reading back *)
Lemma updated_defines s s' c k x : updated s s' c k x -> x <> null -> (exists o, object_at s c o) -> defines s' c k x.
Proof. intros U NZ (o & O). destruct (u_object _ _ _ _ _ U o O) as (o' & O' & _ & _ & _ & _ & _ & B & _). exists o'. auto. Qed.
Lemma updated_other s s' c k x a k' v : updated s s' c k x -> a <> c \/ k' <> k -> (defines s' a k' v <-> defines s a k' v).
Proof.
  intros U NE. destruct (Nat.eq_dec a c) as [->|NC].
  - destruct NE as [?|NE]; [congruence|]. split.
    + intros (o' & O' & B & NZ). destruct O' as (NN & E'). destruct (nth_error (heap s) c) as [o|] eqn:E.
      * destruct (u_object _ _ _ _ _ U o (conj NN E)) as (o1 & O1 & _ & _ & _ & _ & _ & _ & B1).
        assert (o' = o1) by (destruct O1; congruence). subst o1. exists o. split; [split; auto|]. split; auto. now apply B1.
      * apply nth_error_None in E. rewrite <- (u_length _ _ _ _ _ U) in E. apply nth_error_None in E. congruence.
    + intros (o & O & B & NZ). destruct (u_object _ _ _ _ _ U o O) as (o1 & O1 & _ & _ & _ & _ & _ & _ & B1).
      exists o1. split; auto. split; auto. now apply B1.
  - unfold defines, object_at. rewrite (u_others _ _ _ _ _ U a NC). tauto.
Qed.
Lemma updated_innermost s s' c k v x : good s -> updated s s' c k x -> x <> null -> innermost s (ctxs s) k c v ->
  innermost s' (ctxs s') k c x.
Proof.
  intros G U NZ (pre & post & E & F & D). rewrite (sc_ctxs _ _ (u_control _ _ _ _ _ U)). exists pre, post. split; auto. split.
  - rewrite Forall_forall in *. intros y Hy z Dz. apply (F y Hy z). apply (updated_other _ _ _ _ _ _ _ _ U) in Dz; auto. left.
    intros ->. destruct (g_scopes _ G) as (ND & _). rewrite E in ND. apply NoDup_remove_2 in ND. apply ND. apply in_app_iff. auto.
  - eapply updated_defines; eauto. destruct D as (o & O & _). eauto.
Qed.
Lemma updated_nested s s' c k x pre c0 post : updated s s' c k x -> ctxs s = pre ++ c0 :: post -> NoDup (ctxs s) ->
  c = c0 -> forall a k' v, In a post -> (defines s' a k' v <-> defines s a k' v).
Proof.
  intros U E ND -> a k' v Ha. apply (updated_other _ _ _ _ _ _ _ _ U). left. intros ->. rewrite E in ND.
  apply NoDup_remove_2 in ND. apply ND. apply in_app_iff. auto.
Qed.

(** ** Methods *)
Lemma running_in m l : existsb (Nat.eqb m) l = true <-> In m l.
Proof. rewrite existsb_exists. split; [intros (x & H & E); apply Nat.eqb_eq in E; now subst|intros H; exists m; now rewrite Nat.eqb_refl]. Qed.
Definition used s (m : option addr) := match m with Some m => if existsb (Nat.eqb m) (mstack s) then with_recur s null else s | None => s end.
Lemma lookup_step n r a k s o : object_at s a o -> lookup (S n) r a k s =
  match find_prop (o_meths o) k with
  | Some m => if negb (existsb (Nat.eqb m) (mstack s)) || (recur s =? r) then Done (Some m) (used s (Some m))
              else if o_link o =? null then Done None s else lookup n r (o_link o) k s
  | None => if o_link o =? null then Done None s else lookup n r (o_link o) k s
  end.
Proof.
  intros O. cbn [lookup]. rewrite (bind_eq _ _ _ _ _ _ _ (proj2 (deref_at s a o) O)). unfold used.
  destruct (find_prop (o_meths o) k) as [m|]; [|cbn; now destruct (o_link o =? null)].
  unfold bind, get. destruct (existsb (Nat.eqb m) (mstack s)); cbn [negb orb]; [|reflexivity].
  destruct (recur s =? r); cbn; [reflexivity|]. now destruct (o_link o =? null).
Qed.
Lemma understands_find s r a k m o : object_at s a o ->
  (understands s r a k m <-> find_prop (o_meths o) k = Some m /\ negb (existsb (Nat.eqb m) (mstack s)) || (recur s =? r) = true).
Proof.
  intros O. rewrite find_binds, Bool.orb_true_iff, Bool.negb_true_iff, Nat.eqb_eq. split.
  - intros (o' & O' & B & NZ & H). rewrite <- (object_fun _ _ _ _ O O') in B. split; auto. destruct H as [H|H]; auto. left.
    destruct (existsb _ _) eqn:E; auto. apply running_in in E. contradiction.
  - intros ((B & NZ) & H). exists o. split; auto. split; auto. split; auto. destruct H as [H|H]; auto. left. intros I. apply running_in in I. congruence.
Qed.
Lemma lookup_sound n : forall r a k s m s', lookup n r a k s = Done m s' -> nearest s r k a m /\ s' = used s m.
Proof.
  induction n as [|n IH]; intros r a k s m s' H; [discriminate|].
  pose proof H as H0. cbn [lookup] in H0. apply bind_done in H0. destruct H0 as (o & s1 & D & _). apply deref_state in D. destruct D as (-> & O).
  rewrite (lookup_step _ _ _ _ _ _ O) in H.
  assert (U : (forall x, ~ understands s r a k x) -> (if o_link o =? null then Done None s else lookup n r (o_link o) k s) = Done m s' ->
              nearest s r k a m /\ s' = used s m).
  { intros NU H1. destruct (Nat.eqb_spec (o_link o) null) as [L|L].
    - injection H1 as <- <-. split; [now apply (near_top _ _ _ _ o)|reflexivity].
    - apply IH in H1. destruct H1 as (H1 & ->). split; auto. now apply (near_up _ _ _ _ o). }
  destruct (find_prop (o_meths o) k) as [x|] eqn:E.
  - destruct (negb _ || _) eqn:K.
    + injection H as <- <-. split; [|reflexivity]. apply near_here. apply (understands_find _ _ _ _ _ _ O). auto.
    + apply U in H; auto. intros y Hy. apply (understands_find _ _ _ _ _ _ O) in Hy. destruct Hy. congruence.
  - apply U in H; auto. intros y Hy. apply (understands_find _ _ _ _ _ _ O) in Hy. destruct Hy. congruence.
Qed.
Lemma lookup_complete s r k a m : nearest s r k a m -> exists n, forall n', n <= n' -> lookup n' r a k s = Done m (used s m).
Proof.
  induction 1 as [a m U|a o x O NU L _ (n & IH)|a o O NU L].
  - exists 1. intros [|n'] Ln; [lia|]. pose proof U as (o & O & _). rewrite (lookup_step _ _ _ _ _ _ O).
    apply (understands_find _ _ _ _ _ _ O) in U. destruct U as (-> & ->). reflexivity.
  - exists (S n). intros [|n'] Ln; [lia|]. rewrite (lookup_step _ _ _ _ _ _ O).
    apply Nat.eqb_neq in L. rewrite L. specialize (IH n' ltac:(lia)).
    destruct (find_prop (o_meths o) k) as [y|] eqn:E; auto. destruct (negb _ || _) eqn:K; auto.
    exfalso. apply (NU y). apply (understands_find _ _ _ _ _ _ O). auto.
  - exists 1. intros [|n'] Ln; [lia|]. rewrite (lookup_step _ _ _ _ _ _ O). rewrite L. cbn.
    destruct (find_prop (o_meths o) k) as [y|] eqn:E; auto. destruct (negb _ || _) eqn:K; auto.
    exfalso. apply (NU y). apply (understands_find _ _ _ _ _ _ O). auto.
Qed.
Lemma nearest_fun s r k a m m' : nearest s r k a m -> nearest s r k a m' -> m = m'.
Proof.
  intros H1 H2. apply lookup_complete in H1, H2. destruct H1 as (n1 & H1), H2 as (n2 & H2).
  specialize (H1 (Nat.max n1 n2) ltac:(lia)). specialize (H2 (Nat.max n1 n2) ltac:(lia)). congruence.
Qed.
Lemma lookup_iff s r k a m : (exists n s', lookup n r a k s = Done m s') <-> nearest s r k a m.
Proof.
  split.
  - intros (n & s' & H). now apply lookup_sound in H.
  - intros H. apply lookup_complete in H. destruct H as (n & H). exists n, (used s m). now apply H.
Qed.
Lemma assign_updates s k c v x : good s -> flow s = null -> innermost s (ctxs s) k c v -> x <> null ->
  exists s', assign w k x s = Done x s' /\ updated s s' c k x /\ innermost s' (ctxs s') k c x.
Proof.
  intros G F H NZ. destruct (assign_inner s k c v x G F H) as (s' & E & U). exists s'. split; auto. split; auto.
  eapply updated_innermost; eauto.
Qed.
Lemma declare_updates s k x c r : good s -> flow s = null -> ctxs s = c :: r -> x <> null ->
  exists s', assign_local k x s = Done x s' /\ updated s s' c k x /\ innermost s' (ctxs s') k c x /\
  forall a k' v, In a r -> (defines s' a k' v <-> defines s a k' v).
Proof.
  intros G F E NZ. destruct (local_inner s k x c r G F E) as (s' & A & U). exists s'. split; auto. split; auto. split.
  - exists [], r. rewrite (sc_ctxs _ _ (u_control _ _ _ _ _ U)). split; auto. split; [constructor|].
    eapply updated_defines; eauto. apply (good_scopes s G). rewrite E. now left.
  - eapply (updated_nested s s' c k x [] c r); eauto. apply (g_scopes _ G).
Qed.
End Flow.
