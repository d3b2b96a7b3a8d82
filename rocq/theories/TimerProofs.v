(** Proofs about timers. *)
From Verif Require Import Common NumModel TimerSpec TimerModel.
Local Open Scope Z_scope.

(** When a timer is to ring, from what was seen (latest first) *)
Fixpoint pending (n : Z) (l : list event) : option Z :=
  match l with
  | [] => None
  | Asked m ms at_ :: r => if m =? n then (if 0 <=? ms then Some (at_ + ms) else None) else pending n r
  | Rang m _ :: r => if m =? n then None else pending n r
  | _ :: r => pending n r
  end.
Lemma pending_silent n b : forall l, silent n b -> pending n (b ++ l) = pending n l.
Proof.
  induction b as [|e b IH]; intros l F; [reflexivity|]. inversion F as [|? ? A B]; subst.
  destruct e as [m ms t|m t|t|t]; cbn in A |- *; try (destruct (Z.eqb_spec m n) as [E|E]; [contradiction|]); now apply IH.
Qed.
Lemma pending_some n l : forall v, pending n l = Some v ->
  exists b ms at_ a, l = b ++ Asked n ms at_ :: a /\ silent n b /\ 0 <= ms /\ v = at_ + ms.
Proof.
  induction l as [|e l IH]; intros v E; [discriminate|].
  assert (R : pending n l = Some v -> ~ about n e -> exists b ms at_ a, e :: l = b ++ Asked n ms at_ :: a /\ silent n b /\ 0 <= ms /\ v = at_ + ms).
  { intros P NA. destruct (IH v P) as (b & ms & t & a & -> & B & C & D). exists (e :: b), ms, t, a.
    split; [reflexivity|]. split; [now constructor|]. now split. }
  destruct e as [m ms t|m t|t|t]; cbn in E.
  - destruct (Z.eqb_spec m n) as [->|N].
    + destruct (Z.leb_spec 0 ms); [|discriminate]. injection E as <-. exists [], ms, t, l. repeat split; trivial. constructor.
    + now apply R.
  - destruct (Z.eqb_spec m n) as [->|N]; [discriminate|]. now apply R.
  - apply R; [exact E|easy].
  - apply R; [exact E|easy].
Qed.
Lemma pending_asked n b ms at_ a : silent n b -> 0 <= ms -> pending n (b ++ Asked n ms at_ :: a) = Some (at_ + ms).
Proof. intros S P. rewrite pending_silent by exact S. cbn. rewrite Z.eqb_refl. destruct (Z.leb_spec 0 ms); [reflexivity|lia]. Qed.
Lemma silent_dec n l : {silent n l} + {~ silent n l}.
Proof.
  apply Forall_dec. intros e. destruct e as [m ms t|m t|t|t]; cbn; try (left; tauto); destruct (Z.eq_dec m n); [right|left|right|left]; tauto.
Qed.

(** ** Arrays *)
Lemma set_ok l i v l' : set l i v = Ok l' -> 0 <= i < Z.of_nat (length l) /\ length l' = length l /\
  get l' i = Ok v /\ forall j, j <> i -> get l' j = get l j.
Proof.
  unfold set, get. destruct (Z.leb_spec 0 i); [|discriminate]. destruct (Z.ltb_spec i (Z.of_nat (length l))); [|discriminate].
  cbn [andb]. intros E.
  assert (E' : l' = firstn (Z.to_nat i) l ++ v :: skipn (S (Z.to_nat i)) l) by congruence. subst l'. clear E. split; [lia|].
  assert (L : length (firstn (Z.to_nat i) l) = Z.to_nat i) by (rewrite firstn_length; lia).
  split; [rewrite app_length, L; change (length (v :: skipn (S (Z.to_nat i)) l)) with (S (length (skipn (S (Z.to_nat i)) l))); rewrite skipn_length; lia|]. split.
  - rewrite nth_error_app2 by lia. rewrite L, Nat.sub_diag. reflexivity.
  - intros j N. destruct (Z.leb_spec 0 j); [|reflexivity].
    destruct (Nat.lt_ge_cases (Z.to_nat j) (Z.to_nat i)) as [C|C].
    + rewrite nth_error_app1 by lia. rewrite <- (firstn_skipn (Z.to_nat i) l) at 2. now rewrite nth_error_app1 by lia.
    + rewrite nth_error_app2 by lia. rewrite L. destruct (Z.to_nat j - Z.to_nat i)%nat as [|k] eqn:K; [lia|]. cbn [nth_error].
      rewrite <- (firstn_skipn (S (Z.to_nat i)) l) at 2. rewrite nth_error_app2; rewrite firstn_length; [|lia].
      replace (Z.to_nat j - Nat.min (S (Z.to_nat i)) (length l))%nat with k by lia. reflexivity.
Qed.
Lemma set_some l i v : 0 <= i < Z.of_nat (length l) -> exists l', set l i v = Ok l'.
Proof. intros B. unfold set. destruct (Z.leb_spec 0 i); [|lia]. destruct (Z.ltb_spec i (Z.of_nat (length l))); [|lia]. eexists. reflexivity. Qed.

(** ** The invariant *)
Record fine (s : st) : Prop := {
  f_len : length (timers s) = 100%nat;
  f_val : forall n v, 1 <= n <= 99 -> get (timers s) n = Ok v ->
          (v < 0 /\ (flow s = false -> pending n (seen s) = None)) \/ (0 <= v /\ pending n (seen s) = Some v);
  f_right : rings_rightly (rev (seen s));
  f_missed : flow s = false -> none_missed (rev (seen s));
  f_order : in_order (rev (seen s));
  f_rng : forall n ms t, In (Asked n ms t) (seen s) -> 1 <= n <= 99 }.
Definition reach (s : st) : Prop := within_reach (seen s).
Lemma reach_tl e l : within_reach (e :: l) -> within_reach l.
Proof. intros R n ms t I. apply (R n ms t). now right. Qed.

(** Splitting a reversed list that got one more event *)
Lemma rev_cons_split {A} (l : list A) e x a b : rev (e :: l) = a ++ x :: b ->
  (b = [] /\ x = e /\ a = rev l) \/ exists b', b = b' ++ [e] /\ rev l = a ++ x :: b'.
Proof.
  cbn [rev]. intros E. destruct (@exists_last _ (x :: b)) as (q & y & Q); [discriminate|].
  rewrite Q, app_assoc in E. apply app_inj_tail in E. destruct E as (E1 & <-).
  destruct q as [|z q]; cbn in Q.
  - injection Q as <- ->. left. rewrite app_nil_r in E1. now rewrite E1.
  - injection Q as <- ->. right. exists q. rewrite E1. now split.
Qed.
Lemma right_cons e l : rings_rightly (rev l) ->
  (forall n now, e = Rang n now -> exists v, pending n l = Some v /\ v < now) -> rings_rightly (rev (e :: l)).
Proof.
  intros R H pre n now post E. destruct (rev_cons_split _ _ _ _ _ E) as [(-> & X & ->)|(b' & -> & X)].
  - symmetry in X. destruct (H n now X) as (v & P & L). destruct (pending_some _ _ _ P) as (b & ms & t & a & -> & S & M & ->).
    exists (rev a), ms, t, (rev b). rewrite rev_app_distr. cbn [rev]. rewrite <- app_assoc. repeat split; trivial. now apply Forall_rev.
  - now apply (R pre n now b').
Qed.
Lemma order_cons e l : in_order (rev l) ->
  (forall m t, e = Rang m t -> forall b n t1 a, l = b ++ Rang n t1 :: a -> (forall t, ~ In (Looking t) b) -> n < m) -> in_order (rev (e :: l)).
Proof.
  intros R H a n t1 b m t2 c E NL. assert (E' := E). rewrite app_comm_cons, app_assoc in E.
  destruct (rev_cons_split _ _ _ _ _ E) as [(-> & X & Y)|(c' & -> & X)].
  - apply (H m t2 (eq_sym X) (rev b) n t1 (rev a)).
    + rewrite <- (rev_involutive l), <- Y, rev_app_distr. cbn [rev]. now rewrite <- app_assoc.
    + intros t I. apply (NL t). now apply in_rev.
  - rewrite <- app_assoc in X. now apply (R a n t1 b m t2 c').
Qed.
Lemma missed_cons e l : none_missed (rev l) -> (forall t, e <> Looked t) -> none_missed (rev (e :: l)).
Proof.
  intros R H a n ms t b now c post E S1 S2 P. assert (E' := E).
  replace (a ++ Asked n ms t :: b ++ Looking now :: c ++ Looked now :: post)
    with ((a ++ Asked n ms t :: b ++ Looking now :: c) ++ Looked now :: post) in E by (repeat (rewrite <- app_assoc; cbn); reflexivity).
  destruct (rev_cons_split _ _ _ _ _ E) as [(_ & X & _)|(c' & -> & X)]; [exfalso; now apply (H now)|].
  repeat (rewrite <- app_assoc in X; cbn in X). now apply (R a n ms t b now c c').
Qed.

Lemma to_int_id z : 0 <= z <= 2147483647 -> to_int (wrap64 z) = z.
Proof. intros B. unfold wrap64, W64, to_int. rewrite (Z.mod_small z) by lia. rewrite Z.mod_small by lia. lia. Qed.

Lemma timer_spec s no ms s' : timer s no ms = Ok s' ->
  ticks s' = ticks s /\ (flow s' = false -> flow s = false) /\
  ((timers s' = timers s /\ seen s' = seen s /\ (flow s' = flow s \/ flow s' = true)) \/
   exists n m, 1 <= n <= 100 /\ flow s = false /\ flow s' = false /\ seen s' = Asked n m (ticks s) :: seen s /\
     set (timers s) n (if -1 <? m then to_int (wrap64 (ticks s + m)) else -1) = Ok (timers s')).
Proof.
  unfold timer. destruct (flow s) eqn:F.
  { intros E. injection E as <-. rewrite F. tauto. }
  destruct (c_int no) as [n|]; [|discriminate]. destruct (c_int ms) as [m|]; [|discriminate]. cbn [obind].
  destruct ((n <? 1) || (max_timers <? n)) eqn:B.
  { intros E. injection E as <-. cbn. split; [reflexivity|]. split; [trivial|]. left. tauto. }
  apply orb_false_iff in B. destruct B as (B1 & B2). apply Z.ltb_ge in B1, B2. unfold max_timers in B2.
  intros E. destruct (-1 <? m) eqn:M.
  - destruct (set (timers s) n (to_int (wrap64 (ticks s + m)))) as [l|] eqn:S; [|discriminate]. injection E as <-. cbn.
    repeat split; trivial. right. exists n, m. rewrite M. repeat split; trivial.
  - destruct (set (timers s) n (-1)) as [l|] eqn:S; [|discriminate]. injection E as <-. cbn.
    repeat split; trivial. right. exists n, m. rewrite M. repeat split; trivial.
Qed.

Lemma timer_fine s no ms s' : timer s no ms = Ok s' -> reach s' -> (reach s -> fine s) -> fine s'.
Proof.
  intros E R I. destruct (timer_spec _ _ _ _ E) as (T & F & [(A & B & C)|(n & m & B & F1 & F2 & S & P)]).
  - unfold reach in *. rewrite B in R. specialize (I R). destruct I as [I1 I2 I3 I4 I5 I6].
    constructor; rewrite ?A, ?B; trivial; [|intros Fl; apply I4; now apply F].
    intros k v K G. destruct (I2 k v K G) as [(V & W)|V]; [left|right; exact V]. split; [exact V|]. intros Fl. apply W. now apply F.
  - unfold reach in *. rewrite S in R. specialize (I (reach_tl _ _ R)). destruct I as [I1 I2 I3 I4 I5 I6].
    destruct (set_ok _ _ _ _ P) as (K & L & G1 & G2).
    constructor; rewrite ?S.
    + lia.
    + intros k v K1 G. cbn [pending]. destruct (Z.eqb_spec n k) as [<-|N].
      * rewrite G1 in G. injection G as <-. destruct (R n m (ticks s)) as (R1 & R2); [now left|].
        destruct (Z.leb_spec 0 m) as [M|M]; destruct (Z.ltb_spec (-1) m); try lia.
        -- rewrite to_int_id by lia. right. split; [lia|reflexivity].
        -- left. split; [lia|reflexivity].
      * rewrite G2 in G by lia. destruct (I2 k v K1 G) as [(V & W)|V]; [left|right; exact V]. split; [exact V|]. intros _. now apply W.
    + apply right_cons; [exact I3|discriminate].
    + intros _. apply missed_cons; [now apply I4|discriminate].
    + apply order_cons; [exact I5|discriminate].
    + intros k ms1 t [X|X]; [injection X as <- _ _; lia|now apply (I6 k ms1 t)].
Qed.
Lemma timer_grows s no ms s' : timer s no ms = Ok s' -> ticks s' = ticks s /\ (flow s' = false -> flow s = false) /\
  exists new, seen s' = new ++ seen s /\ forall e, In e new -> exists n m t, e = Asked n m t.
Proof.
  intros E. destruct (timer_spec _ _ _ _ E) as (T & F & [(A & B & C)|(n & m & B & F1 & F2 & S & P)]); repeat split; trivial.
  - exists []. split; [exact B|]. intros e [].
  - exists [Asked n m (ticks s)]. split; [exact S|]. intros e [<-|[]]. eauto.
Qed.
Lemma requests_fine l : forall s s', requests s l = Ok s' -> reach s' -> (reach s -> fine s) -> fine s'.
Proof.
  induction l as [|(n & m) l IH]; intros s s' E R I.
  - injection E as <-. now apply I.
  - cbn in E. destruct (timer s n m) as [s1|] eqn:T; [|discriminate]. cbn in E. eapply IH; [exact E|exact R|]. intros R1. eapply timer_fine; eassumption.
Qed.
Lemma requests_grows l : forall s s', requests s l = Ok s' -> ticks s' = ticks s /\ (flow s' = false -> flow s = false) /\
  exists new, seen s' = new ++ seen s /\ forall e, In e new -> exists n m t, e = Asked n m t.
Proof.
  induction l as [|(n & m) l IH]; intros s s' E.
  - injection E as <-. repeat split; trivial. exists []. split; [reflexivity|]. intros e [].
  - cbn in E. destruct (timer s n m) as [s1|] eqn:T; [|discriminate]. cbn in E.
    destruct (timer_grows _ _ _ _ T) as (A & B & n1 & C & D). destruct (IH _ _ E) as (A' & B' & n2 & C' & D').
    split; [congruence|]. split; [auto|]. exists (n2 ++ n1). split; [rewrite C', C; apply app_assoc|].
    intros e I. apply in_app_or in I. destruct I; auto.
Qed.
Lemma within_app a b : within_reach (a ++ b) -> within_reach b.
Proof. intros R n ms t I. apply (R n ms t). apply in_or_app. now right. Qed.

Section Loop.
Variable listener : list event -> Z -> list (num * num) * bool.

(** A round of the loop that rings timer [i]: [s] is before the entry of the timer is cleared *)
Lemma ring_fine s i v l s' : 1 <= i <= 99 -> get (timers s) i = Ok v -> 0 <= v < ticks s -> set (timers s) i (-1) = Ok l ->
  ring listener (mkT l (ticks s) (flow s) (seen s)) i = Ok s' ->
  (forall b n t1 a, seen s = b ++ Rang n t1 :: a -> (forall t, ~ In (Looking t) b) -> n < i) ->
  reach s' -> (reach s -> fine s) ->
  fine s' /\ ticks s' = ticks s /\ (flow s' = false -> flow s = false) /\
  exists new, seen s' = new ++ seen s /\ (flow s' = false -> ~ silent i new) /\
    forall e, In e new -> e = Rang i (ticks s) \/ exists n m t, e = Asked n m t.
Proof.
  intros B G V SE E O R I. destruct (set_ok _ _ _ _ SE) as (K & L & G1 & G2). unfold ring in E. cbn [flow timers ticks seen] in E.
  destruct (flow s) eqn:F.
  - injection E as <-. unfold reach in *. cbn [seen] in R. specialize (I R). destruct I as [I1 I2 I3 I4 I5 I6].
    split; [|split; [reflexivity|split; [discriminate|]]].
    + constructor; cbn [timers flow seen]; trivial; [lia| |discriminate].
      intros n w Kn Gn. destruct (Z.eq_dec n i) as [->|N].
      * rewrite G1 in Gn. injection Gn as <-. left. split; [lia|discriminate].
      * rewrite G2 in Gn by exact N. destruct (I2 n w Kn Gn) as [(W & _)|W]; [left; split; [exact W|discriminate]|right; exact W].
    + exists []. split; [reflexivity|]. split; [discriminate|]. intros e [].
  - destruct (listener (seen s) i) as (rq & err). set (s1 := mkT l (ticks s) false (Rang i (ticks s) :: seen s)) in *.
    destruct (requests s1 rq) as [s2|] eqn:Q; [|discriminate]. cbn in E. injection E as <-. unfold reach in *. cbn [seen timers flow ticks] in *.
    destruct (requests_grows _ _ _ Q) as (A & Fl & new & C & D).
    assert (F1 : reach s1 -> fine s1).
    { unfold reach, s1. cbn [seen]. intros R1. specialize (I (reach_tl _ _ R1)). destruct I as [I1 I2 I3 I4 I5 I6].
      assert (P : pending i (seen s) = Some v) by (destruct (I2 i v B G) as [(X & _)|(_ & X)]; [lia|exact X]).
      constructor; unfold s1; cbn [timers flow seen]; trivial.
      - lia.
      - intros n w Kn Gn. cbn [pending]. destruct (Z.eqb_spec i n) as [<-|N].
        + rewrite G1 in Gn. injection Gn as <-. left. split; [lia|reflexivity].
        + rewrite G2 in Gn by lia. destruct (I2 n w Kn Gn) as [(W & X)|W]; [left; split; [exact W|intros _; now apply X]|right; exact W].
      - apply right_cons; [exact I3|]. intros n now X. injection X as <- <-. exists v. split; [exact P|lia].
      - intros _. apply missed_cons; [now apply I4|discriminate].
      - apply order_cons; [exact I5|]. intros m t X b n t1 a Y Z0. injection X as <- _. now apply (O b n t1 a).
      - intros n ms t [X|X]; [discriminate|now apply (I6 n ms t)]. }
    assert (F2 := requests_fine _ _ _ Q R F1).
    split; [|split; [exact A|split; [intros _; reflexivity|]]].
    + destruct F2 as [I1 I2 I3 I4 I5 I6]. constructor; cbn [timers flow seen]; trivial.
      * intros n w Kn Gn. destruct (I2 n w Kn Gn) as [(W & X)|W]; [left; split; [exact W|]|right; exact W].
        intros Y. apply orb_false_iff in Y. now apply X.
      * intros Y. apply orb_false_iff in Y. now apply I4.
    + exists (new ++ [Rang i (ticks s)]). split; [rewrite C; unfold s1; cbn [seen]; now rewrite <- app_assoc|]. split.
      * intros _ SI. apply Forall_app in SI. destruct SI as (_ & SI). inversion SI as [|? ? X]; subst. apply X. reflexivity.
      * intros e IN. apply in_app_or in IN. destruct IN as [IN|[<-|[]]]; [right; now apply D|now left].
Qed.

Lemma update_grows k : forall i s s', update_from listener k i s = Ok s' -> exists new, seen s' = new ++ seen s.
Proof.
  induction k as [|k IH]; intros i s2 s' E.
  - injection E as <-. now exists [].
  - cbn [update_from] in E. destruct (i <? max_timers); [|injection E as <-; now exists []].
    destruct (get (timers s2) i) as [v|]; [|discriminate]. cbn [obind] in E.
    destruct (v <? 0); [now apply IH in E|]. destruct (v <? ticks s2); [|now apply IH in E].
    destruct (set (timers s2) i (-1)) as [l|]; [|discriminate]. cbn [obind] in E.
    destruct (ring listener (mkT l (ticks s2) (flow s2) (seen s2)) i) as [s3|] eqn:Q; [|discriminate]. cbn [obind] in E.
    apply IH in E. destruct E as (n2 & E). unfold ring in Q. cbn [flow seen ticks timers] in Q. destruct (flow s2).
    + injection Q as <-. now exists n2.
    + destruct (listener (seen s2) i) as (rq & err).
      destruct (requests (mkT l (ticks s2) false (Rang i (ticks s2) :: seen s2)) rq) as [s4|] eqn:Q4; [|discriminate]. cbn [obind] in Q.
      injection Q as <-. cbn [seen] in E. destruct (requests_grows _ _ _ Q4) as (_ & _ & n3 & X & _). cbn [seen] in X. rewrite X in E.
      exists (n2 ++ n3 ++ [Rang i (ticks s2)]). rewrite E. repeat (rewrite <- app_assoc; cbn [app]). reflexivity.
Qed.
Lemma update_from_fine k : forall i s s' now seen0 new, 1 <= i -> 100 <= i + Z.of_nat k ->
  update_from listener k i s = Ok s' -> ticks s = now -> seen s = new ++ Looking now :: seen0 ->
  (forall e, In e new -> (exists n, e = Rang n now /\ n < i) \/ exists n m t, e = Asked n m t) ->
  (flow s = false -> forall n d, 1 <= n < i -> pending n seen0 = Some d -> d < now -> ~ silent n new) ->
  reach s' -> (reach s -> fine s) ->
  fine s' /\ ticks s' = now /\ (flow s' = false -> flow s = false) /\ exists new', seen s' = new' ++ Looking now :: seen0 /\
  (forall e, In e new' -> (exists n, e = Rang n now) \/ exists n m t, e = Asked n m t) /\
  (flow s' = false -> forall n d, 1 <= n <= 99 -> pending n seen0 = Some d -> d < now -> ~ silent n new').
Proof.
  induction k as [|k IH]; intros i s s' now seen0 new B1 B2 E TI SE NE MI R I.
  - injection E as <-. split; [now apply I|]. split; [exact TI|]. split; [trivial|]. exists new. split; [exact SE|]. split.
    + intros e IN. destruct (NE e IN) as [(n & X & _)|X]; eauto.
    + intros Fl n d Bn. apply MI; [exact Fl|lia].
  - cbn [update_from] in E. destruct (Z.ltb_spec i max_timers) as [C|C]; unfold max_timers in C.
    2:{ injection E as <-. split; [now apply I|]. split; [exact TI|]. split; [trivial|]. exists new. split; [exact SE|]. split.
        - intros e IN. destruct (NE e IN) as [(n & X & _)|X]; eauto.
        - intros Fl n d Bn. apply MI; [exact Fl|lia]. }
    destruct (get (timers s) i) as [v|] eqn:G; [|discriminate]. cbn [obind] in E.
    assert (NE' : forall e, In e new -> (exists n, e = Rang n now /\ n < i + 1) \/ exists n m t, e = Asked n m t).
    { intros e IN. destruct (NE e IN) as [(n & X & Y)|X]; [left; exists n; split; [exact X|lia]|now right]. }
    assert (SKIP : fine s -> (v < 0 \/ now <= v) -> flow s = false -> forall n d, 1 <= n < i + 1 -> pending n seen0 = Some d -> d < now -> ~ silent n new).
    { intros FI VV Fl n d Bn P D SI. destruct (Z.eq_dec n i) as [->|N]; [|apply (MI Fl n d); trivial; lia].
      assert (P' : pending i (seen s) = Some d) by (rewrite SE, (pending_silent i new) by exact SI; exact P).
      destruct (f_val s FI i v) as [(X & Y)|(X & Y)]; [lia|exact G| |].
      - rewrite (Y Fl) in P'. discriminate.
      - rewrite Y in P'. injection P' as ->. lia. }
    assert (RR : forall i s2, update_from listener k i s2 = Ok s' -> reach s2).
    { intros j s2 E2. destruct (update_grows _ _ _ _ E2) as (n2 & X). unfold reach in *. rewrite X in R. now apply within_app in R. }
    destruct (Z.ltb_spec v 0) as [V|V].
    { assert (FS := I (RR _ _ E)). apply (IH (i + 1) s s' now seen0 new); trivial; try lia. intros Fl. apply SKIP; auto. }
    destruct (Z.ltb_spec v (ticks s)) as [V'|V'].
    2:{ assert (FS := I (RR _ _ E)). apply (IH (i + 1) s s' now seen0 new); trivial; try lia. intros Fl. apply SKIP; auto. right. lia. }
    destruct (set (timers s) i (-1)) as [l|] eqn:SET; [|discriminate]. cbn [obind] in E.
    destruct (ring listener (mkT l (ticks s) (flow s) (seen s)) i) as [s1|] eqn:Q; [|discriminate]. cbn [obind] in E.
    assert (O : forall b n t1 a, seen s = b ++ Rang n t1 :: a -> (forall t, ~ In (Looking t) b) -> n < i).
    { intros b n t1 a X NL. rewrite SE in X.
      assert (IN : In (Rang n t1) new).
      { clear - X NL. revert b NL X. induction new as [|e new IHn]; intros [|e' b] NL X; cbn in X.
        - discriminate.
        - injection X as <- _. exfalso. apply (NL now). now left.
        - injection X as -> _. now left.
        - injection X as <- X. right. apply (IHn b); [|exact X]. intros t J. apply (NL t). now right. }
      destruct (NE _ IN) as [(m & Y & Z0)|(m & ms & t & Y)]; [injection Y as -> _; exact Z0|discriminate]. }
    destruct (ring_fine s i v l s1) as (FS & TS & FL & new1 & S1 & NS & NX); trivial; [lia|lia|now apply (RR _ _ E)|].
    assert (HH : flow s1 = false -> forall n d, 1 <= n < i + 1 -> pending n seen0 = Some d -> d < now -> ~ silent n (new1 ++ new)).
    { intros Fl n d Bn P D SI. apply Forall_app in SI. destruct SI as (SI1 & SI2).
      destruct (Z.eq_dec n i) as [->|N]; [now apply (NS Fl)|]. apply (MI (FL Fl) n d); trivial. lia. }
    destruct (IH (i + 1) s1 s' now seen0 (new1 ++ new)) as (X1 & X2 & X3 & X4); trivial; try lia.
    + rewrite S1, SE. now rewrite app_assoc.
    + intros e IN. apply in_app_or in IN. destruct IN as [IN|IN]; [|now apply NE'].
      destruct (NX e IN) as [->|Y]; [left; exists i; rewrite TI; split; [reflexivity|lia]|now right].
    + split; [exact X1|]. split; [exact X2|]. split; [auto|exact X4].
Qed.

Lemma look_match e c new now seen0 b n ms t a : (forall t, ~ In (Looking t) new) -> e = Looked now ->
  new ++ Looking now :: seen0 = c ++ Looking now :: b ++ Asked n ms t :: a -> silent n b -> silent n c ->
  silent n new /\ exists b', seen0 = b' ++ Asked n ms t :: a /\ silent n b'.
Proof.
  intros NL _. revert c. induction new as [|x new IH]; intros [|y c] E SB SC; cbn in E.
  - injection E as ->. split; [constructor|]. exists b. now split.
  - injection E as <- ->. split; [constructor|]. exists (c ++ Looking now :: b). split; [now rewrite <- app_assoc|].
    inversion SC; subst. apply Forall_app. split; [assumption|]. constructor; [intros []|exact SB].
  - injection E as -> _. exfalso. apply (NL now). now left.
  - injection E as <- E. inversion SC as [|? ? S1 S2]; subst. destruct (IH (fun t J => NL t (or_intror J)) c E SB S2) as (X & Y).
    split; [now constructor|exact Y].
Qed.
Lemma update_fine s s' : update listener s = Ok s' -> reach s' -> (reach s -> fine s) -> fine s' /\ ticks s' = ticks s /\ (flow s' = false -> flow s = false).
Proof.
  unfold update. intros E R I. set (s0 := mkT (timers s) (ticks s) (flow s) (Looking (ticks s) :: seen s)) in *.
  destruct (update_from listener (Z.to_nat max_timers) 1 s0) as [s1|] eqn:U; [|discriminate]. cbn [obind] in E. injection E as <-.
  unfold reach in R. cbn [seen] in R. assert (R1 := reach_tl _ _ R).
  destruct (update_from_fine (Z.to_nat max_timers) 1 s0 s1 (ticks s) (seen s) []) as (FS & TS & FL & new & SE & NE & MI); trivial; try (unfold max_timers; lia).
  - intros e [].
  - unfold reach, s0. cbn [seen]. intros R0. specialize (I (reach_tl _ _ R0)). destruct I as [I1 I2 I3 I4 I5 I6].
    constructor; cbn [timers flow seen]; trivial.
    + apply right_cons; [exact I3|discriminate].
    + intros Fl. apply missed_cons; [now apply I4|discriminate].
    + apply order_cons; [exact I5|discriminate].
    + intros n ms t [X|X]; [discriminate|now apply (I6 n ms t)].
  - assert (NL : forall t, ~ In (Looking t) new).
    { intros t IN. destruct (NE _ IN) as [(n & X)|(n & m & q & X)]; discriminate. }
    destruct FS as [I1 I2 I3 I4 I5 I6]. split; [|split; [exact TS|exact FL]].
    constructor; cbn [timers flow seen]; trivial.
    + apply right_cons; [exact I3|discriminate].
    + intros Fl a n ms t b now c post EQ SB SC P. assert (M := I4 Fl).
      replace (a ++ Asked n ms t :: b ++ Looking now :: c ++ Looked now :: post)
        with ((a ++ Asked n ms t :: b ++ Looking now :: c) ++ Looked now :: post) in EQ by (repeat (rewrite <- app_assoc; cbn); reflexivity).
      destruct (rev_cons_split _ _ _ _ _ EQ) as [(-> & X & Y)|(p' & -> & Y)].
      * injection X as X. rewrite TS in X. subst now.
        assert (Z0 : seen s1 = rev c ++ Looking (ticks s) :: rev b ++ Asked n ms t :: rev a).
        { rewrite <- (rev_involutive (seen s1)), <- Y. rewrite rev_app_distr. cbn [rev]. rewrite rev_app_distr. cbn [rev].
          repeat (rewrite <- app_assoc; cbn [app]). reflexivity. }
        rewrite SE in Z0. destruct (look_match (Looked (ticks s)) (rev c) new (ticks s) (seen s) (rev b) n ms t (rev a)) as (SN & b' & SB' & SI); trivial.
        { now apply Forall_rev. } { now apply Forall_rev. }
        destruct (Z.lt_ge_cases (t + ms) (ticks s)) as [D|D]; [exfalso|lia].
        assert (PE : pending n (seen s) = Some (t + ms)) by (rewrite SB'; now apply pending_asked).
        assert (RN : 1 <= n <= 99).
        { apply (I6 n ms t). rewrite SE, SB'. apply in_or_app. right. right. apply in_or_app. right. now left. }
        now apply (MI Fl n (t + ms)).
      * repeat (rewrite <- app_assoc in Y; cbn in Y). now apply (M a n ms t b now c p').
    + apply order_cons; [exact I5|discriminate].
    + intros n ms t [X|X]; [discriminate|now apply (I6 n ms t)].
Qed.

Lemma step_grows s a s' : step listener s a = Ok s' -> exists new, seen s' = new ++ seen s.
Proof.
  destruct a as [t no ms|t|t]; cbn [step].
  - intros E. destruct (timer_grows _ _ _ _ E) as (_ & _ & new & X & _). now exists new.
  - unfold update. intros E. destruct (update_from listener (Z.to_nat max_timers) 1 _) as [s1|] eqn:U; [|discriminate]. cbn [obind] in E. injection E as <-.
    destruct (update_grows _ _ _ _ U) as (n2 & X). cbn [seen] in X |- *. exists (Looked (ticks s1) :: n2 ++ [Looking (ticks s)]).
    rewrite X. cbn [app]. now rewrite <- app_assoc.
  - intros E. injection E as <-. now exists [].
Qed.
Lemma run_grows l : forall s s', run listener s l = Ok s' -> exists new, seen s' = new ++ seen s.
Proof.
  induction l as [|a l IH]; intros s s' E.
  - injection E as <-. now exists [].
  - cbn [run] in E. destruct (step listener s a) as [s1|] eqn:T; [|discriminate]. cbn [obind] in E.
    destruct (step_grows _ _ _ T) as (n1 & X). destruct (IH _ _ E) as (n2 & Y). exists (n2 ++ n1). rewrite Y, X. apply app_assoc.
Qed.
Lemma step_fine s a s' : step listener s a = Ok s' -> reach s' -> (reach s -> fine s) -> fine s'.
Proof.
  destruct a as [t no ms|t|t]; cbn [step]; intros E R I.
  - eapply timer_fine; eassumption.
  - now apply (update_fine _ _ E R I).
  - injection E as <-. specialize (I R). destruct I as [I1 I2 I3 I4 I5 I6]. now constructor.
Qed.
Lemma run_fine l : forall s s', run listener s l = Ok s' -> reach s' -> (reach s -> fine s) -> fine s'.
Proof.
  induction l as [|a l IH]; intros s s' E R I.
  - injection E as <-. now apply I.
  - cbn [run] in E. destruct (step listener s a) as [s1|] eqn:T; [|discriminate]. cbn [obind] in E.
    eapply IH; [exact E|exact R|]. intros R1. eapply step_fine; eassumption.
Qed.
End Loop.

Lemma start_fine : fine start.
Proof.
  constructor; cbn [start timers seen flow].
  - reflexivity.
  - intros n v B G. left. split; [|reflexivity]. unfold get in G. destruct (Z.leb_spec 0 n); [|lia].
    destruct (Z.to_nat n) as [|k] eqn:K; [lia|]. cbn [nth_error] in G.
    destruct (nth_error (repeat (-1) 99) k) as [w|] eqn:W; [|discriminate]. injection G as <-.
    apply nth_error_In, repeat_spec in W. lia.
  - intros [|] n now post E; discriminate.
  - intros _ [|] n ms t b now c post E; discriminate.
  - intros [|] n t1 b m t2 c E; discriminate.
  - intros n ms t [].
Qed.
Lemma reach_rev s : within_reach (rev (seen s)) -> reach s.
Proof. intros R n ms t I. apply (R n ms t). now apply -> in_rev. Qed.
Theorem timers_work listener acts s : run listener start acts = Ok s -> within_reach (rev (seen s)) ->
  rings_rightly (rev (seen s)) /\ in_order (rev (seen s)) /\ (flow s = false -> none_missed (rev (seen s))).
Proof.
  intros E R. destruct (run_fine listener acts start s E (reach_rev _ R) (fun _ => start_fine)) as [I1 I2 I3 I4 I5 I6]. auto.
Qed.


(** ** When nothing is undefined *)
Definition len (s : st) : Prop := length (timers s) = 100%nat.
Definition sensible (no ms : num) : Prop := exists n m, c_int no = Ok n /\ c_int ms = Ok m /\ n <> 100.
Lemma timer_safe s no ms : len s -> sensible no ms -> exists s', timer s no ms = Ok s' /\ len s'.
Proof.
  intros L (n & m & A & B & C). unfold timer. destruct (flow s); [now exists s|]. rewrite A, B. cbn [obind].
  destruct ((n <? 1) || (max_timers <? n)) eqn:D; [eexists; split; [reflexivity|exact L]|].
  apply orb_false_iff in D. destruct D as (D1 & D2). apply Z.ltb_ge in D1, D2. unfold max_timers in D2. unfold len in *.
  assert (R : 0 <= n < Z.of_nat (length (timers s))) by lia.
  destruct (-1 <? m).
  - destruct (set_some (timers s) n (to_int (wrap64 (ticks s + m))) R) as (l & E). rewrite E. eexists. split; [reflexivity|]. cbn. apply set_ok in E. lia.
  - destruct (set_some (timers s) n (-1) R) as (l & E). rewrite E. eexists. split; [reflexivity|]. cbn. apply set_ok in E. lia.
Qed.
Lemma requests_safe l : forall s, len s -> Forall (fun q => sensible (fst q) (snd q)) l -> exists s', requests s l = Ok s' /\ len s'.
Proof.
  induction l as [|(n & m) l IH]; intros s L F.
  - exists s. now split.
  - inversion F as [|? ? F1 F2]; subst. cbn [requests]. destruct (timer_safe s n m L F1) as (s1 & E & L1). rewrite E. cbn [obind]. now apply IH.
Qed.
Section Safe.
Variable listener : list event -> Z -> list (num * num) * bool.
Hypothesis polite : forall l i, Forall (fun q => sensible (fst q) (snd q)) (fst (listener l i)).
Lemma update_safe k : forall i s, 1 <= i -> len s -> exists s', update_from listener k i s = Ok s' /\ len s'.
Proof.
  induction k as [|k IH]; intros i s B L; [now exists s|]. cbn [update_from].
  destruct (Z.ltb_spec i max_timers) as [C|C]; [|now exists s]. unfold max_timers in C.
  assert (R : 0 <= i < Z.of_nat (length (timers s))) by (unfold len in L; lia).
  assert (G : exists v, get (timers s) i = Ok v).
  { unfold get. destruct (Z.leb_spec 0 i); [|lia]. destruct (nth_error (timers s) (Z.to_nat i)) as [v|] eqn:E; [now exists v|].
    apply nth_error_None in E. lia. }
  destruct G as (v & ->). cbn [obind]. destruct (v <? 0); [apply IH; [lia|exact L]|]. destruct (v <? ticks s); [|apply IH; [lia|exact L]].
  destruct (set_some (timers s) i (-1) R) as (l & E). rewrite E. cbn [obind]. apply set_ok in E. destruct E as (_ & E & _).
  unfold ring. cbn [flow timers ticks seen]. destruct (flow s).
  - cbn [obind]. apply IH; [lia|]. unfold len in *. cbn. lia.
  - assert (P := polite (seen s) i). destruct (listener (seen s) i) as (rq & err).
    destruct (requests_safe rq (mkT l (ticks s) false (Rang i (ticks s) :: seen s))) as (s2 & Q & L2); [unfold len in *; cbn; lia|exact P|].
    rewrite Q. cbn [obind]. apply IH; [lia|exact L2].
Qed.
Lemma run_safe l : forall s, len s -> Forall (fun a => match a with Ask _ n m => sensible n m | _ => True end) l ->
  exists s', run listener s l = Ok s' /\ len s'.
Proof.
  induction l as [|a l IH]; intros s L F; [now exists s|]. inversion F as [|? ? F1 F2]; subst. cbn [run].
  assert (ST : exists s1, step listener s a = Ok s1 /\ len s1).
  { destruct a as [t n m|t|t]; cbn [step].
    - now apply timer_safe.
    - unfold update. destruct (update_safe (Z.to_nat max_timers) 1 (mkT (timers s) (ticks s) (flow s) (Looking (ticks s) :: seen s))) as (s1 & E & L1); [lia|exact L|].
      rewrite E. cbn [obind]. eexists. split; [reflexivity|exact L1].
    - eexists. split; [reflexivity|exact L]. }
  destruct ST as (s1 & E & L1). rewrite E. cbn [obind]. now apply IH.
Qed.
End Safe.
Lemma looked listener s t s' : step listener s (Look t) = Ok s' -> exists c, seen s' = Looked (ticks s) :: c ++ Looking (ticks s) :: seen s /\ ticks s' = ticks s.
Proof.
  cbn [step]. unfold update. intros E.
  destruct (update_from listener (Z.to_nat max_timers) 1 (mkT (timers s) (ticks s) (flow s) (Looking (ticks s) :: seen s))) as [s1|] eqn:U; [|discriminate].
  cbn [obind] in E. injection E as <-. destruct (update_grows _ _ _ _ _ U) as (c & X). cbn [seen] in X.
  assert (T : forall k i s s', update_from listener k i s = Ok s' -> ticks s' = ticks s).
  { clear. induction k as [|k IH]; intros i s2 s' E.
    - now injection E as <-.
    - cbn [update_from] in E. destruct (i <? max_timers); [|now injection E as <-].
      destruct (get (timers s2) i) as [v|]; [|discriminate]. cbn [obind] in E.
      destruct (v <? 0); [now apply IH in E|]. destruct (v <? ticks s2); [|now apply IH in E].
      destruct (set (timers s2) i (-1)) as [l|]; [|discriminate]. cbn [obind] in E.
      destruct (ring listener (mkT l (ticks s2) (flow s2) (seen s2)) i) as [s3|] eqn:Q; [|discriminate]. cbn [obind] in E.
      apply IH in E. rewrite E. unfold ring in Q. cbn [flow seen ticks timers] in Q. destruct (flow s2); [now injection Q as <-|].
      destruct (listener (seen s2) i) as (rq & err).
      destruct (requests (mkT l (ticks s2) false (Rang i (ticks s2) :: seen s2)) rq) as [s4|] eqn:Q4; [|discriminate]. cbn [obind] in Q.
      injection Q as <-. cbn [ticks]. destruct (requests_grows _ _ _ Q4) as (Y & _). exact Y. }
  assert (TT := T _ _ _ _ U). cbn [ticks] in TT. exists c. cbn [seen ticks]. rewrite X, TT. now split.
Qed.
Lemma asked s no ms n m : len s -> flow s = false -> c_int no = Ok n -> c_int ms = Ok m -> 1 <= n <= 99 ->
  exists s', timer s no ms = Ok s' /\ seen s' = Asked n m (ticks s) :: seen s /\ flow s' = false /\ ticks s' = ticks s.
Proof.
  intros L F A B N. destruct (timer_safe s no ms L) as (s' & E & _); [exists n, m; repeat split; trivial; lia|].
  exists s'. split; [exact E|]. unfold timer in E. rewrite F, A, B in E. cbn [obind] in E.
  destruct ((n <? 1) || (max_timers <? n)) eqn:D.
  { apply orb_true_iff in D. unfold max_timers in D. destruct D as [D|D]; apply Z.ltb_lt in D; lia. }
  destruct (-1 <? m).
  - destruct (set (timers s) n (to_int (wrap64 (ticks s + m)))); [|discriminate]. injection E as <-. repeat split.
  - destruct (set (timers s) n (-1)); [|discriminate]. injection E as <-. repeat split.
Qed.
Lemma refused s no ms n m : flow s = false -> c_int no = Ok n -> c_int ms = Ok m -> n < 1 \/ 100 < n ->
  exists s', timer s no ms = Ok s' /\ flow s' = true /\ seen s' = seen s /\ timers s' = timers s.
Proof.
  intros F A B N. unfold timer. rewrite F, A, B. cbn [obind].
  destruct ((n <? 1) || (max_timers <? n)) eqn:D; [eexists; split; [reflexivity|now repeat split]|].
  apply orb_false_iff in D. unfold max_timers in D. destruct D as (D1 & D2). apply Z.ltb_ge in D1, D2. lia.
Qed.

(** ** What goes wrong *)
Local Lemma ok_inj {A} (a b : A) : Ok a = Ok b -> a = b. Proof. now intros [= ->]. Qed.
Local Lemma nth_skipn {A} n : forall (l : list A) k, nth_error (skipn n l) k = nth_error l (n + k).
Proof. induction n as [|n IH]; intros l k; [reflexivity|]. destruct l; [now destruct k|]. apply IH. Qed.
Local Lemma nth_firstn {A} n : forall (l : list A) k, (k < n)%nat -> nth_error (firstn n l) k = nth_error l k.
Proof. induction n as [|n IH]; intros l k H; [lia|]. destruct l; [reflexivity|]. destruct k; [reflexivity|]. cbn [firstn nth_error]. apply IH. lia. Qed.
Lemma reset_bad k : forall i l, 1 <= i <= 100 -> 100 < i + Z.of_nat k -> length l = 100%nat -> reset_from k i l = UB.
Proof.
  induction k as [|k IH]; intros i l B C L; [lia|]. cbn [reset_from]. unfold max_timers. destruct (Z.leb_spec i 100); [|lia].
  destruct (set l i (-1)) as [l'|] eqn:E; [|reflexivity]. cbn [obind]. apply set_ok in E. destruct E as (E1 & E2 & _).
  apply IH; lia.
Qed.
Lemma reset_undefined l : length l = 100%nat -> reset l = UB.
Proof. intros L. apply reset_bad; [lia|unfold max_timers; lia|exact L]. Qed.
Lemma reset_more k : forall i l, 1 <= i -> i + Z.of_nat k = 102 -> (100 < length l)%nat -> exists l', reset_from k i l = Ok l' /\ length l' = length l /\
  forall j, nth_error l' j = if (Z.to_nat i <=? j)%nat && (j <=? 100)%nat then Some (-1) else nth_error l j.
Proof.
  induction k as [|k IH]; intros i l B C L.
  - exists l. split; [reflexivity|]. split; [reflexivity|]. intros j. destruct (Nat.leb_spec (Z.to_nat i) j), (Nat.leb_spec j 100); try reflexivity. lia.
  - cbn [reset_from]. unfold max_timers. destruct (Z.leb_spec i 100) as [I|I].
    + destruct (set_some l i (-1) ltac:(lia)) as [l1 E]. rewrite E. cbn [obind]. unfold set in E.
      destruct ((0 <=? i) && (i <? Z.of_nat (length l))); [|discriminate]. apply ok_inj in E.
      assert (L1 : length l1 = length l) by (subst l1; rewrite app_length, firstn_length; cbn [length]; rewrite skipn_length; lia).
      destruct (IH (i + 1) l1 ltac:(lia) ltac:(lia) ltac:(lia)) as (l' & R & LL & NN). exists l'. split; [exact R|]. split; [lia|].
      intros j. rewrite NN. replace (Z.to_nat (i + 1)) with (S (Z.to_nat i)) by lia.
      destruct (Nat.leb_spec (S (Z.to_nat i)) j), (Nat.leb_spec (Z.to_nat i) j), (Nat.leb_spec j 100); cbn [andb]; try reflexivity; try lia.
      * subst l1. rewrite nth_error_app2; rewrite firstn_length, Nat.min_l by lia; [|lia].
        replace (j - Z.to_nat i)%nat with (S (j - S (Z.to_nat i))) by lia. cbn [nth_error]. rewrite nth_skipn. f_equal. lia.
      * assert (j = Z.to_nat i) by lia. subst j l1. rewrite nth_error_app2; rewrite firstn_length, Nat.min_l by lia; [|lia]. now rewrite Nat.sub_diag.
      * subst l1. rewrite nth_error_app1 by (rewrite firstn_length; lia). rewrite nth_firstn by lia. reflexivity.
    + exists l. split; [reflexivity|]. split; [reflexivity|]. intros j. destruct (Nat.leb_spec (Z.to_nat i) j), (Nat.leb_spec j 100); try reflexivity. lia.
Qed.
Lemma reset_101 l : (100 < length l)%nat -> exists l', reset l = Ok l' /\
  forall j, nth_error l' j = if (1 <=? j)%nat && (j <=? 100)%nat then Some (-1) else nth_error l j.
Proof. intros L. destruct (reset_more (S (Z.to_nat max_timers)) 1 l) as (l' & R & _ & N); [lia|reflexivity|exact L|]. exists l'. auto. Qed.
Lemma last_timer s no ms m : len s -> flow s = false -> c_int no = Ok 100 -> c_int ms = Ok m -> timer s no ms = UB.
Proof.
  intros L F A B. unfold timer. rewrite F, A, B. cbn [obind]. unfold max_timers. cbn [Z.ltb Z.compare Pos.compare Pos.compare_cont orb].
  assert (U : forall v, set (timers s) 100 v = UB).
  { intros v. destruct (set (timers s) 100 v) as [l|] eqn:E; [|reflexivity]. apply set_ok in E. unfold len in L. lia. }
  change ((100 <? 1) || (100 <? 100)) with false. cbv iota. destruct (-1 <? m); now rewrite U.
Qed.
