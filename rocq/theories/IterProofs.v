From Coq Require Import SpecFloat QArith Permutation Sorted.
From Verif Require Import Common Fuel FloatSpec FloatProofs NumModel NumProofs TextSpec TextModel TextProofs MapSpec MapModel ListSpec ListModel ListProofs IterSpec IterModel.
From Verif Require MapProofs.
Close Scope Q_scope.
Open Scope nat_scope.

Section P.
Context {A : Type}.

(** * [each:] *)
Lemma rd_abs (a : arr A) st l i x : rep a st l -> nth_error (st ++ l) i = Some x -> rd_cell (a_el a) i = Ok x.
Proof.
  intros (rest & E & _) H. unfold rd_cell. rewrite E.
  assert (i < length (st ++ l)) by (apply nth_error_Some; congruence).
  rewrite nth_error_app1 by (rewrite map_length; lia). rewrite nth_error_map, H. reflexivity.
Qed.

Lemma each_live {W} (blk : W -> Z -> A -> arr A -> W * arr A * flow) (sblk : W -> Z -> A -> list A -> W * list A * flow) st :
  (forall w j x a l, rep a st l -> exists a', blk w j x a = (fst (fst (sblk w j x l)), a', snd (sblk w j x l)) /\
     rep a' st (snd (fst (sblk w j x l)))) ->
  forall fuel w a l k, rep a st l ->
  match visits_live sblk fuel w l k with
  | NoFuel => map_loop blk fuel w a (length st + k) (Z.of_nat k) = NoFuel
  | Bad => False
  | Ret (w', l', fl) => exists a', map_loop blk fuel w a (length st + k) (Z.of_nat k) = Ret (w', a', fl) /\ rep a' st l'
  end.
Proof.
  intros HB. induction fuel as [|f IH]; intros w a l k R; [reflexivity|]. cbn [visits_live map_loop].
  rewrite (rep_head a st l R). destruct (nth_error l k) as [x|] eqn:E.
  - assert (k < length l) by (apply nth_error_Some; congruence).
    destruct (Nat.ltb_spec (length st + k) (length st + length l)); [|lia].
    rewrite (rd_abs a st l _ x R) by (rewrite nth_error_app2 by lia; replace (length st + k - length st) with k by lia; exact E).
    destruct (HB w (Z.of_nat k + 1)%Z x a l R) as (a' & -> & R').
    destruct (sblk w (Z.of_nat k + 1)%Z x l) as [[w' l'] fl]. cbn [fst snd] in *.
    specialize (IH w' a' l' (S k) R').
    replace (length st + S k) with (length st + k + 1) in IH by lia.
    replace (Z.of_nat (S k)) with (Z.of_nat k + 1)%Z in IH by lia.
    destruct fl; try exact IH; exists a'; (split; [reflexivity|exact R']).
  - apply nth_error_None in E. destruct (Nat.ltb_spec (length st + k) (length st + length l)); [lia|].
    exists a. split; [reflexivity|exact R].
Qed.

Lemma each_live_msg {W} (blk : W -> Z -> A -> arr A -> W * arr A * flow) (sblk : W -> Z -> A -> list A -> W * list A * flow) st a l fuel w :
  (forall w j x a l, rep a st l -> exists a', blk w j x a = (fst (fst (sblk w j x l)), a', snd (sblk w j x l)) /\
     rep a' st (snd (fst (sblk w j x l)))) -> rep a st l ->
  match visits_live sblk fuel w l 0 with
  | NoFuel => array_map (Some blk) fuel w a = NoFuel
  | Bad => False
  | Ret (w', l', fl) => exists a', array_map (Some blk) fuel w a = Ret (w', a', fl) /\ rep a' st l'
  end.
Proof.
  intros HB R. pose proof (each_live blk sblk st HB fuel w a l 0 R) as H. unfold array_map.
  rewrite (rep_tail a st l R). rewrite Nat.add_0_r in H. exact H.
Qed.

Lemma each_still {W} (blk : W -> Z -> A -> W * flow) : forall r a st l fuel w k, rep a st l -> skipn k l = r -> length r < fuel ->
  map_loop (fun w j x a => (fst (blk w j x), a, snd (blk w j x))) fuel w a (length st + k) (Z.of_nat k) =
  Ret (fst (visits blk w (Z.of_nat k + 1) r), a, snd (visits blk w (Z.of_nat k + 1) r)).
Proof.
  induction r as [|x r IH]; intros a st l fuel w k R E F; (destruct fuel as [|f]; [cbn [length] in F; lia|]); cbn [map_loop visits].
  - rewrite (rep_head a st l R).
    assert (length l <= k) by (pose proof (f_equal (@length A) E) as H; rewrite skipn_length in H; cbn [length] in H; lia).
    destruct (Nat.ltb_spec (length st + k) (length st + length l)); [lia|]. reflexivity.
  - assert (L : S (length r) = length l - k) by (pose proof (f_equal (@length A) E) as H; rewrite skipn_length in H; cbn [length] in H; lia).
    rewrite (rep_head a st l R). destruct (Nat.ltb_spec (length st + k) (length st + length l)); [|lia].
    assert (nth_error l k = Some x).
    { rewrite <- (firstn_skipn k l), E, nth_error_app2; rewrite firstn_length_le by lia; [|lia].
      rewrite Nat.sub_diag. reflexivity. }
    rewrite (rd_abs a st l _ x R) by (rewrite nth_error_app2 by lia; replace (length st + k - length st) with k by lia; assumption).
    destruct (blk w (Z.of_nat k + 1)%Z x) as [w' fl] eqn:EB. cbn [fst snd] in *.
    assert (E' : skipn (S k) l = r).
    { rewrite <- (firstn_skipn k l) at 1. rewrite E, skipn_app, firstn_length_le by lia.
      rewrite skipn_all2 by (rewrite firstn_length_le by lia; lia). replace (S k - k) with 1 by lia. reflexivity. }
    destruct fl; try reflexivity;
      (replace (length st + k + 1) with (length st + S k) by lia; replace (Z.of_nat k + 1)%Z with (Z.of_nat (S k)) by lia;
       rewrite (IH a st l f w' (S k) R E') by (cbn [length] in F; lia); reflexivity).
Qed.
Lemma each_still_msg {W} (blk : W -> Z -> A -> W * flow) a l fuel w : holds a l -> length l < fuel ->
  array_map (Some (fun w j x a => (fst (blk w j x), a, snd (blk w j x)))) fuel w a =
  Ret (fst (visits blk w 1 l), a, snd (visits blk w 1 l)).
Proof.
  intros (st & R) F. unfold array_map. pose proof (each_still blk l a st l fuel w 0 R eq_refl F) as H.
  rewrite Nat.add_0_r in H. rewrite (rep_tail a st l R). exact H.
Qed.

(** Whatever the block does to the list with messages of lists, no cell outside of the list is read. *)
Lemma each_safe {W} (blk : W -> Z -> A -> arr A -> W * arr A * flow) a l fuel w :
  (forall w j x a l, holds a l -> exists l', holds (snd (fst (blk w j x a))) l') -> holds a l ->
  array_map (Some blk) fuel w a <> Bad.
Proof.
  intros HB. unfold array_map. generalize (a_tail a) at 1. generalize 0%Z. revert w a l.
  induction fuel as [|f IH]; intros w a l j i H; cbn [map_loop]; [discriminate|].
  destruct H as (st & R). rewrite (rep_head a st l R).
  destruct (Nat.ltb_spec i (length st + length l)) as [Hi|]; [|discriminate].
  destruct (nth_error (st ++ l) i) as [x|] eqn:E; [|apply nth_error_None in E; rewrite app_length in E; lia].
  rewrite (rd_abs a st l i x R E).
  destruct (HB w (j + 1)%Z x a l (ex_intro _ st R)) as (l' & H').
  destruct (blk w (j + 1)%Z x a) as [[w' a'] fl]. cbn [fst snd] in H'.
  destruct fl; try discriminate; (eapply IH; exact H').
Qed.

(** A block that puts an element in front never lets the loop end. *)
Lemma each_unshift (y : A) fuel : forall w a l i j, fresh a l -> i < length l ->
  map_loop (fun (w : unit) _ _ a => (w, match array_unshift a y with Ok a' => a' | UB => a end, FNone)) fuel w a i j = NoFuel.
Proof.
  induction fuel as [|f IH]; intros w a l i j R Hi; [reflexivity|]. cbn [map_loop].
  rewrite (rep_head a [] l R). cbn [length Nat.add]. destruct (Nat.ltb_spec i (length l)); [|lia].
  destruct (nth_error l i) as [x|] eqn:E; [|apply nth_error_None in E; lia].
  rewrite (rd_abs a [] l i x R E).
  destruct (unshift_rep a [] l y R) as (a' & st' & -> & R' & Hst).
  rewrite (Hst eq_refl) in R'.
  apply (IH w a' (y :: l)); [exact R'|]. cbn [length]. lia.
Qed.

(** * [sort:] *)
Lemma rd_cells_rep (a : arr A) st l : rep a st l -> rd_cells (a_el a) (a_tail a) (a_head a - a_tail a) = Ok l.
Proof.
  intros R. rewrite (rep_head a st l R), (rep_tail a st l R). replace (length st + length l - length st) with (length l) by lia.
  assert (H : forall r k, skipn k l = r -> rd_cells (a_el a) (length st + k) (length r) = Ok r).
  { induction r as [|x r IH]; intros k E; [reflexivity|]. cbn [length rd_cells].
    assert (L : S (length r) = length l - k) by (pose proof (f_equal (@length A) E) as H; rewrite skipn_length in H; cbn [length] in H; lia).
    rewrite (rd_abs a st l _ x R).
    - cbn [obind]. replace (length st + k + 1) with (length st + S k) by lia. rewrite IH; [reflexivity|].
      rewrite <- (firstn_skipn k l) at 1. rewrite E, skipn_app, firstn_length_le by lia.
      rewrite skipn_all2 by (rewrite firstn_length_le by lia; lia). replace (S k - k) with 1 by lia. reflexivity.
    - rewrite nth_error_app2 by lia. replace (length st + k - length st) with k by lia.
      rewrite <- (firstn_skipn k l), E, nth_error_app2; rewrite firstn_length_le by lia; [|lia]. rewrite Nat.sub_diag. reflexivity. }
  pose proof (H l 0 eq_refl) as H0. rewrite Nat.add_0_r in H0. exact H0.
Qed.

Lemma qrun_answer {W B} (run : B -> W * B -> A -> A -> (W * B) * spec_float) (b : B) (cmp : A -> A -> Z) l :
  (forall w x y, In x l -> In y l -> exists w' v, run b (w, b) x y = ((w', b), v) /\ c_int v = Ok (cmp x y)) ->
  forall t w r, asks l t -> answer cmp t = Some r -> exists w', qrun run (w, b) t = Ok ((w', b), r).
Proof.
  intros HB. induction t as [r0|x y k IH|]; intros w r HA H; cbn [answer qrun] in *; [|..].
  - injection H as <-. eauto.
  - cbn [asks] in HA. destruct HA as (Hx & Hy & HA). unfold sort_cmp. cbn [snd].
    destruct (HB w x y Hx Hy) as (w' & v & -> & ->). cbn [obind].
    apply IH; auto.
  - discriminate.
Qed.

Lemma sort_rep {W B} (run : B -> W * B -> A -> A -> (W * B) * spec_float) qs g (b : B) (a : arr A) st l cmp :
  qsort_iso qs -> rep a st l -> orders cmp l ->
  (forall w x y, In x l -> In y l -> exists w' v, run b (w, b) x y = ((w', b), v) /\ c_int v = Ok (cmp x y)) ->
  exists w' a' r, array_sort run qs g b a = Ok ((w', b), a') /\ rep a' st r /\ Permutation r l /\ in_order cmp r.
Proof.
  intros Q R O HB. unfold array_sort. rewrite (rd_cells_rep a st l R). cbn [obind].
  destruct (Q l) as (HA & HQ). destruct (HQ cmp O) as (r & E & P & S).
  destruct (qrun_answer run b cmp l HB (qs l) (fst g) r HA E) as (w' & ->). cbn [obind].
  eexists. eexists. exists r. split; [reflexivity|]. split; [|split; assumption].
  pose proof (Permutation_length P) as PL.
  destruct R as (rest & E1 & T & H & L & NE). exists rest. cbn [a_el a_tail a_head a_len].
  assert (E2 : firstn (a_tail a) (a_el a) ++ map Some r ++ skipn (a_head a) (a_el a) = map Some (st ++ r) ++ rest).
  { rewrite E1, T, H, !map_app, <- !app_assoc. f_equal.
    - rewrite firstn_app, map_length, Nat.sub_diag. cbn [firstn]. rewrite app_nil_r. apply firstn_all2. rewrite map_length. lia.
    - f_equal. rewrite app_assoc. rewrite skipn_app, skipn_all2, app_length, !map_length, Nat.sub_diag; [reflexivity|].
      rewrite app_length, !map_length. lia. }
  rewrite E2. repeat split; try assumption; try lia.
  rewrite L, E1, !app_length, !map_length, !app_length. lia.
Qed.

(** ** A procedure that meets the promise and looks at every pair in both directions: it goes astray when the answers contradict each other *)
Definition ask2 (x y : A) (k : Z -> qtree A) : qtree A :=
  QAsk x y (fun c => QAsk y x (fun d => if (Z.sgn c =? - Z.sgn d)%Z then k c else QWild)).
Fixpoint insert_q (x : A) (l : list A) (k : list A -> qtree A) : qtree A :=
  match l with
  | [] => k [x]
  | y :: r => ask2 x y (fun c => if (c <=? 0)%Z then k (x :: y :: r) else insert_q x r (fun r' => k (y :: r')))
  end.
Fixpoint isort_q (l : list A) (k : list A -> qtree A) : qtree A :=
  match l with [] => k [] | x :: r => isort_q r (fun s => insert_q x s k) end.
Definition isort (l : list A) : qtree A := isort_q l QDone.

Lemma asks_insert m x : In x m -> forall l k, incl l m -> (forall s, incl s m -> asks m (k s)) -> asks m (insert_q x l k).
Proof.
  intros Hx. induction l as [|y r IH]; intros k HI HK; cbn [insert_q].
  - apply HK. intros z [<-|[]]. exact Hx.
  - assert (Hy : In y m) by (apply HI; left; reflexivity).
    unfold ask2. cbn [asks]. repeat split; try assumption. intros d.
    destruct (Z.sgn c =? - Z.sgn d)%Z; [|exact I]. destruct (c <=? 0)%Z.
    + apply HK. intros z [<-|Hz]; [exact Hx|apply HI; exact Hz].
    + apply IH; [intros z Hz; apply HI; right; exact Hz|]. intros s Hs. apply HK. intros z [<-|Hz]; [exact Hy|apply Hs; exact Hz].
Qed.
Lemma asks_isort m : forall l k, incl l m -> (forall s, incl s m -> asks m (k s)) -> asks m (isort_q l k).
Proof.
  induction l as [|x r IH]; intros k HI HK; cbn [isort_q].
  - apply HK. intros z [].
  - apply IH; [intros z Hz; apply HI; right; exact Hz|]. intros s Hs. apply asks_insert; auto. apply HI. left. reflexivity.
Qed.
Lemma insert_ok cmp m x : orders cmp m -> In x m -> forall l k, incl l m -> in_order cmp l ->
  exists s, answer cmp (insert_q x l k) = answer cmp (k s) /\ Permutation s (x :: l) /\ in_order cmp s.
Proof.
  intros (O1 & O2) Hx. induction l as [|y r IH]; intros k HI HS; cbn [insert_q].
  - exists [x]. repeat split; [apply Permutation_refl|]. repeat constructor.
  - assert (Hy : In y m) by (apply HI; left; reflexivity).
    unfold ask2. cbn [answer]. rewrite <- (O1 x y Hx Hy). rewrite Z.eqb_refl.
    pose proof (O1 x y Hx Hy) as Hxy. inversion HS as [|y' r' HS' HF]; subst.
    destruct (Z.leb_spec (cmp x y) 0).
    + exists (x :: y :: r). repeat split; [apply Permutation_refl|]. constructor; [exact HS|]. constructor; [lia|].
      rewrite Forall_forall in *. intros z Hz. apply (O2 x y z); auto. apply HI. right. exact Hz.
    + destruct (IH (fun r' => k (y :: r'))) as (s & E & P & S); [intros z Hz; apply HI; right; exact Hz|exact HS'|].
      exists (y :: s). rewrite E. repeat split.
      * apply perm_trans with (y :: x :: r); [constructor; exact P|constructor].
      * constructor; [exact S|]. rewrite Forall_forall in *. intros z Hz.
        apply (Permutation_in _ P) in Hz. destruct Hz as [<-|Hz]; [|auto]. lia.
Qed.
Lemma isort_ok cmp m : orders cmp m -> forall l k, incl l m ->
  exists s, answer cmp (isort_q l k) = answer cmp (k s) /\ Permutation s l /\ in_order cmp s.
Proof.
  intros O. induction l as [|x r IH]; intros k HI; cbn [isort_q].
  - exists []. repeat split; constructor.
  - destruct (IH (fun s => insert_q x s k)) as (s & E & P & S); [intros z Hz; apply HI; right; exact Hz|].
    destruct (insert_ok cmp m x O (HI x (or_introl eq_refl)) s k) as (s' & E' & P' & S'); [|exact S|].
    { intros z Hz. apply HI. right. apply (Permutation_in _ P). exact Hz. }
    exists s'. rewrite E, E'. repeat split; [|exact S']. apply perm_trans with (x :: s); [exact P'|constructor; exact P].
Qed.
Lemma isort_iso : qsort_iso isort.
Proof.
  intros l. split.
  - apply asks_isort; [intros z Hz; exact Hz|]. intros s _. exact I.
  - intros cmp O. destruct (isort_ok cmp l O l QDone (fun z Hz => Hz)) as (s & E & P & S). exists s. repeat split; assumption.
Qed.
End P.

(** * Numbers put in order by their differences *)
Lemma diff_orders (f : spec_float -> Z) l : orders (fun x y => (f x - f y)%Z) l.
Proof. split; intros; lia. Qed.

Lemma sort_numbers {W B} (run : B -> W * B -> spec_float -> spec_float -> (W * B) * spec_float) qs g (b : B) (a : arr spec_float) l (f : spec_float -> Z) :
  qsort_iso qs -> holds a l ->
  (forall x, In x l -> finite x /\ (SF2Q x == inject_Z (f x))%Q /\ (0 <= f x <= 2147483647)%Z) ->
  (forall w x y, exists w', run b (w, b) x y = ((w', b), sub64 x y)) ->
  exists w' a' r, array_sort run qs g b a = Ok ((w', b), a') /\ holds a' r /\ Permutation r l /\
    StronglySorted (fun x y => (SF2Q x <= SF2Q y)%Q) r.
Proof.
  intros Q (st & R) HF HB.
  destruct (sort_rep run qs g b a st l (fun x y => (f x - f y)%Z) Q R (diff_orders f l)) as (w' & a' & r & E & R' & P & S).
  { intros w x y Hx Hy. destruct (HB w x y) as (w' & E). exists w', (sub64 x y). split; [exact E|].
    destruct (HF x Hx) as (Fx & Vx & Bx). destruct (HF y Hy) as (Fy & Vy & By).
    destruct (sub_whole x y (f x) (f y) Fx Fy Vx Vy) as (Fd & Vd); [lia|].
    apply c_int_whole; [exact Fd|exact Vd|lia]. }
  exists w', a', r. split; [exact E|]. split; [exists st; exact R'|]. split; [exact P|].
  assert (HI : forall x, In x r -> In x l) by (intros x Hx; apply (Permutation_in _ P Hx)).
  clear -S HF HI. induction S as [|x r S IH HFa]; constructor.
  - apply IH. intros y Hy. apply HI. right. exact Hy.
  - rewrite Forall_forall in *. intros y Hy. specialize (HFa y Hy).
    destruct (HF x (HI x (or_introl eq_refl))) as (_ & Vx & _). destruct (HF y (HI y (or_intror Hy))) as (_ & Vy & _).
    rewrite Vx, Vy, <- Zle_Qle. lia.
Qed.

Definition is_less (x y : spec_float) : Z := if SFltb x y then 1 else 0.
Lemma less_no_order l x y : In x l -> In y l -> finite x -> finite y -> (SF2Q x < SF2Q y)%Q -> ~ orders is_less l.
Proof.
  intros Hx Hy Fx Fy L (O & _). specialize (O x y Hx Hy). unfold is_less in O.
  rewrite (proj2 (SFltb_Q x y Fx Fy) L) in O. destruct (SFltb y x) eqn:E; [|discriminate].
  apply (SFltb_Q y x Fy Fx) in E. apply (Qlt_irrefl (SF2Q x)). eapply Qlt_trans; eassumption.
Qed.

(** * [by:] *)
Section By.
Context {A : Type} (nil : A) (hash : text -> Z) (is_nil : A -> bool) (str : A -> text).
Definition pair_in (bs : list (text * A)) (xk : A * A) : list (text * A) :=
  if is_nil (snd xk) then bs else with_binding bs (str (snd xk)) (fst xk).

Lemma without_length {V} (l : list (text * V)) k : length (without l k) <= length l.
Proof.
  unfold without. induction l as [|x l IH]; cbn [filter length]; [lia|]. destruct (text_dec (fst x) k); cbn [length]; lia.
Qed.

Lemma combine_loop_ok (a b : arr A) l m fuel : fresh a l -> fresh b m -> is_nil nil = true ->
  (Z.of_nat (length l) < INT_MAX)%Z -> (Z.of_nat (length m) <= LONG_MAX)%Z ->
  forall n i mp bs, i + n = length l -> MapProofs.rep hash mp bs -> length bs + n < fuel ->
  exists mp', combine_loop nil hash is_nil str fuel a b i n mp = Ret mp' /\
    MapProofs.rep hash mp' (fold_left pair_in (combine (skipn i l) (skipn i m)) bs).
Proof.
  intros RA RB HN HL HM. induction n as [|n IH]; intros i mp bs Hi R F; cbn [combine_loop].
  - rewrite skipn_all2 by lia. exists mp. split; [reflexivity|exact R].
  - unfold INT_MAX in HL.
    rewrite (get_rep nil a [] l (Z.of_nat i + 1) RA) by (unfold in_int, INT_MAX, small, LONG_MAX; try rewrite (rep_head a [] l RA); cbn [length]; lia).
    rewrite (get_rep nil b [] m (Z.of_nat i + 1) RB) by (unfold in_int, INT_MAX, small, LONG_MAX in *; try rewrite (rep_head b [] m RB); cbn [length]; lia).
    cbn [of_outcome rbind].
    destruct (nth_error l i) as [x|] eqn:EX; [|apply nth_error_None in EX; lia].
    rewrite (seq_at_nth nil l i x EX).
    assert (SL : skipn i l = x :: skipn (S i) l).
    { clear -EX. revert l EX. induction i as [|i IHi]; intros [|y l] EX; try discriminate; cbn [nth_error] in EX.
      - injection EX as ->. reflexivity.
      - exact (IHi l EX). }
    rewrite SL. destruct (nth_error m i) as [k|] eqn:EK.
    + rewrite (seq_at_nth nil m i k EK).
      assert (SM : skipn i m = k :: skipn (S i) m).
      { clear -EK. revert m EK. induction i as [|i IHi]; intros [|y l] EX; try discriminate; cbn [nth_error] in EX.
        - injection EX as ->. reflexivity.
        - exact (IHi l EX). }
      rewrite SM. cbn [combine fold_left]. unfold pair_in at 2. cbn [fst snd].
      replace (i + 1) with (S i) by lia. destruct (is_nil k).
      * apply IH; [lia|exact R|lia].
      * destruct (MapProofs.put_rep hash mp bs x (str k) fuel R) as (mp' & -> & R' & _); [lia|]. cbn [rbind].
        apply IH; [lia|exact R'|]. unfold with_binding. cbn [length]. pose proof (without_length bs (str k)). lia.
    + apply nth_error_None in EK. rewrite seq_at_out by lia. rewrite HN.
      rewrite (skipn_all2 m) by lia. replace (i + 1) with (S i) by lia.
      destruct (IH (S i) mp bs) as (mp' & E & R'); [lia|exact R|lia|]. exists mp'. split; [exact E|].
      rewrite (skipn_all2 m) in R' by lia. rewrite combine_nil in R'. exact R'.
Qed.

Lemma combine_ok (a b : arr A) l m fuel : fresh a l -> fresh b m -> is_nil nil = true ->
  (Z.of_nat (length l) < INT_MAX)%Z -> (Z.of_nat (length m) <= LONG_MAX)%Z -> length l < fuel ->
  exists mp, array_combine nil hash is_nil str fuel a (Some b) = Ret mp /\ MapProofs.rep hash mp (paired is_nil str l m).
Proof.
  intros RA RB HN HL HM F. unfold array_combine.
  rewrite (rep_head a [] l RA), (rep_tail a [] l RA). cbn [length Nat.add]. rewrite Nat.sub_0_r.
  destruct (combine_loop_ok a b l m fuel RA RB HN HL HM (length l) 0 map_new []) as (mp & E & R); [lia|apply MapProofs.new_rep|cbn [length]; lia|].
  exists mp. split; [exact E|exact R].
Qed.
Lemma combine_no_list (a : arr A) fuel : exists mp, array_combine nil hash is_nil str fuel a None = Ret mp /\ MapProofs.rep hash mp [].
Proof. exists map_new. split; [reflexivity|apply MapProofs.new_rep]. Qed.

(** What the pairing means, read off the map: with different keys, each key leads to its partner. *)
Lemma paired_lookup_gen : forall ps bs k, 
  NoDup (map (fun xk => str (snd xk)) (filter (fun xk => negb (is_nil (snd xk))) ps)) ->
  lookup (fold_left pair_in ps bs) k =
  match find (fun xk => negb (is_nil (snd xk)) && if text_dec (str (snd xk)) k then true else false)%bool ps with
  | Some xk => Some (fst xk) | None => lookup bs k end.
Proof.
  induction ps as [|[x y] ps IH]; intros bs k ND; [reflexivity|]. cbn [fold_left find filter map snd fst] in *.
  unfold pair_in at 2. cbn [snd fst]. destruct (is_nil y) eqn:EY; cbn [negb andb] in *.
  - apply IH. exact ND.
  - cbn [map snd] in ND. inversion ND as [|? ? NI ND']; subst. rewrite IH by exact ND'.
    destruct (text_dec (str y) k) as [<-|NE].
    + destruct (find _ ps) as [[x' y']|] eqn:EF.
      * exfalso. apply NI. apply find_some in EF. destruct EF as (HI & HC). apply andb_true_iff in HC. destruct HC as (HC1 & HC2).
        cbn [snd] in *. destruct (text_dec (str y') (str y)) as [E|]; [|discriminate].
        apply in_map_iff. exists (x', y'). split; [exact E|]. apply filter_In. split; assumption.
      * apply MapProofs.lookup_with_same.
    + destruct (find _ ps); [reflexivity|]. apply MapProofs.lookup_with_other. exact NE.
Qed.
Lemma paired_lookup l m : NoDup (map str m) -> (forall x, In x m -> is_nil x = false) -> length l = length m ->
  forall i x k, nth_error l i = Some x -> nth_error m i = Some k -> lookup (paired is_nil str l m) (str k) = Some x.
Proof.
  intros ND NN HL i x k EX EK. unfold paired. fold pair_in.
  assert (FI : filter (fun xk : A * A => negb (is_nil (snd xk))) (combine l m) = combine l m).
  { assert (forall xk, In xk (combine l m) -> negb (is_nil (snd xk)) = true)
      by (intros [u v] H; apply in_combine_r in H; cbn [snd]; rewrite (NN v H); reflexivity).
    clear -H. induction (combine l m) as [|p q IH]; [reflexivity|]. cbn [filter]. rewrite H by (left; reflexivity).
    f_equal. apply IH. intros; apply H; right; assumption. }
  assert (MS : map (fun xk : A * A => str (snd xk)) (combine l m) = map str m).
  { rewrite <- (map_map snd str). f_equal. clear -HL. revert l HL. induction m as [|y m IH]; intros [|z l] HL; try discriminate; [reflexivity|].
    cbn [combine map snd]. f_equal. apply IH. injection HL as HL. exact HL. }
  change (fun bs xk => if is_nil (snd xk) then bs else with_binding bs (str (snd xk)) (fst xk)) with pair_in.
  rewrite paired_lookup_gen by (rewrite FI, MS; exact ND).
  assert (HI : nth_error (combine l m) i = Some (x, k)).
  { clear -EX EK. revert l m EX EK. induction i as [|i IH]; intros [|u l] [|v m] EX EK; try discriminate; cbn [nth_error combine] in *;
      [congruence|apply IH; assumption]. }
  destruct (find _ (combine l m)) as [[x' k']|] eqn:EF.
  - cbn [fst]. apply find_some in EF. destruct EF as (HI' & HC). cbn [snd] in HC. apply andb_true_iff in HC. destruct HC as (_ & HC).
    destruct (text_dec (str k') (str k)) as [E|]; [|discriminate].
    apply In_nth_error in HI'. destruct HI' as (j & HJ). 
    assert (j = i) as ->.
    { apply (proj1 (NoDup_nth_error (map str m)) ND).
      - rewrite <- MS, map_length. apply nth_error_Some. congruence.
      - rewrite <- MS, !nth_error_map, HJ, HI. cbn [option_map snd]. congruence. }
    congruence.
  - apply find_none with (x := (x, k)) in EF; [|apply nth_error_In with i; exact HI].
    cbn [snd] in EF. rewrite (NN k) in EF by (apply nth_error_In with i; exact EK). destruct (text_dec (str k) (str k)); [discriminate|congruence].
Qed.
End By.

(** * Texts put in order by [compare:] *)
Definition apart (a b : text) : Prop := forall c, a ++ c = b -> c = [].
Lemma lex_apart : forall a b, apart a b -> apart b a -> lex (firstn (length b) a) (firstn (length a) b) = lex a b.
Proof.
  induction a as [|x a IH]; intros [|y b] H1 H2; try reflexivity.
  - specialize (H1 (y :: b) eq_refl). discriminate.
  - specialize (H2 (x :: a) eq_refl). discriminate.
  - cbn [length firstn lex]. destruct (N.compare_spec x y) as [->| |]; [|reflexivity..].
    apply IH; intros c E; [apply (H1 c)|apply (H2 c)]; cbn [app]; f_equal; exact E.
Qed.
Lemma lex_le_trans : forall a b c, lex a b <> Gt -> lex b c <> Gt -> lex a c <> Gt.
Proof.
  induction a as [|x a IH]; intros [|y b] [|z c]; cbn [lex]; try congruence.
  destruct (N.compare_spec x y) as [->|H|H]; destruct (N.compare_spec y z) as [->|H'|H']; try congruence.
  - apply IH.
  - intros _ _. rewrite (proj2 (N.compare_lt_iff x z) H). discriminate.
  - intros _ _. rewrite (proj2 (N.compare_lt_iff x z)) by lia. discriminate.
Qed.

Lemma strncmp_bound : forall n a b r, (forall c, In c a -> (c < 256)%N) -> (forall c, In c b -> (c < 256)%N) ->
  strncmp a b n = Ok r -> (-256 < r < 256)%Z.
Proof.
  induction n as [|n IH]; intros a b r HA HB H; cbn [strncmp] in H; [injection H as <-; lia|].
  destruct a as [|x a]; [discriminate|]. destruct b as [|y b]; [discriminate|].
  destruct (x =? y)%N; [destruct (x =? 0)%N|].
  - injection H as <-. lia.
  - apply (IH a b r); [intros; apply HA; right; assumption|intros; apply HB; right; assumption|exact H].
  - injection H as <-. pose proof (HA x (or_introl eq_refl)). pose proof (HB y (or_introl eq_refl)). lia.
Qed.

Lemma sort_texts {W B} (run : B -> W * B -> txt -> txt -> (W * B) * spec_float) qs g (b : B) (a : arr txt) l :
  qsort_iso qs -> holds a l ->
  (forall x, In x l -> no_nul (tval x) /\ forall c, In c (tval x) -> (c < 256)%N) ->
  (forall x y, In x l -> In y l -> apart (tval x) (tval y)) ->
  (forall w x y, exists w' r, string_compare x y = Ok r /\ run b (w, b) x y = ((w', b), of_Z r)) ->
  exists w' a' r, array_sort run qs g b a = Ok ((w', b), a') /\ holds a' r /\ Permutation r l /\
    StronglySorted (fun x y => lex (tval x) (tval y) <> Gt) r.
Proof.
  intros Q (st & R) HT HP HB.
  set (cmp := fun x y => match string_compare x y with Ok r => r | UB => 0%Z end).
  assert (HC : forall x y, In x l -> In y l -> string_compare x y = Ok (cmp x y) /\ Z.sgn (cmp x y) = sgn_of (lex (tval x) (tval y))).
  { intros x y Hx Hy. destruct (HT x Hx) as (NX & _). destruct (compare_common_prefix x y NX) as (r & E & S).
    unfold cmp. rewrite E. split; [reflexivity|]. rewrite lex_apart in S by auto. exact S. }
  assert (HL : forall x y, In x l -> In y l -> ((cmp x y <= 0)%Z <-> lex (tval x) (tval y) <> Gt)).
  { intros x y Hx Hy. destruct (HC x y Hx Hy) as (_ & S). destruct (lex (tval x) (tval y)); cbn [sgn_of] in S; split; intros H; try congruence; lia. }
  destruct (sort_rep run qs g b a st l cmp Q R) as (w' & a' & r & E & R' & P & S).
  - split.
    + intros x y Hx Hy. destruct (compare_swap x y) as (r & E1 & E2). unfold cmp. rewrite E1, E2. lia.
    + intros x y z Hx Hy Hz. rewrite !HL by assumption. apply lex_le_trans.
  - intros w x y Hx Hy. destruct (HB w x y) as (w' & r & E & ER). exists w', (of_Z r). split; [exact ER|].
    assert (BD : (-256 < r < 256)%Z).
    { unfold string_compare in E. destruct (HT x Hx) as (_ & BX). destruct (HT y Hy) as (_ & BY).
      eapply strncmp_bound; [| |exact E]; assumption. }
    assert (cmp x y = r) as -> by (unfold cmp; rewrite E; reflexivity).
    destruct (of_Z_ok r) as (F & V); [lia|]. apply c_int_whole; [exact F|exact V|lia].
  - exists w', a', r. split; [exact E|]. split; [exists st; exact R'|]. split; [exact P|].
    assert (HI : forall x, In x r -> In x l) by (intros x Hx; apply (Permutation_in _ P Hx)).
    clear -S HL HI. induction S as [|x r S IH HFa]; constructor.
    + apply IH. intros y Hy. apply HI. right. exact Hy.
    + rewrite Forall_forall in *. intros y Hy. apply HL; [apply HI; left; reflexivity|apply HI; right; exact Hy|auto].
Qed.
