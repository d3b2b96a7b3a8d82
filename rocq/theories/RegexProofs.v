(** Proofs about the Regex plug-in. *)
From Verif Require Import Common Fuel SipModel TextSpec RegexSpec RegexModel.

(** * What is asked of the matcher *)
Definition in_range (h : text) (s : span) : Prop := (fst s <= snd s <= length h)%nat.
Definition sound (exec : matcher) : Prop := forall h w gs, printable h -> exec h = EMatch w gs ->
  in_range h w /\ (forall s, In (Some s) gs -> in_range h s).
Definition never_empty (exec : matcher) : Prop := forall h w gs, exec h = EMatch w gs -> (fst w < snd w)%nat.
Definition never_fails (exec : matcher) : Prop := forall h, exec h <> EFail.
(** POSIX: the leftmost match, and of these the longest. *)
Definition finds (L : lang) (exec : matcher) : Prop := sound exec /\ never_fails exec /\
  (forall h, printable h -> exec h = ENoMatch -> ~ contains L h) /\
  (forall h w gs, printable h -> exec h = EMatch w gs ->
     exists x m y, first_longest L h x m y /\ fst w = length x /\ snd w = (length x + length m)%nat).

Lemma printable_app : forall a b, printable (a ++ b) <-> printable a /\ printable b.
Proof. intros a b. unfold printable. rewrite in_app_iff. tauto. Qed.
Lemma dropped_id : forall t, printable t -> dropped t = t.
Proof.
  unfold dropped. induction t as [|c t IH]; intros H; [reflexivity|]. cbn [filter]. destruct (N.eqb_spec c 0) as [->|C]; [exfalso; apply H; left; reflexivity|].
  cbn [negb]. f_equal. apply IH. intros K. apply H. right. exact K.
Qed.
Lemma dropped_printable : forall t, printable (dropped t).
Proof. intros t H. apply filter_In in H. destruct H as [_ H]. discriminate H. Qed.
Lemma cstr_app : forall s t, printable s -> cstr (s ++ 0%N :: t) = Ok s.
Proof.
  induction s as [|c s IH]; intros t H; cbn [cstr app]; [reflexivity|].
  destruct (N.eqb_spec c 0) as [->|C]; [exfalso; apply H; left; reflexivity|]. rewrite IH; [reflexivity|].
  intros K. apply H. right. exact K.
Qed.
Definition cut (h : text) (s : span) : text := firstn (snd s - fst s) (skipn (fst s) h).
Lemma printable_cut : forall h s, printable h -> printable (cut h s).
Proof.
  intros h s H K. apply H. unfold cut in K. rewrite <- (firstn_skipn (fst s) h), in_app_iff. right.
  rewrite <- (firstn_skipn (snd s - fst s) (skipn (fst s) h)), in_app_iff. left. exact K.
Qed.
Lemma group_ok : forall h s, printable h -> in_range h s -> group zeroed h s = Ok (cut h s).
Proof.
  intros h s P [R1 R2]. unfold group. replace (fst s <=? snd s)%nat with true by (symmetry; apply Nat.leb_le; lia).
  unfold slice. replace (fst s + (snd s - fst s) <=? length h)%nat with true by (symmetry; apply Nat.leb_le; lia).
  cbn [obind]. fold (cut h s). unfold zeroed. rewrite repeat_app, skipn_app, skipn_all2 by (rewrite repeat_length; lia).
  rewrite repeat_length, Nat.sub_diag. apply cstr_app, printable_cut, P.
Qed.
(** the groups up to the first that is not set *)
Fixpoint set_groups (h : text) (l : list (option span)) : list text :=
  match l with Some s :: r => cut h s :: set_groups h r | _ => [] end.
Lemma groups_ok : forall h l, printable h -> (forall s, In (Some s) l -> in_range h s) -> groups_of zeroed h l = Ok (set_groups h l).
Proof.
  intros h. induction l as [|[s|] l IH]; intros P H; cbn [groups_of set_groups]; try reflexivity.
  rewrite group_ok; [|exact P|apply H; left; reflexivity]. cbn [obind]. rewrite IH; [reflexivity|exact P|]. intros s' I. apply H. right. exact I.
Qed.
Lemma In_firstn : forall A (x : A) n l, In x (firstn n l) -> In x l.
Proof. intros A x n l H. rewrite <- (firstn_skipn n l), in_app_iff. left. exact H. Qed.
Lemma groups_ok255 : forall exec h w gs, sound exec -> printable h -> exec h = EMatch w gs ->
  groups_of zeroed h (firstn 255 (Some w :: gs)) = Ok (cut h w :: set_groups h (firstn 254 gs)).
Proof.
  intros exec h w gs S P E. destruct (S h w gs P E) as [R1 R2]. rewrite groups_ok; [reflexivity|exact P|].
  intros s I. apply In_firstn in I. destruct I as [I|I]; [injection I as <-; exact R1|apply R2, I].
Qed.

(** * Processing *)
(** What the block sees and answers, match by match. *)
Inductive processed {S : Type} (exec : matcher) (blk : S -> list text -> S * text) : S -> text -> S -> text -> Prop :=
| p_end st h : (forall w gs, exec h <> EMatch w gs) -> processed exec blk st h st h
| p_match st h x m y gs st' r st'' out :
    h = x ++ m ++ y -> exec h = EMatch (length x, (length x + length m)%nat) gs ->
    blk st (m :: set_groups h (firstn 254 gs)) = (st', r) ->
    processed exec blk st' y st'' out -> processed exec blk st h st'' (x ++ r ++ out).

Lemma split_at_span : forall h w, in_range h w -> h = firstn (fst w) h ++ cut h w ++ skipn (snd w) h /\
  length (firstn (fst w) h) = fst w /\ length (cut h w) = (snd w - fst w)%nat.
Proof.
  intros h w [R1 R2]. unfold cut. rewrite !firstn_length, skipn_length. split; [|lia].
  rewrite <- (firstn_skipn (fst w) h) at 1. f_equal. rewrite <- (firstn_skipn (snd w - fst w) (skipn (fst w) h)) at 1. f_equal.
  replace (skipn (snd w) h) with (skipn (fst w + (snd w - fst w)) h) by (f_equal; lia).
  generalize (snd w - fst w)%nat. generalize (fst w). clear. intros m n. revert h. induction m as [|m IH]; intros h; [reflexivity|].
  destruct h; [cbn [skipn Nat.add]; apply skipn_nil|]. cbn [skipn Nat.add]. apply IH.
Qed.
Lemma printable_skipn : forall n h, printable h -> printable (skipn n h).
Proof. intros n h H. rewrite <- (firstn_skipn n h) in H. apply printable_app in H. apply H. Qed.
Lemma loop_ok : forall S exec (blk : S -> list text -> S * text), sound exec -> never_empty exec ->
  forall fuel h st out, printable h -> (length h < fuel)%nat ->
  exists st' r, process_loop fuel zeroed exec blk st h out = Ret (st', out ++ r) /\ processed exec blk st h st' r.
Proof.
  intros S exec blk SO NE. induction fuel as [|fuel IH]; intros h st out P F; [lia|]. cbn [process_loop].
  destruct (exec h) as [w gs| |] eqn:E.
  - rewrite (groups_ok255 exec) by assumption. destruct (blk st (cut h w :: set_groups h (firstn 254 gs))) as [st1 r] eqn:B.
    destruct (SO h w gs P E) as [R _]. pose proof (NE h w gs E) as LT. destruct (split_at_span h w R) as (SP & L1 & L2).
    destruct (IH (skipn (snd w) h) st1 (out ++ firstn (fst w) h ++ r)) as (st2 & r2 & E2 & P2).
    + apply printable_skipn, P.
    + rewrite skipn_length. destruct R. lia.
    + exists st2, (firstn (fst w) h ++ r ++ r2). rewrite E2, <- !app_assoc. split; [reflexivity|].
      apply (p_match exec blk st h (firstn (fst w) h) (cut h w) (skipn (snd w) h) gs st1 r st2 r2).
      * exact SP.
      * rewrite E, L1, L2. destruct R. destruct w as [a b]. cbn [fst snd] in *. do 2 f_equal. lia.
      * exact B.
      * exact P2.
  - exists st, h. split; [reflexivity|]. constructor. intros w gs K. congruence.
  - exists st, h. split; [reflexivity|]. constructor. intros w gs K. congruence.
Qed.
Lemma process_ok : forall S exec (blk : S -> list text -> S * text) comp p o t st fuel, sound exec -> never_empty exec ->
  comp (dropped p) (has 110 o) (has 105 o) = Some exec -> has 33 o = false -> (length t < fuel)%nat ->
  exists st' out, process_options fuel zeroed comp p (HText t) (Some blk) o st = Ret (st', RText out, false) /\
    processed exec blk st (dropped t) st' out.
Proof.
  intros S exec blk comp p o t st fuel SO NE C O F. unfold process_options. rewrite C, O.
  destruct (loop_ok S exec blk SO NE fuel (dropped t) st [] (dropped_printable t)) as (st' & r & E & P).
  { apply Nat.le_lt_trans with (length t); [|exact F]. clear. unfold dropped. induction t as [|c t IH]; [apply Nat.le_refl|].
    cbn [filter length]. destruct (negb _); cbn [length]; lia. }
  rewrite E. cbn [rbind app]. exists st', r. split; [reflexivity|exact P].
Qed.

Lemma processed_same : forall S exec (blk : S -> list text -> S * text),
  (forall st m gs, snd (blk st (m :: gs)) = m) -> forall st h st' out, processed exec blk st h st' out -> out = h.
Proof.
  intros S exec blk H st h st' out P. induction P as [|st h x m y gs st' r st'' out EH EX B P IH]; [reflexivity|].
  rewrite EH, IH. f_equal. f_equal. rewrite <- (H st m (set_groups h (firstn 254 gs))), B. reflexivity.
Qed.
Lemma processed_substituted : forall S exec (blk : S -> list text -> S * text) L f, finds L exec ->
  (forall st m gs, snd (blk st (m :: gs)) = f m) ->
  forall st h st' out, printable h -> processed exec blk st h st' out -> substituted L f h out.
Proof.
  intros S exec blk L f (F1 & F2 & F3 & F4) H st h st' out PR P.
  induction P as [st h NO|st h x m y gs st' r st'' out EH EX B P IH].
  - constructor. apply F3; [exact PR|]. destruct (exec h) eqn:E; [exfalso; eapply NO; reflexivity|reflexivity|]. exfalso. exact (F2 h E).
  - destruct (F4 h _ _ PR EX) as (x' & m' & y' & FL & A1 & A2). cbn [fst snd] in A1, A2.
    destruct FL as [[E2 LM] MIN]. assert (x' = x /\ m' = m /\ y' = y) as (-> & -> & ->).
    { rewrite EH in E2. assert (X : x' = x /\ m' ++ y' = m ++ y).
      { apply (f_equal (firstn (length x))) in E2 as E3. rewrite firstn_app, Nat.sub_diag, firstn_all, firstn_O, app_nil_r in E3.
        rewrite A1, firstn_app, Nat.sub_diag, firstn_all, firstn_O, app_nil_r in E3. subst x'. split; [reflexivity|]. apply app_inv_head in E2. congruence. }
      destruct X as [-> X]. split; [reflexivity|]. assert (LL : length m = length m') by lia.
      apply (f_equal (firstn (length m'))) in X as X3. rewrite firstn_app, Nat.sub_diag, firstn_all, firstn_O, app_nil_r in X3.
      rewrite <- LL, firstn_app, Nat.sub_diag, firstn_all, firstn_O, app_nil_r in X3. subst m'. split; [reflexivity|]. apply app_inv_head in X. congruence. }
    replace r with (f m) by (rewrite <- (H st m (set_groups h (firstn 254 gs))), B; reflexivity).
    apply (s_next L f h x m y out); [split; [split; assumption|exact MIN]|]. apply IH.
    rewrite EH, !printable_app in PR. apply PR.
Qed.
Lemma first_longest_det : forall L t x m y x' m' y', first_longest L t x m y -> first_longest L t x' m' y' -> x = x' /\ m = m' /\ y = y'.
Proof.
  intros L t x m y x' m' y' [[E1 L1] [A1 B1]] [[E2 L2] [A2 B2]].
  assert (LX : length x = length x') by (apply Nat.le_antisymm; [eapply A1|eapply A2]; split; eassumption).
  assert (X : x = x').
  { rewrite E1 in E2. apply (f_equal (firstn (length x))) in E2. rewrite firstn_app, Nat.sub_diag, firstn_all, firstn_O, app_nil_r in E2.
    rewrite LX, firstn_app, Nat.sub_diag, firstn_all, firstn_O, app_nil_r in E2. exact E2. }
  subst x'. assert (LM : length m = length m') by (apply Nat.le_antisymm; [eapply B2|eapply B1]; split; eassumption).
  rewrite E1 in E2. apply app_inv_head in E2. assert (M : m = m').
  { apply (f_equal (firstn (length m))) in E2. rewrite firstn_app, Nat.sub_diag, firstn_all, firstn_O, app_nil_r in E2.
    rewrite LM, firstn_app, Nat.sub_diag, firstn_all, firstn_O, app_nil_r in E2. exact E2. }
  subst m'. apply app_inv_head in E2. auto.
Qed.
Lemma substituted_det : forall L f t u, substituted L f t u -> forall v, substituted L f t v -> u = v.
Proof.
  intros L f t u H. induction H as [t H|t x m y out FL H IH]; intros v K.
  - inversion K as [|? x m y out [FO _] ?]; subst; [reflexivity|]. exfalso. apply H. exists x, m, y. exact FO.
  - inversion K as [? NO|? x' m' y' out' FL' K']; subst.
    + exfalso. apply NO. destruct FL as [FO _]. exists x, m, y. exact FO.
    + destruct (first_longest_det _ _ _ _ _ _ _ _ FL FL') as (-> & -> & ->). rewrite (IH _ K'). reflexivity.
Qed.
Lemma finds_never_empty : forall L exec, finds L exec -> ~ L [] -> forall h w gs, printable h -> exec h = EMatch w gs -> (fst w < snd w)%nat.
Proof.
  intros L exec (_ & _ & _ & F4) NE h w gs P E. destruct (F4 h w gs P E) as (x & m & y & [[_ LM] _] & -> & ->).
  destruct m; [contradiction|]. cbn [length]. lia.
Qed.
(** [never_empty] asks for texts with NULs, too, which do not come; a matcher that answers nothing for them does the same *)
Definition tamed (exec : matcher) : matcher := fun h => if in_dec N.eq_dec 0%N h then ENoMatch else exec h.
Lemma tamed_same : forall exec h, printable h -> tamed exec h = exec h.
Proof. intros exec h P. unfold tamed. destruct (in_dec N.eq_dec 0%N h); [contradiction|reflexivity]. Qed.
Lemma tamed_loop : forall S exec (blk : S -> list text -> S * text) fuel h st out, printable h ->
  process_loop fuel zeroed (tamed exec) blk st h out = process_loop fuel zeroed exec blk st h out.
Proof.
  intros S exec blk. induction fuel as [|fuel IH]; intros h st out P; [reflexivity|]. cbn [process_loop]. rewrite tamed_same by exact P.
  destruct (exec h) as [w gs| |]; try reflexivity. destruct (groups_of _ _ _) as [g|]; [|reflexivity]. destruct (blk st g) as [st' r].
  apply IH, printable_skipn, P.
Qed.
Lemma tamed_finds : forall L exec, finds L exec -> ~ L [] -> finds L (tamed exec) /\ never_empty (tamed exec).
Proof.
  intros L exec F NE. split; [destruct F as (F1 & F2 & F3 & F4); split; [|split; [|split]]|].
  - intros h w gs P E. rewrite tamed_same in E by exact P. eapply F1; eassumption.
  - intros h E. unfold tamed in E. destruct (in_dec N.eq_dec 0%N h); [discriminate E|]. exact (F2 h E).
  - intros h P E. rewrite tamed_same in E by exact P. apply F3; assumption.
  - intros h w gs P E. rewrite tamed_same in E by exact P. eapply F4; eassumption.
  - intros h w gs E. unfold tamed in E. destruct (in_dec N.eq_dec 0%N h) as [|P]; [discriminate E|]. eapply finds_never_empty; eassumption.
Qed.
Lemma substitutes : forall S L f exec (blk : S -> list text -> S * text) comp p o t st fuel, finds L exec -> ~ L [] ->
  comp (dropped p) (has 110 o) (has 105 o) = Some exec -> has 33 o = false -> printable t -> (length t < fuel)%nat ->
  (forall st m gs, snd (blk st (m :: gs)) = f m) ->
  exists st' out, process_options fuel zeroed comp p (HText t) (Some blk) o st = Ret (st', RText out, false) /\
    substituted L f t out /\ forall out', substituted L f t out' -> out' = out.
Proof.
  intros S L f exec blk comp p o t st fuel F NE C O P FU B. destruct (tamed_finds L exec F NE) as [FT NT].
  destruct (process_ok S (tamed exec) blk (fun _ _ _ => Some (tamed exec)) p o t st fuel (proj1 FT) NT eq_refl O FU) as (st' & out & E & PR).
  rewrite dropped_id in PR by exact P. exists st', out. split.
  - rewrite <- E. unfold process_options. rewrite C, O. rewrite tamed_loop by apply dropped_printable. reflexivity.
  - pose proof (processed_substituted S (tamed exec) blk L f FT B st t st' out P PR) as SU. split; [exact SU|].
    intros out' SU'. symmetry. eapply substituted_det; eassumption.
Qed.

(** A plain text as the pattern. *)
Lemma substituted_replaced : forall p r t out, p <> [] -> substituted (fun m => m = p) (fun _ => r) t out -> replaced p r t out.
Proof.
  intros p r t out NE H. induction H as [t NO|t x m y out [[E ->] [MIN _]] H IH].
  - constructor. intros [i (pre & post & E & _)]. apply NO. exists pre, p, post. split; [exact E|reflexivity].
  - rewrite E in *. constructor; [|exact IH]. split; [exists x, y; split; reflexivity|].
    intros j (pre & post & E2 & <-). apply (MIN pre p post). split; [exact E2|reflexivity].
Qed.

(** * Options *)
Lemma has_ok : forall c o, printable o -> (length o < 256)%nat -> has c o = true <-> In c o.
Proof.
  intros c o P L. unfold has, options_of. rewrite dropped_id by exact P. rewrite Nat.mod_small by exact L. rewrite firstn_all.
  rewrite existsb_exists. split; [intros (x & I & E); apply N.eqb_eq in E; subst; exact I|intros I; exists c; split; [exact I|apply N.eqb_refl]].
Qed.
Lemma ignore_ok : forall S exec (blk : S -> list text -> S * text) comp p o t st fuel fresh,
  comp (dropped p) (has 110 o) (has 105 o) = Some exec -> has 33 o = true ->
  process_options fuel fresh comp p (HText t) (Some blk) o st = Ret (st, RText (dropped t), false).
Proof. intros S exec blk comp p o t st fuel fresh C O. unfold process_options. rewrite C, O. reflexivity. Qed.

(** * Matching *)
Lemma matches_ok : forall L exec comp p t, finds L exec -> comp (dropped p) false false = Some exec -> printable t ->
  (matches comp p t = (VTrue, false) /\ contains L t) \/ (matches comp p t = (VFalse, false) /\ ~ contains L t).
Proof.
  intros L exec comp p t (F1 & F2 & F3 & F4) C P. unfold matches. rewrite C, dropped_id by exact P.
  destruct (exec t) as [w gs| |] eqn:E; [left|right|exfalso; exact (F2 t E)].
  - split; [reflexivity|]. destruct (F4 t w gs P E) as (x & m & y & [FO _] & _). exists x, m, y. exact FO.
  - split; [reflexivity|]. apply F3; assumption.
Qed.

(** * Matchers exist for every pattern that can be decided *)
(** the longest text of the pattern at the begin, of at most [n] bytes *)
Fixpoint longest (d : text -> bool) (n : nat) (h : text) : option nat :=
  if d (firstn n h) then Some (length (firstn n h)) else match n with O => None | Datatypes.S k => longest d k h end.
Fixpoint search (d : text -> bool) (i : nat) (h : text) : option span :=
  match longest d (length h) h with
  | Some l => Some (i, (i + l)%nat)
  | None => match h with [] => None | _ :: r => search d (Datatypes.S i) r end
  end.
Definition posix (d : text -> bool) : matcher := fun h => match search d 0 h with Some s => EMatch s [] | None => ENoMatch end.
Lemma longest_ok : forall d h n, (n <= length h)%nat -> match longest d n h with
  | Some l => (l <= n)%nat /\ d (firstn l h) = true /\ forall k, (k <= n)%nat -> d (firstn k h) = true -> (k <= l)%nat
  | None => forall k, (k <= n)%nat -> d (firstn k h) = false end.
Proof.
  intros d h. induction n as [|n IH]; intros L; cbn [longest]; destruct (d (firstn _ h)) eqn:E.
  - split; [apply Nat.le_refl|]. split; [exact E|]. intros k K _. exact K.
  - intros k K. replace k with 0%nat by lia. exact E.
  - rewrite firstn_length, Nat.min_l by exact L. split; [apply Nat.le_refl|]. split; [exact E|]. intros k K _. exact K.
  - assert (L' : (n <= length h)%nat) by lia. specialize (IH L'). destruct (longest d n h) as [l|].
    + destruct IH as (I1 & I2 & I3). split; [lia|]. split; [exact I2|]. intros k K DK.
      destruct (Nat.eq_dec k (Datatypes.S n)) as [->|]; [congruence|]. apply I3; [lia|exact DK].
    + intros k K. destruct (Nat.eq_dec k (Datatypes.S n)) as [->|]; [exact E|]. apply IH. lia.
Qed.
Lemma search_ok : forall d h i, match search d i h with
  | Some s => exists x m y, first_longest (fun m => d m = true) h x m y /\ fst s = (i + length x)%nat /\ snd s = (i + length x + length m)%nat
  | None => ~ contains (fun m => d m = true) h end.
Proof.
  intros d. induction h as [|c h IH]; intros i; cbn [search].
  - pose proof (longest_ok d [] 0 (Nat.le_refl _)) as LO. cbn [length]. destruct (longest d 0 []) as [l|].
    + destruct LO as (I1 & I2 & I3). exists [], [], []. rewrite firstn_nil in I2. cbn [fst snd length]. split; [|lia].
      split; [split; [reflexivity|exact I2]|]. split; [intros; apply Nat.le_0_l|]. intros m' y' [E _]. cbn [app] in E. symmetry in E. apply app_eq_nil in E. destruct E as [-> _]. apply Nat.le_refl.
    + intros (x & m & y & E & K). symmetry in E. apply app_eq_nil in E. destruct E as [_ E]. apply app_eq_nil in E. destruct E as [-> _].
      specialize (LO 0%nat (Nat.le_refl _)). cbn in LO. congruence.
  - pose proof (longest_ok d (c :: h) (length (c :: h)) (Nat.le_refl _)) as LO. destruct (longest d (length (c :: h)) (c :: h)) as [l|].
    + destruct LO as (I1 & I2 & I3). exists [], (firstn l (c :: h)), (skipn l (c :: h)). rewrite firstn_length, Nat.min_l by exact I1. cbn [fst snd].
      split; [|cbn [length]; lia]. split; [split; [cbn [app]; symmetry; apply firstn_skipn|exact I2]|]. split; [intros; apply Nat.le_0_l|].
      intros m' y' [E K]. cbn [app] in E. rewrite firstn_length, Nat.min_l by exact I1. apply I3; [rewrite E, app_length; lia|].
      rewrite E, firstn_app, Nat.sub_diag, firstn_all, firstn_O, app_nil_r. exact K.
    + assert (NB : forall m y, found (fun m => d m = true) (c :: h) [] m y -> False).
      { intros m y [E K]. cbn [app] in E. specialize (LO (length m)). rewrite E, app_length in LO.
        rewrite firstn_app, Nat.sub_diag, firstn_all, firstn_O, app_nil_r in LO. rewrite K in LO. assert (true = false) by (apply LO; lia). discriminate. }
      specialize (IH (Datatypes.S i)). destruct (search d (Datatypes.S i) h) as [s|].
      * destruct IH as (x & m & y & [[E K] [A B]] & S1 & S2). exists (c :: x), m, y. cbn [length]. split; [|lia].
        split; [split; [cbn [app]; rewrite E; reflexivity|exact K]|]. split.
        -- intros [|c' x'] m' y' FO; [exfalso; eapply NB; exact FO|]. cbn [length]. apply le_n_S. destruct FO as [E2 K2]. injection E2 as <- E2. apply (A x' m' y'). split; assumption.
        -- intros m' y' [E2 K2]. injection E2 as E2. apply (B m' y'). split; assumption.
      * intros ([|c' x] & m & y & FO); [eapply NB; exact FO|]. destruct FO as [E K]. injection E as <- E. apply IH. exists x, m, y. split; assumption.
Qed.
Lemma posix_finds : forall d, finds (fun m => d m = true) (posix d).
Proof.
  intros d. assert (M : forall h w gs, posix d h = EMatch w gs -> gs = [] /\
    exists x m y, first_longest (fun m => d m = true) h x m y /\ fst w = length x /\ snd w = (length x + length m)%nat).
  { intros h w gs E. unfold posix in E. pose proof (search_ok d h 0) as SO. destruct (search d 0 h) as [s|]; [|discriminate E]. injection E as <- <-. split; [reflexivity|exact SO]. }
  split; [|split; [|split]].
  - intros h w gs P E. destruct (M h w gs E) as [-> (x & m & y & [[EQ _] _] & A1 & A2)]. split; [|intros s []].
    unfold in_range. rewrite EQ, !app_length. lia.
  - intros h E. unfold posix in E. destruct (search d 0 h); discriminate E.
  - intros h P E. unfold posix in E. pose proof (search_ok d h 0) as SO. destruct (search d 0 h); [discriminate E|exact SO].
  - intros h w gs P E. apply (M h w gs E).
Qed.

(** A pattern that stands for the empty text: there is always another match. *)
Lemma endless : forall S L exec (blk : S -> list text -> S * text), finds L exec -> L [] ->
  forall fuel h st out, printable h -> process_loop fuel zeroed exec blk st h out = NoFuel.
Proof.
  intros S L exec blk (F1 & F2 & F3 & F4) E0. induction fuel as [|fuel IH]; intros h st out P; [reflexivity|]. cbn [process_loop].
  destruct (exec h) as [w gs| |] eqn:E.
  - rewrite (groups_ok255 exec) by assumption. destruct (blk st _) as [st' r]. apply IH, printable_skipn, P.
  - exfalso. apply (F3 h P E). exists [], [], h. split; [reflexivity|exact E0].
  - exfalso. exact (F2 h E).
Qed.

(** ** Blocks that end in an error *)
Lemma flow_none S rstr (exec : matcher) fresh (f : S -> list text -> S * text) quiet : forall fuel st h out,
  flow_loop rstr fuel fresh exec (fun s gs => let '(s', r) := f s gs in (s', AText r)) quiet st None h out =
  rbind (process_loop fuel fresh exec f st h out) (fun '(st', o) => Ret (st', None, o)).
Proof.
  induction fuel as [|fuel IH]; intros st h out; [reflexivity|]. cbn [flow_loop process_loop]. destruct (exec h) as [w gs| |]; try reflexivity.
  destruct (groups_of _ _ _) as [groups|]; [|reflexivity]. unfold run_block. destruct (f st groups) as [st' r]. apply IH.
Qed.
(** once there is an error, there is one until the end, and the program is not changed any more *)
Lemma flow_some S rstr (exec : matcher) fresh (blk : S -> list text -> S * answer) quiet : forall fuel st e h out r,
  flow_loop rstr fuel fresh exec blk quiet st (Some e) h out = Ret r -> fst (fst r) = st /\ (snd (fst r) = Some e \/ snd (fst r) = Some rstr).
Proof.
  induction fuel as [|fuel IH]; intros st e h out r; [discriminate|]. cbn [flow_loop]. destruct (exec h) as [w gs| |]; try (intros [= <-]; cbn; auto).
  destruct (groups_of _ _ _) as [groups|]; [|discriminate]. unfold run_block. destruct (quiet groups) as [u|]; intros H; apply IH in H; [exact H|]. tauto.
Qed.
Lemma flow_calls S rstr (exec : matcher) fresh (blk : S -> list text -> S * answer) quiet : forall fuel st h out st' e o,
  flow_loop rstr fuel fresh exec blk quiet st None h out = Ret (st', Some e, o) -> e = rstr.
Proof.
  induction fuel as [|fuel IH]; intros st h out st' e o; [discriminate|]. cbn [flow_loop]. destruct (exec h) as [w gs| |]; try discriminate.
  destruct (groups_of _ _ _) as [groups|]; [|discriminate]. unfold run_block. destruct (blk st groups) as [st1 [r|e1]].
  - apply IH.
  - intros H. apply flow_some in H. cbn [fst snd] in H. destruct H as [_ [H|H]]; now injection H.
Qed.
