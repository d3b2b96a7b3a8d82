(** Reading and loading dictionary files. *)
From Verif Require Import Common Fuel Txt NumModel LexModel TransModel TransSpec TransMain TransProofs GenSpec GenModel GenProofs.
From Coq Require Import String.
Local Open Scope nat_scope.

(** ** Reading *)
Lemma scan_line ty w t rest : ~ is_blank ty -> quotable w -> quotable t -> List.length w <= 4999 -> List.length t <= 4999 -> fresh rest ->
  scan line_format (file_line (ty, w, t) ++ rest) = ([[ty]; w; t], rest).
Proof.
  intros T W R LW LR F. unfold line_format, file_line. rewrite <- !app_assoc.
  change ([ty; 32; 34] ++ w ++ [34; 32; 34] ++ t ++ [34; 10] ++ rest)%N%list with (ty :: [32]%N ++ (34%N :: w ++ 34%N :: [32]%N ++ (34%N :: t ++ 34%N :: [10]%N ++ rest)))%list.
  change (scan (DChar :: ?ds) (ty :: ?r)) with (let '(l, r') := scan ds r in ([ty] :: l, r')).
  assert (B : Forall is_blank [32%N]) by (constructor; [now left|constructor]). assert (C : Forall is_blank [10%N]) by (constructor; [right; lia|constructor]).
  rewrite scan_space; [|exact B|reflexivity]. rewrite scan_lit, scan_set by assumption. rewrite scan_lit, scan_space; [|exact B|reflexivity].
  rewrite scan_lit, scan_set by assumption. rewrite scan_lit, scan_space by assumption. reflexivity.
Qed.
Lemma moved_spec t : List.length t - List.length (match after_hash t with Some x => x | None => t end) = moved t /\ (forall x, after_hash t = Some x -> List.length t = moved t + List.length x).
Proof.
  induction t as [|c t (I1 & I2)]; [split; [reflexivity|discriminate]|]. cbn [after_hash moved]. destruct (c =? 35)%N.
  - split; [cbn [List.length]; lia|]. intros x E. injection E as <-. reflexivity.
  - destruct (after_hash t) as [x|] eqn:E.
    + specialize (I2 x eq_refl). destruct (moved t) as [|n] eqn:M.
      * exfalso. clear -E I2. cbn in I2. revert x E I2. induction t as [|c t IH]; intros x E L; [discriminate|]. cbn in E. destruct (c =? 35)%N; [injection E as ->; cbn in L; lia|].
        cbn in L. destruct x as [|y x]; [discriminate L|]. assert (Q : List.length (y :: x) <= List.length t); [|cbn in *; lia].
        clear -E. revert E. generalize (y :: x). intros z. revert z. induction t as [|c t IH]; intros z E; [discriminate|]. cbn in E. destruct (c =? 35)%N; [injection E as ->; cbn [List.length]; lia|]. apply IH in E. cbn [List.length]. lia.
      * split; [cbn [List.length]; lia|]. intros z Z. injection Z as <-. cbn [List.length]. lia.
    + split; [|discriminate]. rewrite Nat.sub_diag in *. now rewrite <- I1.
Qed.
Lemma file_fresh ls : Forall line_ok ls -> fresh (file_of ls).
Proof. intros F. destruct F as [|[[ty w] t] ls (T & _) F]; [exact I|]. cbn. now apply not_blank. Qed.
Definition lift {A} (r : lres A) : res (lres A) := match r with LOk s => Ret (LOk s) | LExit => Ret LExit | LUB => Bad end.
Lemma read_lines d : forall ls fuel s w t sh, Forall line_ok ls -> room sh ls -> List.length ls < fuel ->
  load_text d fuel s w t sh (file_of ls) = lift (load_lines d s ls).
Proof.
  induction ls as [|[[ty w0] t0] ls IH]; intros fuel s w t sh F R L; (destruct fuel as [|fuel]; [cbn in L; lia|]).
  - reflexivity.
  - apply Forall_cons_iff in F as [(T & W & X & LW) F]. destruct R as [R1 R2]. cbn [load_text].
    change (file_of ((ty, w0, t0) :: ls)) with (file_line (ty, w0, t0) ++ file_of ls)%list.
    rewrite (scan_line ty w0 t0 (file_of ls) T W X LW ltac:(lia) (file_fresh ls F)). cbn [nth hd List.length].
    assert (E : 5000 <=? sh + List.length t0 = false) by (apply Nat.leb_gt; lia). rewrite E. cbn [Nat.leb andb].
    assert (E2 : List.length w0 =? 0 = false) by (destruct W as [W _]; destruct w0; [congruence|reflexivity]). rewrite E2, andb_false_r. cbn [load_lines].
    destruct (load_line d s (ty, w0, t0)) as [s'| |]; try reflexivity. cbn [lbind]. rewrite (proj1 (moved_spec t0)). apply IH; [exact F|exact R2|cbn in L; lia].
Qed.
Lemma file_len ls : List.length ls <= List.length (file_of ls).
Proof. induction ls as [|[[ty w] t] ls IH]; [cbn; lia|]. change (file_of ((ty, w, t) :: ls)) with (file_line (ty, w, t) ++ file_of ls)%list. rewrite app_length. cbn [file_line]. rewrite !app_length. cbn. lia. Qed.
Lemma read_ok d ls : Forall line_ok ls -> room 0 ls -> load_file d (file_of ls) = lift (load_dictionary d ls).
Proof.
  intros F R. unfold load_file, load_dictionary. rewrite read_lines; [|exact F|exact R|pose proof (file_len ls); lia].
  destruct (load_lines d _ ls) as [s| |]; cbn [lift rbind lbind]; try reflexivity. destruct (l_dec s); [destruct (l_tho s)|]; reflexivity.
Qed.

(** ** Loading *)
Definition last_of (ty : N) (ls : list line) (o : option entry) : option entry :=
  fold_left (fun o l => if (fst (fst l) =? ty)%N then Some (entry_of l) else o) ls o.
Definition prefix_of (d : dict) (ls : list line) (c : N) : N :=
  fold_left (fun c l => if is_word l && starts [d_prefix d] (snd (fst l)) then hd 0%N (snd l) else c) ls c.
Lemma has_in t : ~ In 35%N t -> has 35 t = false.
Proof. intros H. unfold has. destruct (existsb (N.eqb 35) t) eqn:E; [|reflexivity]. apply existsb_exists in E as (x & I & E). apply N.eqb_eq in E as <-. now apply H in I. Qed.
Lemma usable_plain l : usable l -> plain_line l = true.
Proof. destruct l as [[ty w] t]. intros (_ & _ & _ & _ & W & T). cbn. change among with has. now rewrite (has_in w W), (has_in t T). Qed.
Lemma usable_all ls : Forall usable ls -> forallb plain_line ls = true.
Proof. intros F. apply forallb_forall. intros l I. rewrite Forall_forall in F. apply usable_plain, F, I. Qed.
Lemma unlike_clash a b : unlike a b -> is_word a = true -> clash false (entry_of b) (entry_of a) = false.
Proof.
  destruct a as [[ty w] t], b as [[ty' w'] t']. cbn. unfold clash. cbn. intros U A.
  destruct (N.eqb_spec ty ty') as [E|]; [|reflexivity]. destruct (U E) as [U1 U2].
  - apply orb_true_iff in A as [A|A]; apply N.eqb_eq in A; [left|right; left]; now rewrite A.
  - cbn. destruct (text_eqb w w') eqn:EW; [apply text_eqb_true in EW; congruence|]. destruct (text_eqb t t') eqn:ET; [apply text_eqb_true in ET; congruence|]. reflexivity.
Qed.
Lemma load_lines_ok d : forall ls s, Forall usable ls -> ForallOrdPairs unlike (filter is_word ls) ->
  (forall l e, In l (filter is_word ls) -> In e (l_es s) -> clash false (entry_of l) e = false) ->
  exists s', load_lines d s ls = LOk s' /\ l_dec s' = last_of ty_d ls (l_dec s) /\ l_tho s' = last_of ty_x ls (l_tho s) /\ l_prefix s' = prefix_of d ls (l_prefix s).
Proof.
  induction ls as [|l ls IH]; intros s U P C; [now exists s|]. apply Forall_cons_iff in U as [U1 U]. destruct l as [[ty w] t]. pose proof U1 as (T & L & NW & NT & HW & HT).
  cbn [load_lines]. unfold load_line at 1. rewrite (has_in w HW), (has_in t HT), (hash_none t (has_in t HT)).
  assert (M : negb (ty =? ty_s)%N && ((max_word <? List.length w) || (max_word <? List.length t)) = false).
  { destruct L as [-> | [L1 L2]]; [reflexivity|]. apply andb_false_iff. right. apply orb_false_iff. unfold max_word. split; apply Nat.ltb_ge; lia. }
  destruct T as [<-|[<-|[<-|[<-|[]]]]]; cbn [N.eqb Pos.eqb ty_t ty_s ty_d ty_x orb andb negb] in *; try rewrite M.
  - cbn [filter is_word] in P, C. change ((116 =? ty_t) || (116 =? ty_s))%N with true in P, C. cbn iota in P, C.
    assert (X : existsb (clash false (mkEntry 116 w t)) (l_es s) = false).
    { destruct (existsb _ (l_es s)) eqn:E; [|reflexivity]. apply existsb_exists in E as (e & I & E). pose proof (C (116%N, w, t) e (or_introl eq_refl) I) as Z. cbn [entry_of] in Z. congruence. }
    inversion P as [|? ? P1 P2]; subst.
    assert (K : forall c s1, l_es s1 = mkEntry 116 w t :: l_es s -> l_dec s1 = l_dec s -> l_tho s1 = l_tho s -> l_prefix s1 = c ->
       exists s', load_lines d s1 ls = LOk s' /\ l_dec s' = last_of ty_d ls (l_dec s) /\ l_tho s' = last_of ty_x ls (l_tho s) /\ l_prefix s' = prefix_of d ls c).
    { intros c s1 E1 E2 E3 E4. rewrite <- E2, <- E3, <- E4. apply IH; [exact U|exact P2|]. intros l e I J. rewrite E1 in J. destruct J as [<-|J].
      - rewrite Forall_forall in P1. apply (unlike_clash (116%N, w, t) l (P1 l I) eq_refl).
      - apply C; [now right|exact J]. }
    cbn [prefix_of fold_left is_word fst snd last_of entry_of]. change ((116 =? ty_t) || (116 =? ty_s))%N with true. cbn [andb].
    destruct (starts [d_prefix d] w).
    + destruct t as [|c t]; [congruence|]. cbn [lbind]. rewrite X. cbn [hd]. apply K; reflexivity.
    + cbn [lbind]. rewrite X. apply K; reflexivity.
  - cbn [filter is_word] in P, C. change ((115 =? ty_t) || (115 =? ty_s))%N with true in P, C. cbn iota in P, C.
    assert (X : existsb (clash false (mkEntry 115 w t)) (l_es s) = false).
    { destruct (existsb _ (l_es s)) eqn:E; [|reflexivity]. apply existsb_exists in E as (e & I & E). pose proof (C (115%N, w, t) e (or_introl eq_refl) I) as Z. cbn [entry_of] in Z. congruence. }
    inversion P as [|? ? P1 P2]; subst.
    assert (K : forall c s1, l_es s1 = mkEntry 115 w t :: l_es s -> l_dec s1 = l_dec s -> l_tho s1 = l_tho s -> l_prefix s1 = c ->
       exists s', load_lines d s1 ls = LOk s' /\ l_dec s' = last_of ty_d ls (l_dec s) /\ l_tho s' = last_of ty_x ls (l_tho s) /\ l_prefix s' = prefix_of d ls c).
    { intros c s1 E1 E2 E3 E4. rewrite <- E2, <- E3, <- E4. apply IH; [exact U|exact P2|]. intros l e I J. rewrite E1 in J. destruct J as [<-|J].
      - rewrite Forall_forall in P1. apply (unlike_clash (115%N, w, t) l (P1 l I) eq_refl).
      - apply C; [now right|exact J]. }
    cbn [prefix_of fold_left is_word fst snd last_of entry_of]. change ((115 =? ty_t) || (115 =? ty_s))%N with true. cbn [andb].
    destruct (starts [d_prefix d] w).
    + destruct t as [|c t]; [congruence|]. cbn [lbind]. rewrite X. cbn [hd]. apply K; reflexivity.
    + cbn [lbind]. rewrite X. apply K; reflexivity.
  - cbn [lbind]. edestruct IH as (s' & E & E1 & E2 & E3); [exact U|exact P| |]; cycle 1.
    + exists s'. rewrite E. split; [reflexivity|]. rewrite E1, E2, E3. cbn [l_dec l_tho l_prefix]. split; [reflexivity|]. split; reflexivity.
    + exact C.
  - cbn [lbind]. edestruct IH as (s' & E & E1 & E2 & E3); [exact U|exact P| |]; cycle 1.
    + exists s'. rewrite E. split; [reflexivity|]. rewrite E1, E2, E3. cbn [l_dec l_tho l_prefix]. split; [reflexivity|]. split; reflexivity.
    + exact C.
Qed.
Lemma dictionary_loads d ls de th : Forall usable ls -> ForallOrdPairs unlike (filter is_word ls) -> last_of ty_d ls None = Some de -> last_of ty_x ls None = Some th ->
  exists T, load_dictionary d ls = LOk T /\ t_dec T = de /\ t_tho T = th /\ t_prefix T = prefix_of d ls 0%N.
Proof.
  intros U P D X. destruct (load_lines_ok d ls (mkLoading [] [] None None 0) U P ltac:(intros l e _ [])) as (s & E & E1 & E2 & E3). cbn [l_dec l_tho l_prefix] in *.
  unfold load_dictionary. rewrite E. cbn [lbind]. rewrite E1, E2, D, X. eexists. split; [reflexivity|]. now rewrite E3.
Qed.
(** The other way round: lines that share a word or a translation are refused. *)
Lemma ordpairs_map {A B} (f : A -> B) (R : B -> B -> Prop) l : ForallOrdPairs R (map f l) -> ForallOrdPairs (fun a b => R (f a) (f b)) l.
Proof.
  induction l as [|a l IH]; intros H; [constructor|]. inversion H as [|? ? H1 H2]; subst. constructor; [|now apply IH].
  apply Forall_forall. intros x I. rewrite Forall_forall in H1. apply H1, in_map, I.
Qed.
Lemma ordpairs_app {A} (R : A -> A -> Prop) l a : ForallOrdPairs R l -> Forall (fun x => R x a) l -> ForallOrdPairs R (l ++ [a]).
Proof.
  induction l as [|x l IH]; intros H F; [repeat constructor|]. inversion H as [|? ? H1 H2]; subst. apply Forall_cons_iff in F as [F1 F]. cbn. constructor; [|now apply IH].
  apply Forall_app. split; [exact H1|now constructor].
Qed.
Lemma ordpairs_rev {A} (R : A -> A -> Prop) l : ForallOrdPairs R (rev l) -> ForallOrdPairs (fun a b => R b a) l.
Proof.
  intros H. rewrite <- (rev_involutive l). induction H as [|a m H1 H2 IH]; [constructor|]. cbn [rev]. apply ordpairs_app; [exact IH|].
  apply Forall_forall. intros x I. rewrite <- in_rev in I. rewrite Forall_forall in H1. now apply H1.
Qed.
Lemma loaded_unlike d ls T : Forall usable ls -> load_dictionary d ls = LOk T -> ForallOrdPairs unlike (filter is_word ls).
Proof.
  intros U H. unfold load_dictionary in H. destruct (load_lines d _ ls) as [s| |] eqn:E; try discriminate. clear H.
  destruct (load_words d ls _ _ (usable_all ls U) E) as (E1 & E2). specialize (E2 ltac:(constructor)). rewrite E1 in E2. cbn [l_es] in E2. rewrite app_nil_r in E2.
  unfold pairwise, words_of in E2. apply ordpairs_rev, ordpairs_map in E2.
  revert E2. generalize (filter is_word ls). intros m E2. induction E2 as [|a m H1 H2 IH]; constructor; [|exact IH].
  eapply Forall_impl; [|exact H1]. intros b C. destruct a as [[ty w] t], b as [[ty' w'] t']. cbn. intros <- _. unfold clash in C. cbn in C. rewrite N.eqb_refl in C. cbn in C.
  apply orb_false_iff in C as [C1 C2]. split; intros <-; [now rewrite text_eqb_same in C1|now rewrite text_eqb_same in C2].
Qed.

(** ** What can be loaded *)
Lemma words_unlike ls : ForallOrdPairs unlike ls <-> ForallOrdPairs unlike (filter is_word ls).
Proof.
  split.
  - induction 1 as [|a l H1 H2 IH]; [constructor|]. cbn [filter]. destruct (is_word a); [|exact IH]. constructor; [|exact IH]. rewrite Forall_forall in *. intros x X. apply filter_In in X as [X _]. auto.
  - induction ls as [|a l IH]; intros H; [constructor|]. cbn [filter] in H. destruct (is_word a) eqn:E.
    + inversion H as [|? ? H1 H2]; subst. constructor; [|now apply IH]. rewrite Forall_forall in *. intros x X. destruct (is_word x) eqn:EX; [apply H1, filter_In; now split|].
      destruct a as [[ty w] t], x as [[ty' w'] t']. cbn in E, EX |- *. intros ->. congruence.
    + constructor; [|now apply IH]. apply Forall_forall. intros [[ty' w'] t'] _. destruct a as [[ty w] t]. cbn in E |- *. intros _ [<-|[<-|[]]]; discriminate E.
Qed.
Lemma last_some ty ls : forall o, (o <> None \/ exists w t, In (ty, w, t) ls) <-> last_of ty ls o <> None.
Proof.
  induction ls as [|[[ty' w'] t'] l IH]; intros o; unfold last_of in *; cbn [fold_left fst].
  - split; [intros [H|(w & t & [])]; exact H|now left].
  - rewrite <- IH. destruct (N.eqb_spec ty' ty) as [->|NE].
    + split; [intros _; left; discriminate|intros _; right; exists w', t'; now left].
    + split; (intros [H|(w & t & H)]; [now left|right; exists w, t]); [destruct H as [E|H]; [congruence|exact H]|now right].
Qed.
Lemma load_dictionary_cases d ls : Forall usable ls ->
  ((exists T, load_dictionary d ls = LOk T) <-> ForallOrdPairs unlike ls /\ (exists w t, In (100%N, w, t) ls) /\ (exists w t, In (120%N, w, t) ls)) /\ load_dictionary d ls <> LUB.
Proof.
  intros U. split; [split|].
  - intros (T & H). split; [now apply words_unlike, (loaded_unlike d ls T)|]. apply loaded_unlike in H as P; [|exact U].
    destruct (load_lines_ok d ls (mkLoading [] [] None None 0) U P ltac:(intros l e _ [])) as (s & E & E1 & E2 & E3). cbn [l_dec l_tho] in E1, E2. unfold load_dictionary in H. rewrite E in H. cbn [lbind] in H.
    split; [apply (proj2 (last_some 100 ls None)) in E1 || idtac|].
    + destruct (l_dec s) eqn:D; [|discriminate]. destruct (proj2 (last_some 100 ls None)) as [X|X]; [unfold ty_d in E1; rewrite <- E1; discriminate|now destruct X|exact X].
    + destruct (l_dec s) eqn:D; [|discriminate]. destruct (l_tho s) eqn:X; [|discriminate]. destruct (proj2 (last_some 120 ls None)) as [Y|Y]; [unfold ty_x in E2; rewrite <- E2; discriminate|now destruct Y|exact Y].
  - intros (P & D & X). apply words_unlike in P. pose proof (proj1 (last_some 100 ls None) (or_intror D)) as D'. pose proof (proj1 (last_some 120 ls None) (or_intror X)) as X'.
    destruct (last_of 100 ls None) as [de|] eqn:ED; [|now destruct D']. destruct (last_of 120 ls None) as [th|] eqn:EX; [|now destruct X'].
    destruct (dictionary_loads d ls de th U P ED EX) as (T & E & _). now exists T.
  - unfold load_dictionary. assert (G : forall ls s, Forall usable ls -> load_lines d s ls <> LUB).
    { clear. induction ls as [|[[ty w] t] ls IH]; intros s F; [discriminate|]. apply Forall_cons_iff in F as [U F]. cbn [load_lines]. destruct (load_line d s (ty, w, t)) as [s'| |] eqn:E; cbn [lbind]; [now apply IH|discriminate|].
      exfalso. revert E. destruct U as (_ & _ & NW & NT & _ & HT). unfold load_line. rewrite (hash_none t (has_in t HT)).
      destruct (negb _); [discriminate|]. destruct (has 35 w); [discriminate|]. destruct (_ && _); [discriminate|]. destruct (ty =? ty_d)%N; [discriminate|]. destruct (ty =? ty_x)%N; [discriminate|].
      destruct (starts _ w); [destruct t; [congruence|]|]; cbn [lbind]; destruct (existsb _ _); discriminate. }
    specialize (G ls (mkLoading [] [] None None 0) U). destruct (load_lines d _ ls) as [s| |]; cbn [lbind]; [|discriminate|congruence]. destruct (l_dec s); [destruct (l_tho s)|]; discriminate.
Qed.
Lemma usable_line_ok l : usable l -> ~ In 34%N (snd (fst l)) -> ~ In 34%N (snd l) -> List.length (snd (fst l)) <= 4999 -> line_ok l.
Proof.
  destruct l as [[ty w] t]. cbn [fst snd]. intros (T & _ & NW & NT & _) Q1 Q2 L. split; [|split; [split|split; [split|exact L]]]; try assumption.
  - unfold is_blank. destruct T as [<-|[<-|[<-|[<-|[]]]]]; lia.
  - apply Forall_forall. intros c I ->. now apply Q1.
  - apply Forall_forall. intros c I ->. now apply Q2.
Qed.
Lemma file_cases d ls : Forall line_ok ls -> Forall usable ls -> room 0 ls ->
  ((exists T, load_file d (file_of ls) = Ret (LOk T)) <-> ForallOrdPairs unlike ls /\ (exists w t, In (100%N, w, t) ls) /\ (exists w t, In (120%N, w, t) ls)) /\
  (load_file d (file_of ls) = Ret LExit \/ exists T, load_file d (file_of ls) = Ret (LOk T)).
Proof.
  intros F U R. rewrite (read_ok d ls F R). destruct (load_dictionary_cases d ls U) as [H NU]. destruct (load_dictionary d ls) as [T| |] eqn:E; cbn [lift]; [| |congruence].
  - split; [|right; now exists T]. rewrite <- H. split; intros _; now exists T.
  - split; [|now left]. rewrite <- H. split; intros (T & X); discriminate X.
Qed.
