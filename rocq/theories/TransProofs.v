(** Dictionaries read backwards, and programs translated there and back. *)
From Verif Require Import Common TextModel NumModel LexModel TransModel TransSpec TransLex TransMain TransLoop.
From Coq Require Import Lia.
Open Scope nat_scope.

(** ** Dictionaries *)
Lemma hash_none t : has 35 t = false -> after_hash t = None.
Proof.
  induction t as [|c t IH]; [reflexivity|]. cbn [has existsb after_hash]. intros H. apply orb_false_iff in H as (H1 & H2). rewrite N.eqb_sym, H1. now apply IH.
Qed.
Lemma load_line_spec d s l s' : plain_line l = true -> load_line d s l = LOk s' ->
  let '(ty, w, t) := l in
  ((ty =? ty_t) || (ty =? ty_s) || (ty =? ty_d) || (ty =? ty_x) = true)%N /\
  ((ty =? ty_s)%N = true \/ length w <= 180 /\ length t <= 180) /\
  if is_word l then
    existsb (clash false (entry_of l)) (l_es s) = false /\ l_es s' = entry_of l :: l_es s /\ l_last s' = l_es s' /\ l_dec s' = l_dec s /\ l_tho s' = l_tho s /\
    (starts [d_prefix d] w = true /\ t <> [] /\ l_prefix s' = hd 0%N t \/ starts [d_prefix d] w = false /\ l_prefix s' = l_prefix s)
  else l_es s' = l_es s /\ l_last s' = [entry_of l] /\ l_prefix s' = l_prefix s /\
    (if (ty =? ty_d)%N then l_dec s' = Some (entry_of l) /\ l_tho s' = l_tho s else l_dec s' = l_dec s /\ l_tho s' = Some (entry_of l)).
Proof.
  destruct l as [[ty w] t]. cbn [plain_line entry_of is_word]. intros Hh H. apply andb_true_iff in Hh as (H1 & H2). apply negb_true_iff in H1, H2. change among with has in H1, H2.
  unfold load_line in H. rewrite H1, H2, (hash_none t H2) in H.
  destruct ((ty =? ty_t) || (ty =? ty_s) || (ty =? ty_d) || (ty =? ty_x))%N eqn:Et; cbn [negb] in H; [|discriminate]. split; [reflexivity|].
  assert (Hm : negb (ty =? ty_s)%N && ((max_word <? length w) || (max_word <? length t)) = false) by (destruct (negb (ty =? ty_s)%N && _); [discriminate H|reflexivity]).
  rewrite Hm in H. split.
  { destruct (ty =? ty_s)%N; [now left|right]. cbn [negb andb] in Hm. apply orb_false_iff in Hm as (M1 & M2). apply Nat.ltb_ge in M1, M2. unfold max_word in *. lia. }
  destruct (N.eqb_spec ty ty_d) as [->|Nd].
  { injection H as <-. cbn. auto. }
  destruct (N.eqb_spec ty ty_x) as [->|Nx].
  { injection H as <-. cbn. auto. }
  rewrite !orb_false_r in Et. rewrite Et. destruct (starts [d_prefix d] w) eqn:Es.
  - destruct t as [|c t]; [discriminate|]. cbn [lbind] in H. destruct (existsb _ (l_es s)) eqn:Ee; [discriminate|]. injection H as <-. cbn.
    repeat split; auto. left. repeat split. discriminate.
  - cbn [lbind] in H. destruct (existsb _ (l_es s)) eqn:Ee; [discriminate|]. injection H as <-. cbn. repeat split; auto.
Qed.

Definition pairwise (es : list entry) : Prop := ForallOrdPairs (fun a b => clash false a b = false) es.
Lemma clash_all e es : existsb (clash false e) es = false -> Forall (fun b => clash false e b = false) es.
Proof. induction es as [|b es IH]; intros H; constructor; cbn in H; apply orb_false_iff in H as (H1 & H2); auto. Qed.
Lemma load_words d ls : forall s s', forallb plain_line ls = true -> load_lines d s ls = LOk s' ->
  l_es s' = rev (words_of ls) ++ l_es s /\ (pairwise (l_es s) -> pairwise (l_es s')).
Proof.
  induction ls as [|l ls IH]; intros s s' Hp H; [injection H as <-; auto|]. cbn [forallb] in Hp. apply andb_true_iff in Hp as (P1 & P2).
  cbn [load_lines] in H. destruct (load_line d s l) as [s1| |] eqn:E; try discriminate. cbn [lbind] in H. destruct (IH _ _ P2 H) as (I1 & I2).
  pose proof (load_line_spec d s l s1 P1 E) as S. destruct l as [[ty w] t]. destruct S as (_ & _ & S). unfold words_of in *. cbn [filter].
  destruct (is_word (ty, w, t)).
  - destruct S as (S1 & S2 & _). cbn [map rev]. rewrite I1, S2, <- app_assoc. split; [reflexivity|]. intros Q. rewrite <- S2, <- I1. apply I2. rewrite S2.
    constructor; [now apply clash_all|exact Q].
  - destruct S as (S1 & _). rewrite I1, S1. split; [reflexivity|]. intros Q. rewrite <- S1, <- I1. apply I2. now rewrite S1.
Qed.
Lemma pairwise_words es : pairwise es -> unambiguous es = true.
Proof.
  induction es as [|e es IH]; intros H; [reflexivity|]. inversion H as [|a l H1 H2]; subst. cbn [unambiguous]. apply andb_true_iff. split; [|now apply IH].
  apply forallb_forall. intros b I. rewrite Forall_forall in H1. specialize (H1 b I). unfold clash in H1. rewrite N.eqb_sym.
  apply negb_true_iff. destruct (e_type b =? e_type e)%N; [|reflexivity]. cbn [andb negb] in *. apply orb_false_iff in H1 as (H1 & _).
  destruct (text_eqb (e_word e) (e_word b)) eqn:E; [|reflexivity]. apply text_eqb_true in E. now rewrite E, text_eqb_same in H1.
Qed.
Lemma load_last d ls : forall s s', forallb plain_line ls = true -> load_lines d s ls = LOk s' -> ends_in_word ls = true -> l_last s' = l_es s'.
Proof.
  induction ls as [|l ls IH] using rev_ind; intros s s' Hp H He; [discriminate|]. rewrite forallb_app in Hp. apply andb_true_iff in Hp as (P1 & P2). cbn in P2. rewrite andb_true_r in P2.
  assert (E : exists s1, load_lines d s ls = LOk s1 /\ load_line d s1 l = LOk s').
  { clear - H. revert s H. induction ls as [|a ls IH]; intros s H; cbn [app load_lines] in H.
    - exists s. split; [reflexivity|]. destruct (load_line d s l); try discriminate. exact H.
    - destruct (load_line d s a) as [s2| |] eqn:E; try discriminate. cbn [lbind] in H. destruct (IH _ H) as (s1 & E1 & E2). exists s1. cbn [load_lines]. rewrite E. now split. }
  destruct E as (s1 & _ & E2). pose proof (load_line_spec d s1 l s' P2 E2) as S. unfold ends_in_word in He. rewrite rev_unit in He.
  destruct l as [[ty w] t]. destruct S as (_ & _ & S). rewrite He in S. tauto.
Qed.
(** A dictionary without modifiers that ends in a word holds exactly its lines. *)
Lemma dictionary_words d ls T : forallb plain_line ls = true -> ends_in_word ls = true -> load_dictionary d ls = LOk T ->
  t_entries T = rev (words_of ls) /\ unambiguous (t_entries T) = true.
Proof.
  intros Hp He H. unfold load_dictionary in H. destruct (load_lines d _ ls) as [s| |] eqn:E; try discriminate. cbn [lbind] in H.
  destruct (load_words d ls _ _ Hp E) as (E1 & E2). pose proof (load_last d ls _ _ Hp E He) as E3.
  destruct (l_dec s), (l_tho s); try discriminate. injection H as <-. cbn [t_entries]. rewrite E3. cbn [l_es] in E1. rewrite app_nil_r in E1. split; [exact E1|].
  apply pairwise_words, E2. constructor.
Qed.
Lemma known_lines d ls T ty w w' : forallb plain_line ls = true -> ends_in_word ls = true -> load_dictionary d ls = LOk T ->
  (known T ty w w' = true <-> In (ty, w, w') ls /\ (ty = ty_t \/ ty = ty_s)).
Proof.
  intros Hp He H. destruct (dictionary_words d ls T Hp He H) as (E & _). unfold known. rewrite E, existsb_exists. unfold words_of. split.
  - intros (e & I & K). apply in_rev, in_map_iff in I as ([[ty0 w0] t0] & <- & I). apply filter_In in I as (I & J). cbn [entry_of e_type e_word e_trans is_word] in *.
    apply andb_true_iff in K as (K & K3). apply andb_true_iff in K as (K1 & K2). apply N.eqb_eq in K1 as <-. apply text_eqb_true in K2 as <-. apply text_eqb_true in K3 as <-.
    split; [exact I|]. apply orb_true_iff in J as [J|J]; apply N.eqb_eq in J; auto.
  - intros (I & J). exists (mkEntry ty w w'). split.
    + rewrite <- in_rev. apply in_map_iff. exists (ty, w, w'). split; [reflexivity|]. apply filter_In. split; [exact I|]. cbn. destruct J as [-> | ->]; reflexivity.
    + cbn. now rewrite N.eqb_refl, !text_eqb_same.
Qed.

(** ** Dictionaries with modifiers *)
Definition meant (t : text) : text := match after_hash t with Some r => r | None => t end.
Lemma bare_meant t w : bare t w <-> meant t = w.
Proof.
  unfold bare, meant. assert (G : forall t, match after_hash t with Some r => exists m, t = m ++ 35%N :: r /\ ~ In 35%N m | None => ~ In 35%N t end).
  { clear. induction t as [|c t IH]; cbn [after_hash]; [intros []|]. destruct (N.eqb_spec c 35) as [->|N1]; [exists []; split; [reflexivity|intros []]|].
    destruct (after_hash t) as [r|].
    - destruct IH as (m & -> & M). exists (c :: m). split; [reflexivity|]. intros [I|I]; auto.
    - intros [I|I]; auto. }
  specialize (G t). destruct (after_hash t) as [r|] eqn:E.
  - destruct G as (m & -> & M). split.
    + intros [(E1 & N1)|(m' & E1 & M')]; [exfalso; apply N1, in_or_app; right; now left|].
      revert m' E1 M'. clear E. induction m as [|x m IH]; intros [|y m'] E1 M'; cbn in E1.
      * congruence.
      * injection E1 as E1 E2. subst. exfalso. apply M'. now left.
      * injection E1 as E1 E2. subst. exfalso. apply M. now left.
      * injection E1 as E1 E2. apply (IH ltac:(intros I; apply M; now right) m' E2). intros I. apply M'. now right.
    + intros <-. right. now exists m.
  - split.
    + intros [(E1 & _)|(m & -> & _)]; [exact E1|]. exfalso. apply G, in_or_app. right. now left.
    + intros <-. now left.
Qed.
Definition meant_entry (l : N * text * text) : entry := let '(ty, w, t) := l in mkEntry ty w (meant t).
Lemma load_line_any d s l s' : load_line d s l = LOk s' ->
  if is_word l then Forall (fun b => clash true (meant_entry l) b = false) (l_es s) /\ l_es s' = meant_entry l :: l_es s /\ l_last s' = l_es s' else l_es s' = l_es s.
Proof.
  destruct l as [[ty w] t]. unfold load_line, is_word, meant_entry, meant. intros H.
  destruct ((ty =? ty_t) || (ty =? ty_s) || (ty =? ty_d) || (ty =? ty_x))%N eqn:Et; cbn [negb] in H; [|discriminate]. destruct (has 35 w); [discriminate|]. destruct (negb (ty =? ty_s)%N && _); [discriminate|].
  destruct (N.eqb_spec ty ty_d) as [->|Nd]; [injection H as <-; reflexivity|]. destruct (N.eqb_spec ty ty_x) as [->|Nx]; [injection H as <-; reflexivity|].
  destruct (if starts [d_prefix d] w then _ else _); try discriminate. cbn [lbind] in H.
  match type of H with (if existsb (clash ?m ?e) ?es then _ else _) = _ => destruct (existsb (clash m e) es) eqn:Ee end; [discriminate|].
  injection H as <-. cbn [l_es l_last].
  assert (F : Forall (fun b => clash true (mkEntry ty w match after_hash t with Some r => r | None => t end) b = false) (l_es s)).
  { apply Forall_forall. intros b I. destruct (clash true _ b) eqn:E; [|reflexivity]. exfalso. enough (X : existsb (clash (has 35 t) (mkEntry ty w match after_hash t with Some r => r | None => t end)) (l_es s) = true) by congruence.
    apply existsb_exists. exists b. split; [exact I|]. unfold clash in *. cbn [negb andb] in E. rewrite orb_false_r in E. apply andb_true_iff in E as (-> & ->). reflexivity. }
  rewrite !orb_false_r in Et. rewrite Et. auto.
Qed.
Lemma load_any d ls : forall s s', load_lines d s ls = LOk s' ->
  l_es s' = rev (map meant_entry (filter is_word ls)) ++ l_es s /\ (unambiguous (l_es s) = true -> unambiguous (l_es s') = true).
Proof.
  induction ls as [|l ls IH]; intros s s' H; [injection H as <-; auto|].
  cbn [load_lines] in H. destruct (load_line d s l) as [s1| |] eqn:E; try discriminate. cbn [lbind] in H. destruct (IH _ _ H) as (I1 & I2).
  pose proof (load_line_any d s l s1 E) as S. cbn [filter]. destruct (is_word l).
  - destruct S as (S1 & S2 & _). cbn [map rev]. rewrite I1, S2, <- app_assoc. split; [reflexivity|]. intros Q. rewrite <- S2, <- I1. apply I2. rewrite S2. cbn [unambiguous]. rewrite Q, andb_true_r.
    apply forallb_forall. intros b I. rewrite Forall_forall in S1. specialize (S1 b I). unfold clash in S1. cbn [negb andb] in S1. rewrite orb_false_r, N.eqb_sym in S1.
    apply negb_true_iff. destruct (_ =? _)%N; [|reflexivity]. cbn [andb] in *. destruct (text_eqb (e_word (meant_entry l)) (e_word b)) eqn:X; [|reflexivity].
    apply text_eqb_true in X. now rewrite X, text_eqb_same in S1.
  - rewrite I1, S. split; [reflexivity|]. intros Q. rewrite <- S, <- I1. apply I2. now rewrite S.
Qed.
Lemma load_last_any d ls : forall s s', load_lines d s ls = LOk s' -> ends_in_word ls = true -> l_last s' = l_es s'.
Proof.
  induction ls as [|l ls IH] using rev_ind; intros s s' H He; [discriminate|].
  assert (E : exists s1, load_lines d s ls = LOk s1 /\ load_line d s1 l = LOk s').
  { clear - H. revert s H. induction ls as [|a ls IH]; intros s H; cbn [app load_lines] in H.
    - exists s. split; [reflexivity|]. destruct (load_line d s l); try discriminate. exact H.
    - destruct (load_line d s a) as [s2| |] eqn:E; try discriminate. cbn [lbind] in H. destruct (IH _ H) as (s1 & E1 & E2). exists s1. cbn [load_lines]. rewrite E. now split. }
  destruct E as (s1 & _ & E2). pose proof (load_line_any d s1 l s' E2) as S. unfold ends_in_word in He. rewrite rev_unit in He. rewrite He in S. tauto.
Qed.
Lemma dictionary_any d ls T : ends_in_word ls = true -> load_dictionary d ls = LOk T ->
  t_entries T = rev (map meant_entry (filter is_word ls)) /\ unambiguous (t_entries T) = true.
Proof.
  intros He H. unfold load_dictionary in H. destruct (load_lines d _ ls) as [s| |] eqn:E; try discriminate. cbn [lbind] in H.
  destruct (load_any d ls _ _ E) as (E1 & E2). pose proof (load_last_any d ls _ _ E He) as E3.
  destruct (l_dec s), (l_tho s); try discriminate. injection H as <-. cbn [t_entries]. rewrite E3. cbn [l_es] in E1. rewrite app_nil_r in E1. split; [exact E1|].
  apply E2. reflexivity.
Qed.
Lemma known_any d ls T ty w w' : ends_in_word ls = true -> load_dictionary d ls = LOk T ->
  (known T ty w w' = true <-> (ty = ty_t \/ ty = ty_s) /\ exists t, In (ty, w, t) ls /\ bare t w').
Proof.
  intros He H. destruct (dictionary_any d ls T He H) as (E & _). unfold known. rewrite E, existsb_exists. split.
  - intros (e & I & K). apply in_rev, in_map_iff in I as ([[ty0 w0] t0] & <- & I). apply filter_In in I as (I & J). cbn [meant_entry e_type e_word e_trans is_word] in *.
    apply andb_true_iff in K as (K & K3). apply andb_true_iff in K as (K1 & K2). apply N.eqb_eq in K1 as <-. apply text_eqb_true in K2 as <-. apply text_eqb_true in K3 as <-.
    split; [apply orb_true_iff in J as [J|J]; apply N.eqb_eq in J; auto|]. exists t0. split; [exact I|now apply bare_meant].
  - intros (J & t & I & B). apply bare_meant in B as <-. exists (mkEntry ty w (meant t)). split.
    + rewrite <- in_rev. apply in_map_iff. exists (ty, w, t). split; [reflexivity|]. apply filter_In. split; [exact I|]. cbn. destruct J as [-> | ->]; reflexivity.
    + cbn. now rewrite N.eqb_refl, !text_eqb_same.
Qed.
(** Words with modifiers on the left are refused. *)
Lemma modified_refused d ls ty w t : In (ty, w, t) ls -> In 35%N w -> forall T, load_dictionary d ls <> LOk T.
Proof.
  intros I M T H. unfold load_dictionary in H. destruct (load_lines d _ ls) as [s| |] eqn:E; try discriminate. clear H. revert E. generalize (mkLoading [] [] None None 0) as s0.
  induction ls as [|l ls IH]; intros s0 E; [destruct I|]. cbn [load_lines] in E. destruct (load_line d s0 l) as [s1| |] eqn:E1; try discriminate. cbn [lbind] in E.
  destruct I as [-> |I]; [|exact (IH I s1 E)]. unfold load_line in E1. destruct (negb _); [discriminate|].
  assert (X : has 35 w = true) by (apply existsb_exists; exists 35%N; split; [exact M|reflexivity]). now rewrite X in E1.
Qed.

(** ** The reverse dictionary *)
Lemma swap_plain ls : forallb plain_line (backwards ls) = forallb plain_line ls.
Proof. unfold backwards. induction ls as [|[[ty w] t] ls IH]; [reflexivity|]. cbn [map forallb swap plain_line]. now rewrite IH, (andb_comm (negb (among 35 t))). Qed.
Lemma swap_ends ls : ends_in_word (backwards ls) = ends_in_word ls.
Proof. unfold ends_in_word, backwards. rewrite <- map_rev. destruct (rev ls) as [|[[ty w] t] r]; reflexivity. Qed.
Lemma known_swap d d' ls T T' ty w w' : forallb plain_line ls = true -> ends_in_word ls = true ->
  load_dictionary d ls = LOk T -> load_dictionary d' (backwards ls) = LOk T' -> known T ty w w' = true -> known T' ty w' w = true.
Proof.
  intros Hp He H H' K. apply (known_lines d ls T ty w w' Hp He H) in K as (K1 & K2).
  apply (known_lines d' (backwards ls) T' ty w' w); [now rewrite swap_plain|now rewrite swap_ends|exact H'|]. split; [|exact K2].
  unfold backwards. apply in_map_iff. now exists (ty, w, w').
Qed.
Lemma load_swap d d' ls : forall s s' r, forallb plain_line ls = true -> forallb short_line ls = true -> load_lines d s ls = LOk s' ->
  l_es r = map (fun e => mkEntry (e_type e) (e_trans e) (e_word e)) (l_es s) ->
  (forall x, l_dec s = Some x -> exists y, l_dec r = Some y) -> (forall x, l_tho s = Some x -> exists y, l_tho r = Some y) ->
  exists r', load_lines d' r (backwards ls) = LOk r' /\
    (forall x, l_dec s' = Some x -> exists y, l_dec r' = Some y) /\ (forall x, l_tho s' = Some x -> exists y, l_tho r' = Some y).
Proof.
  induction ls as [|l ls IH]; intros s s' r Hp Hs H He Hd Ht.
  - injection H as <-. exists r. now split.
  - cbn [forallb] in Hp, Hs. apply andb_true_iff in Hp as (P1 & P2). apply andb_true_iff in Hs as (S1 & S2).
    cbn [load_lines] in H. destruct (load_line d s l) as [s1| |] eqn:E; try discriminate. cbn [lbind] in H.
    pose proof (load_line_spec d s l s1 P1 E) as Q. destruct l as [[ty w] t]. destruct Q as (Q1 & Q2 & Q3). cbn [backwards map swap load_lines].
    unfold load_line. rewrite Q1. cbn [negb]. cbn [plain_line] in P1. apply andb_true_iff in P1 as (P3 & P4). apply negb_true_iff in P3, P4. change among with has in P3, P4.
    rewrite P3, P4, (hash_none w P3).
    assert (Em : negb (ty =? ty_s)%N && ((max_word <? length t) || (max_word <? length w)) = false).
    { destruct (ty =? ty_s)%N; [reflexivity|]. cbn [negb andb]. destruct Q2 as [Q2|(Q2 & Q4)]; [discriminate|]. apply orb_false_iff. unfold max_word. split; apply Nat.ltb_ge; lia. }
    rewrite Em. cbn [is_word] in Q3.
    destruct (N.eqb_spec ty ty_d) as [->|Nd].
    { cbn in Q3. destruct Q3 as (Q3 & _ & _ & Q4 & Q5). cbn [lbind]. apply (IH s1 s' _ P2 S2 H); cbn [l_es l_dec l_tho]; [now rewrite Q3| |].
      - intros x _. eauto.
      - rewrite Q5. exact Ht. }
    destruct (N.eqb_spec ty ty_x) as [->|Nx].
    { cbn in Q3. destruct Q3 as (Q3 & _ & _ & Q4 & Q5). cbn [lbind]. apply (IH s1 s' _ P2 S2 H); cbn [l_es l_dec l_tho]; [now rewrite Q3| |].
      - rewrite Q4. exact Hd.
      - intros x _. eauto. }
    rewrite !orb_false_r in Q1. rewrite Q1 in Q3. destruct Q3 as (Q3 & Q4 & _ & Q5 & Q6 & _).
    cbn [short_line] in S1. apply andb_true_iff in S1 as (S3 & S4). apply Nat.leb_le in S3, S4.
    destruct (if starts [d_prefix d'] t then match w with c :: _ => LOk c | [] => LUB end else LOk (l_prefix r)) as [pr| |] eqn:Epr.
    2,3: exfalso; destruct (starts [d_prefix d'] t); [destruct w; [cbn in S3; lia|discriminate]|discriminate].
    cbn [lbind].
    assert (Ec : existsb (clash false (mkEntry ty t w)) (l_es r) = false).
    { rewrite He. clear - Q3. cbn [entry_of] in Q3. induction (l_es s) as [|e es IHe]; [reflexivity|]. cbn [existsb map] in *. apply orb_false_iff in Q3 as (Q3 & Q4).
      rewrite IHe by exact Q4. rewrite orb_false_r. unfold clash in *. cbn [e_type e_word e_trans negb andb] in *. now rewrite orb_comm. }
    rewrite Ec. cbn [lbind]. apply (IH s1 s' _ P2 S2 H); cbn [l_es l_dec l_tho]; [|rewrite Q5; exact Hd|rewrite Q6; exact Ht].
    rewrite Q4, He. reflexivity.
Qed.
Lemma reverse_loads d d' ls T : forallb plain_line ls = true -> forallb short_line ls = true -> load_dictionary d ls = LOk T ->
  exists T', load_dictionary d' (backwards ls) = LOk T'.
Proof.
  intros Hp Hs H. unfold load_dictionary in *. destruct (load_lines d _ ls) as [s| |] eqn:E; try discriminate. cbn [lbind] in H.
  destruct (load_swap d d' ls _ _ (mkLoading [] [] None None 0) Hp Hs E eq_refl) as (r & Er & R1 & R2); [discriminate|discriminate|]. rewrite Er. cbn [lbind].
  destruct (l_dec s); [|discriminate]. destruct (l_tho s); [|discriminate]. destruct (R1 _ eq_refl) as (y1 & ->). destruct (R2 _ eq_refl) as (y2 & ->). now eexists.
Qed.

(** ** There and back *)
Lemma mirror_twice l : mirror (mirror l) = l.
Proof. unfold mirror. induction l as [|[ws p] l IH]; [reflexivity|]. cbn [map]. rewrite IH. do 2 f_equal. now destruct p. Qed.
Lemma tidy_mirror l : tidy (mirror l) = mirror (tidy l).
Proof. unfold tidy, mirror. induction l as [|[ws p] l IH]; [reflexivity|]. cbn [map]. rewrite IH. do 2 f_equal. now destruct p. Qed.
Lemma tidy_twice l : tidy (tidy l) = tidy l.
Proof. unfold tidy. induction l as [|[ws p] l IH]; [reflexivity|]. cbn [map]. rewrite IH. do 2 f_equal. now destruct p. Qed.
Lemma round_trip d d' ls T T' l trail : lang_ok d = true -> lang_ok d' = true -> forallb plain_line ls = true -> ends_in_word ls = true ->
  load_dictionary d ls = LOk T -> load_dictionary d' (backwards ls) = LOk T' -> dict_ok d d' T = true -> dict_ok d' d T' = true ->
  well_formed d d' T [(false, false)] l trail = true -> well_formed d' d T' [(false, false)] (mirror (tidy l)) trail = true ->
  exists t, translate_program d T (render d l ++ trail) = LOk t /\ translate_program d' T' t = LOk (render d (tidy l) ++ trail).
Proof.
  intros L L' Hp He H H' D D' W W'. eexists. split.
  - apply (program_ok d d' T (lang_intro _ L) D); [apply (dictionary_words d ls T Hp He H)|exact W].
  - rewrite (program_ok d' d T' (lang_intro _ L') D'); [|apply (dictionary_words d' (backwards ls) T')|exact W'].
    + now rewrite tidy_mirror, mirror_twice, tidy_twice.
    + now rewrite swap_plain.
    + now rewrite swap_ends.
    + exact H'.
Qed.
Lemma translate_ok d d' ls T l trail : lang_ok d = true -> ends_in_word ls = true ->
  load_dictionary d ls = LOk T -> dict_ok d d' T = true -> well_formed d d' T [(false, false)] l trail = true ->
  translate_program d T (render d l ++ trail) = LOk (render d' (mirror (tidy l)) ++ trail).
Proof. intros L He H D W. apply (program_ok d d' T (lang_intro _ L) D); [apply (dictionary_any d ls T He H)|exact W]. Qed.
Lemma reverse_ok d d' ls T : forallb plain_line ls = true -> forallb short_line ls = true -> ends_in_word ls = true -> load_dictionary d ls = LOk T ->
  exists T', load_dictionary d' (backwards ls) = LOk T' /\ forall ty w w', known T ty w w' = true -> known T' ty w' w = true.
Proof.
  intros Hp Hs He H. destruct (reverse_loads d d' ls T Hp Hs H) as (T' & H'). exists T'. split; [exact H'|]. intros ty w w'. apply (known_swap d d' ls T T' ty w w' Hp He H H').
Qed.
