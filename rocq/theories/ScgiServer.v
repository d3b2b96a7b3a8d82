(** Proofs about the parent of the SCGI server (model: ScgiModel). *)
From Coq Require Import ZArith Lia Permutation.
From Verif Require Import Common NumModel ScgiSpec ScgiModel.
Local Open Scope Z_scope.
Local Notation length := List.length.

(** ** The scoreboard *)
Definition nz (p : Z) : bool := negb (p =? 0).
Definition idling (p : Z * Z) : bool := nz (fst p) && (snd p =? 1).
Fixpoint state_in (ps : list (Z * Z)) (pid : Z) : option Z := match ps with [] => None | (p, st) :: r => if p =? pid then Some st else state_in r pid end.
Record sound (l : limits) (b : board) (ks : list Z) : Prop := {
  so_len : Z.of_nat (length (procs b)) = maxproc l;
  so_pids : Permutation (filter nz (map fst (procs b))) ks;
  so_num : numproc b = Z.of_nat (length ks);
  so_idle : numidle b = Z.of_nat (length (filter idling (procs b)));
  so_states : Forall (fun p => nz (fst p) = true -> snd p = 1 \/ snd p = 2) (procs b)
}.
Lemma find_some : forall ps pid i, score_find ps pid = Some i -> exists a st b, ps = a ++ (pid, st) :: b /\ length a = i /\ ~ In pid (map fst a).
Proof.
  induction ps as [|(p, st) ps IH]; intros pid i; cbn [score_find]; [discriminate|]. destruct (Z.eqb_spec p pid) as [->|N].
  - intros E. injection E as <-. exists [], st, ps. repeat split. intros [].
  - destruct (score_find ps pid) as [j|] eqn:E; [|discriminate]. intros X. injection X as <-. destruct (IH _ _ E) as (a & st' & b & -> & L & NI).
    exists ((p, st) :: a), st', b. cbn. repeat split; [now rewrite L|]. intros [K|K]; [congruence|exact (NI K)].
Qed.
Lemma find_none : forall ps pid, score_find ps pid = None -> ~ In pid (map fst ps).
Proof.
  induction ps as [|(p, st) ps IH]; intros pid; cbn [score_find map fst]; [intros _ []|]. destruct (Z.eqb_spec p pid); [discriminate|].
  destruct (score_find ps pid) eqn:E; [discriminate|]. intros _ [K|K]; [congruence|exact (IH _ E K)].
Qed.
Lemma set_here a (x y : Z * Z) b : set_proc (a ++ x :: b) (length a) y = a ++ y :: b.
Proof.
  unfold set_proc. rewrite firstn_app, Nat.sub_diag, firstn_all. cbn [firstn]. rewrite app_nil_r. f_equal. f_equal.
  rewrite skipn_app. rewrite skipn_all2 by lia. replace (S (length a) - length a)%nat with 1%nat by lia. reflexivity.
Qed.
Lemma nth_here a (x : Z * Z) b d : nth (length a) (a ++ x :: b) d = x.
Proof. rewrite app_nth2 by lia. now rewrite Nat.sub_diag. Qed.
Lemma state_app a b pid : state_in (a ++ b) pid = match state_in a pid with Some s => Some s | None => state_in b pid end.
Proof. induction a as [|(p, st) a IH]; cbn; [reflexivity|]. destruct (p =? pid); [reflexivity|exact IH]. Qed.
Lemma state_none a pid : ~ In pid (map fst a) <-> state_in a pid = None.
Proof.
  induction a as [|(p, st) a IH]; cbn; [tauto|]. destruct (Z.eqb_spec p pid) as [->|N]; [split; [intros K; exfalso; apply K; now left|discriminate]|].
  rewrite <- IH. split; [tauto|intros K [K'|K']; [congruence|tauto]].
Qed.
Lemma state_other a x y b pid : fst x <> pid -> fst y <> pid -> state_in (a ++ x :: b) pid = state_in (a ++ y :: b) pid.
Proof.
  intros N1 N2. rewrite !state_app. destruct x as [p s], y as [p' s']. cbn [fst] in *. destruct (state_in a pid); [reflexivity|]. cbn.
  destruct (Z.eqb_spec p pid); [contradiction|]. destruct (Z.eqb_spec p' pid); [contradiction|reflexivity].
Qed.
Lemma nz_pids a (x : Z * Z) b : filter nz (map fst (a ++ x :: b)) = filter nz (map fst a) ++ (if nz (fst x) then [fst x] else []) ++ filter nz (map fst b).
Proof. rewrite map_app, filter_app. cbn [map filter]. destruct (nz (fst x)); reflexivity. Qed.
Lemma idle_count a (x : Z * Z) b : length (filter idling (a ++ x :: b)) = (length (filter idling a) + (if idling x then 1 else 0) + length (filter idling b))%nat.
Proof. rewrite filter_app, app_length. cbn [filter]. destruct (idling x); cbn [length]; lia. Qed.
Lemma all_nz : forall ps : list Z, ~ In 0 ps -> filter nz ps = ps.
Proof. induction ps as [|p ps IH]; intros N; cbn; [reflexivity|]. unfold nz at 1. destruct (Z.eqb_spec p 0); [exfalso; apply N; now left|]. cbn. rewrite IH; [reflexivity|intros K; apply N; now right]. Qed.

Lemma sound_new l : 0 <= maxproc l -> sound l (score_new l) [].
Proof.
  intros M. assert (F : forall n, filter nz (map fst (repeat (0, 0) n)) = [] /\ filter idling (repeat (0, 0) n) = []) by (induction n; cbn; auto).
  destruct (F (Z.to_nat (maxproc l))) as (F1 & F2). constructor; cbn [score_new procs numproc numidle].
  - rewrite repeat_length. lia.
  - rewrite F1. constructor.
  - reflexivity.
  - rewrite F2. reflexivity.
  - apply Forall_forall. intros x I. apply repeat_spec in I. subst. cbn. discriminate.
Qed.
Lemma add_sound l b ks pid : sound l b ks -> numproc b < maxproc l -> 0 < pid -> sound l (score_add b pid) (pid :: ks) /\
  (~ In pid ks -> state_in (procs (score_add b pid)) pid = Some 1) /\ forall p, p <> pid -> p <> 0 -> state_in (procs (score_add b pid)) p = state_in (procs b) p.
Proof.
  intros S L P. unfold score_add. destruct (score_find (procs b) 0) as [i|] eqn:E.
  2:{ exfalso. apply find_none in E. pose proof (Permutation_length (so_pids _ _ _ S)) as X. rewrite (all_nz _ E), map_length in X.
      pose proof (so_len _ _ _ S). pose proof (so_num _ _ _ S). lia. }
  destruct (find_some _ _ _ E) as (a & st & c & Q & <- & NI). rewrite Q, set_here. cbn [procs numproc numidle].
  destruct S as [S1 S2 S3 S4 S5]. rewrite Q in *. assert (NZ : nz pid = true) by (unfold nz; destruct (Z.eqb_spec pid 0); [lia|reflexivity]).
  split; [|split].
  - constructor; cbn [procs numproc numidle].
    + rewrite app_length in *. exact S1.
    + rewrite nz_pids in *. cbn [fst] in *. rewrite NZ. cbn [app nz Z.eqb negb] in *. symmetry. apply Permutation_cons_app. symmetry. exact S2.
    + cbn [length]. lia.
    + rewrite idle_count in *. unfold idling in *. cbn [fst snd] in *. rewrite NZ. cbn in *. lia.
    + apply Forall_app in S5. destruct S5 as [S5 S6]. inversion S6; subst. apply Forall_app. split; [exact S5|]. constructor; [cbn; unfold idle; auto|assumption].
  - intros NK. rewrite state_app. rewrite (proj1 (state_none a pid)). { cbn. now rewrite Z.eqb_refl. }
    intros I. apply NK. apply (Permutation_in _ S2). rewrite nz_pids. apply in_app_iff. left. apply filter_In. split; assumption.
  - intros p N1 N2. apply state_other; cbn; congruence.
Qed.
Lemma in_table l b ks pid : sound l b ks -> In pid ks -> exists i, score_find (procs b) pid = Some i.
Proof.
  intros S I. destruct (score_find (procs b) pid) as [i|] eqn:E; [eauto|]. exfalso. apply find_none in E. apply E.
  apply (Permutation_in _ (Permutation_sym (so_pids _ _ _ S))) in I. apply filter_In in I. tauto.
Qed.
Lemma remove_sound l b ks pid : sound l b (pid :: ks) -> 0 < pid -> sound l (score_remove b pid) ks /\
  forall p, p <> pid -> p <> 0 -> state_in (procs (score_remove b pid)) p = state_in (procs b) p.
Proof.
  intros S P. destruct (in_table _ _ _ pid S) as (i & E); [now left|]. unfold score_remove. rewrite E.
  destruct (find_some _ _ _ E) as (a & st & c & Q & <- & NI). rewrite Q, set_here, nth_here. cbn [procs numproc numidle snd].
  destruct S as [S1 S2 S3 S4 S5]. rewrite Q in *. assert (NZ : nz pid = true) by (unfold nz; destruct (Z.eqb_spec pid 0); [lia|reflexivity]).
  split.
  - constructor; cbn [procs numproc numidle].
    + rewrite app_length in *. exact S1.
    + rewrite nz_pids in *. cbn [fst] in *. rewrite NZ in S2. cbn [app nz Z.eqb negb] in *. symmetry in S2. apply Permutation_cons_app_inv in S2. symmetry. exact S2.
    + cbn [length] in S3. lia.
    + rewrite idle_count in *. unfold idling in *. cbn [fst snd] in *. rewrite NZ in S4. cbn [nz Z.eqb negb andb] in *. unfold idle. destruct (st =? 1); lia.
    + apply Forall_app in S5. destruct S5 as [S5 S6]. inversion S6; subst. apply Forall_app. split; [exact S5|]. constructor; [cbn; discriminate|assumption].
  - intros p N1 N2. apply state_other; cbn; congruence.
Qed.
Lemma sound_perm l b ks ks' : Permutation ks ks' -> sound l b ks -> sound l b ks'.
Proof. intros P [S1 S2 S3 S4 S5]. constructor; try assumption; [now rewrite S2|]. now rewrite <- (Permutation_length P). Qed.
Lemma reap_sound l : forall ds ks b, sound l b (ds ++ ks) -> Forall (fun p => 0 < p) ds -> sound l (fold_left score_remove ds b) ks /\
  forall p, ~ In p ds -> p <> 0 -> state_in (procs (fold_left score_remove ds b)) p = state_in (procs b) p.
Proof.
  induction ds as [|d ds IH]; intros ks b S F; cbn [fold_left]; [split; [exact S|reflexivity]|]. inversion F; subst. cbn [app] in S.
  destruct (remove_sound _ _ _ _ S H1) as (S' & K). destruct (IH _ _ S' H2) as (S2 & K2). split; [exact S2|]. intros p N Z. rewrite K2 by (try assumption; intros I; apply N; now right).
  apply K; [|exact Z]. intros ->. apply N. now left.
Qed.
Lemma update_sound l b ks pid st : sound l b ks -> 0 < pid -> st = 1 \/ st = 2 -> sound l (score_update b pid st) ks /\
  (In pid ks -> state_in (procs (score_update b pid st)) pid = Some st) /\ forall p, p <> pid -> state_in (procs (score_update b pid st)) p = state_in (procs b) p.
Proof.
  intros S P ST. unfold score_update. destruct (score_find (procs b) pid) as [i|] eqn:E.
  2:{ split; [exact S|]. split; [|reflexivity]. intros I. destruct (in_table _ _ _ _ S I). congruence. }
  destruct (find_some _ _ _ E) as (a & st' & c & Q & <- & NI).
  assert (HERE : forall y, state_in (a ++ (pid, y) :: c) pid = Some y).
  { intros y. rewrite state_app. rewrite (proj1 (state_none a pid) NI). cbn. now rewrite Z.eqb_refl. }
  assert (NT : nth (length a) (procs b) (0, 0) = (pid, st')) by (rewrite Q; apply nth_here). rewrite NT. cbn [snd].
  destruct (Z.eqb_spec st' st) as [->|N]; [split; [exact S|split; [intros _; rewrite Q; apply HERE|reflexivity]]|].
  rewrite Q, set_here. cbn [procs].
  destruct S as [S1 S2 S3 S4 S5]. rewrite Q in *. assert (NZ : nz pid = true) by (unfold nz; destruct (Z.eqb_spec pid 0); [lia|reflexivity]).
  split; [|split; [intros _; apply HERE|intros p Np; apply state_other; cbn; congruence]].
  constructor; cbn [procs numproc numidle].
  - rewrite app_length in *. exact S1.
  - rewrite nz_pids in *. exact S2.
  - exact S3.
  - apply Forall_app in S5. destruct S5 as [_ S6]. inversion S6 as [|? ? D _]; subst. specialize (D NZ). cbn [snd] in D.
    rewrite idle_count in *. unfold idling in *. cbn [fst snd] in *. rewrite NZ in *. cbn [andb] in *. unfold idle.
    destruct D as [-> | ->], ST as [-> | ->]; try congruence; cbn [Z.eqb Pos.eqb] in *; lia.
  - apply Forall_app in S5. destruct S5 as [S5 S6]. inversion S6; subst. apply Forall_app. split; [exact S5|]. constructor; [cbn; auto|assumption].
Qed.
Lemma kill_idle : forall ps p, score_kill ps = Some p -> In (p, 1) ps /\ p <> 0.
Proof.
  induction ps as [|(q, st) ps IH]; intros p; cbn [score_kill]; [discriminate|].
  destruct (Z.eqb_spec q 0); cbn [negb andb]; [intros E; destruct (IH _ E); split; [now right|assumption]|].
  destruct (Z.eqb_spec st idle) as [->|]; [intros E; injection E as <-; split; [now left|assumption]|]. intros E. destruct (IH _ E). split; [now right|assumption].
Qed.
Lemma kill_some : forall ps, filter idling ps <> [] -> exists p, score_kill ps = Some p.
Proof.
  induction ps as [|(q, st) ps IH]; cbn [filter score_kill]; [congruence|]. unfold idling at 1, nz, idle. cbn [fst snd].
  destruct (negb (q =? 0) && (st =? 1)); [eauto|exact IH].
Qed.

(** ** The parent *)
Definition pids (ks : list (Z * bool)) : list Z := map fst ks.
Record inv (l : limits) (s : server) : Prop := {
  in_board : sound l (board_of s) (pids (kids s));
  in_nodup : NoDup (pids (kids s));
  in_pos : Forall (fun p => 0 < p) (pids (kids s));
  in_max : numproc (board_of s) <= maxproc l;
  in_pipe : Forall (fun m => 0 < fst m /\ (snd m = 1 \/ snd m = 2)) (pipe s);
  in_dead : dead (kids s) <> [] -> exited s = true
}.
Lemma is_kid_ok pid ks : is_kid pid ks = true <-> In pid (pids ks).
Proof.
  unfold is_kid, pids. rewrite existsb_exists, in_map_iff. split; intros ((p, b) & H1 & H2).
  - exists (p, b). cbn in *. apply Z.eqb_eq in H2. auto.
  - exists (p, b). cbn in *. split; [exact H2|now apply Z.eqb_eq].
Qed.
Lemma is_alive_ok pid ks : is_alive pid ks = true <-> In (pid, true) ks.
Proof.
  unfold is_alive. rewrite existsb_exists. split.
  - intros ((p, b) & H1 & H2). cbn in H2. apply Bool.andb_true_iff in H2. destruct H2 as [H2 ->]. apply Z.eqb_eq in H2. congruence.
  - intros I. exists (pid, true). split; [exact I|]. cbn. now rewrite Z.eqb_refl.
Qed.
Lemma split_kids : forall ks, Permutation (pids ks) (dead ks ++ pids (filter snd ks)).
Proof.
  unfold dead, pids. induction ks as [|(p, b) ks IH]; cbn; [constructor|]. destruct b; cbn.
  - apply Permutation_cons_app. exact IH.
  - constructor. exact IH.
Qed.
Lemma dead_pids ks p : In p (dead ks) -> In p (pids ks).
Proof. intros I. apply (Permutation_in _ (Permutation_sym (split_kids ks))). apply in_app_iff. now left. Qed.
Lemma dead_app a b : dead (a ++ b) = dead a ++ dead b.
Proof. unfold dead. now rewrite filter_app, map_app. Qed.
Lemma none_dead : forall ks, dead (filter snd ks) = [].
Proof. unfold dead. induction ks as [|(p, b) ks IH]; cbn; [reflexivity|]. destruct b; cbn; exact IH. Qed.
Lemma exit_pids pid ks : pids (map (fun k => if fst k =? pid then (fst k, false) else k) ks) = pids ks.
Proof. unfold pids. rewrite map_map. apply map_ext. intros (p, b). cbn. destruct (p =? pid); reflexivity. Qed.

Lemma inv_begin l : 0 <= maxproc l -> inv l (begin l).
Proof. intros M. constructor; cbn; try constructor; try apply sound_new; try exact M. tauto. Qed.
Lemma inv_look l s : inv l s -> inv l (look s).
Proof. intros [I1 I2 I3 I4 I5 I6]. constructor; assumption. Qed.
Lemma inv_step l s e s' : inv l s -> step l s e = Some s' -> inv l s'.
Proof.
  intros I. pose proof I as [I1 I2 I3 I4 I5 I6]. destruct e as [fk|pid st|pid]; cbn [step].
  - destruct (at_ s).
    + unfold at_top. destruct ((numidle (board_of s) <? minidle l) && (numproc (board_of s) <? maxproc l)) eqn:C.
      * apply Bool.andb_true_iff in C. destruct C as [_ C]. apply Z.ltb_lt in C. destruct fk as [pid|].
        -- destruct ((0 <? pid) && negb (is_kid pid (kids s))) eqn:V; [|discriminate]. intros X. injection X as <-.
           apply Bool.andb_true_iff in V. destruct V as [V1 V2]. apply Z.ltb_lt in V1. apply Bool.negb_true_iff in V2.
           assert (NK : ~ In pid (pids (kids s))) by (intros K; apply is_kid_ok in K; congruence).
           destruct (add_sound _ _ _ pid I1 C V1) as (S & _).
           assert (PP : Permutation (pid :: pids (kids s)) (pids (kids s ++ [(pid, true)]))).
           { unfold pids. rewrite map_app. cbn. apply Permutation_cons_append. }
           constructor; cbn [board_of kids pipe exited at_].
           ++ apply (sound_perm _ _ _ _ PP S).
           ++ apply (Permutation_NoDup PP). constructor; assumption.
           ++ apply (Permutation_Forall PP). constructor; assumption.
           ++ rewrite (so_num _ _ _ S). cbn [length]. rewrite (so_num _ _ _ I1) in C. lia.
           ++ exact I5.
           ++ rewrite dead_app. cbn. rewrite app_nil_r. exact I6.
        -- destruct (numproc (board_of s) =? 0); intros X; injection X as <-; [constructor; assumption|now apply inv_look].
      * intros X. injection X as <-. now apply inv_look.
    + intros X. injection X as <-. constructor; assumption.
    + destruct (pipe s) as [|(pid, st) r] eqn:P; [discriminate|]. intros X. injection X as <-. inversion I5 as [|? ? M I5']; subst. cbn [fst snd] in M. destruct M as [M1 M2].
      destruct (update_sound _ _ _ pid st I1 M1 M2) as (S & _). constructor; cbn [board_of kids pipe exited at_]; try assumption.
      rewrite (so_num _ _ _ S), <- (so_num _ _ _ I1). exact I4.
    + intros X. injection X as <-. unfold after. pose proof (split_kids (kids s)) as SK.
      destruct (reap_sound l (dead (kids s)) (pids (filter snd (kids s))) (board_of s)) as (S & _).
      { apply (sound_perm _ _ _ _ SK I1). }
      { apply (Permutation_Forall SK) in I3. now apply Forall_app in I3. }
      constructor; cbn [board_of kids pipe exited at_].
      * exact S.
      * apply (Permutation_NoDup SK) in I2. clear -I2. induction (dead (kids s)) as [|x d IH]; [exact I2|]. cbn in I2. inversion I2; subst. now apply IH.
      * apply (Permutation_Forall SK) in I3. now apply Forall_app in I3.
      * rewrite (so_num _ _ _ S). rewrite (so_num _ _ _ I1) in I4. apply Permutation_length in SK. rewrite app_length in SK. lia.
      * exact I5.
      * intros K. exfalso. apply K. apply none_dead.
    + discriminate.
  - destruct (is_alive pid (kids s) && ((st =? idle) || (st =? busy))) eqn:V; [|discriminate]. intros X. injection X as <-.
    apply Bool.andb_true_iff in V. destruct V as [V1 V2]. apply is_alive_ok in V1. apply Bool.orb_true_iff in V2. rewrite !Z.eqb_eq in V2.
    constructor; cbn [board_of kids pipe exited at_]; try assumption. apply Forall_app. split; [exact I5|]. constructor; [|constructor]. cbn. split; [|exact V2].
    apply (proj1 (Forall_forall _ _) I3). apply in_map_iff. exists (pid, true). auto.
  - destruct (is_alive pid (kids s)); [|discriminate]. intros X. injection X as <-.
    constructor; cbn [board_of kids pipe exited at_]; rewrite ?exit_pids; try assumption. reflexivity.
Qed.
Lemma inv_run l : forall es s s', inv l s -> run l s es = Some s' -> inv l s'.
Proof.
  induction es as [|e es IH]; intros s s' I; cbn [run]; [intros X; injection X as <-; exact I|].
  destruct (step l s e) as [t|] eqn:E; [|discriminate]. apply IH. eapply inv_step; eassumption.
Qed.

(** ** What the table says of a child *)
Definition happened (l : limits) (s : server) (e : event) : list happens :=
  match e with
  | Parent (Some pid) => match at_ s with Top => if (numidle (board_of s) <? minidle l) && (numproc (board_of s) <? maxproc l) then [Born pid] else [] | _ => [] end
  | Parent None => []
  | Send pid st => [Says pid (st =? 2)]
  | Exit pid => [Dies pid]
  end.
Fixpoint story (l : limits) (s : server) (es : list event) : list happens :=
  match es with [] => [] | e :: r => happened l s e ++ match step l s e with Some t => story l t r | None => [] end end.
(** no new child has the number of one whose messages were not read yet *)
Fixpoint fresh (l : limits) (s : server) (es : list event) : Prop :=
  match es with
  | [] => True
  | e :: r => match e with Parent (Some pid) => ~ In pid (map fst (pipe s)) | _ => True end /\ match step l s e with Some t => fresh l t r | None => True end
  end.
Fixpoint last_msg (pid : Z) (ms : list (Z * Z)) : option Z :=
  match ms with [] => None | (p, st) :: r => match last_msg pid r with Some x => Some x | None => if p =? pid then Some st else None end end.
Definition told (s : server) (pid : Z) : option Z := match last_msg pid (pipe s) with Some st => Some st | None => state_in (procs (board_of s)) pid end.
Definition code (b : bool) : Z := if b then 2 else 1.
Definition truth (s : server) (tr : list happens) : Prop := forall pid, In pid (pids (kids s)) -> told s pid = Some (code (busy_after pid false tr)).
Lemma busy_app pid : forall a b c, busy_after pid c (a ++ b) = busy_after pid (busy_after pid c a) b.
Proof. induction a as [|h a IH]; intros b c; cbn; [reflexivity|]. destruct h; apply IH. Qed.
Lemma last_app pid : forall a b, last_msg pid (a ++ b) = match last_msg pid b with Some x => Some x | None => last_msg pid a end.
Proof. induction a as [|(p, st) a IH]; intros b; cbn; [destruct (last_msg pid b); reflexivity|]. rewrite IH. destruct (last_msg pid b); reflexivity. Qed.
Lemma last_none pid : forall ms, ~ In pid (map fst ms) -> last_msg pid ms = None.
Proof. induction ms as [|(p, st) ms IH]; intros N; cbn; [reflexivity|]. rewrite IH by (intros K; apply N; now right). destruct (Z.eqb_spec p pid); [exfalso; apply N; now left|reflexivity]. Qed.
Lemma truth_step l s e s' tr : inv l s -> truth s tr -> match e with Parent (Some pid) => ~ In pid (map fst (pipe s)) | _ => True end ->
  step l s e = Some s' -> truth s' (tr ++ happened l s e).
Proof.
  intros I T FR. pose proof I as [I1 I2 I3 I4 I5 I6]. destruct e as [fk|pid st|pid]; cbn [step].
  - assert (SAME : forall ph, truth (mkS (board_of s) (pipe s) (kids s) (exited s) ph (killed s)) tr) by (intros ph; exact T).
    destruct (at_ s) eqn:AT.
    + unfold at_top. cbn [happened]. rewrite AT. destruct ((numidle (board_of s) <? minidle l) && (numproc (board_of s) <? maxproc l)) eqn:C.
      * apply Bool.andb_true_iff in C. destruct C as [_ C]. apply Z.ltb_lt in C. destruct fk as [pid|].
        -- destruct ((0 <? pid) && negb (is_kid pid (kids s))) eqn:V; [|discriminate]. intros X. injection X as <-.
           apply Bool.andb_true_iff in V. destruct V as [V1 V2]. apply Z.ltb_lt in V1. apply Bool.negb_true_iff in V2.
           assert (NK : ~ In pid (pids (kids s))) by (intros K; apply is_kid_ok in K; congruence).
           destruct (add_sound _ _ _ pid I1 C V1) as (S & ST & OT).
           intros p IP. unfold told. cbn [board_of pipe kids] in *. rewrite busy_app. cbn [busy_after].
           unfold pids in IP. rewrite map_app in IP. apply in_app_iff in IP. cbn in IP. destruct IP as [IP|[<-|[]]].
           ++ destruct (Z.eqb_spec pid p) as [<-|N]; [contradiction|].
              assert (0 < p) by (apply (proj1 (Forall_forall _ _) I3 p IP)). rewrite OT by lia. exact (T p IP).
           ++ rewrite (last_none pid (pipe s) FR). rewrite Z.eqb_refl. exact (ST NK).
        -- rewrite app_nil_r. destruct (numproc (board_of s) =? 0); intros X; injection X as <-; [exact (SAME Over)|exact (SAME _)].
      * intros X. injection X as <-. destruct fk; rewrite app_nil_r; exact (SAME _).
    + intros X. injection X as <-. destruct fk; cbn [happened]; rewrite ?AT, app_nil_r; exact (SAME _).
    + destruct (pipe s) as [|(pid, st) r] eqn:P; [discriminate|]. intros X. injection X as <-. inversion I5 as [|? ? M I5']; subst. cbn [fst snd] in M. destruct M as [M1 M2].
      destruct (update_sound _ _ _ pid st I1 M1 M2) as (S & HE & OT).
      assert (G : truth (mkS (score_update (board_of s) pid st) r (kids s) (exited s) After (killed s)) tr).
      { intros p IP. specialize (T p IP). unfold told in *. cbn [board_of pipe kids] in *. rewrite P in T. cbn [last_msg] in T.
        destruct (last_msg p r); [exact T|]. destruct (Z.eqb_spec pid p) as [<-|N]; [rewrite HE by exact IP; exact T|]. rewrite OT by congruence. exact T. }
      destruct fk; cbn [happened]; rewrite ?AT, app_nil_r; exact G.
    + intros X. injection X as <-. unfold after. pose proof (split_kids (kids s)) as SK.
      destruct (reap_sound l (dead (kids s)) (pids (filter snd (kids s))) (board_of s)) as (S & OT).
      { apply (sound_perm _ _ _ _ SK I1). }
      { apply (Permutation_Forall SK) in I3. now apply Forall_app in I3. }
      assert (G : forall p, In p (pids (filter snd (kids s))) -> match last_msg p (pipe s) with Some st => Some st | None => state_in (procs (fold_left score_remove (dead (kids s)) (board_of s))) p end
        = Some (code (busy_after p false tr))).
      { intros p IP. assert (IK : In p (pids (kids s))) by (apply (Permutation_in _ (Permutation_sym SK)), in_app_iff; now right).
        specialize (T p IK). unfold told in T. rewrite OT; [exact T| |].
        - intros D. apply (Permutation_NoDup SK) in I2. clear -I2 D IP. induction (dead (kids s)) as [|x d IH]; [exact D|]. cbn in I2. inversion I2; subst. destruct D as [->|D]; [apply H1, in_app_iff; now right|now apply IH].
        - assert (0 < p) by (apply (proj1 (Forall_forall _ _) I3 p IK)). lia. }
      destruct fk; cbn [happened]; rewrite ?AT, app_nil_r; exact G.
    + discriminate.
  - destruct (is_alive pid (kids s) && ((st =? idle) || (st =? busy))) eqn:V; [|discriminate]. intros X. injection X as <-.
    apply Bool.andb_true_iff in V. destruct V as [V1 V2]. apply Bool.orb_true_iff in V2. rewrite !Z.eqb_eq in V2.
    intros p IP. cbn [kids] in IP. unfold told. cbn [board_of pipe happened]. rewrite last_app, busy_app. cbn [last_msg busy_after].
    destruct (Z.eqb_spec pid p) as [<-|N].
    + destruct V2 as [-> | ->]; reflexivity.
    + exact (T p IP).
  - destruct (is_alive pid (kids s)); [|discriminate]. intros X. injection X as <-.
    intros p IP. cbn [kids] in IP. rewrite exit_pids in IP. unfold told. cbn [board_of pipe happened]. rewrite busy_app. cbn [busy_after]. exact (T p IP).
Qed.
Lemma truth_run l : forall es s s' tr, inv l s -> truth s tr -> fresh l s es -> run l s es = Some s' -> truth s' (tr ++ story l s es).
Proof.
  induction es as [|e es IH]; intros s s' tr I T F; cbn [run story]; [intros X; injection X as <-; rewrite app_nil_r; exact T|].
  cbn [fresh] in F. destruct F as [F1 F2]. destruct (step l s e) as [t|] eqn:E; [|discriminate]. intros R. rewrite app_assoc. apply (IH t); try assumption.
  - eapply inv_step; eassumption.
  - eapply truth_step; eassumption.
Qed.

(** ** Killing *)
Lemma state_one : forall ps p x, NoDup (filter nz (map fst ps)) -> In (p, x) ps -> p <> 0 -> state_in ps p = Some x.
Proof.
  induction ps as [|(q, y) ps IH]; intros p x N I Z; [destruct I|]. cbn [map filter fst] in N. cbn [state_in].
  destruct (Z.eqb_spec q p) as [->|K].
  - destruct I as [I|I]; [congruence|]. exfalso. assert (NP : nz p = true) by (unfold nz; destruct (Z.eqb_spec p 0); [contradiction|reflexivity]).
    rewrite NP in N. inversion N as [|? ? N1 _]; subst. apply N1. apply filter_In. split; [|exact NP]. apply in_map_iff. exists (p, x). auto.
  - destruct I as [I|I]; [congruence|]. apply IH; try assumption. destruct (nz q); [inversion N; assumption|exact N].
Qed.
Lemma killed_step l s fk s' : 0 <= maxidle l -> inv l s -> at_ s = After -> step l s (Parent fk) = Some s' ->
  if maxidle l <? numidle (board_of s) then exists p, killed s' = p :: killed s /\ In p (pids (kids s)) /\ state_in (procs (board_of s)) p = Some 1
  else killed s' = killed s.
Proof.
  intros M [I1 I2 I3 I4 I5 I6] A. cbn [step]. rewrite A. intros X. injection X as <-. unfold after. cbn [killed].
  destruct (Z.ltb_spec (maxidle l) (numidle (board_of s))) as [L|L]; [|reflexivity].
  destruct (kill_some (procs (board_of s))) as (p & E). { intros K. pose proof (so_idle _ _ _ I1) as Q. rewrite K in Q. cbn in Q. lia. }
  rewrite E. exists p. split; [reflexivity|]. destruct (kill_idle _ _ E) as (IN & NZ). split.
  - apply (Permutation_in _ (so_pids _ _ _ I1)). apply filter_In. split; [apply in_map_iff; exists (p, 1); auto|]. unfold nz. destruct (Z.eqb_spec p 0); [contradiction|reflexivity].
  - apply state_one; try assumption. apply (Permutation_NoDup (Permutation_sym (so_pids _ _ _ I1)) I2).
Qed.
(** nobody is killed elsewhere *)
Lemma killed_same l s e s' : step l s e = Some s' -> match e with Parent _ => at_ s <> After | _ => True end -> killed s' = killed s.
Proof.
  destruct e as [fk|pid st|pid]; cbn [step].
  - destruct (at_ s); intros X N; try congruence.
    + unfold at_top in X. destruct ((numidle (board_of s) <? minidle l) && (numproc (board_of s) <? maxproc l)).
      * destruct fk as [pid|]; [destruct ((0 <? pid) && negb (is_kid pid (kids s))); [|discriminate]|destruct (numproc (board_of s) =? 0)]; injection X as <-; reflexivity.
      * injection X as <-. reflexivity.
    + injection X as <-. reflexivity.
    + destruct (pipe s) as [|(pid, st) r]; [discriminate|]. injection X as <-. reflexivity.
  - destruct (is_alive pid (kids s) && ((st =? idle) || (st =? busy))); [|discriminate]. intros X _. injection X as <-. reflexivity.
  - destruct (is_alive pid (kids s)); [|discriminate]. intros X _. injection X as <-. reflexivity.
Qed.
(** ** Waiting: enough idle children, or as many children as there may be, or forking failed *)
Definition idle_kids (s : server) : list Z := filter (fun p => match state_in (procs (board_of s)) p with Some 1 => true | _ => false end) (pids (kids s)).
Lemma filter_perm {A} (f : A -> bool) a b : Permutation a b -> Permutation (filter f a) (filter f b).
Proof.
  induction 1; cbn; try constructor; try (destruct (f x)); try (destruct (f y)); try constructor; try assumption; try reflexivity.
  eapply Permutation_trans; eassumption.
Qed.
Lemma idle_kids_ok l s : inv l s -> numidle (board_of s) = Z.of_nat (length (idle_kids s)).
Proof.
  intros [I1 I2 I3 I4 I5 I6]. rewrite (so_idle _ _ _ I1). f_equal. unfold idle_kids. pose proof (so_pids _ _ _ I1) as P.
  rewrite <- (Permutation_length (filter_perm _ _ _ P)). apply Permutation_sym in P. apply (Permutation_NoDup P) in I2. clear -I2.
  set (ps := procs (board_of s)) in *.
  assert (G : forall qs, (forall p x, In (p, x) qs -> p <> 0 -> state_in ps p = Some x) ->
    length (filter idling qs) = length (filter (fun p => match state_in ps p with Some 1 => true | _ => false end) (filter nz (map fst qs)))).
  { induction qs as [|(q, y) qs IH]; intros H; [reflexivity|]. cbn [filter map fst]. unfold idling at 1, nz at 2. cbn [fst snd].
    specialize (IH (fun p x I => H p x (or_intror I))). unfold nz at 1. destruct (Z.eqb_spec q 0) as [->|N]; cbn [negb andb]; [exact IH|].
    cbn [filter]. rewrite (H q y (or_introl eq_refl) N). destruct (Z.eqb_spec y 1) as [->|N1]; [cbn [length]; now rewrite IH|].
    replace (match y with 1 => true | _ => false end) with false by (destruct y as [|[]|]; try reflexivity; congruence). exact IH. }
  apply G. intros p x I Z. now apply state_one.
Qed.
Lemma top_leaves l s fk s' : inv l s -> at_ s = Top -> step l s (Parent fk) = Some s' -> at_ s' = Ready \/ at_ s' = After ->
  minidle l <= Z.of_nat (length (idle_kids s)) \/ Z.of_nat (length (kids s)) = maxproc l \/ (fk = None /\ kids s <> []).
Proof.
  intros I A. cbn [step]. rewrite A. unfold at_top. pose proof (idle_kids_ok _ _ I) as IK. destruct I as [I1 I2 I3 I4 I5 I6].
  pose proof (so_num _ _ _ I1) as NP. unfold pids in NP. rewrite map_length in NP.
  destruct (Z.ltb_spec (numidle (board_of s)) (minidle l)) as [L|L]; cbn [andb]; [|intros; left; lia].
  destruct (Z.ltb_spec (numproc (board_of s)) (maxproc l)) as [L2|L2]; [|intros; right; left; lia].
  destruct fk as [pid|].
  - destruct ((0 <? pid) && negb (is_kid pid (kids s))); [|discriminate]. intros X. injection X as <-. cbn. intros [|]; discriminate.
  - destruct (Z.eqb_spec (numproc (board_of s)) 0) as [Z0|Z0]; intros X; injection X as <-.
    + cbn. intros [|]; discriminate.
    + intros _. right. right. split; [reflexivity|]. intros K. rewrite K in NP. cbn in NP. lia.
Qed.
(** a parent that waits has the children it had when it decided to *)
Lemma limits_ok mp mi ma l : NumModel.in_int mp = true -> NumModel.in_int mi = true -> NumModel.in_int ma = true -> sanity mp mi ma = Ok l ->
  1 <= maxproc l <= 10000 /\ 1 <= minidle l < maxidle l /\ (0 < mi -> minidle l = mi) /\ (0 < mi < ma -> maxidle l = ma) /\ (0 < mp <= 10000 -> maxproc l = mp).
Proof.
  unfold NumModel.in_int, INT_MAX. rewrite !Bool.andb_true_iff, !Z.leb_le. intros A B C. unfold sanity. cbv zeta.
  destruct (Z.leb_spec mi 0).
  - destruct (Z.leb_spec ma 2); cbn [obind].
    + change (NumModel.in_int (2 + 2)) with true. cbn [obind]. intros E. injection E as <-. cbn [maxproc minidle maxidle].
      destruct (Z.leb_spec mp 0), (Z.ltb_spec 10000 4); try lia; destruct (Z.ltb_spec 10000 mp); lia.
    + intros E. injection E as <-. cbn [maxproc minidle maxidle]. destruct (Z.leb_spec mp 0); [destruct (Z.ltb_spec 10000 ma)|destruct (Z.ltb_spec 10000 mp)]; lia.
  - destruct (Z.leb_spec ma mi); cbn [obind].
    + destruct (NumModel.in_int (mi + 2)); [|discriminate]. cbn [obind]. intros E. injection E as <-. cbn [maxproc minidle maxidle].
      destruct (Z.leb_spec mp 0); [destruct (Z.ltb_spec 10000 (mi + 2))|destruct (Z.ltb_spec 10000 mp)]; lia.
    + intros E. injection E as <-. cbn [maxproc minidle maxidle]. destruct (Z.leb_spec mp 0); [destruct (Z.ltb_spec 10000 ma)|destruct (Z.ltb_spec 10000 mp)]; lia.
Qed.

(** ** Nothing can happen any more *)
Definition waits (s : server) : Prop := (at_ s = Ready \/ at_ s = Reading) -> kids s <> [].
Lemma waits_step l s e s' : 1 <= maxproc l -> 1 <= minidle l -> inv l s -> waits s -> step l s e = Some s' -> waits s'.
Proof.
  intros M1 M2 I W E A. destruct e as [fk|pid st|pid].
  - destruct (at_ s) eqn:AT.
    + pose proof E as E'. cbn [step] in E'. rewrite AT in E'. assert (K : kids s <> []).
      { destruct A as [A|A].
        - destruct (top_leaves l s fk s' I AT E (or_introl A)) as [L|[L|[_ L]]]; [| |exact L]; intros K; unfold idle_kids in L; rewrite K in L; cbn in L; lia.
        - exfalso. unfold at_top in E'. destruct ((numidle (board_of s) <? minidle l) && (numproc (board_of s) <? maxproc l)).
          + destruct fk as [pid|]; [destruct ((0 <? pid) && negb (is_kid pid (kids s))); [|discriminate]|destruct (numproc (board_of s) =? 0)]; injection E' as <-; cbn in A; try discriminate A.
            destruct (exited s); discriminate A.
          + injection E' as <-. cbn in A. destruct (exited s); discriminate A. }
      unfold at_top in E'. destruct ((numidle (board_of s) <? minidle l) && (numproc (board_of s) <? maxproc l)).
      * destruct fk as [pid|]; [destruct ((0 <? pid) && negb (is_kid pid (kids s))); [|discriminate]|destruct (numproc (board_of s) =? 0)]; injection E' as <-; cbn [kids look]; try exact K.
        destruct (kids s); discriminate.
      * injection E' as <-. exact K.
    + cbn [step] in E. rewrite AT in E. injection E as <-. cbn. apply W. now left.
    + cbn [step] in E. rewrite AT in E. destruct (pipe s) as [|(pid, st) r]; [discriminate|]. injection E as <-. cbn in A. destruct A; discriminate.
    + cbn [step] in E. rewrite AT in E. injection E as <-. cbn in A. destruct A; discriminate.
    + cbn [step] in E. rewrite AT in E. discriminate.
  - cbn [step] in E. destruct (is_alive pid (kids s) && ((st =? idle) || (st =? busy))); [|discriminate]. injection E as <-. cbn in A |- *. now apply W.
  - cbn [step] in E. destruct (is_alive pid (kids s)) eqn:AL; [|discriminate]. injection E as <-. cbn [kids]. apply is_alive_ok in AL. destruct (kids s); [destruct AL|discriminate].
Qed.
Lemma waits_run l : 1 <= maxproc l -> 1 <= minidle l -> forall es s s', inv l s -> waits s -> run l s es = Some s' -> waits s'.
Proof.
  intros M1 M2. induction es as [|e es IH]; intros s s' I W; cbn [run]; [intros X; injection X as <-; exact W|].
  destruct (step l s e) as [t|] eqn:E; [|discriminate]. apply IH; [eapply inv_step; eassumption|eapply waits_step; eassumption].
Qed.
Lemma stuck_ok l s : inv l s -> waits s -> (forall e, step l s e = None) ->
  at_ s = Over \/ (at_ s = Reading /\ pipe s = [] /\ kids s <> [] /\ Forall (fun k => snd k = false) (kids s) /\ exited s = true).
Proof.
  intros I W N. destruct (at_ s) eqn:A.
  - specialize (N (Parent None)). cbn [step] in N. rewrite A in N. unfold at_top in N. destruct ((numidle (board_of s) <? minidle l) && (numproc (board_of s) <? maxproc l)); [|discriminate].
    destruct (numproc (board_of s) =? 0); discriminate.
  - specialize (N (Parent None)). cbn [step] in N. rewrite A in N. discriminate.
  - right. pose proof (N (Parent None)) as N0. cbn [step] in N0. rewrite A in N0. destruct (pipe s) as [|(p, st) r]; [|discriminate].
    assert (D : Forall (fun k => snd k = false) (kids s)).
    { apply Forall_forall. intros (p, b) IN. destruct b; [|reflexivity]. exfalso. specialize (N (Exit p)). cbn [step] in N.
      rewrite (proj2 (is_alive_ok p (kids s)) IN) in N. discriminate. }
    assert (K : kids s <> []) by (apply W; now right).
    repeat split; try assumption. apply (in_dead _ _ I). destruct (kids s) as [|(p, b) ks]; [congruence|]. inversion D; subst. cbn in *. subst. discriminate.
  - specialize (N (Parent None)). cbn [step] in N. rewrite A in N. discriminate.
  - now left.
Qed.

Lemma limits_some mp mi ma : mi <= 2147483645 -> exists l, sanity mp mi ma = Ok l.
Proof.
  intros L. unfold sanity. cbv zeta. set (m := if mi <=? 0 then 2 else mi). assert (1 <= m <= 2147483645) by (subst m; destruct (Z.leb_spec mi 0); lia).
  destruct (ma <=? m); [|cbn [obind]; eauto]. assert (I : NumModel.in_int (m + 2) = true). { unfold NumModel.in_int, INT_MAX. apply Bool.andb_true_iff. split; apply Z.leb_le; lia. }
  rewrite I. cbn [obind]. eauto.
Qed.
