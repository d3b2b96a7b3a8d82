(** Well-formed programs are translated piece by piece. *)
From Verif Require Import Common TextModel NumModel LexModel LexSpec LexProofs TransModel TransSpec TransLex TransScan TransFind TransNotes.
From Coq Require Import Lia.
Open Scope nat_scope.

Lemma text_eqb_true a b : text_eqb a b = true -> a = b.
Proof.
  revert b. induction a as [|x a IH]; intros [|y b]; cbn; try discriminate; [reflexivity|].
  intros H. apply andb_true_iff in H as (H1 & H2). apply N.eqb_eq in H1 as ->. f_equal. auto.
Qed.
Lemma text_eqb_same a : text_eqb a a = true.
Proof. induction a as [|x a IH]; cbn; [reflexivity|]. now rewrite N.eqb_refl. Qed.

Section Main.
Variables d d' : dict.
Variable T : tdict.
Hypothesis L : lang d.
Hypothesis D : dict_ok d d' T = true.
Hypothesis U : unambiguous (t_entries T) = true.
Notation wf := (well_formed d d' T).
Notation P := (d_prefix d).
Notation P' := (d_prefix d').

(** ** Looking up *)
Lemma find_known es ty w w' : unambiguous es = true ->
  existsb (fun e => (e_type e =? ty)%N && text_eqb (e_word e) w && text_eqb (e_trans e) w') es = true ->
  exists e, find_entry es ty w = Some e /\ e_word e = w /\ e_trans e = w'.
Proof.
  induction es as [|e es IH]; intros Hu Hk; [discriminate|]. cbn [unambiguous existsb find_entry] in *. apply andb_true_iff in Hu as (Hu1 & Hu2).
  destruct (text_eqb (e_word e) w && (e_type e =? ty)%N) eqn:E.
  - apply andb_true_iff in E as (E1 & E2). exists e. split; [reflexivity|]. apply text_eqb_true in E1. split; [exact E1|].
    apply orb_true_iff in Hk as [Hk|Hk]; [apply andb_true_iff in Hk as (_ & Hk); now apply text_eqb_true in Hk|].
    exfalso. apply existsb_exists in Hk as (e2 & I & Hk). apply andb_true_iff in Hk as (Hk & _). apply andb_true_iff in Hk as (K1 & K2).
    rewrite forallb_forall in Hu1. apply Hu1 in I. apply text_eqb_true in K2. apply N.eqb_eq in K1, E2. rewrite K1, K2, E1, E2 in I.
    rewrite N.eqb_refl, text_eqb_same in I. discriminate.
  - apply IH; [exact Hu2|]. apply orb_true_iff in Hk as [Hk|Hk]; [|exact Hk]. apply andb_true_iff in Hk as (Hk & _). apply andb_true_iff in Hk as (K1 & K2).
    rewrite K1, K2 in E. discriminate.
Qed.
Lemma known_find ty w w' : known T ty w w' = true -> exists e, find_entry (t_entries T) ty w = Some e /\ e_word e = w /\ e_trans e = w'.
Proof. apply find_known, U. Qed.
Lemma prefix_same : t_prefix T = P'.
Proof. unfold dict_ok in D. apply andb_true_iff in D as (_ & H). now apply N.eqb_eq in H. Qed.
Lemma among_false c l : among c l = false -> ~ In c l.
Proof. intros H I. unfold among in H. enough (existsb (N.eqb c) l = true) by congruence. apply existsb_exists. exists c. split; [exact I|apply N.eqb_refl]. Qed.
Lemma colons_none c t : ~ In c (tl t) -> colons c t = 0.
Proof. unfold colons. intros H. now apply count_occ_not_In. Qed.
Lemma upto_none c t : ~ In c t -> upto c t = (t, []).
Proof.
  induction t as [|x t IH]; intros H; [reflexivity|]. cbn [upto]. destruct (N.eqb_spec x c) as [->|]; [exfalso; apply H; cbn; auto|].
  rewrite IH; [reflexivity|]. intros I. apply H. cbn. auto.
Qed.
Lemma split_none c t : ~ In c (tl t) -> split_tail c t = (t, []).
Proof. destruct t as [|x t]; [reflexivity|]. cbn [tl split_tail]. intros H. now rewrite upto_none. Qed.
Lemma translate_plain w w' room : known T ty_t w w' = true -> ~ In P (tl w) -> ~ In P' (tl w') ->
  translate d T w ty_t room = LOk (Some (w', [])).
Proof.
  intros K H1 H2. apply known_find in K as (e & E & <- & <-). unfold translate. rewrite E. cbn [ty_t N.eqb Pos.eqb].
  rewrite prefix_same, !colons_none, split_none by assumption. reflexivity.
Qed.
Lemma mark_plain m m' : In (m, m') (combine (marks d) (marks d')) -> translate_mark d T m = LOk m'.
Proof.
  intros I. pose proof D as H. unfold dict_ok in H. do 5 apply andb_true_iff in H as (H & _). rewrite forallb_forall in H. specialize (H _ I). cbn in H.
  apply andb_true_iff in H as (H & H3). apply andb_true_iff in H as (H1 & H2). unfold no_prefix in H2, H3. apply negb_true_iff, among_false in H2, H3.
  unfold translate_mark. rewrite (translate_plain m m' false H1 H2 H3). reflexivity.
Qed.

(** ** Messages *)
Lemma whole_count c ks : (forall k, In k ks -> ~ In c k) -> count_occ N.eq_dec (whole c ks) c = length ks.
Proof.
  unfold whole. induction ks as [|k ks IH]; intros H; [reflexivity|]. cbn [map concat length]. rewrite <- app_assoc, !count_occ_app. cbn [count_occ].
  rewrite IH by (intros k' I; apply H; cbn; auto). cbn [app count_occ]. destruct (N.eq_dec c c); [|congruence].
  rewrite (proj1 (count_occ_not_In N.eq_dec k c)); [reflexivity|]. apply H. cbn. auto.
Qed.
Lemma whole_colons c k ks : k <> [] -> (forall q, In q (k :: ks) -> ~ In c q) -> colons c (whole c (k :: ks)) = S (length ks).
Proof.
  intros Hk H. pose proof (whole_count c (k :: ks) H) as W. unfold colons. unfold whole in *. cbn [map concat] in *. destruct k as [|x k]; [congruence|].
  cbn [app tl count_occ length] in *. destruct (N.eq_dec x c) as [->|]; [exfalso; apply (H (c :: k)); cbn; auto|exact W].
Qed.
Lemma upto_first c k r : ~ In c k -> upto c (k ++ c :: r) = (k ++ [c], r).
Proof.
  induction k as [|x k IH]; intros H; cbn [app upto]; [now rewrite N.eqb_refl|]. destruct (N.eqb_spec x c) as [->|]; [exfalso; apply H; cbn; auto|].
  rewrite IH; [reflexivity|]. intros I. apply H. cbn. auto.
Qed.
Lemma split_first c k r : k <> [] -> ~ In c k -> split_tail c (k ++ c :: r) = (k ++ [c], r).
Proof.
  destruct k as [|x k]; [congruence|]. intros _ H. cbn [app split_tail]. rewrite upto_first; [reflexivity|]. intros I. apply H. cbn. auto.
Qed.
Lemma translate_message (ks : list (text * text)) k k' :
  known T ty_t (whole P (map fst ((k, k') :: ks))) (whole P' (map snd ((k, k') :: ks))) = true ->
  length (whole P' (map snd ((k, k') :: ks))) <= 180 ->
  k <> [] -> k' <> [] -> (forall q, In q ((k, k') :: ks) -> ~ In P (fst q) /\ ~ In P' (snd q)) ->
  translate d T (whole P (map fst ((k, k') :: ks))) ty_t true = LOk (Some (k' ++ [P'], whole P' (map snd ks))).
Proof.
  intros K Hl Hk Hk' H. apply known_find in K as (e & E & Ew & Et). unfold translate. rewrite E. cbn [ty_t N.eqb Pos.eqb]. rewrite Ew, Et, prefix_same.
  cbn [map fst snd]. rewrite !whole_colons; [|exact Hk'| |exact Hk|].
  - rewrite !map_length, Nat.eqb_refl. cbn [negb]. unfold whole at 1. cbn [map concat]. rewrite <- app_assoc. cbn [app].
    rewrite split_first; [|exact Hk'|apply (H (k, k')); cbn; auto]. fold (whole P' (map snd ks)). destruct (whole P' (map snd ks)) eqn:Ew2; [reflexivity|].
    assert (Em : (max_word <? S (length (n :: l))) = false); [|now rewrite Em].
    apply Nat.ltb_ge. rewrite <- Ew2. cbn [map snd] in Hl. rewrite whole_length in Hl. unfold max_word. destruct k'; [congruence|]. cbn [length] in Hl. lia.
  - intros q I. change (In q (map snd ((k, k') :: ks))) in I. apply in_map_iff in I as (x & <- & I). now apply H.
  - intros q I. change (In q (map fst ((k, k') :: ks))) in I. apply in_map_iff in I as (x & <- & I). now apply H.
Qed.

(** ** The notebook *)
Lemma search_app b1 b2 a : notebook_search (b1 ++ b2) a = match notebook_search b1 a with Some n => Some n | None => notebook_search b2 a end.
Proof. unfold notebook_search. induction b1 as [|n b1 IH]; [reflexivity|]. cbn [app find]. destruct (match n_at n with Some k => k =? a | None => false end); auto. Qed.
Lemma search_clear b a : notebook_search (clear_marks b) a = option_map (fun n => mkNote (n_at n) (n_text n) None) (notebook_search b a).
Proof. unfold notebook_search, clear_marks. induction b as [|n b IH]; [reflexivity|]. cbn [map find n_at]. destruct (match n_at n with Some k => k =? a | None => false end); auto. Qed.
Lemma search_none b a : (forall n, In n b -> n_at n <> Some a) -> notebook_search b a = None.
Proof.
  unfold notebook_search. induction b as [|n b IH]; intros H; [reflexivity|]. cbn [find]. destruct (n_at n) as [k|] eqn:E.
  - destruct (Nat.eqb_spec k a) as [->|]; [exfalso; apply (H n); cbn; auto|]. apply IH. intros m I. apply H. cbn. auto.
  - apply IH. intros m I. apply H. cbn. auto.
Qed.
Definition done_notes (ps : list (nat * (text * text))) : list note := map (fun x => mkNote (Some (fst x)) (snd (snd x) ++ [P']) None) ps.
Lemma collect_one c k : forall b m buff rest, ~ In c k ->
  note_collect c b m buff (k ++ c :: rest) = lx b' <- attach b m (buff ++ k ++ [c]); note_collect c b' (S m) [] rest.
Proof.
  induction k as [|x k IH]; intros b m buff rest H; cbn [app note_collect].
  - now rewrite N.eqb_refl.
  - destruct (N.eqb_spec x c) as [->|]; [exfalso; apply H; cbn; auto|]. rewrite IH; [now rewrite <- app_assoc|]. intros I. apply H. cbn. auto.
Qed.
Lemma attach_app b1 b2 m t : Forall (fun n => n_mark n = None) b1 -> attach (b1 ++ b2) m t = lx b2' <- attach b2 m t; LOk (b1 ++ b2').
Proof.
  induction b1 as [|n b1 IH]; intros H; cbn [app].
  - now destruct (attach b2 m t).
  - cbn [attach]. inversion H; subst. rewrite H2, IH by assumption. now destruct (attach b2 m t).
Qed.
Lemma collect_ok ps : forall old m, Forall (fun n => n_mark n = None) old -> (forall x, In x ps -> ~ In P' (snd (snd x))) ->
  note_collect P' (old ++ new_notes m ps) m [] (whole P' (map (fun x => snd (snd x)) ps)) = LOk (old ++ done_notes ps).
Proof.
  induction ps as [|[pos [k k']] ps IH]; intros old m Ho Hp; [reflexivity|]. unfold whole. cbn [map concat fst snd new_notes]. rewrite <- app_assoc. cbn [app].
  rewrite collect_one by (apply (Hp (pos, (k, k'))); cbn; auto). cbn [app]. rewrite attach_app by exact Ho. cbn [attach n_mark n_at n_text]. rewrite Nat.eqb_refl. cbn [lbind].
  fold (whole P' (map (fun x => snd (snd x)) ps)).
  replace (old ++ mkNote (Some pos) ((k' ++ [P']) ++ skipn (length (k' ++ [P'])) []) None :: new_notes (S m) ps)
    with ((old ++ [mkNote (Some pos) (k' ++ [P']) None]) ++ new_notes (S m) ps).
  - rewrite IH; [unfold done_notes; cbn [map fst snd]; now rewrite <- app_assoc| |].
    + apply Forall_app. split; [exact Ho|]. repeat constructor.
    + intros x I. apply Hp. cbn. auto.
  - rewrite <- app_assoc. cbn [app]. now rewrite skipn_nil, app_nil_r.
Qed.

(** The parts whose text is already in the notebook. *)
Fixpoint cov (st : levels) (o : nat) (l : program) : list (nat * text) :=
  match l with
  | [] => []
  | (ws, p) :: l' =>
      let o' := o + length ws + length (render_piece d p) in
      match p with
      | Key k k' => (if in_message st then [(o + length ws + length k, k')] else []) ++ cov st o' l'
      | Dot | Chain => cov (match st with (b, _) :: s => (b, false) :: s | [] => [] end) o' l'
      | Open => cov ((true, false) :: st) o' l'
      | BOpen => cov ((false, false) :: st) o' l'
      | Close | BClose => cov (tl st) o' l'
      | _ => cov st o' l'
      end
  end.
Definition proper (l : program) : Prop := forall ws k k', In (ws, Key k k') l -> ws <> [].
Lemma proper_tail x l : proper (x :: l) -> proper l.
Proof. intros H ws k k' I. apply (H ws k k'). cbn. auto. Qed.
Lemma proper_head ws k k' l : proper ((ws, Key k k') :: l) -> 1 <= length ws.
Proof. intros H. specialize (H ws k k' (or_introl eq_refl)). destruct ws; [congruence|cbn; lia]. Qed.
Lemma cov_bound l : forall st o a t, proper l -> In (a, t) (cov st o l) -> o < a.
Proof.
  induction l as [|[ws p] l IH]; intros st o a t Hp I; [destruct I|]. pose proof (proper_tail _ _ Hp) as Hp'.
  cbn [cov] in I. destruct p; try (apply IH in I; [lia|exact Hp']).
  apply in_app_iff in I as [I|I]; [|apply IH in I; [lia|exact Hp']]. apply proper_head in Hp. destruct (in_message st); [|destruct I]. destruct I as [[= <- _]|[]]. lia.
Qed.
Lemma laterp_bound l : forall n o a t, proper l -> In (a, t) (laterp d n o l) -> o < a.
Proof.
  induction l as [|[ws p] l IH]; intros n o a t Hp I; [destruct I|]. pose proof (proper_tail _ _ Hp) as Hp'.
  cbn [laterp] in I. destruct p; try (apply IH in I; [lia|exact Hp']); destruct (n =? 0); try (apply IH in I; [lia|exact Hp']); try (destruct I; fail).
  destruct I as [[= <- _]|I]; [apply proper_head in Hp; lia|]. apply IH in I; [lia|exact Hp'].
Qed.
Definition named (x : nat * (text * text)) : nat * text := (fst x, snd (snd x)).
Lemma cov_raise l : forall loc b0 st0 o x,
  In x (cov (loc ++ (b0, true) :: st0) o l) <-> In x (cov (loc ++ (b0, false) :: st0) o l) \/ In x (map named (laterp d (length loc) o l)).
Proof.
  induction l as [|[ws p] l IH]; intros loc b0 st0 o x; [cbn; tauto|]. cbn [cov laterp].
  set (o' := o + length ws + length (render_piece d p)). clearbody o'. destruct p; try apply IH.
  - destruct loc as [|[lk lf] loc].
    + cbn [app length Nat.eqb in_message map]. pose proof (IH [] b0 st0 o' x) as E. cbn [app length] in E. cbn [In]. rewrite E. unfold named at 2. cbn [fst snd]. tauto.
    + cbn [app length Nat.eqb in_message]. rewrite !in_app_iff. pose proof (IH ((lk, lf) :: loc) b0 st0 o' x) as E. cbn [app length] in E. rewrite E. tauto.
  - apply (IH ((true, false) :: loc)).
  - destruct loc as [|y loc]; cbn [app length Nat.eqb tl map In]; [tauto|]. rewrite Nat.sub_succ, Nat.sub_0_r. apply IH.
  - apply (IH ((false, false) :: loc)).
  - destruct loc as [|y loc]; cbn [app length Nat.eqb tl map In]; [tauto|]. rewrite Nat.sub_succ, Nat.sub_0_r. apply IH.
  - destruct loc as [|[lk lf] loc]; cbn [app length Nat.eqb map In]; [tauto|]. apply (IH ((lk, false) :: loc)).
  - destruct loc as [|[lk lf] loc]; cbn [app length Nat.eqb map In]; [tauto|]. apply (IH ((lk, false) :: loc)).
Qed.
Lemma cov_disjoint l : forall loc b0 st0 o a t t', proper l ->
  In (a, t) (laterp d (length loc) o l) -> In (a, t') (cov (loc ++ (b0, false) :: st0) o l) -> False.
Proof.
  induction l as [|[ws p] l IH]; intros loc b0 st0 o a t t' Hp I1 I2; [destruct I1|]. pose proof (proper_tail _ _ Hp) as Hp'. cbn [cov laterp] in I1, I2.
  destruct p; try (eapply IH; eassumption).
  - assert (B : o + length ws + length k < o + length ws + length (render_piece d (Key k k'))) by (cbn [render_piece]; rewrite app_length; cbn; lia).
    destruct loc as [|[lk lf] loc].
    + cbn [app length Nat.eqb in_message] in *. destruct I1 as [[= <- _]|I1].
      * apply cov_bound in I2; [lia|exact Hp'].
      * apply (IH [] b0 st0 _ a t t' Hp' I1 I2).
    + cbn [app length Nat.eqb in_message] in *. apply in_app_iff in I2 as [I2|I2].
      * destruct lf; [|destruct I2]. destruct I2 as [[= <- _]|[]]. apply laterp_bound in I1; [lia|exact Hp'].
      * apply (IH ((lk, lf) :: loc) b0 st0 _ a t t' Hp' I1 I2).
  - apply (IH ((true, false) :: loc) b0 st0 _ a t t' Hp' I1 I2).
  - destruct loc as [|y loc]; cbn [app length Nat.eqb tl] in *; [destruct I1|]. rewrite Nat.sub_succ, Nat.sub_0_r in I1. apply (IH loc b0 st0 _ a t t' Hp' I1 I2).
  - apply (IH ((false, false) :: loc) b0 st0 _ a t t' Hp' I1 I2).
  - destruct loc as [|y loc]; cbn [app length Nat.eqb tl] in *; [destruct I1|]. rewrite Nat.sub_succ, Nat.sub_0_r in I1. apply (IH loc b0 st0 _ a t t' Hp' I1 I2).
  - destruct loc as [|[lk lf] loc]; cbn [app length Nat.eqb] in *; [destruct I1|]. apply (IH ((lk, false) :: loc) b0 st0 _ a t t' Hp' I1 I2).
  - destruct loc as [|[lk lf] loc]; cbn [app length Nat.eqb] in *; [destruct I1|]. apply (IH ((lk, false) :: loc) b0 st0 _ a t t' Hp' I1 I2).
Qed.
Lemma laterp_unique l : forall n o a t1 t2, proper l -> In (a, t1) (laterp d n o l) -> In (a, t2) (laterp d n o l) -> t1 = t2.
Proof.
  induction l as [|[ws p] l IH]; intros n o a t1 t2 Hp I1 I2; [destruct I1|]. pose proof (proper_tail _ _ Hp) as Hp'. cbn [laterp] in I1, I2.
  destruct p; try (eapply IH; eassumption); destruct (n =? 0); try (eapply IH; eassumption); try (destruct I1; fail).
  assert (B : o + length ws + length k < o + length ws + length (render_piece d (Key k k'))) by (cbn [render_piece]; rewrite app_length; cbn; lia).
  destruct I1 as [[= <- <-]|I1], I2 as [[= E2]|I2]; auto.
  - apply laterp_bound in I2; [lia|exact Hp'].
  - subst a. apply laterp_bound in I1; [lia|exact Hp'].
  - eapply IH; eassumption.
Qed.

(** ** Well-formed programs *)
Lemma wf_cons st ws p l trail : wf st ((ws, p) :: l) trail = true ->
  blank false ws = true /\ piece_ok d d' T st ws p l (render d l ++ trail) = true /\ exists st', next st p = Some st' /\ wf st' l trail = true.
Proof.
  cbn [well_formed]. intros H. apply andb_true_iff in H as (H & H3). apply andb_true_iff in H as (H1 & H2). apply andb_true_iff in H1 as (H1 & _). split; [exact H1|]. split; [exact H2|].
  destruct (next st p) as [st'|]; [|discriminate]. now exists st'.
Qed.
Lemma key_parts st ws k k' l rest : piece_ok d d' T st ws (Key k k') l rest = true ->
  word_ok d k (P :: rest) = true /\ starts (d_assign d) (P :: rest) = false /\ starts [58; 61]%N (P :: rest) = false /\
  ws <> [] /\ k' <> [] /\ ~ In P' k' /\ length (whole P (map fst ((k, k') :: later 0 l))) <= 180 /\
  (in_message st = true \/ known T ty_t (whole P (map fst ((k, k') :: later 0 l))) (whole P' (map snd ((k, k') :: later 0 l))) = true /\
                           length (whole P' (map snd ((k, k') :: later 0 l))) <= 180).
Proof.
  unfold piece_ok, parts_of. intros H. do 7 (apply andb_true_iff in H as (H & ?)).
  split; [assumption|]. split; [now apply negb_true_iff|]. split; [now apply negb_true_iff|].
  split; [intros ->; discriminate|]. split; [intros ->; discriminate|]. split; [now apply among_false, negb_true_iff|]. split; [now apply Nat.leb_le|].
  match goal with H : (_ || _)%bool = true |- _ => apply orb_true_iff in H as [H|H]; [now left|right] end.
  match goal with H : (_ && _)%bool = true |- _ => apply andb_true_iff in H as (K1 & K2) end. split; [exact K1|]. now apply Nat.leb_le.
Qed.
Lemma wf_keys l : forall st trail ws k k', wf st l trail = true -> In (ws, Key k k') l -> ws <> [] /\ ~ In P k /\ ~ In P' k'.
Proof.
  induction l as [|[ws0 p] l IH]; intros st trail ws k k' H I; [destruct I|]. apply wf_cons in H as (_ & Hp & st' & _ & Hw). destruct I as [[= -> ->]|I].
  - apply key_parts in Hp as (K1 & _ & _ & K2 & _ & K3 & _). split; [exact K2|]. split; [|exact K3]. intros I. now apply (word_bytes d k _ P K1) in I as (_ & I).
  - eapply IH; eassumption.
Qed.
Lemma wf_proper l st trail : wf st l trail = true -> proper l.
Proof. intros H ws k k' I. now apply (wf_keys l st trail ws k k' H) in I as (I & _). Qed.
Lemma later_In l : forall n k k', In (k, k') (later n l) -> exists ws, In (ws, Key k k') l.
Proof.
  induction l as [|[ws p] l IH]; intros n k k' I; [destruct I|].
  assert (G : forall m, In (k, k') (later m l) -> exists ws0, In (ws0, Key k k') ((ws, p) :: l)).
  { intros m J. apply IH in J as (w & J). exists w. now right. }
  cbn [later] in I. destruct p; try (eapply G; eassumption); destruct (n =? 0); try (eapply G; eassumption); try (destruct I; fail).
  destruct I as [[= -> ->]|I]; [exists ws; now left|]. eapply G; eassumption.
Qed.
Lemma later_keys l st trail q n : wf st l trail = true -> In q (later n l) -> ~ In P (fst q) /\ ~ In P' (snd q).
Proof. destruct q as [k k']. intros H I. apply later_In in I as (ws & I). now apply (wf_keys l st trail ws k k' H) in I as (_ & I). Qed.

(** ** The invariant *)
Definition inv (b : list note) (o : nat) (st : levels) (l : program) : Prop :=
  (forall a t, In (a, t) (cov st o l) -> exists n, notebook_search b a = Some n /\ n_text n = t ++ [P']) /\
  (forall n a, In n b -> n_at n = Some a -> a < o \/ In a (map fst (cov st o l))).
Definition is_key (p : piece) : bool := match p with Key _ _ => true | _ => false end.
Lemma cov_step st o ws p l st' : is_key p = false -> next st p = Some st' ->
  cov st o ((ws, p) :: l) = cov st' (o + length ws + length (render_piece d p)) l.
Proof.
  intros K E. cbn [cov]. destruct p; try discriminate K; cbn [next] in E; destruct st as [|[b0 f0] st]; try discriminate E;
    try (injection E as <-; reflexivity); try (destruct f0; try discriminate E; injection E as <-; reflexivity);
    destruct b0; try discriminate E; try (destruct f0; try discriminate E); destruct st; try discriminate E; injection E as <-; reflexivity.
Qed.
Lemma inv_step b st o ws p l st' : is_key p = false -> next st p = Some st' -> inv b o st ((ws, p) :: l) ->
  inv b (o + length ws + length (render_piece d p)) st' l.
Proof.
  intros K E (A & B). unfold inv in *. rewrite (cov_step st o ws p l st' K E) in A, B. split; [exact A|]. intros n a I J. apply B in J as [J|J]; auto. left. lia.
Qed.
Lemma inv_none b st o l e : proper l -> inv b o st l -> o <= e -> (forall a, In a (map fst (cov st o l)) -> a <> e) -> notebook_search b e = None.
Proof. intros Hp (A & B) He H. apply search_none. intros n I J. apply (B n e I) in J as [J|J]; [lia|]. now apply H in J. Qed.
Lemma cov_fst st o l a : proper l -> In a (map fst (cov st o l)) -> o < a.
Proof. intros Hp I. apply in_map_iff in I as ([a' t] & <- & I). now apply cov_bound in I. Qed.

Lemma done_search ps a k t : (forall t1 t2, In (a, t1) ps -> In (a, t2) ps -> t1 = t2) -> In (a, (k, t)) ps ->
  exists n, notebook_search (done_notes ps) a = Some n /\ n_text n = t ++ [P'].
Proof.
  unfold notebook_search, done_notes. induction ps as [|[a0 [k0 t0]] ps IH]; intros Hu I; [destruct I|]. cbn [map find n_at fst snd].
  destruct (Nat.eqb_spec a0 a) as [->|Hn].
  - eexists. split; [reflexivity|]. cbn [n_text]. f_equal. specialize (Hu _ _ (or_introl eq_refl) I). congruence.
  - destruct I as [[= E _ _]|I]; [congruence|]. apply IH; [|exact I]. intros t1 t2 I1 I2. apply Hu; now right.
Qed.
Lemma clear_In b n : In n (clear_marks b) -> exists m, In m b /\ n_at m = n_at n.
Proof. unfold clear_marks. intros I. apply in_map_iff in I as (m & <- & I). now exists m. Qed.
Lemma inv_clear b o st l a t : (forall a t, In (a, t) (cov st o l) -> exists n, notebook_search b a = Some n /\ n_text n = t ++ [P']) ->
  In (a, t) (cov st o l) -> exists n, notebook_search (clear_marks b) a = Some n /\ n_text n = t ++ [P'].
Proof. intros A I. apply A in I as (n & E & Et). rewrite search_clear, E. cbn [option_map]. eexists. split; [reflexivity|exact Et]. Qed.

Lemma inv_first b b0 st o ws k k' l : proper ((ws, Key k k') :: l) -> inv b o ((b0, false) :: st) ((ws, Key k k') :: l) ->
  let o' := o + length ws + length (k ++ [P]) in
  inv (clear_marks b ++ done_notes (laterp d 0 o' l)) o' ((b0, true) :: st) l /\
  notebook_search (clear_marks b ++ new_notes 0 (laterp d 0 o' l)) (o + length ws + length k) = None.
Proof.
  intros Hp (A & B) o'. pose proof (proper_tail _ _ Hp) as Hp'. cbn [cov in_message app render_piece] in A, B. fold o' in A, B.
  assert (R : forall x, In x (cov ((b0, true) :: st) o' l) <-> In x (cov ((b0, false) :: st) o' l) \/ In x (map named (laterp d 0 o' l)))
    by (intros x; apply (cov_raise l [] b0 st o' x)).
  assert (Ho : o + length ws + length k < o') by (unfold o'; rewrite app_length; cbn [length]; lia).
  split; [split|].
  - intros a t I. apply R in I as [I|I].
    + destruct (inv_clear _ _ _ _ _ _ A I) as (n & E & Et). exists n. now rewrite search_app, E.
    + apply in_map_iff in I as ([a' [kk tt]] & [= <- <-] & I). rewrite search_app, search_none.
      * apply (done_search _ a' kk tt); [|exact I]. intros t1 t2. apply laterp_unique, Hp'.
      * intros n J1 J2. apply clear_In in J1 as (m & J1 & Jm). rewrite J2 in Jm. apply (B m a' J1) in Jm as [Jm|Jm].
        -- apply laterp_bound in I; [lia|exact Hp'].
        -- apply in_map_iff in Jm as ([a2 t2] & <- & Jm). apply (cov_disjoint l [] b0 st o' a2 _ t2 Hp' I Jm).
  - intros n a I E. apply in_app_iff in I as [I|I].
    + apply clear_In in I as (m & I & Em). rewrite E in Em. apply (B m a I) in Em as [Em|Em]; [left; lia|right].
      apply in_map_iff in Em as ([a2 t2] & <- & Em). apply in_map_iff. exists (a2, t2). split; [reflexivity|]. apply R. now left.
    + right. unfold done_notes in I. apply in_map_iff in I as ([a2 [k2 t2]] & <- & I). cbn [n_at fst] in E. injection E as ->.
      apply in_map_iff. exists (a, t2). split; [reflexivity|]. apply R. right. apply in_map_iff. now exists (a, (k2, t2)).
  - rewrite search_app, search_none.
    + apply search_none. intros n I. revert I. generalize 0 at 1 as c.
      assert (G : forall x, In x (laterp d 0 o' l) -> o' < fst x) by (intros [a t] I; now apply laterp_bound in I).
      clear - G Ho. revert G. induction (laterp d 0 o' l) as [|[a t] ps IH]; intros G c I; [destruct I|]. cbn [new_notes] in I. destruct I as [<-|I].
      * cbn [n_at]. specialize (G _ (or_introl eq_refl)). cbn [fst] in G. intros [= E]. lia.
      * apply (IH (fun x J => G x (or_intror J)) _ I).
    + intros n I E. apply clear_In in I as (m & I & Em). rewrite E in Em. apply (B m _ I) in Em as [Em|Em].
      * lia.
      * apply cov_fst in Em; [lia|exact Hp'].
Qed.
Lemma inv_later b b0 st o ws k k' l : proper ((ws, Key k k') :: l) -> inv b o ((b0, true) :: st) ((ws, Key k k') :: l) ->
  let o' := o + length ws + length (k ++ [P]) in let b1 := clear_marks b ++ new_notes 0 (laterp d 0 o' l) in
  inv b1 o' ((b0, true) :: st) l /\ exists n, notebook_search b1 (o + length ws + length k) = Some n /\ n_text n = k' ++ [P'].
Proof.
  intros Hp (A & B) o' b1. pose proof (proper_tail _ _ Hp) as Hp'. cbn [cov in_message app render_piece] in A, B. fold o' in A, B.
  assert (Ho : o + length ws + length k < o') by (unfold o'; rewrite app_length; cbn [length]; lia).
  assert (A' : forall a t, In (a, t) ((o + length ws + length k, k') :: cov ((b0, true) :: st) o' l) -> exists n, notebook_search b1 a = Some n /\ n_text n = t ++ [P']).
  { intros a t I. apply A in I as (n & E & Et). unfold b1. rewrite search_app, search_clear, E. cbn [option_map]. eexists. split; [reflexivity|exact Et]. }
  split; [split|].
  - intros a t I. apply A'. now right.
  - intros n a I E. unfold b1 in I. apply in_app_iff in I as [I|I].
    + apply clear_In in I as (m & I & Em). rewrite E in Em. apply (B m a I) in Em as [Em|[Em|Em]].
      * left. lia.
      * cbn [fst] in Em. left. lia.
      * right. exact Em.
    + right. assert (G : exists t, In (a, t) (laterp d 0 o' l)).
      { revert I. generalize 0 at 1 as c. clear - E. induction (laterp d 0 o' l) as [|[a2 t] ps IH]; intros c I; [destruct I|]. cbn [new_notes] in I. destruct I as [<-|I].
        - cbn [n_at] in E. injection E as ->. exists t. now left.
        - destruct (IH _ I) as (t2 & J). exists t2. now right. }
      destruct G as ([k2 t2] & J). apply in_map_iff. exists (a, t2). split; [reflexivity|]. apply (cov_raise l [] b0 st o' (a, t2)). right.
      apply in_map_iff. now exists (a, (k2, t2)).
  - apply A'. now left.
Qed.
End Main.
