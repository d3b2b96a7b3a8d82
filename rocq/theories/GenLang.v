(** Dictionaries between any two languages. *)
From Verif Require Import Common Fuel Txt NumModel LexModel LangDicts RegModel HdrDicts TransModel TransSpec TransMain TransProofs GenSpec GenModel GenProofs GenLoad GenData.
From Coq Require Import String.
Local Open Scope nat_scope.
Local Opaque columns others languages dictionaries.

(** ** What the check says *)
Lemma language_checked l d ws os : language l d ws os -> language_okb d ws os = true.
Proof.
  intros (L & D & O). pose proof languages_checked as H. unfold all_languages_ok in H. rewrite forallb_forall in H. specialize (H _ O).
  rewrite forallb_forall in H. specialize (H _ D). cbn [fst snd] in H. rewrite String.eqb_refl in H. rewrite forallb_forall in H. specialize (H _ L). cbn [fst snd] in H.
  rewrite text_eqb_same in H. exact H.
Qed.
Lemma nodup_texts_ok l : nodup_texts l = true -> NoDup l.
Proof.
  induction l as [|a l IH]; intros H; constructor; cbn in H; apply andb_true_iff in H as [H1 H2]; [|now apply IH].
  intros I. apply negb_true_iff in H1. assert (E : existsb (text_eqb a) l = true) by (apply existsb_exists; exists a; split; [exact I|apply text_eqb_same]). congruence.
Qed.
Lemma texts_eqb_ok l : forall m, texts_eqb l m = true -> l = m.
Proof. induction l as [|a l IH]; intros [|b m] H; try discriminate; [reflexivity|]. cbn in H. apply andb_true_iff in H as [H1 H2]. apply text_eqb_true in H1 as ->. now rewrite (IH m H2). Qed.
Lemma column_eqb_ok a b : column_eqb a b = true -> a = b.
Proof.
  destruct a as (k & x & i), b as (k' & x' & i'). cbn. intros H. apply andb_true_iff in H as [H H3]. apply andb_true_iff in H as [H1 H2].
  apply String.eqb_eq in H1 as ->. apply Bool.eqb_prop in H2 as ->. apply Nat.eqb_eq in H3 as ->. reflexivity.
Qed.
Lemma among_in c t : among c t = false -> ~ In c t.
Proof. intros H I. assert (E : among c t = true) by (unfold among; apply existsb_exists; exists c; split; [exact I|apply N.eqb_refl]). congruence. Qed.
Lemma value_ok t : value_okb t = true -> quotable t /\ List.length t < 180 /\ ~ In 35%N t.
Proof.
  unfold value_okb. rewrite !andb_true_iff, !negb_true_iff, !Nat.ltb_lt. intros (((L0 & L1) & Q) & H). split; [split|split; [exact L1|now apply among_in]].
  - destruct t; [cbn in L0; lia|discriminate].
  - apply Forall_forall. intros c I ->. now apply among_in in Q.
Qed.
Lemma key_ok t : key_okb t = true -> solid t.
Proof.
  unfold key_okb. rewrite !andb_true_iff, !Nat.ltb_lt. intros ((L0 & L1) & F). split; [destruct t; [cbn in L0; lia|discriminate]|]. split; [|exact L1].
  apply Forall_forall. intros c I B. rewrite forallb_forall in F. specialize (F c I). apply blank_iff in B. unfold blank in B. rewrite B in F. discriminate F.
Qed.
Record checked (d : dict) (ws os : list string) : Prop := {
  c_values : forall c, In c columns -> quotable (cell ws os c) /\ List.length (cell ws os c) < 180 /\ ~ In 35%N (cell ws os c);
  c_words : NoDup (map (cell ws os) word_columns);
  c_marks : map (cell ws os) mark_columns = marks d;
  c_prefix : forallb (no_prefix d) (marks d) = true;
  c_dec : cell ws os dec_column = d_dec d;
  c_tho : cell ws os tho_column = d_tho d;
  c_last : last_prefixed d ws os = Some prefix_column }.
Lemma check_ok l d ws os : language l d ws os -> checked d ws os.
Proof.
  intros L. apply language_checked in L. unfold language_okb in L. apply andb_true_iff in L as [L H7]. apply andb_true_iff in L as [L H6]. apply andb_true_iff in L as [L H5].
  apply andb_true_iff in L as [L H4]. apply andb_true_iff in L as [L H3]. apply andb_true_iff in L as [H1 H2]. constructor.
  - intros c I. rewrite forallb_forall in H1. apply value_ok, H1, I.
  - now apply nodup_texts_ok.
  - now apply texts_eqb_ok.
  - exact H4.
  - now apply text_eqb_true.
  - now apply text_eqb_true.
  - destruct (last_prefixed d ws os) as [c|]; [|discriminate]. apply column_eqb_ok in H7 as ->. reflexivity.
Qed.
Record tables : Prop := {
  t_keys : forall c, In c columns -> solid (column_key c);
  t_marks : forall c, In c mark_columns -> In c word_columns;
  t_d : filter (fun c => (line_type (column_key c) =? 100)%N) visible = [dec_column];
  t_x : filter (fun c => (line_type (column_key c) =? 120)%N) visible = [tho_column];
  t_types : forall c, In c visible -> In (line_type (column_key c)) [116; 100; 120]%N;
  t_last : exists c r, rev visible = c :: r /\ line_type (column_key c) = 116%N }.
Lemma one_ok l c : match l with [x] => column_eqb x c | _ => false end = true -> l = [c].
Proof. destruct l as [|x [|? ?]]; try discriminate. intros H. now apply column_eqb_ok in H as ->. Qed.
Lemma first_ok (l : list column) (f : column -> bool) : match l with [] => false | c :: _ => f c end = true -> exists c r, l = c :: r /\ f c = true.
Proof. destruct l as [|c r]; [discriminate|]. intros H. now exists c, r. Qed.
Lemma tables_ok : tables.
Proof.
  pose proof columns_checked as L. unfold columns_ok in L. apply andb_true_iff in L as [L H6]. apply andb_true_iff in L as [L H5]. apply andb_true_iff in L as [L H4].
  apply andb_true_iff in L as [L H3]. apply andb_true_iff in L as [H1 H2]. constructor.
  - intros c I. rewrite forallb_forall in H1. apply key_ok, H1, I.
  - intros c I. rewrite forallb_forall in H2. specialize (H2 c I). apply existsb_exists in H2 as (x & X & E). apply column_eqb_ok in E as ->. exact X.
  - apply one_ok, H3.
  - apply one_ok, H4.
  - intros c I. rewrite forallb_forall in H5. specialize (H5 c I). apply existsb_exists in H5 as (x & X & E). apply N.eqb_eq in E. rewrite E. exact X.
  - apply first_ok in H6 as (c & r & E & F). exists c, r. split; [exact E|now apply N.eqb_eq].
Qed.

(** ** The lines of two languages *)
Definition line_at (ws os ws' os' : list string) (c : column) : line := (line_type (column_key c), cell ws os c, cell ws' os' c).
Lemma lines_columns ws os ws' os' : forall cs,
  lines_of [] (map (fun c => mkRow (column_key c) (cell ws os c) None) cs) (map (fun c => mkRow (column_key c) (cell ws' os' c) None) cs) =
  map (line_at ws os ws' os') (filter (fun c => negb (internal (column_key c))) cs).
Proof.
  induction cs as [|c cs IH]; [reflexivity|]. cbn [map lines_of filter]. rewrite IH. unfold lines_for. cbn [key value modifier modified existsb].
  cbn zeta. destruct (internal (column_key c)) eqn:IN; cbn [negb map app]; [reflexivity|]. unfold line_at at 2.
  destruct (line_type_cases (column_key c)) as [(_ & E)|[(_ & _ & E)|(_ & _ & E)]]; rewrite E; reflexivity.
Qed.
Definition lines_between (ws os ws' os' : list string) : list line := map (line_at ws os ws' os') visible.
Lemma lines_rows ws os ws' os' : lines_of [] (rows_of ws os) (rows_of ws' os') = lines_between ws os ws' os'.
Proof. apply lines_columns. Qed.
Lemma rows_ok d ws os : checked d ws os -> Forall row_ok (rows_of ws os) /\ Forall (fun a => modifier a = None) (rows_of ws os) /\ fine (rows_of ws os).
Proof.
  intros C. unfold rows_of, fine. rewrite !Forall_map. repeat split; apply Forall_forall; intros c I; cbn [key value modifier]; try reflexivity.
  - split; [apply tables_ok, I|]. destruct (c_values d ws os C c I) as (Q & L & _). split; [exact Q|]. split; [exact L|discriminate].
Qed.
Lemma rows_agree ws os ws' os' : agree (rows_of ws os) (rows_of ws' os').
Proof. unfold rows_of. induction columns as [|c cs IH]; [exact I|]. cbn [map agree key]. split; [reflexivity|exact IH]. Qed.
Lemma visible_in c : In c visible -> In c columns.
Proof. intros I. apply filter_In in I as [I _]. exact I. Qed.
Section Two.
Variables (d d' : dict) (ws os ws' os' : list string).
Hypothesis C : checked d ws os.
Hypothesis C' : checked d' ws' os'.
Let ls := lines_between ws os ws' os'.
Lemma lines_usable : Forall usable ls.
Proof.
  unfold ls, lines_between. rewrite Forall_map. apply Forall_forall. intros c I. unfold line_at, usable.
  destruct (c_values d ws os C c (visible_in c I)) as ((N1 & _) & L1 & H1). destruct (c_values d' ws' os' C' c (visible_in c I)) as ((N2 & _) & L2 & H2).
  split; [|split; [right; lia|now repeat split]]. pose proof (t_types tables_ok c I) as [<-|[<-|[<-|[]]]]; cbn; tauto.
Qed.
Lemma lines_line_ok : Forall line_ok ls.
Proof.
  unfold ls, lines_between. rewrite Forall_map. apply Forall_forall. intros c I. unfold line_at, line_ok.
  destruct (c_values d ws os C c (visible_in c I)) as (Q1 & L1 & H1). destruct (c_values d' ws' os' C' c (visible_in c I)) as (Q2 & L2 & H2).
  split; [|split; [exact Q1|split; [exact Q2|lia]]]. unfold is_blank. pose proof (t_types tables_ok c I) as [<-|[<-|[<-|[]]]]; lia.
Qed.
Lemma moved_none t : ~ In 35%N t -> moved t = 0.
Proof.
  induction t as [|c t IH]; intros H; [reflexivity|]. cbn [moved]. destruct (N.eqb_spec c 35) as [->|]; [exfalso; apply H; now left|]. rewrite IH; [reflexivity|]. intros I. apply H. now right.
Qed.
Lemma lines_room : room 0 ls.
Proof.
  assert (F : Forall (fun l : line => let '(_, _, t) := l in List.length t < 180 /\ ~ In 35%N t) ls).
  { unfold ls, lines_between. rewrite Forall_map. apply Forall_forall. intros c I. unfold line_at. destruct (c_values d' ws' os' C' c (visible_in c I)) as (_ & L & H). now split. }
  induction F as [|[[ty w] t] l (L & H) F IH]; [exact I|]. cbn [room]. rewrite (moved_none t H). split; [lia|exact IH].
Qed.
Lemma filter_map_comm {A B} (f : A -> B) p l : filter p (map f l) = map f (filter (fun x => p (f x)) l).
Proof. induction l as [|a l IH]; [reflexivity|]. cbn. rewrite IH. now destruct (p (f a)). Qed.
Lemma lines_words : filter is_word ls = map (line_at ws os ws' os') word_columns.
Proof.
  unfold ls, lines_between. rewrite filter_map_comm. apply (f_equal (map (line_at ws os ws' os'))). unfold word_columns. apply filter_ext_in. intros c I. unfold line_at. cbn [is_word].
  pose proof (t_types tables_ok c I) as [<-|[<-|[<-|[]]]]; reflexivity.
Qed.
Lemma nodup_unlike (f : column -> N) (g h : column -> text) cs : NoDup (map g cs) -> NoDup (map h cs) -> ForallOrdPairs unlike (map (fun c => (f c, g c, h c)) cs).
Proof.
  induction cs as [|c cs IH]; intros N1 N2; [constructor|]. cbn [map] in *. inversion N1 as [|? ? I1 N1']; subst. inversion N2 as [|? ? I2 N2']; subst. constructor; [|now apply IH].
  rewrite Forall_map. apply Forall_forall. intros x X. cbn. intros _ _. split; intros E; [apply I1|apply I2]; rewrite E; now apply in_map.
Qed.
Lemma lines_unlike : ForallOrdPairs unlike (filter is_word ls).
Proof. rewrite lines_words. apply nodup_unlike; [apply (c_words _ _ _ C)|apply (c_words _ _ _ C')]. Qed.
Lemma last_filter ty : forall l o, last_of ty l o = last_of ty (filter (fun x => (fst (fst x) =? ty)%N) l) o.
Proof. unfold last_of. induction l as [|x l IH]; intros o; [reflexivity|]. cbn [fold_left filter]. destruct (fst (fst x) =? ty)%N eqn:E; [cbn [fold_left]; rewrite E|]; apply IH. Qed.
Lemma lines_dec : last_of ty_d ls None = Some (mkEntry 100 (d_dec d) (d_dec d')).
Proof.
  rewrite last_filter. unfold ls, lines_between. rewrite filter_map_comm. cbn [line_at fst]. change ty_d with 100%N. rewrite (t_d tables_ok). cbn [map last_of fold_left line_at fst entry_of].
  rewrite (c_dec _ _ _ C), (c_dec _ _ _ C'). reflexivity.
Qed.
Lemma lines_tho : last_of ty_x ls None = Some (mkEntry 120 (d_tho d) (d_tho d')).
Proof.
  rewrite last_filter. unfold ls, lines_between. rewrite filter_map_comm. cbn [line_at fst]. change ty_x with 120%N. rewrite (t_x tables_ok). cbn [map last_of fold_left line_at fst entry_of].
  rewrite (c_tho _ _ _ C), (c_tho _ _ _ C'). reflexivity.
Qed.
Lemma prefix_cell e vs vo : checked e vs vo -> cell vs vo prefix_column = [d_prefix e].
Proof. intros X. pose proof (c_marks _ _ _ X) as E. unfold mark_columns, marks in E. cbn [map] in E. unfold prefix_column. injection E. auto. Qed.
Lemma lines_prefix : prefix_of d ls 0%N = d_prefix d'.
Proof.
  pose proof (c_last _ _ _ C) as P. unfold last_prefixed in P. pose proof (prefix_cell d' ws' os' C') as Q.
  assert (G : forall cs o a, (forall c, In c cs -> In c visible) -> (match o with Some c => a = hd 0%N (cell ws' os' c) | None => a = 0%N end) ->
    match fold_left (fun o c => if (line_type (column_key c) =? 116)%N && starts [d_prefix d] (cell ws os c) then Some c else o) cs o with
    | Some c => prefix_of d (map (line_at ws os ws' os') cs) a = hd 0%N (cell ws' os' c) | None => True end).
  { induction cs as [|c cs IH]; intros o a V O; cbn [fold_left map].
    - destruct o; [exact O|exact I].
    - cbn [prefix_of fold_left]. unfold line_at at 1 2 3. cbn [fst snd is_word].
      assert (T : ((line_type (column_key c) =? ty_t) || (line_type (column_key c) =? ty_s))%N = (line_type (column_key c) =? 116)%N).
      { pose proof (t_types tables_ok c (V c (or_introl eq_refl))) as [<-|[<-|[<-|[]]]]; reflexivity. }
      rewrite T. apply IH; [intros x X; apply V; now right|]. destruct ((line_type (column_key c) =? 116)%N && starts [d_prefix d] (cell ws os c)); [reflexivity|exact O]. }
  specialize (G visible None 0%N (fun c H => H) eq_refl). rewrite P in G. unfold ls, lines_between. rewrite G, Q. reflexivity.
Qed.
Lemma lines_end : ends_in_word ls = true.
Proof. unfold ends_in_word, ls, lines_between. rewrite <- map_rev. destruct (t_last tables_ok) as (c & r & E & T). rewrite E. cbn [map]. unfold line_at. cbn [is_word]. now rewrite T. Qed.
Lemma line_in c : In c word_columns -> In (116%N, cell ws os c, cell ws' os' c) ls.
Proof.
  intros I. apply filter_In in I as [V T]. apply N.eqb_eq in T. unfold ls, lines_between. apply in_map_iff. exists c. split; [unfold line_at; now rewrite T|exact V].
Qed.
Lemma two_languages : exists T, load_file d (file_of ls) = Ret (LOk T) /\ load_dictionary d ls = LOk T /\ dict_ok d d' T = true /\
  forall c, In c word_columns -> known T ty_t (cell ws os c) (cell ws' os' c) = true.
Proof.
  destruct (dictionary_loads d ls _ _ lines_usable lines_unlike lines_dec lines_tho) as (T & E & ED & EX & EP). exists T.
  assert (K : forall c, In c word_columns -> known T ty_t (cell ws os c) (cell ws' os' c) = true).
  { intros c I. apply (known_lines d ls T ty_t _ _ (usable_all ls lines_usable) lines_end E). split; [apply line_in, I|now left]. }
  split; [|split; [exact E|split; [|exact K]]].
  - rewrite (read_ok d ls lines_line_ok lines_room), E. reflexivity.
  - unfold dict_ok. rewrite ED, EX, EP, lines_prefix. cbn [e_word e_trans]. rewrite !text_eqb_same, N.eqb_refl, !andb_true_r.
    rewrite <- (c_marks _ _ _ C), <- (c_marks _ _ _ C').
    assert (P : forall m, In m (marks d) -> no_prefix d m = true) by (apply forallb_forall, (c_prefix _ _ _ C)).
    assert (P' : forall m, In m (marks d') -> no_prefix d' m = true) by (apply forallb_forall, (c_prefix _ _ _ C')).
    rewrite <- (c_marks _ _ _ C) in P. rewrite <- (c_marks _ _ _ C') in P'. pose proof (t_marks tables_ok) as M. revert P P' M. generalize mark_columns. intros cs P P' M.
    assert (G : combine (map (cell ws os) cs) (map (cell ws' os') cs) = map (fun c => (cell ws os c, cell ws' os' c)) cs) by (clear; induction cs as [|c cs IH]; [reflexivity|cbn; now rewrite IH]).
    rewrite G. apply forallb_forall. intros [m m'] I. apply in_map_iff in I as (c & EQ & I). injection EQ as <- <-.
    rewrite (K c (M c I)), (P _ (in_map _ _ _ I)), (P' _ (in_map _ _ _ I)). reflexivity.
Qed.
End Two.

(** ** From headers to translations *)
Lemma same_rows ws os ws' os' a b : In a (rows_of ws os) -> In b (rows_of ws' os') -> NoDup (map fst columns) -> key a = key b ->
  exists c, In c columns /\ a = mkRow (column_key c) (cell ws os c) None /\ b = mkRow (column_key c) (cell ws' os' c) None.
Proof.
  unfold rows_of. intros A B N K. apply in_map_iff in A as (c & <- & A). apply in_map_iff in B as (c' & <- & B). cbn [key] in K. unfold column_key in K.
  assert (L : forall s t, lit s = lit t -> s = t).
  { clear. unfold lit. induction s as [|x s IH]; intros [|y t] E; try discriminate; [reflexivity|]. cbn in E. injection E as E1 E2.
    f_equal; [|now apply IH]. rewrite <- (Ascii.ascii_N_embedding x), <- (Ascii.ascii_N_embedding y). now rewrite E1. }
  apply L in K. assert (c = c').
  { clear -A B N K. induction columns as [|x cs IH]; [destruct A|]. cbn [map] in N. inversion N as [|? ? N1 N2]; subst.
    destruct A as [->|A], B as [->|B]; [reflexivity| | |now apply IH]; exfalso; apply N1; [rewrite K|rewrite <- K]; now apply in_map. }
  subst c'. exists c. auto.
Qed.
Lemma columns_nodup : NoDup (map fst columns).
Proof.
  assert (H : forall l, (fix nd (l : list string) := match l with [] => true | a :: r => negb (existsb (String.eqb a) r) && nd r end) l = true -> NoDup l).
  { clear. induction l as [|a l IH]; intros H; constructor; apply andb_true_iff in H as [H1 H2]; [|now apply IH].
    intros I. apply negb_true_iff in H1. assert (E : existsb (String.eqb a) l = true) by (apply existsb_exists; exists a; split; [exact I|apply String.eqb_refl]). congruence. }
  apply H. vm_compute. reflexivity.
Qed.
Lemma made_dictionary l d ws os l' d' ws' os' f g : language l d ws os -> language l' d' ws' os' -> header (rows_of ws os) f -> header (rows_of ws' os') g ->
  exists file T, generate_dicts None f g = Ret (Complete, file) /\ load_file d file = Ret (LOk T) /\ dict_ok d d' T = true /\
  forallb plain_line (lines_between ws os ws' os') = true /\ ends_in_word (lines_between ws os ws' os') = true /\ load_dictionary d (lines_between ws os ws' os') = LOk T /\
  forall a b, In a (rows_of ws os) -> In b (rows_of ws' os') -> key a = key b -> internal (key a) = false -> line_type (key a) = 116%N -> known T ty_t (value a) (value b) = true.
Proof.
  intros L L' H1 H2. apply check_ok in L, L'. destruct (two_languages d d' ws os ws' os' L L') as (T & E1 & E2 & E3 & K).
  destruct (rows_ok d ws os L) as (R1 & M1 & _). destruct (rows_ok d' ws' os' L') as (R2 & _ & F2).
  exists (file_of (lines_between ws os ws' os')), T. split; [|split; [exact E1|split; [exact E3|split; [exact (usable_all _ (lines_usable d d' ws os ws' os' L L'))|split; [apply lines_end|split; [exact E2|]]]]]].
  - rewrite <- lines_rows. apply generate_ok; try assumption; [apply rows_agree|now left].
  - intros a b A B KE IN TY. destruct (same_rows ws os ws' os' a b A B columns_nodup KE) as (c & IC & -> & ->). cbn [key value] in *. apply K.
    unfold word_columns, visible. apply filter_In. split; [apply filter_In; split; [exact IC|now rewrite IN]|now rewrite TY].
Qed.
Lemma made_translates l d ws os l' d' ws' os' f g : language l d ws os -> language l' d' ws' os' -> header (rows_of ws os) f -> header (rows_of ws' os') g ->
  exists file T, generate_dicts None f g = Ret (Complete, file) /\ load_file d file = Ret (LOk T) /\
  forall p trail, lang_ok d = true -> well_formed d d' T [(false, false)] p trail = true ->
    translate_program d T (render d p ++ trail) = LOk (render d' (mirror (tidy p)) ++ trail).
Proof.
  intros L L' H1 H2. destruct (made_dictionary l d ws os l' d' ws' os' f g L L' H1 H2) as (file & T & E1 & E2 & E3 & P & EN & LD & _).
  exists file, T. split; [exact E1|]. split; [exact E2|]. intros p trail LO W. apply (translate_ok d d' (lines_between ws os ws' os') T p trail LO EN LD E3 W).
Qed.
Lemma lines_backwards ws os ws' os' : lines_between ws' os' ws os = backwards (lines_between ws os ws' os').
Proof. unfold backwards, lines_between. rewrite map_map. reflexivity. Qed.
Lemma made_round_trip l d ws os l' d' ws' os' f g : language l d ws os -> language l' d' ws' os' -> header (rows_of ws os) f -> header (rows_of ws' os') g ->
  exists there back T T', generate_dicts None f g = Ret (Complete, there) /\ generate_dicts None g f = Ret (Complete, back) /\ load_file d there = Ret (LOk T) /\ load_file d' back = Ret (LOk T') /\
  forall p trail, lang_ok d = true -> lang_ok d' = true -> well_formed d d' T [(false, false)] p trail = true -> well_formed d' d T' [(false, false)] (mirror (tidy p)) trail = true ->
    exists t, translate_program d T (render d p ++ trail) = LOk t /\ translate_program d' T' t = LOk (render d (tidy p) ++ trail).
Proof.
  intros L L' H1 H2. destruct (made_dictionary l d ws os l' d' ws' os' f g L L' H1 H2) as (there & T & E1 & E2 & E3 & P & EN & LD & _).
  destruct (made_dictionary l' d' ws' os' l d ws os g f L' L H2 H1) as (back & T' & E1' & E2' & E3' & _ & _ & LD' & _). exists there, back, T, T'. do 4 (split; [assumption|]).
  intros p trail LO LO' W W'. rewrite lines_backwards in LD'. exact (round_trip d d' (lines_between ws os ws' os') T T' p trail LO LO' P EN LD LD' E3 E3' W W').
Qed.
(** Rows by computation *)
Definition row_okb (r : row) : bool := key_okb (key r) && value_okb (value r) && match modifier r with Some m => key_okb m | None => true end.
Lemma rows_by rs : forallb row_okb rs = true -> Forall row_ok rs.
Proof.
  intros H. apply Forall_forall. intros r I. rewrite forallb_forall in H. specialize (H r I). unfold row_okb in H. apply andb_true_iff in H as [H H3]. apply andb_true_iff in H as [H1 H2].
  destruct (value_ok _ H2) as (Q & L & _). split; [now apply key_ok|]. split; [exact Q|]. split; [exact L|]. intros m E. rewrite E in H3. now apply key_ok.
Qed.
