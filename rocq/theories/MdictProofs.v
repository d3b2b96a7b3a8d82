(** Proofs about the dictionaries of the media plugin. *)
From Coq Require Import List String NArith Bool Lia.
From Verif Require Import Common Fuel Txt NumModel LexModel Dicts LangDicts RegTable RegModel RegCheck HdrDicts ParseProofs TransModel TransSpec TransProofs
  GenSpec GenModel GenProofs GenLoad GenData GenLang MedTable MedModel MedCheck MdictModel.
From Verif Require MapProofs.
Import ListNotations.
Open Scope list_scope.
Open Scope nat_scope.

(** ** Several keys for texts: only the first one counts behind the first row *)
Definition all_keys (o : option text) : list text := match o with Some k => tokens [] k | None => [] end.
Lemma any_row_step a b t1 t2 s g1 g2 : row_ok a -> row_ok b -> key a = key b -> modifier a = None -> (internal (key a) = true -> modifier b = None) ->
  written_row a t1 -> written_row b t2 -> next_row g1 -> next_row g2 -> f1 s = t1 ++ g1 -> f2 s = t2 ++ g2 -> modi s = [] ->
  exists k1 w k2 t n, make_row s = Ret (inl (mkS g1 g2 k1 w k2 t []
    (if internal (key a) || negb (line_type (key a) =? 116)%N then keys s else option_map chopped (keys s)) n
    (out s ++ file_of (lines_for (all_keys (keys s)) a b)))).
Proof.
  intros RA RB K MA MB WA WB N1 N2 E1 E2 EM. unfold make_row. rewrite E1, E2, (scan_plain a t1 g1 RA MA WA N1), (fit_row a RA). cbn [negb].
  rewrite (scan_modified b t2 g2 RB WB N2), (fit_modified b RB). cbn [negb]. rewrite ?(fit_modified b RB). cbn [negb nth]. rewrite !strstr_contains, <- K, EM.
  change (contains (lit "_CODEGEN_") (key a)) with (internal (key a)). rewrite orb_diag.
  unfold lines_for. destruct (internal (key a)) eqn:I.
  { rewrite (MB eq_refl). cbn [nth orb]. rewrite app_nil_r. do 5 eexists. reflexivity. }
  rewrite text_eqb_same. cbn [negb orb]. rewrite !starts_begins.
  destruct (line_type_cases (key a)) as [(D & ->)|[(D & X & ->)|(D & X & ->)]]; rewrite D.
  - cbn [N.eqb Pos.eqb negb]. unfold file_of. cbn [map List.concat]. rewrite app_nil_r. do 5 eexists. reflexivity.
  - rewrite X. cbn [N.eqb Pos.eqb negb]. unfold file_of. cbn [map List.concat]. rewrite app_nil_r. do 5 eexists. reflexivity.
  - rewrite X. cbn [N.eqb Pos.eqb negb].
    assert (M : (nth 0 (match modifier b with Some m => [m] | None => [] end) [] ++ value b)%list = modified b) by (unfold modified; now destruct (modifier b)).
    unfold all_keys. destruct (keys s) as [ks|]; cbn [option_map].
    + assert (EX : existsb (strstr (key a)) (tokens [] ks) = existsb (fun s => contains s (key a)) (tokens [] ks)).
      { generalize (tokens [] ks). induction l as [|x l IH]; [reflexivity|]. cbn [existsb]. now rewrite strstr_contains, IH. }
      rewrite EX. destruct (existsb (fun s => contains s (key a)) (tokens [] ks)); unfold file_of; cbn [map List.concat file_line]; rewrite <- M, ?app_nil_r; do 5 eexists; reflexivity.
    + cbn [existsb]. unfold file_of. cbn [map List.concat file_line]. rewrite <- M. do 5 eexists. reflexivity.
Qed.
(** The lines when the texts to translate are those of the keys [k :: more]: all of them for the first word, then [k] alone. *)
Fixpoint lines_first (k : text) (more : list text) (ra rb : list row) : list line :=
  match ra, rb with
  | a :: ra, b :: rb => if internal (key a) || negb (line_type (key a) =? 116)%N then lines_for [k] a b ++ lines_first k more ra rb
                        else lines_for (k :: more) a b ++ lines_of [k] ra rb
  | _, _ => []
  end.
Lemma lines_other ks ks' a b : internal (key a) || negb (line_type (key a) =? 116)%N = true -> lines_for ks a b = lines_for ks' a b.
Proof. unfold lines_for. destruct (internal (key a)); [reflexivity|]. cbn [orb]. destruct (line_type (key a) =? 116)%N; [discriminate|reflexivity]. Qed.
Lemma make_many o k more : tokens [] o = k :: more -> chopped o = k -> k <> [] -> Forall (fun c => c <> 44%N) k ->
  forall ra rb fuel s, Forall row_ok ra -> Forall row_ok rb -> Forall (fun a => modifier a = None) ra -> fine rb -> agree ra rb ->
  header ra (f1 s) -> header rb (f2 s) -> modi s = [] -> keys s = Some o -> List.length ra < fuel ->
  make_loop fuel s = Ret (Complete, out s ++ file_of (lines_first k more ra rb)).
Proof.
  intros TO CH NK FK. induction ra as [|a ra IH]; intros rb fuel s RA RB MA FB AG H1 H2 EM KS FU; (destruct fuel as [|fuel]; [cbn in FU; lia|]).
  - apply header_nil in H1. cbn [make_loop]. unfold make_row. rewrite H1. cbn. now rewrite app_nil_r.
  - apply header_cons in H1 as (t1 & g1 & E1 & W1 & H1). apply Forall_cons_iff in RA as [RA1 RA]. apply Forall_cons_iff in MA as [MA1 MA].
    destruct rb as [|b rb].
    + apply header_nil in H2. cbn [make_loop]. unfold make_row. rewrite E1, (scan_plain a t1 g1 RA1 MA1 W1 (header_next _ _ H1)), (fit_row a RA1), H2.
      cbn. now rewrite app_nil_r.
    + apply header_cons in H2 as (t2 & g2 & E2 & W2 & H2). apply Forall_cons_iff in RB as [RB1 RB]. apply Forall_cons_iff in FB as [FB1 FB]. destruct AG as [K AG].
      destruct (any_row_step a b t1 t2 s g1 g2 RA1 RB1 K MA1 ltac:(now rewrite K) W1 W2 (header_next _ _ H1) (header_next _ _ H2) E1 E2 EM) as (k1 & w & k2 & t & n & E).
      cbn [make_loop]. rewrite E. clear E. rewrite KS. cbn [all_keys option_map]. rewrite TO, CH.
      destruct (internal (key a) || negb (line_type (key a) =? 116)%N) eqn:SK.
      * rewrite (lines_other (k :: more) [k] a b SK).
        rewrite (IH rb); [|assumption..|exact H1|exact H2|reflexivity|reflexivity|cbn in FU; lia].
        cbn [out lines_first]. rewrite SK. unfold file_of. now rewrite map_app, concat_app, <- app_assoc.
      * rewrite (make_ok [k] ra rb); [|assumption..|exact H1|exact H2|reflexivity|right; exists k; cbn [keys]; auto|cbn in FU; lia].
        cbn [out lines_first]. rewrite SK. unfold file_of. now rewrite map_app, concat_app, <- app_assoc.
Qed.
Lemma generate_many o k more ra rb f g : tokens [] o = k :: more -> chopped o = k -> k <> [] -> Forall (fun c => c <> 44%N) k ->
  Forall row_ok ra -> Forall row_ok rb -> Forall (fun a => modifier a = None) ra -> fine rb -> agree ra rb ->
  header ra f -> header rb g ->
  generate_dicts (Some o) f g = Ret (Complete, file_of (lines_first k more ra rb)).
Proof.
  intros TO CH NK FK RA RB MA FB AG H1 H2. unfold generate_dicts.
  rewrite (make_many o k more TO CH NK FK ra rb); [reflexivity|assumption..|reflexivity|reflexivity|]. pose proof (header_len ra f H1). lia.
Qed.

(** ** One dictionary *)
(** The words of the events, in two languages *)
Definition event_pairs (ems ms : list string) : list (string * (string * string)) :=
  filter (fun x => existsb (String.eqb (fst x)) mevents && negb (String.eqb (fst x) "COLLISION_SET")) (combine mmacros (combine ems ms)).
Definition english_others : list string := match find (fun lw => String.eqb (fst lw) "en") others with Some lw => snd lw | None => [] end.
Definition en_rows : list row := rows_of english english_others.
Definition en_mrows : list row := mrows "en" menglish.
Definition all_lines (ws os : list string) (l : string) (ms : list string) : list line :=
  lines_first (lit "CTR_DICT_RUN") [lit "CTR_DICT_END"] en_rows (rows_of ws os) ++ lines_of [lit "CTR_DICT_ON"] en_mrows (mrows l ms).
Fixpoint agreeb (ra rb : list row) : bool :=
  match ra, rb with a :: ra, b :: rb => text_eqb (key a) (key b) && agreeb ra rb | _, _ => true end.
Fixpoint roomb (n : nat) (ls : list line) : bool :=
  match ls with [] => true | (_, _, t) :: r => (n + List.length t <? 5000) && roomb (n + moved t) r end.
Definition line_okb (l : line) : bool :=
  let '(ty, w, t) := l in negb ((ty =? 32) || (9 <=? ty) && (ty <=? 13))%N && nonempty w && nonempty t && negb (among 34 w) && negb (among 34 t) && (List.length w <=? 4999).
Definition word_row (r : row) : bool := negb (internal (key r)) && (line_type (key r) =? 116)%N.
Definition run_row (r : row) : bool := text_eqb (lit "CTR_DICT_RUN") (key r).
Definition mdict_okb (l : string) (d : dict) (ws os ms : list string) : bool :=
  let ls := all_lines ws os l ms in
  forallb row_okb (rows_of ws os) && forallb row_okb (mrows l ms) && forallb (fun r => negb (internal (key r))) (mrows l ms)
  && agreeb en_rows (rows_of ws os) && agreeb en_mrows (mrows l ms)
  && forallb line_okb ls && roomb 0 ls && ends_in_word ls
  && match load_dictionary dict_en ls with
     | LOk T => dict_ok dict_en d T
         && forallb (fun p => negb (word_row (fst p)) || known T ty_t (value (fst p)) (value (snd p))) (combine en_rows (rows_of ws os))
         && forallb (fun p => known T ty_t (value (fst p)) (value (snd p))) (combine en_mrows (mrows l ms))
         && known T ty_s (d_eol dict_en) (d_eol d)
         && forallb (fun p => negb (run_row (fst p)) || known T ty_s (value (fst p)) (value (snd p))) (combine en_rows (rows_of ws os))
         && forallb (fun x => known T ty_s (lit (fst (snd x))) (lit (snd (snd x)))) (event_pairs menglish ms)
     | _ => false
     end.
Definition each_mdict (check : string -> dict -> list string -> list string -> list string -> bool) : bool :=
  forallb (fun lm => forallb (fun lo => if String.eqb (fst lo) (fst lm) then
    forallb (fun lw => if String.eqb (fst lw) (fst lm) then
      forallb (fun ld => if text_eqb (fst ld) (lit (fst lm)) then check (fst lm) (snd ld) (snd lw) (snd lo) (snd lm) else true) languages
    else true) dictionaries else true) others) mdictionaries.
Lemma each_mdict_ok check : each_mdict check = true -> forall l d ws os ms, language l d ws os -> In (l, ms) mdictionaries -> check l d ws os ms = true.
Proof.
  unfold each_mdict. intros H l d ws os ms (L & D & O) M. rewrite forallb_forall in H. specialize (H _ M). rewrite forallb_forall in H.
  specialize (H _ O). cbn [fst snd] in H. rewrite String.eqb_refl, forallb_forall in H. specialize (H _ D). cbn [fst snd] in H.
  rewrite String.eqb_refl, forallb_forall in H. specialize (H _ L). cbn [fst snd] in H. now rewrite text_eqb_same in H.
Qed.
Lemma mdicts_checked : each_mdict mdict_okb = true.
Proof. vm_compute. reflexivity. Qed.
Lemma english_checked : forallb row_okb en_rows && forallb row_okb en_mrows && TransSpec.lang_ok dict_en
  && forallb (fun r => match modifier r with None => true | _ => false end) (en_rows ++ en_mrows) = true.
Proof. vm_compute. reflexivity. Qed.
Lemma agree_by ra : forall rb, agreeb ra rb = true -> agree ra rb.
Proof.
  induction ra as [|a ra IH]; intros [|b rb] H; try exact I. cbn [agreeb] in H. apply andb_true_iff in H as [H1 H2].
  split; [now apply MapProofs.text_eqb_spec|now apply IH].
Qed.
Lemma room_by : forall ls n, roomb n ls = true -> room n ls.
Proof.
  induction ls as [|((ty & w) & t) ls IH]; intros n H; [exact I|]. cbn [roomb] in H. apply andb_true_iff in H as [H1 H2]. apply Nat.ltb_lt in H1.
  split; [exact H1|now apply IH].
Qed.
Lemma line_by l : line_okb l = true -> line_ok l.
Proof.
  destruct l as ((ty & w) & t). unfold line_okb. rewrite !andb_true_iff, !negb_true_iff, Nat.leb_le. intros (((((B & W) & T) & QW) & QT) & L).
  split; [intros X; apply blank_iff in X; unfold blank in X; congruence|].
  assert (Q : forall x, nonempty x = true -> among 34 x = false -> quotable x).
  { intros x X Y. split; [destruct x; [discriminate X|discriminate]|]. apply Forall_forall. intros c I ->. exact (among_in _ _ Y I). }
  split; [now apply Q|]. split; [now apply Q|exact L].
Qed.
Theorem made_for_media l d ws os ms f g mf mg : language l d ws os -> In (l, ms) mdictionaries ->
  header en_rows f -> header (rows_of ws os) g -> header en_mrows mf -> header (mrows l ms) mg ->
  exists file T, dicts_sh f g mf mg = Ret file /\ load_file dict_en file = Ret (LOk T) /\ load_dictionary dict_en (all_lines ws os l ms) = LOk T /\
  (forall a b, In (a, b) (combine en_rows (rows_of ws os)) -> internal (key a) = false -> line_type (key a) = 116%N -> known T ty_t (value a) (value b) = true) /\
  (forall a b, In (a, b) (combine en_mrows (mrows l ms)) -> known T ty_t (value a) (value b) = true) /\
  (forall a b, In (a, b) (combine en_rows (rows_of ws os)) -> key a = lit "CTR_DICT_RUN" -> known T ty_s (value a) (value b) = true) /\
  (forall m w w', In (m, (w, w')) (combine mmacros (combine menglish ms)) -> In m mevents -> m <> "COLLISION_SET"%string -> known T ty_s (lit w) (lit w') = true) /\
  (forall p trail, well_formed dict_en d T [(false, false)] p trail = true ->
     translate_program dict_en T (render dict_en p ++ trail) = LOk (render d (mirror (tidy p)) ++ trail)).
Proof.
  intros L M H1 H2 H3 H4. pose proof (each_mdict_ok _ mdicts_checked l d ws os ms L M) as C. unfold mdict_okb in C. cbv zeta in C.
  destruct (load_dictionary dict_en (all_lines ws os l ms)) as [T| |] eqn:LD; [|rewrite andb_false_r in C; discriminate C..].
  rewrite !andb_true_iff in C. destruct C as ((((((((R2 & R4) & IN) & A1) & A2) & LO) & RO) & EN) & (((((DO & K1) & K2) & KE) & K3) & K4)).
  pose proof english_checked as E. rewrite !andb_true_iff in E. destruct E as (((R1 & R3) & LG) & MO).
  assert (MO' : forall r, In r (en_rows ++ en_mrows) -> modifier r = None).
  { intros r I. rewrite forallb_forall in MO. specialize (MO r I). now destruct (modifier r). }
  assert (G1 : generate_dicts (Some (lit "CTR_DICT_RUN,CTR_DICT_END")) f g = Ret (Complete, file_of (lines_first (lit "CTR_DICT_RUN") [lit "CTR_DICT_END"] en_rows (rows_of ws os)))).
  { apply (generate_many _ (lit "CTR_DICT_RUN") [lit "CTR_DICT_END"]); try assumption; try (vm_compute; reflexivity).
    - discriminate.
    - repeat constructor; discriminate.
    - now apply rows_by.
    - now apply rows_by.
    - apply Forall_forall. intros r I. apply MO', in_or_app. now left.
    - apply Forall_forall. intros r I _. unfold rows_of in I. apply in_map_iff in I as (c & <- & _). reflexivity.
    - now apply agree_by. }
  assert (G2 : generate_dicts (Some (lit "CTR_DICT_ON")) mf mg = Ret (Complete, file_of (lines_of [lit "CTR_DICT_ON"] en_mrows (mrows l ms)))).
  { apply generate_ok; try assumption.
    - now apply rows_by.
    - now apply rows_by.
    - apply Forall_forall. intros r I. apply MO', in_or_app. now right.
    - apply Forall_forall. intros r I X. rewrite forallb_forall in IN. specialize (IN r I). rewrite X in IN. discriminate.
    - now apply agree_by.
    - right. exists (lit "CTR_DICT_ON"). split; [reflexivity|]. split; [discriminate|]. split; [repeat constructor; discriminate|reflexivity]. }
  exists (file_of (all_lines ws os l ms)), T. split; [|split; [|split; [reflexivity|split; [|split; [|split; [|split]]]]]].
  - unfold dicts_sh. rewrite G1, G2. cbn [rbind snd]. unfold all_lines, file_of. now rewrite map_app, concat_app.
  - rewrite read_ok, LD; [reflexivity|apply Forall_forall; intros x X; apply line_by; revert x X; now apply forallb_forall|now apply room_by].
  - intros a b I IA TY. rewrite forallb_forall in K1. specialize (K1 _ I). cbn [fst snd] in K1. unfold word_row in K1. rewrite IA, TY in K1. exact K1.
  - intros a b I. rewrite forallb_forall in K2. exact (K2 _ I).
  - intros a b I X. rewrite forallb_forall in K3. specialize (K3 _ I). cbn [fst snd] in K3. unfold run_row in K3. rewrite X, text_eqb_same in K3. exact K3.
  - intros m w w' I X N. rewrite forallb_forall in K4. refine (K4 (m, (w, w')) _). apply filter_In. split; [exact I|]. cbn [fst]. apply andb_true_iff. split.
    + apply existsb_exists. exists m. split; [exact X|apply String.eqb_refl].
    + apply negb_true_iff, String.eqb_neq, N.
  - intros p trail W. exact (translate_ok dict_en d (all_lines ws os l ms) T p trail LG EN LD DO W).
Qed.

(** ** English *)
Lemma only_english e ews eos ems : language "en" e ews eos -> In ("en"%string, ems) mdictionaries -> e = dict_en /\ ews = english /\ eos = english_others /\ ems = menglish.
Proof.
  intros (L & D & O) M.
  assert (FL : filter (fun x => text_eqb (fst x) (lit "en")) languages = [(lit "en", dict_en)]) by (vm_compute; reflexivity).
  assert (FD : filter (fun x => String.eqb (fst x) "en") dictionaries = [("en"%string, english)]) by (vm_compute; reflexivity).
  assert (FO : filter (fun x => String.eqb (fst x) "en") others = [("en"%string, english_others)]) by (vm_compute; reflexivity).
  assert (FM : filter (fun x => String.eqb (fst x) "en") mdictionaries = [("en"%string, menglish)]) by (vm_compute; reflexivity).
  assert (I : In (lit "en", e) [(lit "en", dict_en)]) by (rewrite <- FL; apply filter_In; split; [exact L|apply text_eqb_same]).
  assert (I2 : In ("en"%string, ews) [("en"%string, english)]) by (rewrite <- FD; apply filter_In; split; [exact D|apply String.eqb_refl]).
  assert (I3 : In ("en"%string, eos) [("en"%string, english_others)]) by (rewrite <- FO; apply filter_In; split; [exact O|apply String.eqb_refl]).
  assert (I4 : In ("en"%string, ems) [("en"%string, menglish)]) by (rewrite <- FM; apply filter_In; split; [exact M|apply String.eqb_refl]).
  clear -I I2 I3 I4. destruct I as [I|[]], I2 as [I2|[]], I3 as [I3|[]], I4 as [I4|[]].
  repeat split; symmetry; [exact (f_equal snd I)|exact (f_equal snd I2)|exact (f_equal snd I3)|exact (f_equal snd I4)].
Qed.
Theorem made_ok l d ws os ms e ews eos ems f g mf mg : language l d ws os -> In (l, ms) mdictionaries -> language "en" e ews eos -> In ("en"%string, ems) mdictionaries ->
  header (rows_of ews eos) f -> header (rows_of ws os) g -> header (mrows "en" ems) mf -> header (mrows l ms) mg ->
  exists file T, dicts_sh f g mf mg = Ret file /\ load_file e file = Ret (LOk T) /\
  (forall a b, In (a, b) (combine (rows_of ews eos) (rows_of ws os)) -> internal (key a) = false -> line_type (key a) = 116%N -> known T ty_t (value a) (value b) = true) /\
  (forall a b, In (a, b) (combine (mrows "en" ems) (mrows l ms)) -> known T ty_t (value a) (value b) = true) /\
  (forall a b, In (a, b) (combine (rows_of ews eos) (rows_of ws os)) -> key a = lit "CTR_DICT_RUN" -> known T ty_s (value a) (value b) = true) /\
  (forall m w w', In (m, (w, w')) (combine mmacros (combine ems ms)) -> In m mevents -> m <> "COLLISION_SET"%string -> known T ty_s (lit w) (lit w') = true) /\
  (forall p trail, well_formed e d T [(false, false)] p trail = true ->
     translate_program e T (render e p ++ trail) = LOk (render d (mirror (tidy p)) ++ trail)).
Proof.
  intros L M LE ME H1 H2 H3 H4. destruct (only_english _ _ _ _ LE ME) as (-> & -> & -> & ->).
  destruct (made_for_media l d ws os ms f g mf mg L M H1 H2 H3 H4) as (file & T & A & B & _ & C). exists file, T. split; [exact A|]. split; [exact B|exact C].
Qed.

(** ** Texts that are not as they should be *)
Definition others_of (l : string) : list string := match find (fun x => String.eqb (fst x) l) others with Some x => snd x | None => [] end.
Lemma others_of_in l : existsb (fun x => String.eqb (fst x) l) others = true -> In (l, others_of l) others.
Proof.
  intros H. unfold others_of. destruct (find (fun x => String.eqb (fst x) l) others) as [[n x]|] eqn:E.
  - apply find_some in E as [I E]. cbn [fst] in E. apply String.eqb_eq in E as ->. exact I.
  - exfalso. apply existsb_exists in H as (x & I & H). pose proof (find_none _ _ E x I) as X. cbn beta in X. congruence.
Qed.
Definition quoted (d : dict) (t : text) : text := d_qo d ++ t ++ d_qc d.
Definition turns (l : string) (d : dict) (ws os ms : list string) (t t' : text) : Prop :=
  forall f g mf mg file T, header en_rows f -> header (rows_of ws os) g -> header en_mrows mf -> header (mrows l ms) mg ->
  dicts_sh f g mf mg = Ret file -> load_file dict_en file = Ret (LOk T) -> translate_program dict_en T (quoted dict_en t) = LOk (quoted d t').
Lemma turns_by l d ws os ms t t' : language l d ws os -> In (l, ms) mdictionaries ->
  match load_dictionary dict_en (all_lines ws os l ms) with LOk T => translate_program dict_en T (quoted dict_en t) | _ => LUB end = LOk (quoted d t') ->
  turns l d ws os ms t t'.
Proof.
  intros L M E f g mf mg file T H1 H2 H3 H4 G F. destruct (made_for_media l d ws os ms f g mf mg L M H1 H2 H3 H4) as (file' & T' & A & B & C & _).
  rewrite A in G. injection G as <-. rewrite B in F. injection F as <-. rewrite C in E. exact E.
Qed.
