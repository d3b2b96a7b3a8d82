(** Properties of the dictionaries for programs that use the media plugin. *)
From Coq Require Import NArith List String Lia.
From Verif Require Import Common Fuel Txt LexModel Dicts LangDicts RegTable RegModel HdrDicts RegProps TransModel TransSpec
  GenSpec GenModel GenProofs GenLoad GenData GenLang GenProps MedTable MedCheck MedProps MdictModel MdictProofs.
Import ListNotations.
Open Scope list_scope.
Open Scope nat_scope.

(** * C148 *)
(** From the headers of English and of any language of the plugin, however their rows are laid out, the script
    makes a dictionary that the translator loads.  It has every word of the language and of the plugin, and with it
    a program in English becomes the same program in the other language. *)
Theorem C148_dictionaries : forall l d ws os ms e ews eos ems f g mf mg,
  language l d ws os -> In (l, ms) mdictionaries -> language "en" e ews eos -> In ("en"%string, ems) mdictionaries ->
  header (rows_of ews eos) f -> header (rows_of ws os) g -> header (mrows "en" ems) mf -> header (mrows l ms) mg ->
  exists file T, dicts_sh f g mf mg = Ret file /\ load_file e file = Ret (LOk T) /\
  (forall a b, In (a, b) (combine (rows_of ews eos) (rows_of ws os)) -> internal (key a) = false -> line_type (key a) = 116%N -> known T ty_t (value a) (value b) = true) /\
  (forall a b, In (a, b) (combine (mrows "en" ems) (mrows l ms)) -> known T ty_t (value a) (value b) = true) /\
  (forall p trail, well_formed e d T [(false, false)] p trail = true ->
     translate_program e T (render e p ++ trail) = LOk (render d (mirror (tidy p)) ++ trail)).
Proof.
  intros l d ws os ms e ews eos ems f g mf mg L M LE ME H1 H2 H3 H4. destruct (made_ok l d ws os ms e ews eos ems f g mf mg L M LE ME H1 H2 H3 H4) as (file & T & A & B & C & D & _ & _ & E).
  exists file, T. exact (conj A (conj B (conj C (conj D E)))).
Qed.
Print Assumptions C148_dictionaries.

(** Full statement: the texts that name the events of the plugin and the entry points of a program ('start', 'end') are
    translated too.  Missing: the event of a collision, and 'end' ([C148_collision_refuted], [C148_end_refuted]). *)
Theorem C148_texts_partial : forall l d ws os ms e ews eos ems f g mf mg,
  language l d ws os -> In (l, ms) mdictionaries -> language "en" e ews eos -> In ("en"%string, ems) mdictionaries ->
  header (rows_of ews eos) f -> header (rows_of ws os) g -> header (mrows "en" ems) mf -> header (mrows l ms) mg ->
  exists file T, dicts_sh f g mf mg = Ret file /\ load_file e file = Ret (LOk T) /\
  (forall a b, In (a, b) (combine (rows_of ews eos) (rows_of ws os)) -> key a = lit "CTR_DICT_RUN" -> known T ty_s (value a) (value b) = true) /\
  (forall m w w', In (m, (w, w')) (combine mmacros (combine ems ms)) -> In m mevents -> m <> "COLLISION_SET"%string -> known T ty_s (lit w) (lit w') = true).
Proof.
  intros l d ws os ms e ews eos ems f g mf mg L M LE ME H1 H2 H3 H4. destruct (made_ok l d ws os ms e ews eos ems f g mf mg L M LE ME H1 H2 H3 H4) as (file & T & A & B & _ & _ & C & D & _).
  exists file, T. exact (conj A (conj B (conj C D))).
Qed.
Print Assumptions C148_texts_partial.

Lemma a_language l : existsb (fun ld => text_eqb (fst ld) (lit l)) languages = true -> existsb (fun lw => String.eqb (fst lw) l) dictionaries = true ->
  existsb (fun x => String.eqb (fst x) l) others = true -> language l (dict_of l) (RegProps.words_of l) (others_of l).
Proof. intros A B C. split; [now apply dict_of_in|]. split; [now apply words_of_in|now apply others_of_in]. Qed.
Definition written_out (rs : list row) : text := List.concat (map (fun r => def (key r) (value r) []) rs).
Lemma written_header rs : forallb (fun r => match modifier r with None => true | _ => false end) rs = true -> header rs (written_out rs).
Proof.
  intros H. eexists. split; [|reflexivity]. induction rs as [|[k v m] rs IH]; [constructor|]. cbn [forallb] in H. apply andb_prop in H as [H1 H2].
  cbn [map]. constructor; [|now apply IH]. destruct m; [discriminate H1|]. apply plain_def.
Qed.
(** English and Dutch meet the conditions; some of the words. *)
Example C148_dutch : let l := "nl"%string in exists d ws os ms e ews eos ems f g mf mg,
  language l d ws os /\ In (l, ms) mdictionaries /\ language "en" e ews eos /\ In ("en"%string, ems) mdictionaries /\
  header (rows_of ews eos) f /\ header (rows_of ws os) g /\ header (mrows "en" ems) mf /\ header (mrows l ms) mg /\
  In (lit "CTR_DICT_ON_STEP", lit "step", lit "stap") (map (fun p => (key (fst p), value (fst p), value (snd p))) (combine (mrows "en" ems) (mrows l ms))) /\
  In ("ON_STEP", ("step", "stap"))%string (combine mmacros (combine ems ms)) /\ In "ON_STEP"%string mevents.
Proof.
  cbv zeta. exists (dict_of "nl"), (RegProps.words_of "nl"), (others_of "nl"), (mwords_of "nl"), (dict_of "en"), (RegProps.words_of "en"), (others_of "en"), (mwords_of "en").
  do 4 eexists.
  split; [apply a_language; vm_compute; reflexivity|]. split; [apply mwords_of_in; vm_compute; reflexivity|].
  split; [apply a_language; vm_compute; reflexivity|]. split; [apply mwords_of_in; vm_compute; reflexivity|].
  do 4 (split; [apply written_header; vm_compute; reflexivity|]).
  split; [apply nth_error_In with (n := 14); vm_compute; reflexivity|]. split; [apply nth_error_In with (n := 14); vm_compute; reflexivity|vm_compute; tauto].
Qed.
Example C148_step : turns "nl" (dict_of "nl") (RegProps.words_of "nl") (others_of "nl") (mwords_of "nl") (lit "step") (lit "stap").
Proof. apply turns_by; [apply a_language; vm_compute; reflexivity|apply mwords_of_in; vm_compute; reflexivity|vm_compute; reflexivity]. Qed.

(** [turns l d ws os ms t t']: with the dictionary of the script for the language [l], the text [t] between quotes becomes [t']. *)
(** The event of a collision: the objects of the plugin wait for 'bots:' in Dutch, but the text stays English. *)
Theorem C148_collision_refuted : exists l d ws os ms w w', language l d ws os /\ In (l, ms) mdictionaries /\
  In ("COLLISION_SET"%string, (w, w')) (combine mmacros (combine menglish ms)) /\ In "COLLISION_SET"%string mevents /\ w <> w' /\
  turns l d ws os ms (lit w) (lit w).
Proof.
  exists "nl"%string, (dict_of "nl"), (RegProps.words_of "nl"), (others_of "nl"), (mwords_of "nl"), "collision:"%string, "bots:"%string.
  assert (L : language "nl" (dict_of "nl") (RegProps.words_of "nl") (others_of "nl")) by (apply a_language; vm_compute; reflexivity).
  assert (M : In ("nl"%string, mwords_of "nl") mdictionaries) by (apply mwords_of_in; vm_compute; reflexivity).
  split; [exact L|]. split; [exact M|]. split; [apply nth_error_In with (n := 35); vm_compute; reflexivity|]. split; [vm_compute; tauto|]. split; [discriminate|].
  apply turns_by; [exact L|exact M|vm_compute; reflexivity].
Qed.
Print Assumptions C148_collision_refuted.
(** The second key of the script, meant for 'end', does nothing for it. *)
Theorem C148_end_refuted : exists l d ws os ms a b, language l d ws os /\ In (l, ms) mdictionaries /\
  In (a, b) (combine en_rows (rows_of ws os)) /\ key a = lit "CTR_DICT_END" /\ value a = lit "end" /\ value a <> value b /\
  turns l d ws os ms (value a) (value a).
Proof.
  exists "nl"%string, (dict_of "nl"), (RegProps.words_of "nl"), (others_of "nl"), (mwords_of "nl").
  assert (L : language "nl" (dict_of "nl") (RegProps.words_of "nl") (others_of "nl")) by (apply a_language; vm_compute; reflexivity).
  assert (M : In ("nl"%string, mwords_of "nl") mdictionaries) by (apply mwords_of_in; vm_compute; reflexivity).
  exists (mkRow (lit "CTR_DICT_END") (lit "end") None), (mkRow (lit "CTR_DICT_END") (lit "einde") None).
  split; [exact L|]. split; [exact M|]. split; [apply nth_error_In with (n := 113); vm_compute; reflexivity|]. split; [reflexivity|]. split; [reflexivity|].
  split; [vm_compute; discriminate|]. apply turns_by; [exact L|exact M|vm_compute; reflexivity].
Qed.
Print Assumptions C148_end_refuted.
(** Instead it takes the first word of the header, the sign that ends a line: the text '.' of a program becomes another text. *)
Theorem C148_full_stop_refuted : exists l d ws os ms, language l d ws os /\ In (l, ms) mdictionaries /\
  d_eol dict_en = lit "." /\ d_eol d <> lit "." /\ turns l d ws os ms (lit ".") (d_eol d).
Proof.
  exists "hi"%string, (dict_of "hi"), (RegProps.words_of "hi"), (others_of "hi"), (mwords_of "hi").
  assert (L : language "hi" (dict_of "hi") (RegProps.words_of "hi") (others_of "hi")) by (apply a_language; vm_compute; reflexivity).
  assert (M : In ("hi"%string, mwords_of "hi") mdictionaries) by (apply mwords_of_in; vm_compute; reflexivity).
  split; [exact L|]. split; [exact M|]. split; [vm_compute; reflexivity|]. split; [vm_compute; discriminate|].
  apply turns_by; [exact L|exact M|vm_compute; reflexivity].
Qed.
Print Assumptions C148_full_stop_refuted.

(** A word with a modifier carries that modifier, for every modifier of the media plugin. *)
Example C148_modifiers : forallb (fun x => match mmodifier (fst (fst x)) (snd (fst x)) with Some t => text_eqb t (lit (snd x)) | None => false end) mmodifiers = true.
Proof. vm_compute. reflexivity. Qed.
