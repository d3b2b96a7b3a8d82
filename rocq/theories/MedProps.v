(** Properties of the objects and messages of the media plugin in every language. *)
From Coq Require Import NArith List String Lia.
From Verif Require Import Common Fuel Txt TextSpec LexModel LexSpec ParseModel ParseSpec Dicts LangDicts MapModel MapSpec
  RegTable RegModel RegSpec RegCheck RegProofs RegProps MedTable MedSpec MedModel MedCheck MedProofs.
Import ListNotations.
Open Scope list_scope.
Open Scope nat_scope.
Local Notation "'tx' s" := (lit s%string) (at level 8, s at level 0).

(** * C147 *)
(** In each of the seventeen languages of the plugin, whatever the hash: every message to one of its objects
    reaches the function registered for it, the objects of the plugin are found under their names, and those of
    the main program still are; but for one message in Spanish.
    Full statement: the same without [~ In (l, k) hidden]; it is false, see below. *)
Theorem C147_same_function_partial : forall l d ws ms hash, In (lit l, d) languages -> In (l, ws) dictionaries -> In (l, ms) mdictionaries ->
  exists w, begin hash d ws ms = Ret w /\
  (forall fuel o k f, 310 <= fuel -> mean o k f -> ~ In (l, k) hidden -> mfind_method hash fuel w o (mkey_text d ws ms k) = Ret (Some f)) /\
  (forall fuel k o, 310 <= fuel -> In (k, o) mglobals -> mfind_name hash fuel w (mkey_text d ws ms k) = Ret (Some (OfPlugin o))) /\
  (forall fuel k o, 310 <= fuel -> In (k, o) globals -> mfind_name hash fuel w (key_text d ws k) = Ret (Some (OfCore o))).
Proof. exact media_works. Qed.
Print Assumptions C147_same_function_partial.

(** Every object of the plugin can be written by its name. *)
Theorem C147_object_names : forall l d ws ms k o, In (lit l, d) languages -> In (l, ws) dictionaries -> In (l, ms) mdictionaries ->
  In (k, o) mglobals ->
  prim d (NRef 0 (mkey_text d ws ms k)) [ref (mkey_text d ws ms k)] /\ piece d [ref (mkey_text d ws ms k)] (mkey_text d ws ms k).
Proof. exact media_names. Qed.
Print Assumptions C147_object_names.

(** Every message of the plugin can be written with the number of arguments of its English name, and the parser
    sends exactly that message with those arguments; but for six names.
    Full statement: the same without [~ In (l, k) unsendable]; it is false, see below. *)
Theorem C147_send_partial : forall l d ws ms o k f r tr sr args a b,
  In (lit l, d) languages -> In (l, ws) dictionaries -> In (l, ms) mdictionaries ->
  In (o, k, f) mregistrations -> ~ In (l, k) unsendable ->
  prim d r tr -> piece d tr sr -> Forall (written_arg d (mkey_text d ws ms k)) args ->
  List.length args = arguments 58%N (mkey_text dict_en english menglish k) ->
  exists s, parse d (sr ++ 32%N :: call (d_prefix d) (mkey_text d ws ms k) (map snd args) ++ d_eol d) a b =
    POk [NExpr r [message (mkey_text d ws ms k) (map (fun x => fst (fst x)) args)]] s /\ err s = false.
Proof. exact media_sends. Qed.
Print Assumptions C147_send_partial.

(** That number is the number of arguments of the function. *)
Theorem C147_arguments : forall o k f, In (o, k, f) mregistrations ->
  In (f, arguments 58%N (mkey_text dict_en english menglish k)) mtakes.
Proof. exact marity_ok. Qed.
Print Assumptions C147_arguments.

(** The messages the plugin sends when something happens are all different in every language; none of them is
    another message of Media or Image, their own or inherited, so answering one never replaces anything else;
    and they can be written with their English number of arguments. *)
Theorem C147_events : forall l d ws ms, In (lit l, d) languages -> In (l, ws) dictionaries -> In (l, ms) mdictionaries ->
  NoDup (map (fun e => mkey_text d ws ms (Plug e)) mevents) /\
  forall e o k f, In e mevents -> o = MMedia \/ o = MImage -> mean o k f -> mkey_text d ws ms k = mkey_text d ws ms (Plug e) -> k = Plug e.
Proof. exact media_events. Qed.
Print Assumptions C147_events.
Theorem C147_events_written : forall l d ws ms e r tr sr args a b,
  In (lit l, d) languages -> In (l, ws) dictionaries -> In (l, ms) mdictionaries ->
  In e mevents -> prim d r tr -> piece d tr sr -> Forall (written_arg d (mkey_text d ws ms (Plug e))) args ->
  List.length args = arguments 58%N (mkey_text dict_en english menglish (Plug e)) ->
  exists s, parse d (sr ++ 32%N :: call (d_prefix d) (mkey_text d ws ms (Plug e)) (map snd args) ++ d_eol d) a b =
    POk [NExpr r [message (mkey_text d ws ms (Plug e)) (map (fun x => fst (fst x)) args)]] s /\ err s = false.
Proof. exact media_event_blocks. Qed.
Print Assumptions C147_events_written.

(** The conditions are met: seventeen languages, and a sound in Dutch. *)
Definition mwords_of (l : string) : list string := match find (fun lw => String.eqb (fst lw) l) mdictionaries with Some lw => snd lw | None => [] end.
Lemma mwords_of_in l : existsb (fun lw => String.eqb (fst lw) l) mdictionaries = true -> In (l, mwords_of l) mdictionaries.
Proof.
  intros E. unfold mwords_of. destruct (find _ _) as [(l' & ws)|] eqn:F.
  - apply find_some in F. destruct F as (I & EQ). apply String.eqb_eq in EQ. cbn [fst snd] in *. now subst.
  - apply existsb_exists in E. destruct E as (x & I & E). apply (find_none _ _ F) in I. cbn [fst snd] in *. congruence.
Qed.
Example C147_languages : map fst mdictionaries =
    ["cs"; "de"; "en"; "es"; "fa"; "fr"; "fy"; "hi"; "id"; "it"; "nl"; "no"; "pl"; "pt_br"; "ru"; "uz"; "zh2"]%string /\
  forallb (fun lm => existsb (fun ld => text_eqb (fst ld) (lit (fst lm))) languages &&
                     existsb (fun lw => String.eqb (fst lw) (fst lm)) dictionaries)%bool mdictionaries = true.
Proof. split; vm_compute; reflexivity. Qed.
Example C147_dutch : let d := dict_of "nl" in let ws := words_of "nl" in let ms := mwords_of "nl" in
  In (tx "nl", d) languages /\ In ("nl"%string, ws) dictionaries /\ In ("nl"%string, ms) mdictionaries /\
  mkey_text d ws ms (Plug "SOUND_OBJECT") = tx "Geluid" /\
  call 58%N (mkey_text d ws ms (Plug "XY_SET")) [tx "x"; tx "y"] = tx "x: x y: y ".
Proof.
  cbv zeta. split; [apply (dict_of_in "nl"); vm_compute; reflexivity|]. split; [apply words_of_in; vm_compute; reflexivity|].
  split; [apply mwords_of_in; vm_compute; reflexivity|]. split; vm_compute; reflexivity.
Qed.
Lemma not_own o k : has o k = false -> forall g, ~ In (o, k, g) mregistrations.
Proof.
  intros H g I. enough (has o k = true) by congruence. unfold has. apply existsb_exists. exists (o, k, g). split; [exact I|].
  cbn [fst snd]. rewrite (proj2 (mobj_eqb_ok _ _) eq_refl). destruct k as [[x|x|x]|x]; cbn; now rewrite String.eqb_refl.
Qed.
(** Playing, silencing and copying a sound: its own function, that of audio and that of objects. *)
Example C147_sound : mean MSound (Plug "AUDIO_PLAY") "ctr_sound_play" /\ mean MSound (Plug "AUDIO_SILENCE") "ctr_music_silence" /\
  mean MSound (Core (Dict "LEARN")) "ctr_object_learn_meaning".
Proof.
  split; [|split].
  - apply mean_own. apply nth_error_In with (n := 87). vm_compute. reflexivity.
  - apply mean_plugin with (p := MAudio); [apply not_own; vm_compute; reflexivity|reflexivity|].
    apply mean_own. apply nth_error_In with (n := 90). vm_compute. reflexivity.
  - apply mean_plugin with (p := MAudio); [apply not_own; vm_compute; reflexivity|reflexivity|].
    apply mean_core with (p := OObject); [apply not_own; vm_compute; reflexivity|reflexivity|].
    apply un_own. apply nth_error_In with (n := 22). vm_compute. reflexivity.
Qed.

(** In Spanish [source:] and [font:] of Image are the same word, and the font was registered last: a picture can
    not be loaded with that message. *)
Theorem C147_spanish_refuted : exists l d ws ms o k f, In (lit l, d) languages /\ In (l, ws) dictionaries /\ In (l, ms) mdictionaries /\
  mean o k f /\ forall hash w fuel, begin hash d ws ms = Ret w -> 310 <= fuel ->
  mfind_method hash fuel w o (mkey_text d ws ms k) = Ret (Some "ctr_img_font"%string) /\ f = "ctr_img_img"%string.
Proof.
  exists "es"%string, (dict_of "es"), (words_of "es"), (mwords_of "es"), MImage, (Plug "SOURCE_SET"), "ctr_img_img"%string.
  assert (L : In (lit "es", dict_of "es") languages) by (apply (dict_of_in "es"); vm_compute; reflexivity).
  assert (D : In ("es"%string, words_of "es") dictionaries) by (apply words_of_in; vm_compute; reflexivity).
  split; [exact L|]. split; [exact D|]. split; [apply mwords_of_in; vm_compute; reflexivity|].
  split; [apply mean_own; apply nth_error_In with (n := 46); vm_compute; reflexivity|].
  intros hash w fuel E FU. split; [|reflexivity].
  destruct (language_world "es" _ _ hash L D) as (w0 & E0 & _).
  destruct (begin_ok hash _ _ (mwords_of "es") w0 E0) as (w' & E' & _ & R & _). rewrite E in E'. injection E' as <-.
  destruct fuel as [|n]; [lia|]. cbn [mfind_method].
  rewrite (wrep_find hash _ _ _ _ (R MImage)); [|pose proof (mown_length (dict_of "es") (words_of "es") (mwords_of "es") MImage); lia].
  cbn [rbind].
  replace (lookup _ _) with (Some "ctr_img_font"%string) by (vm_compute; reflexivity). reflexivity.
Qed.
Print Assumptions C147_spanish_refuted.

(** The other six names: with the number of arguments of the English name, something else is sent, or nothing. *)
Theorem C147_send_refuted : forall l k, In (l, k) unsendable -> exists d ws ms o f,
  In (lit l, d) languages /\ In (l, ws) dictionaries /\ In (l, ms) mdictionaries /\ In (o, k, f) mregistrations /\
  let n := arguments 58%N (mkey_text dict_en english menglish k) in
  Forall (written_arg d (mkey_text d ws ms k)) (repeat x_arg n) /\
  ~ exists s, parse d (tx "x" ++ 32%N :: call (d_prefix d) (mkey_text d ws ms k) (repeat (tx "x") n) ++ d_eol d) [] [] =
    POk [NExpr (NRef 0 (tx "x")) [message (mkey_text d ws ms k) (repeat (NRef 0 (tx "x")) n)]] s /\ err s = false.
Proof.
  intros l k I.
  assert (G : forall d ws ms o f m, In (lit l, d) languages -> In (l, ws) dictionaries -> In (l, ms) mdictionaries ->
    nth_error mregistrations m = Some (o, k, f) ->
    (forall s, parse d (tx "x" ++ 32%N :: call (d_prefix d) (mkey_text d ws ms k) (repeat (tx "x") (english_arguments k)) ++ d_eol d) [] [] =
      POk [NExpr (NRef 0 (tx "x")) [message (mkey_text d ws ms k) (repeat (NRef 0 (tx "x")) (english_arguments k))]] s -> err s = false -> False) ->
    exists d ws ms o f,
    In (lit l, d) languages /\ In (l, ws) dictionaries /\ In (l, ms) mdictionaries /\ In (o, k, f) mregistrations /\
    let n := arguments 58%N (mkey_text dict_en english menglish k) in
    Forall (written_arg d (mkey_text d ws ms k)) (repeat x_arg n) /\
    ~ exists s, parse d (tx "x" ++ 32%N :: call (d_prefix d) (mkey_text d ws ms k) (repeat (tx "x") n) ++ d_eol d) [] [] =
      POk [NExpr (NRef 0 (tx "x")) [message (mkey_text d ws ms k) (repeat (NRef 0 (tx "x")) n)]] s /\ err s = false).
  { intros d ws ms o f m L D M R P. exists d, ws, ms, o, f. split; [exact L|]. split; [exact D|]. split; [exact M|].
    split; [now apply nth_error_In with (n := m)|].
    cbv zeta. split; [apply Forall_forall; intros y Y; apply repeat_spec in Y; subst y; exact (x_written _ _ L)|].
    intros (s & E & NE). exact (P s E NE). }
  unfold unsendable in I. cbn [In] in I. decompose [or] I; try contradiction;
  match goal with H : (_, _) = (l, k) |- _ => injection H as <- <- end;
  (match goal with
  | |- context [In (_, Plug "FX", _) _] => eapply (G (dict_of _) (words_of _) (mwords_of _) _ _ 43)
  | |- context [In (_, Plug "MOVE_TO_XY_SET", _) _] => eapply (G (dict_of _) (words_of _) (mwords_of _) _ _ 51)
  | |- context [In (_, Plug "FREE_STRUCT", _) _] => eapply (G (dict_of _) (words_of _) (mwords_of _) _ _ 8)
  | |- context [In (_, Plug "SELECTION", _) _] => eapply (G (dict_of _) (words_of _) (mwords_of _) _ _ 33)
  | |- context [In (_, Plug "FREEZE_SET", _) _] => eapply (G (dict_of _) (words_of _) (mwords_of _) _ _ 80)
  | |- context [In (_, Plug "TO", _) _] => eapply (G (dict_of _) (words_of _) (mwords_of _) _ _ 24)
  end;
  [apply dict_of_in; vm_compute; reflexivity|apply words_of_in; vm_compute; reflexivity|apply mwords_of_in; vm_compute; reflexivity|
   vm_compute; reflexivity|
   intros s E NE; vm_compute in E; discriminate]).
Qed.
Print Assumptions C147_send_refuted.
