(** Properties of the units of numbers. *)
From Coq Require Import NArith ZArith List String.
From Verif Require Import Common Fuel Txt LexModel LexSpec ParseModel ParseSpec Dicts LangDicts NumModel RegTable RegModel RegSpec ClockModel UnitSpec UnitModel UnitProofs.
From Verif Require ClockDicts RegProofs MapModel MapProofs.
Import ListNotations.
Open Scope list_scope.
Open Scope nat_scope.
Local Notation "'tx' s" := (lit s%string) (at level 8, s at level 0).

(** * C146 *)
(** In every language and whatever the hash: a program sees of its numbers, their units and their
    texts exactly what it would see if units were values.  The unit is the word last sent or given,
    a copy has it too, arithmetic in place keeps it, a result of arithmetic has none, the text of
    the number ends with it, and no other number is touched.
    Needed: the words are no messages of numbers, unknown messages have at most three arguments, and
    no text is changed while it is the unit of a number.
    Full statement: without the second and third; false, see below. *)
Theorem C146_kept_partial : forall l d ws hash w acts ss m,
  In (lit l, d) languages -> In (l, ws) dictionaries -> initialize hash d ws = Ret w ->
  all_does digits (local d) (mkMeaning [] []) acts ss m ->
  all_fair d ws hash w (mkHeap [] []) acts ->
  exists h, run d ws (method_in hash w) (mkHeap [] []) acts = Some (Ok (h, ss)) /\ same h m.
Proof.
  intros l d ws hash w acts ss m IL ID EI A F. refine (run_ok l d ws hash w IL ID EI acts _ _ ss m A _ F).
  split; [reflexivity|constructor].
Qed.
Print Assumptions C146_kept_partial.

(** The words for hours, minutes, seconds, days, months, years and weeks, and KB and MB, are units in
    every language: behind a number they are one message without arguments, and no message of
    numbers. *)
Theorem C146_words : forall l d ws uw u, In (lit l, d) languages -> In (l, ws) dictionaries ->
  In (lit l, uw) ClockDicts.unit_words ->
  In u [w_hour uw; w_minute uw; w_second uw; w_day uw; w_month uw; w_year uw; w_week uw; tx "KB"; tx "MB"] ->
  (forall o k f, In (o, k, f) registrations -> o = ONumber \/ o = OObject -> key_text d ws k <> u) /\
  forall r tr sr o oo, prim d r tr -> piece d tr sr ->
    exists s, parse d (sr ++ 32%N :: u ++ 32%N :: d_eol d) o oo = POk [NExpr r [MUna u]] s /\ err s = false.
Proof. exact unit_words_ok. Qed.
Print Assumptions C146_words.

(** The conditions are met: English, dollars and euros. *)
Definition english_words : list string := match find (fun p => String.eqb (fst p) "en") dictionaries with Some p => snd p | None => [] end.
Definition no_hash : text -> Z := fun _ => 0%Z.
Definition english_world : world := match initialize no_hash dict_en english_words with Ret w => w | _ => mkWorld (fun _ => MapModel.map_new) MapModel.map_new end.
Definition english_run := run dict_en english_words (method_in no_hash english_world) (mkHeap [] []).
Lemma english_ok : In (tx "en", dict_en) languages /\ In ("en"%string, english_words) dictionaries /\
  initialize no_hash dict_en english_words = Ret english_world.
Proof.
  split; [|split].
  - apply nth_error_In with (n := 16). vm_compute. reflexivity.
  - apply nth_error_In with (n := 16). vm_compute. reflexivity.
  - destruct (RegProofs.language_world "en" dict_en english_words no_hash) as (w & E & _).
    + apply nth_error_In with (n := 16). vm_compute. reflexivity.
    + apply nth_error_In with (n := 16). vm_compute. reflexivity.
    + unfold english_world. rewrite E. reflexivity.
Qed.
Definition dollars : list act :=
  [ANew (of_Z 1234); AWord 0 (tx "dollars"); AShow 0; ARaw 0; ACopy 0; AText (tx "euro"); AQualify 1 3; AShow 1; AAdd 0 1; AShow 0; APlus 0 1; AAsk 2; AAsk 0;
   AUnknown 0 (tx "foo:bar:baz:") [0; 1; 2]; AAppend 4 (tx "s"); AAsk 1; AAsk 0].
Definition dollars_seen : list seen :=
  [SNumber 0; SNumber 0; SText (tx "1,234 dollars"); SText (tx "1234"); SNumber 1; SNone; SNumber 1; SText (tx "1,234 euro"); SNumber 0; SText (tx "2,468 dollars");
   SNumber 2; SUnit None; SUnit (Some (tx "dollars")); SNumber 0; SNone; SUnit (Some (tx "euro")); SUnit (Some (tx "dollars"))].

Ltac next c := eapply all_cons; [eapply c|].
Lemma dollars_mean : exists m, all_does digits (local dict_en) (mkMeaning [] []) dollars dollars_seen m.
Proof.
  assert (S1 : local dict_en (of_Z 1234) (tx "1,234")) by (split; [vm_compute; reflexivity|vm_compute; repeat constructor]).
  assert (S2 : local dict_en (add64 (of_Z 1234) (of_Z 1234)) (tx "2,468")) by (split; [vm_compute; reflexivity|vm_compute; repeat constructor]).
  assert (S3 : digits (of_Z 1234) (tx "1234")) by (vm_compute; reflexivity).
  assert (N0 : forall u, existsb (N.eqb 0%N) u = false -> ~ In 0%N u).
  { intros u E I. assert (T : existsb (N.eqb 0%N) u = true) by (apply existsb_exists; exists 0%N; auto). congruence. }
  eexists. unfold dollars, dollars_seen.
  next does_new. next does_word; [reflexivity|]. eapply all_cons.
  { refine (does_show_unit _ _ _ _ 0 _ (tx "dollars") (tx "1,234") _ S1 _); [reflexivity|now apply N0]. }
  next does_raw; [reflexivity|exact S3|]. next does_copy; [reflexivity|]. next does_text. next does_qualify; [reflexivity|reflexivity|]. eapply all_cons.
  { refine (does_show_unit _ _ _ _ 1 _ (tx "euro") (tx "1,234") _ S1 _); [reflexivity|now apply N0]. }
  next does_add; [reflexivity|reflexivity|]. eapply all_cons.
  { refine (does_show_unit _ _ _ _ 0 _ (tx "dollars") (tx "2,468") _ S2 _); [reflexivity|now apply N0]. }
  next does_plus; [reflexivity|reflexivity|]. next does_ask; [reflexivity|]. next does_ask; [reflexivity|].
  eapply all_cons. { apply does_unknown; [repeat constructor|discriminate]. }
  next does_append; [reflexivity|]. next does_ask; [reflexivity|]. next does_ask; [reflexivity|]. apply all_nil.
Qed.
Lemma dollars_fair : all_fair dict_en english_words no_hash english_world (mkHeap [] []) dollars.
Proof.
  unfold dollars.
  repeat (split; [first [exact I | apply no_messageb_ok; vm_compute; reflexivity
      | split; [apply no_messageb_ok; vm_compute; reflexivity|repeat constructor]
      | cbn; intros r [<-|[<-|[<-|[]]]]; cbn; discriminate]
    |intros h1 s1 E; vm_compute in E; injection E as <- <-]).
  exact I.
Qed.
Example C146_dollars : (exists m, all_does digits (local dict_en) (mkMeaning [] []) dollars dollars_seen m) /\
  all_fair dict_en english_words no_hash english_world (mkHeap [] []) dollars /\
  exists h, english_run dollars = Some (Ok (h, dollars_seen)).
Proof.
  split; [exact dollars_mean|]. split; [exact dollars_fair|]. destruct english_ok as (A & B & C). destruct dollars_mean as (m & M).
  destruct (C146_kept_partial "en" _ _ _ _ _ _ m A B C M dollars_fair) as (h & R & _). exists h. exact R.
Qed.
(** The word for weeks in French. *)
Example C146_french : exists d ws uw, In (tx "fr", d) languages /\ In ("fr"%string, ws) dictionaries /\ In (tx "fr", uw) ClockDicts.unit_words /\
  w_week uw = tx "la-semaine".
Proof.
  assert (H : existsb (fun ld => text_eqb (fst ld) (tx "fr")) languages = true /\ existsb (fun p => String.eqb (fst p) "fr") dictionaries = true /\
    existsb (fun p => text_eqb (fst p) (tx "fr") && text_eqb (w_week (snd p)) (tx "la-semaine")) ClockDicts.unit_words = true) by (vm_compute; auto).
  destruct H as (A & B & C). apply existsb_exists in A, B, C. destruct A as ((a1 & d) & IA & EA), B as ((b1 & ws) & IB & EB), C as ((c1 & uw) & IC & EC).
  cbn [fst snd] in *. apply andb_prop in EC. destruct EC as (EC & EW). apply MapProofs.text_eqb_spec in EA, EC, EW. apply String.eqb_eq in EB. subst.
  exists d, ws, uw. auto.
Qed.

(** Refuted: a text that is the unit of a number is not a value.  [u := 'euro'. x := 3. x qualify: u.
    u append: 's'. x qualifier]: nobody gave the number another unit, but it has one. *)
Theorem C146_shared_refuted : exists acts ss m, all_does digits (local dict_en) (mkMeaning [] []) acts ss m /\
  exists h ss', english_run acts = Some (Ok (h, ss')) /\ ss' <> ss.
Proof.
  exists [AText (tx "euro"); ANew (of_Z 3); AQualify 0 0; AAppend 0 (tx "s"); AAsk 0],
    [SNone; SNumber 0; SNumber 0; SNone; SUnit (Some (tx "euro"))]. eexists. split.
  - next does_text. next does_new. next does_qualify; [reflexivity|reflexivity|]. next does_append; [reflexivity|]. next does_ask; [reflexivity|]. apply all_nil.
  - exists (mkHeap [mkNumber (of_Z 3) (Some 0)] [tx "euros"]), [SNone; SNumber 0; SNumber 0; SNone; SUnit (Some (tx "euros"))].
    split; [vm_compute; reflexivity|]. vm_compute. discriminate.
Qed.
Print Assumptions C146_shared_refuted.

(** Refuted: a copy shares the unit with the original: [x := 3 dollars. y := x copy. y qualifier
    append: '!'. x qualifier]. *)
Theorem C146_copy_refuted : exists acts ss m, all_does digits (local dict_en) (mkMeaning [] []) acts ss m /\
  exists h ss', english_run acts = Some (Ok (h, ss')) /\ ss' <> ss.
Proof.
  exists [ANew (of_Z 3); AWord 0 (tx "dollars"); ACopy 0; AAsk 1; AAppend 0 (tx "!"); AAsk 0],
    [SNumber 0; SNumber 0; SNumber 1; SUnit (Some (tx "dollars")); SNone; SUnit (Some (tx "dollars"))]. eexists. split.
  - next does_new. next does_word; [reflexivity|]. next does_copy; [reflexivity|]. next does_ask; [reflexivity|]. next does_append; [reflexivity|].
    next does_ask; [reflexivity|]. apply all_nil.
  - exists (mkHeap [mkNumber (of_Z 3) (Some 0); mkNumber (of_Z 3) (Some 0)] [tx "dollars!"]),
      [SNumber 0; SNumber 0; SNumber 1; SUnit (Some (tx "dollars")); SNone; SUnit (Some (tx "dollars!"))].
    split; [vm_compute; reflexivity|]. vm_compute. discriminate.
Qed.
Print Assumptions C146_copy_refuted.

(** Refuted: an unknown message with four arguments makes its own name the unit; one with one, two or
    three changes nothing. *)
Theorem C146_arguments_refuted : exists acts ss m, all_does digits (local dict_en) (mkMeaning [] []) acts ss m /\
  exists h ss', english_run acts = Some (Ok (h, ss')) /\ ss' <> ss.
Proof.
  exists [ANew (of_Z 3); AWord 0 (tx "dollars"); AUnknown 0 (tx "a:b:c:d:") [0; 0; 0; 0]; AAsk 0],
    [SNumber 0; SNumber 0; SNumber 0; SUnit (Some (tx "dollars"))]. eexists. split.
  - next does_new. next does_word; [reflexivity|]. eapply all_cons. { apply does_unknown; [repeat constructor|discriminate]. }
    next does_ask; [reflexivity|]. apply all_nil.
  - exists (mkHeap [mkNumber (of_Z 3) (Some 1)] [tx "dollars"; tx "a:b:c:d:"]),
      [SNumber 0; SNumber 0; SNumber 0; SUnit (Some (tx "a:b:c:d:"))].
    split; [vm_compute; reflexivity|]. vm_compute. discriminate.
Qed.
Print Assumptions C146_arguments_refuted.
