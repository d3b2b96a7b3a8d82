(** Properties of dictionary files. *)
From Coq Require Import NArith List String Lia.
From Verif Require Import Common Fuel Txt LexModel Dicts LangDicts RegModel HdrDicts TransModel TransSpec GenSpec GenModel GenProofs GenLoad GenData GenLang.
Import ListNotations.
Local Notation "'tx' s" := (lit s%string) (at level 8, s at level 0).

(** ** C121: two headers make a dictionary *)
Theorem C121_generated_partial : forall o ks ra rb f g,
  Forall row_ok ra -> Forall row_ok rb -> Forall (fun a => modifier a = None) ra -> fine rb -> agree ra rb ->
  header ra f -> header rb g -> text_keys o ks ->
  generate_dicts o f g = Ret (Complete, file_of (lines_of ks ra rb)).
Proof. exact generate_ok. Qed.
Print Assumptions C121_generated_partial.

(** The first two rows with different keys are named, after the lines of the rows before. *)
Theorem C121_mismatch : forall o ks pa pb a qa b qb f g,
  List.length pa = List.length pb -> Forall row_ok (pa ++ a :: qa) -> Forall row_ok (pb ++ b :: qb) -> Forall (fun a => modifier a = None) (pa ++ a :: qa) ->
  fine pb -> agree pa pb -> key a <> key b -> internal (key a) = false -> internal (key b) = false ->
  header (pa ++ a :: qa) f -> header (pb ++ b :: qb) g -> text_keys o ks ->
  exists n, generate_dicts o f g = Ret (Mismatch (key a) (key b) n, file_of (lines_of ks pa pb)).
Proof. exact mismatch_ok. Qed.
Print Assumptions C121_mismatch.

(** A dictionary is read line by line. *)
Theorem C121_read : forall d ls, Forall line_ok ls -> room 0 ls ->
  load_file d (file_of ls) = match load_dictionary d ls with LOk T => Ret (LOk T) | LExit => Ret LExit | LUB => Bad end.
Proof. exact read_ok. Qed.
Print Assumptions C121_read.

(** It can be used exactly if no word and no translation stands there twice, and if it has both separators; otherwise there is an error. *)
Theorem C121_usable : forall d ls, Forall line_ok ls -> Forall usable ls -> room 0 ls ->
  ((exists T, load_file d (file_of ls) = Ret (LOk T)) <-> ForallOrdPairs unlike ls /\ (exists w t, In (100%N, w, t) ls) /\ (exists w t, In (120%N, w, t) ls)) /\
  (load_file d (file_of ls) = Ret LExit \/ exists T, load_file d (file_of ls) = Ret (LOk T)).
Proof. exact file_cases. Qed.
Print Assumptions C121_usable.

(** Whatever the files contain, both end. *)
Theorem C121_ends : forall o f g d h, generate_dicts o f g <> NoFuel /\ load_file d h <> NoFuel.
Proof. intros. split; [apply generate_ends|apply load_file_ends]. Qed.
Print Assumptions C121_ends.

(** ** C122: any two languages *)
Theorem C122_languages : forall l d ws os l' d' ws' os' f g,
  language l d ws os -> language l' d' ws' os' -> header (rows_of ws os) f -> header (rows_of ws' os') g ->
  exists file T, generate_dicts None f g = Ret (Complete, file) /\ load_file d file = Ret (LOk T) /\ dict_ok d d' T = true /\
  forall a b, In a (rows_of ws os) -> In b (rows_of ws' os') -> key a = key b -> internal (key a) = false -> line_type (key a) = 116%N ->
    known T ty_t (value a) (value b) = true.
Proof.
  intros l d ws os l' d' ws' os' f g L L' H1 H2. destruct (made_dictionary l d ws os l' d' ws' os' f g L L' H1 H2) as (file & T & E1 & E2 & E3 & _ & _ & _ & K).
  exists file, T. auto.
Qed.
Print Assumptions C122_languages.

(** With the dictionary made from their headers a program in one language becomes the same program in the other. *)
Theorem C122_translate : forall l d ws os l' d' ws' os' f g,
  language l d ws os -> language l' d' ws' os' -> header (rows_of ws os) f -> header (rows_of ws' os') g ->
  exists file T, generate_dicts None f g = Ret (Complete, file) /\ load_file d file = Ret (LOk T) /\
  forall p trail, lang_ok d = true -> well_formed d d' T [(false, false)] p trail = true ->
    translate_program d T (render d p ++ trail) = LOk (render d' (mirror (tidy p)) ++ trail).
Proof. exact made_translates. Qed.
Print Assumptions C122_translate.

(** And back. *)
Theorem C122_back : forall l d ws os l' d' ws' os' f g,
  language l d ws os -> language l' d' ws' os' -> header (rows_of ws os) f -> header (rows_of ws' os') g ->
  exists there back T T', generate_dicts None f g = Ret (Complete, there) /\ generate_dicts None g f = Ret (Complete, back) /\
  load_file d there = Ret (LOk T) /\ load_file d' back = Ret (LOk T') /\
  forall p trail, lang_ok d = true -> lang_ok d' = true -> well_formed d d' T [(false, false)] p trail = true ->
    well_formed d' d T' [(false, false)] (mirror (tidy p)) trail = true ->
    exists t, translate_program d T (render d p ++ trail) = LOk t /\ translate_program d' T' t = LOk (render d (tidy p) ++ trail).
Proof. exact made_round_trip. Qed.
Print Assumptions C122_back.

(** ** Cases *)
Definition nl : text := [10%N].
Definition q : text := [34%N].
Definition def (k v m : text) : text := tx "#define " ++ k ++ tx " " ++ q ++ v ++ q ++ m ++ nl.
Lemma space : blanks [32%N].
Proof. split; [discriminate|apply Forall_cons; [now left|apply Forall_nil]]. Qed.
Lemma newline : blanks [10%N].
Proof. split; [discriminate|apply Forall_cons; [right; lia|apply Forall_nil]]. Qed.
Lemma plain_def k v : written_row (mkRow k v None) (def k v []).
Proof. exact (w_plain (mkRow k v None) [32%N] [32%N] [10%N] eq_refl space space newline). Qed.
Lemma modified_def k v m : written_row (mkRow k v (Some m)) (def k v (tx " //" ++ m)).
Proof. unfold def. rewrite <- !app_assoc. exact (w_modified (mkRow k v (Some m)) m [32%N] [32%N] [32%N] [10%N] eq_refl space space (proj2 space) newline). Qed.
Definition en : text := def (tx "CTR_DICT_NUM_DEC_SEP") (tx ".") [] ++ def (tx "CTR_DICT_NUM_THO_SEP") (tx ",") [] ++ def (tx "CTR_DICT_ON") (tx "on:do:") [].
Definition nl_ : text := def (tx "CTR_DICT_NUM_DEC_SEP") (tx ",") [] ++ def (tx "CTR_DICT_NUM_THO_SEP") (tx ".") [] ++ def (tx "CTR_DICT_ON") (tx "bij:doen:") (tx " //a#").
Definition r_en : list row := [mkRow (tx "CTR_DICT_NUM_DEC_SEP") (tx ".") None; mkRow (tx "CTR_DICT_NUM_THO_SEP") (tx ",") None; mkRow (tx "CTR_DICT_ON") (tx "on:do:") None].
Definition r_nl : list row := [mkRow (tx "CTR_DICT_NUM_DEC_SEP") (tx ",") None; mkRow (tx "CTR_DICT_NUM_THO_SEP") (tx ".") None; mkRow (tx "CTR_DICT_ON") (tx "bij:doen:") (Some (tx "a#"))].
Example generated_case :
  Forall row_ok r_en /\ Forall row_ok r_nl /\ Forall (fun a => modifier a = None) r_en /\ fine r_nl /\ agree r_en r_nl /\ header r_en en /\ header r_nl nl_ /\ text_keys (Some (tx "DICT_ON")) [tx "DICT_ON"] /\
  generate_dicts (Some (tx "DICT_ON")) en nl_ = Ret (Complete, tx "d " ++ q ++ tx "." ++ q ++ tx " " ++ q ++ tx "," ++ q ++ nl ++ tx "x " ++ q ++ tx "," ++ q ++ tx " " ++ q ++ tx "." ++ q ++ nl ++
    tx "t " ++ q ++ tx "on:do:" ++ q ++ tx " " ++ q ++ tx "a#bij:doen:" ++ q ++ nl ++ tx "s " ++ q ++ tx "on:do:" ++ q ++ tx " " ++ q ++ tx "bij:doen:" ++ q ++ nl).
Proof.
  split; [apply rows_by; vm_compute; reflexivity|]. split; [apply rows_by; vm_compute; reflexivity|]. split; [repeat constructor|]. split; [repeat (apply Forall_cons; [vm_compute; congruence|]); apply Forall_nil|]. split; [repeat split|].
  split; [exists [def (tx "CTR_DICT_NUM_DEC_SEP") (tx ".") []; def (tx "CTR_DICT_NUM_THO_SEP") (tx ",") []; def (tx "CTR_DICT_ON") (tx "on:do:") []]; split; [|reflexivity]; do 3 (apply Forall2_cons; [apply plain_def|]); apply Forall2_nil|].
  split; [exists [def (tx "CTR_DICT_NUM_DEC_SEP") (tx ",") []; def (tx "CTR_DICT_NUM_THO_SEP") (tx ".") []; def (tx "CTR_DICT_ON") (tx "bij:doen:") (tx " //" ++ tx "a#")]; split; [|reflexivity];
    do 2 (apply Forall2_cons; [apply plain_def|]); apply Forall2_cons; [apply modified_def|apply Forall2_nil]|].
  split; [right; exists (tx "DICT_ON"); repeat split; [discriminate|repeat (apply Forall_cons; [discriminate|]); apply Forall_nil]|vm_compute; reflexivity].
Qed.

Example mismatch_case : exists f g pa a b, header (pa ++ [a]) f /\ header (pa ++ [b]) g /\ Forall row_ok (pa ++ [a]) /\ Forall row_ok (pa ++ [b]) /\ Forall (fun a => modifier a = None) (pa ++ [a]) /\ fine pa /\ agree pa pa /\
  key a <> key b /\ internal (key a) = false /\ internal (key b) = false /\ generate_dicts None f g = Ret (Mismatch (tx "B") (tx "C") 1, tx "t " ++ q ++ tx "a" ++ q ++ tx " " ++ q ++ tx "a" ++ q ++ nl).
Proof.
  exists (def (tx "A") (tx "a") [] ++ def (tx "B") (tx "b") []), (def (tx "A") (tx "a") [] ++ def (tx "C") (tx "b") []), [mkRow (tx "A") (tx "a") None], (mkRow (tx "B") (tx "b") None), (mkRow (tx "C") (tx "b") None).
  split; [exists [def (tx "A") (tx "a") []; def (tx "B") (tx "b") []]; split; [repeat (apply Forall2_cons; [apply plain_def|]); apply Forall2_nil|reflexivity]|].
  split; [exists [def (tx "A") (tx "a") []; def (tx "C") (tx "b") []]; split; [repeat (apply Forall2_cons; [apply plain_def|]); apply Forall2_nil|reflexivity]|].
  split; [apply rows_by; vm_compute; reflexivity|]. split; [apply rows_by; vm_compute; reflexivity|]. split; [repeat constructor|]. split; [repeat constructor|]. split; [repeat split|].
  split; [discriminate|]. split; [vm_compute; reflexivity|]. split; vm_compute; reflexivity.
Qed.
Definition small (t : text) : list line := [(100%N, tx ".", tx ","); (120%N, tx ",", tx "."); (116%N, tx "on", tx "bij"); (115%N, tx "on", tx "bij"); (116%N, tx "off", t)].
Lemma small_ok t : t <> [] -> List.length t <= 180 -> ~ In 34%N t -> ~ In 35%N t -> Forall usable (small t) /\ Forall line_ok (small t) /\ room 0 (small t).
Proof.
  intros N L Q H. assert (U : Forall usable (small t)).
  { repeat (apply Forall_cons; [split; [cbn; tauto|split; [cbn; lia|split; [discriminate|split; [discriminate|split; cbn; intuition discriminate]]]]|]).
    apply Forall_cons; [|apply Forall_nil]. split; [cbn; tauto|split; [cbn [lit List.length] in *; right; split; [cbn; lia|exact L]|split; [discriminate|split; [exact N|split; [cbn; intuition discriminate|exact H]]]]]. }
  split; [exact U|]. split.
  - rewrite Forall_forall in *. intros l I. apply usable_line_ok; [now apply U|..]; destruct I as [<-|[<-|[<-|[<-|[<-|[]]]]]]; cbn [fst snd]; try exact Q; try (cbn; intuition discriminate); cbn; lia.
  - cbn [small room moved]. repeat split; try (cbn; lia).
Qed.
Example usable_case : (forall t, t = tx "uit" \/ t = tx "bij" -> Forall usable (small t) /\ Forall line_ok (small t) /\ room 0 (small t)) /\
  (exists T, load_file dict_en (file_of (small (tx "uit"))) = Ret (LOk T)) /\ load_file dict_en (file_of (small (tx "bij"))) = Ret LExit.
Proof.
  split; [|split; [eexists; vm_compute; reflexivity|vm_compute; reflexivity]].
  intros t [->| ->]; apply small_ok; try discriminate; cbn; try lia; intuition discriminate.
Qed.

(** Languages meet the conditions. *)
Example languages_case : exists d ws os d' ws' os', language "en"%string d ws os /\ language "nl"%string d' ws' os' /\ lang_ok d = true /\
  List.length (rows_of ws os) = 201 /\ header (rows_of ws os) (List.concat (map (fun r => def (key r) (value r) []) (rows_of ws os))) /\
  let a := nth 45 (rows_of ws os) (mkRow [] [] None) in let b := nth 45 (rows_of ws' os') (mkRow [] [] None) in
  internal (key a) = false /\ line_type (key a) = 116%N /\ key a = key b /\ value a <> value b.
Proof.
  assert (F : forall (A : Type) (p : A -> bool) l x, find p l = Some x -> In x l) by (intros A p l x H; now apply find_some in H).
  destruct (find (fun x => text_eqb (fst x) (tx "en")) languages) as [[n1 d]|] eqn:E1; [|vm_compute in E1; discriminate].
  destruct (find (fun x => text_eqb (fst x) (tx "nl")) languages) as [[n2 d']|] eqn:E2; [|vm_compute in E2; discriminate].
  destruct (find (fun x => String.eqb (fst x) "en") dictionaries) as [[n3 ws]|] eqn:E3; [|vm_compute in E3; discriminate].
  destruct (find (fun x => String.eqb (fst x) "nl") dictionaries) as [[n4 ws']|] eqn:E4; [|vm_compute in E4; discriminate].
  destruct (find (fun x => String.eqb (fst x) "en") others) as [[n5 os]|] eqn:E5; [|vm_compute in E5; discriminate].
  destruct (find (fun x => String.eqb (fst x) "nl") others) as [[n6 os']|] eqn:E6; [|vm_compute in E6; discriminate].
  exists d, ws, os, d', ws', os'.
  assert (N1 : n1 = tx "en" /\ n2 = tx "nl" /\ n3 = "en"%string /\ n4 = "nl"%string /\ n5 = "en"%string /\ n6 = "nl"%string).
  { apply find_some in E1 as [_ E1]; apply find_some in E2 as [_ E2]; apply find_some in E3 as [_ E3]; apply find_some in E4 as [_ E4]; apply find_some in E5 as [_ E5]; apply find_some in E6 as [_ E6]. cbn [fst] in *.
    apply TransMain.text_eqb_true in E1, E2. apply String.eqb_eq in E3, E4, E5, E6. auto 10. }
  destruct N1 as (-> & -> & -> & -> & -> & ->).
  split; [split; [exact (F _ _ _ _ E1)|split; [exact (F _ _ _ _ E3)|exact (F _ _ _ _ E5)]]|].
  split; [split; [exact (F _ _ _ _ E2)|split; [exact (F _ _ _ _ E4)|exact (F _ _ _ _ E6)]]|].
  split; [vm_compute in E1; injection E1 as <-; vm_compute; reflexivity|]. split; [unfold rows_of; rewrite map_length; vm_compute; reflexivity|].
  split.
  - eexists. split; [|reflexivity]. unfold rows_of. induction columns as [|c cs IH]; [constructor|]. cbn [map]. constructor; [apply plain_def|exact IH].
  - vm_compute in E3, E4, E5, E6. injection E3 as <-. injection E4 as <-. injection E5 as <-. injection E6 as <-. vm_compute. repeat (split; [reflexivity|]). intros X; discriminate X.
Qed.

(** ** What goes wrong *)
Definition line_ (ty : string) (w t : text) : text := lit ty ++ tx " " ++ q ++ w ++ q ++ tx " " ++ q ++ t ++ q ++ nl.
(** A modifier in the first header: it is not read, and everything behind it is silently missing. *)
Theorem C121_first_modifier_refuted : exists f g, f = def (tx "A") (tx "a") (tx " //x#") ++ def (tx "B") (tx "b") [] /\ g = def (tx "A") (tx "p") [] ++ def (tx "B") (tx "q") [] /\
  generate_dicts None f g = Ret (Complete, line_ "t" (tx "a") (tx "p")).
Proof. do 2 eexists. split; [reflexivity|]. split; [reflexivity|]. vm_compute. reflexivity. Qed.
Print Assumptions C121_first_modifier_refuted.
(** So are the rows of the longer header. *)
Theorem C121_shorter_refuted : exists f g, f = def (tx "A") (tx "a") [] ++ def (tx "B") (tx "b") [] /\ g = def (tx "A") (tx "p") [] /\
  generate_dicts None f g = Ret (Complete, line_ "t" (tx "a") (tx "p")).
Proof. do 2 eexists. split; [reflexivity|]. split; [reflexivity|]. vm_compute. reflexivity. Qed.
Print Assumptions C121_shorter_refuted.
(** And everything from a word that is empty on; it gets the word of the row before. *)
Theorem C121_empty_refuted : exists f g, f = def (tx "A") (tx "a") [] ++ def (tx "B") [] [] ++ def (tx "C") (tx "c") [] /\ g = def (tx "A") (tx "p") [] ++ def (tx "B") (tx "q") [] ++ def (tx "C") (tx "r") [] /\
  generate_dicts None f g = Ret (Complete, line_ "t" (tx "a") (tx "p") ++ line_ "t" (tx "a") (tx "q")).
Proof. do 2 eexists. split; [reflexivity|]. split; [reflexivity|]. vm_compute. reflexivity. Qed.
Print Assumptions C121_empty_refuted.
(** The modifier of a row that is not for translation goes to the next one. *)
Theorem C121_leak_refuted : exists f g, f = def (tx "A_CODEGEN_") (tx "a") [] ++ def (tx "B") (tx "b") [] /\ g = def (tx "A_CODEGEN_") (tx "p") (tx " //x#") ++ def (tx "B") (tx "q") [] /\
  generate_dicts None f g = Ret (Complete, line_ "t" (tx "b") (tx "x#q")).
Proof. do 2 eexists. split; [reflexivity|]. split; [reflexivity|]. vm_compute. reflexivity. Qed.
Print Assumptions C121_leak_refuted.
(** Of several keys for texts only the first holds after the first row. *)
Theorem C121_keys_refuted : exists f g, f = def (tx "A1") (tx "a") [] ++ def (tx "B1") (tx "b") [] /\ g = def (tx "A1") (tx "p") [] ++ def (tx "B1") (tx "q") [] /\
  generate_dicts (Some (tx "A,B")) f g = Ret (Complete, line_ "t" (tx "a") (tx "p") ++ line_ "s" (tx "a") (tx "p") ++ line_ "t" (tx "b") (tx "q")) /\
  generate_dicts (Some (tx "B")) f g = Ret (Complete, line_ "t" (tx "a") (tx "p") ++ line_ "t" (tx "b") (tx "q") ++ line_ "s" (tx "b") (tx "q")).
Proof. do 2 eexists. split; [reflexivity|]. split; [reflexivity|]. split; vm_compute; reflexivity. Qed.
Print Assumptions C121_keys_refuted.
(** A word of 180 bytes: its NUL is written behind the buffer. *)
Theorem C121_long_refuted : exists f g w, List.length w = 180 /\ f = def (tx "A") w [] /\ g = def (tx "A") (tx "p") [] /\ generate_dicts None f g = Bad.
Proof. exists (def (tx "A") (repeat 97%N 180) []), (def (tx "A") (tx "p") []), (repeat 97%N 180). repeat split; vm_compute; reflexivity. Qed.
Print Assumptions C121_long_refuted.
(** Every modifier makes the buffer for translations smaller: after enough of them an ordinary text is written behind its end. *)
Definition numbered (n : nat) : text := [N.of_nat (97 + n / 10); N.of_nat (97 + n mod 10)].
Theorem C121_modifiers_refuted : exists d ls T, Forall line_ok ls /\ load_dictionary d ls = LOk T /\ load_file d (file_of ls) = Bad /\
  forallb (fun l => List.length (snd l) <=? 180) ls = true.
Proof.
  pose (ls := map (fun n => (116%N, numbered n, repeat 122%N 150 ++ [35%N] ++ numbered n)) (seq 0 60) ++ [(100%N, tx ".", tx "."); (120%N, tx ",", tx ",")]).
  destruct (load_dictionary dict_en ls) as [T| |] eqn:E; [|vm_compute in E; discriminate..]. exists dict_en, ls, T. split; [|split; [exact E|split; vm_compute; reflexivity]].
  apply Forall_forall. intros l I. assert (B : (fun l : line => let '(ty, w, t) := l in negb (ty =? 32)%N && (14 <=? ty)%N && (1 <=? List.length w) && (1 <=? List.length t) && negb (among 34 w) && negb (among 34 t) && (List.length w <=? 4999)) l = true).
  { revert l I. apply forallb_forall. vm_compute. reflexivity. }
  destruct l as [[ty w] t]. cbn beta iota in B. rewrite !Bool.andb_true_iff, !Bool.negb_true_iff, !Nat.leb_le, N.leb_le, N.eqb_neq in B. destruct B as ((((((B1 & B2) & B3) & B4) & B5) & B6) & B7).
  split; [unfold is_blank; lia|]. split; [split; [destruct w; [cbn in B3; lia|discriminate]|apply Forall_forall; intros c I' ->; now apply among_in in B5]|].
  split; [split; [destruct t; [cbn in B4; lia|discriminate]|apply Forall_forall; intros c I' ->; now apply among_in in B6]|exact B7].
Qed.
Print Assumptions C121_modifiers_refuted.
