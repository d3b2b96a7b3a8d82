(** Properties of the translator. *)
From Coq Require Import NArith List String.
From Verif Require Import Common Txt LexModel Dicts LangDicts TransModel TransSpec TransProofs TransLoop TransLex.
Import ListNotations.
Local Notation "'tx' s" := (lit s%string) (at level 8, s at level 0).

(** ** C76: a program written properly becomes the same program in the other language *)
Theorem C76_translate_partial : forall d d' ls T l trail,
  lang_ok d = true -> ends_in_word ls = true -> load_dictionary d ls = LOk T -> dict_ok d d' T = true ->
  well_formed d d' T [(false, false)] l trail = true ->
  translate_program d T (render d l ++ trail) = LOk (render d' (mirror (tidy l)) ++ trail).
Proof. exact translate_ok. Qed.
Print Assumptions C76_translate_partial.

(** The words come from the lines of the dictionary; what is in front of # does not count. *)
Theorem C76_dictionary : forall d ls T ty w w',
  ends_in_word ls = true -> load_dictionary d ls = LOk T ->
  (known T ty w w' = true <-> (ty = ty_t \/ ty = ty_s) /\ exists t, In (ty, w, t) ls /\ bare t w').
Proof. exact known_any. Qed.
Print Assumptions C76_dictionary.
(** A dictionary with # on the left is refused. *)
Theorem C76_one_way : forall d ls ty w t, In (ty, w, t) ls -> In 35%N w -> forall T, load_dictionary d ls <> LOk T.
Proof. exact modified_refused. Qed.
Print Assumptions C76_one_way.

(** ** C42: there and back *)
Theorem C42_round_trip_partial : forall d d' ls T T' l trail,
  lang_ok d = true -> lang_ok d' = true -> forallb plain_line ls = true -> ends_in_word ls = true ->
  load_dictionary d ls = LOk T -> load_dictionary d' (backwards ls) = LOk T' -> dict_ok d d' T = true -> dict_ok d' d T' = true ->
  well_formed d d' T [(false, false)] l trail = true -> well_formed d' d T' [(false, false)] (mirror (tidy l)) trail = true ->
  exists t, translate_program d T (render d l ++ trail) = LOk t /\ translate_program d' T' t = LOk (render d (tidy l) ++ trail).
Proof. exact round_trip. Qed.
Print Assumptions C42_round_trip_partial.

(** The reverse of a dictionary can be read, and has every word. *)
Theorem C42_reverse : forall d d' ls T,
  forallb plain_line ls = true -> forallb short_line ls = true -> ends_in_word ls = true -> load_dictionary d ls = LOk T ->
  exists T', load_dictionary d' (backwards ls) = LOk T' /\ forall ty w w', known T ty w w' = true -> known T' ty w' w = true.
Proof. exact reverse_ok. Qed.
Print Assumptions C42_reverse.

(** A case. *)
Definition lines : list (N * text * text) := [
  (ty_t, tx ".", tx "."); (ty_t, tx ",", tx ","); (ty_t, tx ":=", tx "≔"); (ty_t, tx "<-", tx "↲"); (ty_t, tx "['", tx "‘"); (ty_t, tx "']", tx "’");
  (ty_d, tx ".", tx "."); (ty_x, tx ",", tx ","); (ty_t, tx ":", tx ":");
  (ty_t, tx "x", tx "é"); (ty_t, tx "a", tx "b"); (ty_t, tx "foo:", tx "F:"); (ty_t, tx "foo:bar:", tx "G:B:"); (ty_t, tx "bar:", tx "BB:");
  (ty_s, tx "hi", tx "hallo"); (ty_t, tx "put:at:", tx "P:A:")].
Definition sp : text := tx " ".
(** "x := a foo: (x put: 1 at: 2) bar: { :x <- x foo: 1,000. }, foo: ['hi']." *)
Definition sample : program := [
  ([], Word (tx "x") (tx "é")); (sp, Assign); (sp, Word (tx "a") (tx "b")); (sp, Key (tx "foo") (tx "G"));
  (sp, Open); ([], Word (tx "x") (tx "é")); (sp, Key (tx "put") (tx "P")); (sp, Num (tx "1") (tx "1")); (sp, Key (tx "at") (tx "A")); (sp, Num (tx "2") (tx "2")); ([], Close);
  (sp, Key (tx "bar") (tx "B")); (sp, BOpen); (sp, Param (tx "x") (tx "é")); (sp, Return); (sp, Word (tx "x") (tx "é")); (sp, Key (tx "foo") (tx "F"));
  (sp, Num (tx "1,000") (tx "1,000")); ([], Dot); (sp, BClose); ([], Chain); (sp, Key (tx "foo") (tx "F")); (sp, Text (tx "hi") (tx "hallo")); ([], Dot)].
Example sample_case :
  lang_ok dict_en = true /\ lang_ok dict_xx = true /\ forallb plain_line lines = true /\ forallb short_line lines = true /\ ends_in_word lines = true /\
  exists T T', load_dictionary dict_en lines = LOk T /\ load_dictionary dict_xx (backwards lines) = LOk T' /\ dict_ok dict_en dict_xx T = true /\ dict_ok dict_xx dict_en T' = true /\
    well_formed dict_en dict_xx T [(false, false)] sample [10%N] = true /\ well_formed dict_xx dict_en T' [(false, false)] (mirror (tidy sample)) [10%N] = true /\
    tidy sample = sample /\ render dict_en sample = tx "x := a foo: (x put: 1 at: 2) bar: { :x <- x foo: 1,000. }, foo: ['hi']." /\
    translate_program dict_en T (render dict_en sample ++ [10%N]) = LOk (tx "é ≔ b G: (é P: 1 A: 2) B: { :é ↲ é F: 1,000. }, F: ‘hallo’." ++ [10%N]).
Proof. do 5 (split; [vm_compute; reflexivity|]). do 2 eexists. repeat (split; [vm_compute; reflexivity|]). vm_compute. reflexivity. Qed.
(** With comments, and with a modifier in the dictionary: "# It's 5. o'clock:" and "x foo: a #and on" "bar: 2." *)
Definition modified : list (N * text * text) := lines ++ [(ty_t, tx "y", tx "2#é")].
Definition comments : program := [
  (tx "# It's 5. o'clock:" ++ [10%N], Word (tx "y") (tx "é")); (sp, Key (tx "foo") (tx "G")); (sp, Word (tx "a") (tx "b"));
  (tx " #and on" ++ [10%N], Key (tx "bar") (tx "B")); (sp, Num (tx "2") (tx "2")); ([], Dot)].
Example comment_case : exists T, ends_in_word modified = true /\ load_dictionary dict_en modified = LOk T /\ dict_ok dict_en dict_xx T = true /\ 
  well_formed dict_en dict_xx T [(false, false)] comments (tx " # end.") = true /\
  render dict_en comments ++ tx " # end." = tx "# It's 5. o'clock:" ++ [10%N] ++ tx "y foo: a #and on" ++ [10%N] ++ tx "bar: 2. # end." /\
  translate_program dict_en T (render dict_en comments ++ tx " # end.") = LOk (tx "# It's 5. o'clock:" ++ [10%N] ++ tx "é G: b #and on" ++ [10%N] ++ tx "B: 2. # end.").
Proof. eexists. repeat (split; [vm_compute; reflexivity|]). vm_compute. reflexivity. Qed.
(** The languages that meet the conditions: all but two. *)
Example languages_case : map fst (filter (fun x => negb (lang_ok (snd x))) languages) = [tx "cs"; tx "hy"] /\ List.length languages = 114.
Proof. vm_compute. auto. Qed.

(** ** What goes wrong *)
Definition en_xx (ls : list (N * text * text)) (prg : text) : lres text := lx T <- load_dictionary dict_en ls; translate_program dict_en T prg.
Definition xx_en (ls : list (N * text * text)) (prg : text) : lres text := lx T <- load_dictionary dict_xx (backwards ls); translate_program dict_xx T prg.

(** White space before a dot is lost. *)
Theorem C42_layout_refuted : exists ls prg t t', en_xx ls prg = LOk t /\ xx_en ls t = LOk t' /\ t' <> prg.
Proof. exists lines, (tx "x ."), (tx "é."), (tx "x."). repeat split; try (vm_compute; reflexivity). vm_compute. discriminate. Qed.
Print Assumptions C42_layout_refuted.
(** So is a comment before a dot. *)
Theorem C42_comment_refuted : exists ls prg t t', en_xx ls prg = LOk t /\ xx_en ls t = LOk t' /\ t' = tx "x." /\ prg = tx "x #hi" ++ [10%N] ++ tx ".".
Proof. exists lines, (tx "x #hi" ++ [10%N] ++ tx "."), (tx "é."), (tx "x."). repeat split; vm_compute; reflexivity. Qed.
Print Assumptions C42_comment_refuted.
(** A sign for assignment written directly behind a name is taken for a part of a message. *)
Theorem C42_assign_refuted : exists ls prg t t', en_xx ls prg = LOk t /\ xx_en ls t = LOk t' /\ prg = tx "x:= 5." /\ t' = tx "x: := 5.".
Proof. exists lines, (tx "x:= 5."), (tx "x: ≔ 5."), (tx "x: := 5."). repeat split; vm_compute; reflexivity. Qed.
Print Assumptions C42_assign_refuted.
(** The letter behind a backslash in a text becomes the byte it stands for, but the backslash stays. *)
Theorem C42_escape_refuted : exists ls prg t t', en_xx ls prg = LOk t /\ xx_en ls t = LOk t' /\ prg = tx "x foo: ['a\nb']." /\ t' = tx "x foo: ['a\" ++ [10%N] ++ tx "b'].".
Proof. exists lines, (tx "x foo: ['a\nb']."), (tx "é F: ‘a\" ++ [10%N] ++ tx "b’."), (tx "x foo: ['a\" ++ [10%N] ++ tx "b']."). repeat split; vm_compute; reflexivity. Qed.
Print Assumptions C42_escape_refuted.
(** Quoted quotation marks end the text. *)
Theorem C76_nested_refuted : exists ls prg, en_xx ls prg = LOk (tx "é F: ‘a ['b’ c'].") /\ prg = tx "x foo: ['a ['b'] c'].".
Proof. exists lines, (tx "x foo: ['a ['b'] c']."). split; vm_compute; reflexivity. Qed.
Print Assumptions C76_nested_refuted.
(** A message is not recognised behind a number with one decimal: the parts are translated as two messages. *)
Theorem C76_decimal_refuted : exists ls prg, In (ty_t, tx "foo:bar:", tx "G:B:") ls /\ prg = tx "a foo: 1.5 bar: 2." /\ en_xx ls prg = LOk (tx "b F: 1.5 BB: 2.").
Proof. exists lines, (tx "a foo: 1.5 bar: 2."). split; [apply nth_error_In with (n := 12); reflexivity|]. split; [reflexivity|vm_compute; reflexivity]. Qed.
Print Assumptions C76_decimal_refuted.
(** The dot in front of a number written one space away does not end the message. *)
Theorem C76_statement_refuted : exists ls prg,
  In (ty_t, tx "foo:", tx "F:") ls /\ In (ty_t, tx "bar:", tx "BB:") ls /\ prg = tx "a foo: 1. 5 bar: 2." /\ en_xx ls prg = LOk (tx "b G: 1. 5 B: 2.").
Proof. exists lines, (tx "a foo: 1. 5 bar: 2."). split; [apply nth_error_In with (n := 11); reflexivity|]. split; [apply nth_error_In with (n := 13); reflexivity|]. split; [reflexivity|vm_compute; reflexivity]. Qed.
Print Assumptions C76_statement_refuted.
(** Nor does the end of a block. *)
Theorem C76_block_refuted : exists ls prg,
  In (ty_t, tx "foo:", tx "F:") ls /\ In (ty_t, tx "bar:", tx "BB:") ls /\ prg = tx "{ x foo: 1 } bar: 2." /\ en_xx ls prg = LOk (tx "{ é G: 1 } B: 2.").
Proof. exists lines, (tx "{ x foo: 1 } bar: 2."). split; [apply nth_error_In with (n := 11); reflexivity|]. split; [apply nth_error_In with (n := 13); reflexivity|]. split; [reflexivity|vm_compute; reflexivity]. Qed.
Print Assumptions C76_block_refuted.
(** The parts of a message are looked for in comments. *)
Theorem C76_comment_refuted : exists ls prg,
  In (ty_t, tx "foo:bar:", tx "G:B:") ls /\ prg = tx "a foo: 1 # so:" ++ [10%N] ++ tx " bar: 2." /\ en_xx ls prg = LOk (tx "b foo: 1 # so:" ++ [10%N] ++ tx " bar: 2.").
Proof. exists lines, (tx "a foo: 1 # so:" ++ [10%N] ++ tx " bar: 2."). split; [apply nth_error_In with (n := 12); reflexivity|]. split; [reflexivity|vm_compute; reflexivity]. Qed.
Print Assumptions C76_comment_refuted.
(** In a comment in front of a number, dots and commas are translated like those of numbers. *)
Theorem C76_comment_number_refuted : exists ls prg, prg = tx "a foo: # so, then." ++ [10%N] ++ tx "2" /\ en_xx ls prg = LOk (tx "b F: # so; then'" ++ [10%N] ++ tx "2").
Proof.
  exists ((ty_d, tx ".", tx "'") :: (ty_x, tx ",", tx ";") :: filter (fun '(ty, _, _) => negb ((ty =? ty_d) || (ty =? ty_x))%N) lines), (tx "a foo: # so, then." ++ [10%N] ++ tx "2").
  split; [reflexivity|vm_compute; reflexivity].
Qed.
Print Assumptions C76_comment_number_refuted.
(** A text with an escaped quotation mark hides or shows the rest to the search for parts. *)
Theorem C76_escaped_quote_refuted : exists ls prg,
  In (ty_t, tx "foo:bar:", tx "G:B:") ls /\ prg = tx "a foo: ['x\']y:'] bar: 1." /\ en_xx ls prg = LOk (tx "b foo: ‘x\']y:’ bar: 1.").
Proof. exists lines, (tx "a foo: ['x\']y:'] bar: 1."). split; [apply nth_error_In with (n := 12); reflexivity|]. split; [reflexivity|vm_compute; reflexivity]. Qed.
Print Assumptions C76_escaped_quote_refuted.
(** If the last line of the dictionary is one for a separator, no word is translated. *)
Theorem C76_last_line_refuted : exists ls, In (ty_t, tx "x", tx "é") ls /\ en_xx ls (tx "x") = LOk (tx "x").
Proof. exists (lines ++ [(ty_d, tx ".", tx ".")]). split; [apply nth_error_In with (n := 9); reflexivity|vm_compute; reflexivity]. Qed.
Print Assumptions C76_last_line_refuted.
(** A dictionary without the sign for parameters: writing through a null pointer. *)
Theorem C76_no_prefix_refuted : exists ls prg, en_xx ls prg = LUB.
Proof. exists (filter (fun '(_, w, _) => negb (text_eqb w (tx ":"))) lines), (tx "{ :x }"). vm_compute. reflexivity. Qed.
Print Assumptions C76_no_prefix_refuted.
