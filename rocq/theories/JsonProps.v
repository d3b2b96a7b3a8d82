(** Claims about the Json plugin. *)
From Coq Require Import String Permutation.
From Verif Require Import Common Txt NumModel NumSpec NumProofs.
From Verif Require Import JsonModel JsonSpec JsonProofs JsonTok JsonGrammar JsonRound.
Import ListNotations.
Local Open Scope nat_scope.
Local Notation "'tx' s" := (lit s%string) (at level 8, s at level 0).
Local Notation q := (@cons N 34%N nil).

(** * C45 *)
Theorem C45_escape : forall room chars s, (forall n, 0 <= n -> n <= room n)%Z -> NoDup chars ->
  exists e, string_escape room chars s = Ok e /\ escaped chars s e.
Proof. exact string_escape_ok. Qed.
Print Assumptions C45_escape.
(** The two directions of the Json object: exactly the texts without a backslash before a
    meaningful byte come back. *)
Theorem C45_there_and_back_partial : forall room s, (forall n, 0 <= n -> n <= room n)%Z ->
  exists e, string_escape room esc_chars s = Ok e /\
    (string_unescape room un_chars e = Ok s <-> ~ entangled s).
Proof. exact round_trip. Qed.
Print Assumptions C45_there_and_back_partial.
Example C45_there_and_back_case : let s := [34; 10; 92; 113; 9; 195; 169]%N in
  ~ entangled s /\ string_escape (fun n => n) esc_chars s = Ok [92; 34; 92; 110; 92; 92; 113; 92; 116; 195; 169]%N.
Proof.
  split; [|vm_compute; reflexivity]. intros (u & c & v & E & M).
  destruct u as [|? [|? [|? [|? [|? [|? [|? u]]]]]]]; cbn in E; try discriminate E.
  - inversion E; subst. cbn in M. repeat destruct M as [M|M]; try discriminate M; exact M.
  - now destruct u.
Qed.
(** A backslash and an [n] come back as a backslash only; with more of them the buffer is overrun. *)
Theorem C45_backslash_refuted : exists s e t, string_escape (fun n => n) esc_chars s = Ok e /\
  string_unescape (fun n => n + 1)%Z un_chars e = Ok t /\ t <> s.
Proof. exists [92; 110]%N, [92; 92; 110]%N, [92]%N. split; [vm_compute; reflexivity|split; [vm_compute; reflexivity|discriminate]]. Qed.
Print Assumptions C45_backslash_refuted.
Theorem C45_overrun_refuted : exists s e, string_escape (fun n => n) esc_chars s = Ok e /\
  string_unescape (fun n => n) un_chars e = UB.
Proof. exists [92; 92; 92]%N. eexists. split; vm_compute; reflexivity. Qed.
Print Assumptions C45_overrun_refuted.
(** Escaping with the same character named twice. *)
Theorem C45_twice_refuted : exists chars s e, string_escape (fun n => n) chars s = Ok e /\ ~ escaped chars s e.
Proof.
  exists [34; 34]%N, [34]%N, [92; 34; 0]%N. split; [vm_compute; reflexivity|].
  intros H. inversion H; subst; try (match goal with X : ~ In _ _ |- _ => apply X; now left end).
  match goal with X : escaped _ [] _ |- _ => inversion X end.
Qed.
Print Assumptions C45_twice_refuted.

(** * C66 *)
(** Every text of the language, with white space around it and NUL bytes in it, is read as
    the value it denotes. *)
Theorem C66_parse_partial : forall room readn name s w t w' v, (forall n, 0 <= n -> n <= room n)%Z ->
  filter (fun c => negb (c =? 0)%N) s = w ++ (123%N :: t) ++ w' -> blanks w -> blanks w' ->
  jval (fun t x => readn t = Ok x) v (123%N :: t) ->
  json_parse room readn name s = Ok (PValue v).
Proof. exact parse_text. Qed.
Print Assumptions C66_parse_partial.
Definition sample : text := tx "{" ++ q ++ tx "a" ++ q ++ tx " : [1, -2,true , {} ]," ++ q ++ tx "b\n" ++ q ++ tx ":" ++ q ++ q ++ tx "}".
Example C66_parse_case :
  jval (fun t x => read_number 46 44 t = Ok x)
    (denotes [(tx "a", JList [JNum (of_Z 1); JNum (of_Z (-2)); JBool true; JMap []]); ([98; 10]%N, JText [])]) sample /\
  json_parse (fun n => n) (read_number 46 44) (fun _ => []) sample =
  Ok (PValue (JMap [([98; 10]%N, JText []); (tx "a", JList [JNum (of_Z 1); JNum (of_Z (-2)); JBool true; JMap []])])).
Proof.
  split; [|vm_compute; reflexivity].
  assert (B0 : blanks []) by constructor. assert (B1 : blanks [32%N]) by (repeat constructor; cbn; tauto).
  match goal with |- jval ?n _ _ => set (num := n) end.
  apply (v_map num _ (q ++ tx "a" ++ q ++ tx " : [1, -2,true , {} ]," ++ q ++ tx "b\n" ++ q ++ tx ":" ++ q ++ q)).
  apply (m_more num [] [32%N] [32%N] [] (tx "a") (tx "a") _ (tx "[1, -2,true , {} ]")); try assumption.
  - repeat constructor; discriminate.
  - apply (v_list num _ (tx "1, -2,true , {} ")).
    apply (e_more num [] [] _ [49%N]); try assumption.
    { apply v_num; [|vm_compute; reflexivity]. split; [exists 49%N, []; split; [reflexivity|right; lia]|]. repeat (apply Forall_cons; [lia|]). apply Forall_nil. }
    apply (e_more num [32%N] [] _ [45; 50]%N); try assumption.
    { apply v_num; [|vm_compute; reflexivity]. split; [exists 45%N, [50%N]; split; [reflexivity|left; reflexivity]|]. repeat (apply Forall_cons; [lia|]). apply Forall_nil. }
    apply (e_more num [] [32%N] _ (tx "true")); try assumption; [constructor|].
    apply (e_last num [32%N] [32%N] _ (tx "{}")); try assumption. apply (v_map_empty num []). assumption.
  - apply (m_last num [] [] [] [] (tx "b\n") [98; 10]%N (JText []) (q ++ q)); try assumption.
    + apply b_raw; [lia|]. apply (b_esc 10%N 110%N); [constructor|discriminate|discriminate|constructor].
    + apply (v_text num [] []). constructor.
Qed.
(** What is read that is not of the language, or not read. *)
Theorem C66_open_end_refuted : exists s, s = tx "{" ++ q ++ tx "a" ++ q ++ tx ":1}}]" /\
  json_parse (fun n => n) (read_number 46 44) (fun _ => []) s = Ok (PValue (JMap [(tx "a", JNum (of_Z 1))])).
Proof. eexists. split; [reflexivity|vm_compute; reflexivity]. Qed.
Print Assumptions C66_open_end_refuted.
Theorem C66_key_alone_refuted : exists s, s = tx "{" ++ q ++ tx "a" ++ q ++ tx "}" /\
  json_parse (fun n => n) (read_number 46 44) (fun _ => []) s = UB.
Proof. eexists. split; [reflexivity|vm_compute; reflexivity]. Qed.
Print Assumptions C66_key_alone_refuted.
(** In 108 of the 114 dictionaries the point separates thousands: 1.5 is read as 15. *)
Theorem C66_fraction_refuted : exists s, s = tx "{" ++ q ++ tx "a" ++ q ++ tx ":1.5}" /\
  json_parse (fun n => n) (read_number 44 46) (fun _ => []) s = Ok (PValue (JMap [(tx "a", JNum (of_Z 15))])).
Proof. eexists. split; [reflexivity|vm_compute; reflexivity]. Qed.
Print Assumptions C66_fraction_refuted.
(** Escapes of JSON that are kept as they are. *)
Theorem C66_unicode_refuted : exists s, s = tx "{" ++ q ++ tx "a" ++ q ++ tx ":" ++ q ++ tx "\u0041\/" ++ q ++ tx "}" /\
  json_parse (fun n => n) (read_number 46 44) (fun _ => []) s = Ok (PValue (JMap [(tx "a", JText (tx "\u0041\/"))])).
Proof. eexists. split; [reflexivity|vm_compute; reflexivity]. Qed.
Print Assumptions C66_unicode_refuted.

(** * C67 *)
Theorem C67_there_and_back_partial : forall room d t name kvs, (forall n, 0 <= n -> n <= room n)%Z ->
  sep_ok [d] -> sep_ok [t] -> d <> t -> fit (whole_for t) JTop (JMap kvs) ->
  exists j v, json_jsonify room (show_number d t) (JMap kvs) = Ok j /\
    json_parse room (read_number d t) name j = Ok (PValue v) /\ same (JMap kvs) v.
Proof. exact there_and_back_whole. Qed.
Print Assumptions C67_there_and_back_partial.
(** The same for any numbers whose texts are numerals that are read as these numbers. *)
Theorem C67_any_numbers_partial : forall room show readn name kvs, (forall n, 0 <= n -> n <= room n)%Z ->
  fit (fun x => exists t, show x = Ok t /\ numeral_shape t /\ readn t = Ok x) JTop (JMap kvs) ->
  exists t v, json_jsonify room show (JMap kvs) = Ok t /\ json_parse room readn name t = Ok (PValue v) /\ same (JMap kvs) v.
Proof. exact there_and_back. Qed.
Print Assumptions C67_any_numbers_partial.
Definition sample_map : list (text * jv) :=
  [(tx "k", JList [JText [34; 10]%N; JNil; JMap [(tx "x", JBool false)]]); ([92]%N, JNum (of_Z (-999)))].
Example C67_there_and_back_case : fit (whole_for 44) JTop (JMap sample_map) /\
  json_jsonify (fun n => n) (show_number 46 44) (JMap sample_map) =
  Ok (tx "{" ++ q ++ tx "k" ++ q ++ tx ":[" ++ q ++ [92; 34; 10]%N ++ q ++ tx ",null,{" ++ q ++ tx "x" ++ q ++ tx ":false}], " ++ q ++ tx "\\" ++ q ++ tx ":-999}") /\
  json_parse (fun n => n) (read_number 46 44) (fun _ => []) 
    (tx "{" ++ q ++ tx "k" ++ q ++ tx ":[" ++ q ++ [92; 34; 10]%N ++ q ++ tx ",null,{" ++ q ++ tx "x" ++ q ++ tx ":false}], " ++ q ++ tx "\\" ++ q ++ tx ":-999}")
  = Ok (PValue (JMap (rev sample_map))).
Proof.
  split; [|split; vm_compute; reflexivity].
  assert (CL : forall c, c <> 0%N -> c <> 12%N -> clean [c]).
  { intros c H0 H1. split; [intros [A|[]]; auto|]. split; [intros [A|[]]; auto|].
    intros (u & x & v & E & _). destruct u as [|a [|b u]]; discriminate E. }
  apply f_map.
  - cbn. repeat (constructor; [cbn; intuition discriminate|]). constructor.
  - constructor; [|constructor; [|constructor]]; cbn [fst snd].
    + split; [now apply CL|]. apply f_list. constructor; [|constructor; [|constructor; [|constructor]]].
      * apply f_text_elem. split; cbn; intuition discriminate.
      * apply f_nil.
      * apply f_map; [repeat constructor; easy|]. constructor; [|constructor]. split; [now apply CL|apply f_bool].
    + split; [now apply CL|]. apply f_num. exists (-999)%Z. split; [reflexivity|]. lia.
Qed.
(** Values that do not come back: a number of four digits with a thousands separator that is a
    comma, a newline in a text of a list of lists, a form feed. *)
Theorem C67_thousand_refuted : exists m j, json_jsonify (fun n => n) (show_number 46 44) m = Ok j /\
  m = JMap [(tx "a", JList [JNum (of_Z 1000)])] /\
  json_parse (fun n => n) (read_number 46 44) (fun _ => []) j = Ok (PValue (JMap [(tx "a", JList [JNum (of_Z 1); JNum (of_Z 0)])])).
Proof. eexists _, (tx "{" ++ q ++ tx "a" ++ q ++ tx ":[1,000]}"). split; [|split; [reflexivity|]]; vm_compute; reflexivity. Qed.
Print Assumptions C67_thousand_refuted.
Theorem C67_nested_list_refuted : exists m j, m = JMap [(tx "a", JList [JList [JBool true]])] /\
  json_jsonify (fun n => n) (show_number 46 44) m = Ok j /\
  json_parse (fun n => n) (read_number 46 44) (fun _ => []) j = Ok (PValue (JMap [(tx "a", JList [JMap []])])).
Proof. eexists _, (tx "{" ++ q ++ tx "a" ++ q ++ tx ":[{}]}"). split; [reflexivity|]. split; vm_compute; reflexivity. Qed.
Print Assumptions C67_nested_list_refuted.
Theorem C67_list_text_refuted : exists m j, m = JMap [(tx "a", JList [JText (tx "\t")])] /\
  json_jsonify (fun n => n) (show_number 46 44) m = Ok j /\
  json_parse (fun n => n) (read_number 46 44) (fun _ => []) j = Ok (PValue (JMap [(tx "a", JList [JText [9%N]])])).
Proof. eexists _, (tx "{" ++ q ++ tx "a" ++ q ++ tx ":[" ++ q ++ tx "\t" ++ q ++ tx "]}"). split; [reflexivity|]. split; vm_compute; reflexivity. Qed.
Print Assumptions C67_list_text_refuted.
Theorem C67_form_feed_refuted : exists m j, m = JMap [(tx "a", JText [12%N])] /\
  json_jsonify (fun n => n) (show_number 46 44) m = Ok j /\
  json_parse (fun n => n) (read_number 46 44) (fun _ => []) j = Ok PError.
Proof. eexists _, (tx "{" ++ q ++ tx "a" ++ q ++ tx ":" ++ q ++ [92; 12]%N ++ q ++ tx "}"). split; [reflexivity|]. split; vm_compute; reflexivity. Qed.
Print Assumptions C67_form_feed_refuted.

(** * C68 *)
Theorem C68_tokens : forall js,
  (exists e, jsmn_count (S (length js)) js 0 0 = JFail e []) \/
  exists s l0, jsmn_count (S (length js)) js 0 0 = JDone s l0 /\
    ((exists l, jsmn_loop (S (length js)) s js 0 None [] 0 = JDone s l /\ length l = s) \/
     (exists e l, jsmn_loop (S (length js)) s js 0 None [] 0 = JFail e l /\ e <> ENomem /\ length l <= s)).
Proof. exact tokeniser. Qed.
Print Assumptions C68_tokens.
Example C68_tokens_case :
  jsmn_count 40 (tx "{[]}}") 0 0 = JDone 2 [] /\
  (exists l, jsmn_loop 40 2 (tx "[{}, 1 ") 0 None [] 0 = JFail ENomem l) /\
  jsmn_loop 40 2 (tx "{[]}}") 0 None [] 0 = JFail EInval [mkTok TObject 0 (Some 4) 1 None; mkTok TArray 1 (Some 3) 0 (Some 0)].
Proof. split; [vm_compute; reflexivity|]. split; [eexists; vm_compute; reflexivity|vm_compute; reflexivity]. Qed.
