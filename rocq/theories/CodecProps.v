(** C126, C127, C128: the codes of the CGI library. *)
From Coq Require Import String.
From Verif Require Import Common Txt ReqSpec ReqModel CodecSpec CodecModel CodecProofs CodecMore.
Local Open Scope N_scope.
Local Notation length := List.length.
Local Notation "'tx' s" := (lit s%string) (at level 8, s at level 0).
Lemma in_int_fits n : in_int n -> fits n = true.
Proof. intros H. now apply Z.leb_le. Qed.

(** ** C126 *)
(** A text is encoded as addresses are, with letters, digits and the letters the caller names left as they are; decoding gives it back. *)
Theorem C126_url_partial : forall keep p, bytes p -> safe_keep keep -> in_int (3 * length p + 1) ->
  exists e, encode_url keep p = Ok e /\ encodes (raw_of keep) p e /\ decode_url e = Ok p.
Proof. intros keep p B S F. apply url_round; [exact B|exact S|now apply in_int_fits]. Qed.
Print Assumptions C126_url_partial.
(** Any text, encoded or not, is decoded within the memory that was reserved. *)
Theorem C126_decode : forall p, in_int (length p + 1) -> decode_url p = Ok (unescaped p).
Proof. intros p F. apply decode_url_ok. now apply in_int_fits. Qed.
Print Assumptions C126_decode.
(** A query string made of names and values is read as these names and values. *)
Theorem C126_query_partial : forall keep fs, safe_keep keep -> fs <> [] -> Forall good_field fs -> in_int (sizes fs) ->
  exists q v, encode_query keep (flat fs) = Ok (Some q) /\ query_of fs q /\ decode_query [] q = Ok v /\
    forall n, lookup v n = value_of n fs /\ lookup_all v n = match values_of n fs with [] => None | xs => Some xs end.
Proof. intros keep fs S N F Z. apply query_round; try assumption. now apply in_int_fits. Qed.
Print Assumptions C126_query_partial.
(** A list of variables that is written as a query string and read again is the same. *)
Theorem C126_varlist_partial : forall keep v, safe_keep keep -> v <> [] -> good_vars v -> in_int (sizes (listed v)) ->
  exists q, encode_varlist keep v = Ok (Some q) /\ decode_query [] q = Ok v.
Proof. intros keep v S N G Z. apply varlist_round; try assumption. now apply in_int_fits. Qed.
Print Assumptions C126_varlist_partial.
Lemma nz t : existsb (N.eqb 0) t = false -> no_zero t.
Proof. intros H HI. assert (existsb (N.eqb 0) t = true) by (apply existsb_exists; exists 0; split; [exact HI|reflexivity]). congruence. Qed.
Lemma bts t : forallb (fun c => c <? 256) t = true -> bytes t.
Proof. intros H. apply Forall_forall. intros c I. rewrite forallb_forall in H. now apply N.ltb_lt, H. Qed.
Lemma gf f : fst f <> [] -> existsb (N.eqb 0) (fst f ++ snd f) = false -> forallb (fun c => c <? 256) (fst f ++ snd f) = true -> good_field f.
Proof.
  intros N Z B. rewrite existsb_app in Z. apply orb_false_iff in Z as [Z1 Z2]. rewrite forallb_app in B. apply andb_true_iff in B as [B1 B2]. repeat split; try (apply nz; assumption); try (apply bts; assumption). exact N.
Qed.
Example C126_case : let fs := [(tx "a b", tx "1&2=3%"); (tx "c", []); (tx "a b", [195; 169; 10])] in
  encode_query (Some (tx "-_.")) (flat fs) = Ok (Some (tx "a+b=1%262%3D3%25&c=&a+b=%C3%A9%0A")) /\
  exists v, decode_query [] (tx "a+b=1%262%3D3%25&c=&a+b=%C3%A9%0A") = Ok v /\ lookup_all v (tx "a b") = Some [tx "1&2=3%"; [195; 169; 10]] /\
    encode_varlist (Some (tx "-_.")) v = Ok (Some (tx "a+b=1%262%3D3%25&a+b=%C3%A9%0A&c=")) /\ decode_query [] (tx "a+b=1%262%3D3%25&a+b=%C3%A9%0A&c=") = Ok v.
Proof.
  cbv zeta. split; [vm_compute; reflexivity|].
  destruct (C126_query_partial (Some (tx "-_.")) [(tx "a b", tx "1&2=3%"); (tx "c", []); (tx "a b", [195; 169; 10])]) as (q & v & E & Q & D & L).
  - cbn. intros c I. vm_compute in I. vm_compute. intuition (subst; discriminate).
  - discriminate.
  - repeat (apply Forall_cons; [apply gf; vm_compute; (discriminate || reflexivity)|]). apply Forall_nil.
  - vm_compute. discriminate.
  - assert (EQ : q = tx "a+b=1%262%3D3%25&c=&a+b=%C3%A9%0A") by (vm_compute in E; injection E as <-; reflexivity). subst q. exists v. split; [exact D|]. split; [apply L|].
    assert (EV : v = [(tx "a b", [tx "1&2=3%"; [195; 169; 10]]); (tx "c", [[]])]) by (vm_compute in D; injection D as <-; reflexivity). subst v. split; vm_compute; reflexivity.
Qed.
(** A sign that is kept although it has a meaning changes the text. *)
Theorem C126_keep_refuted : exists keep p e p', encode_url (Some keep) p = Ok e /\ decode_url e = Ok p' /\ p' <> p.
Proof. exists (tx "%"), (tx "100%41"), (tx "100%41"), (tx "100A"). split; [vm_compute; reflexivity|]. split; [vm_compute; reflexivity|discriminate]. Qed.
Print Assumptions C126_keep_refuted.
(** A value without a name becomes a name. *)
Theorem C126_no_name_refuted : exists x q v, encode_query None [[]; x] = Ok (Some q) /\ decode_query [] q = Ok v /\ lookup v [] = None /\ lookup v x = Some [].
Proof. exists (tx "secret"), (tx "=secret"), [(tx "secret", [[]])]. repeat split; vm_compute; reflexivity. Qed.
Print Assumptions C126_no_name_refuted.

(** ** C127 *)
(** Base64 is that of the standard; decoding gives the bytes back. *)
Theorem C127_base64 : forall p, p <> [] -> bytes p -> in_int (4 * length p + 11) ->
  exists e, encode_base64 p = Ok (Some e) /\ e = base64 p /\ decode_base64 e = Ok p.
Proof. intros p N B F. apply base64_round; try assumption. now apply in_int_fits. Qed.
Print Assumptions C127_base64.
(** Any text is decoded within the memory that was reserved; what is not of the alphabet is passed over. *)
Theorem C127_decode : forall p, bytes p -> in_int (3 * length p + 3) -> decode_base64 p = Ok (unsixed (sextets p)).
Proof. intros p B F. apply decode_base64_ok; [exact B|now apply in_int_fits]. Qed.
Print Assumptions C127_decode.
Theorem C127_hex : forall p, p <> [] -> bytes p -> in_int (2 * length p + 1) -> exists e, encode_hex p = Ok (Some e) /\ hexed p e /\ decode_hex e = Ok (Some p).
Proof. intros p N B F. apply hex_round; try assumption. now apply in_int_fits. Qed.
Print Assumptions C127_hex.
(** Hexadecimal digits are decoded exactly if they are pairs of digits, small or capital. *)
Theorem C127_unhex : forall e, in_int (length e) -> (forall b, hexed b e -> decode_hex e = Ok (Some b)) /\ ((forall b, ~ hexed b e) -> decode_hex e = Ok None).
Proof. intros e F. apply in_int_fits in F. split; [intros b; now apply decode_hex_some|now apply decode_hex_none]. Qed.
Print Assumptions C127_unhex.
Example C127_case : encode_base64 (tx "light work.") = Ok (Some (tx "bGlnaHQgd29yay4=")) /\ decode_base64 (tx "bGlnaHQgd29yay4=") = Ok (tx "light work.") /\
  decode_base64 (tx "bGln" ++ [13; 10] ++ tx "aHQgd29yaw==") = Ok (tx "light work") /\ encode_hex [0; 255; 26] = Ok (Some (tx "00FF1A")) /\ decode_hex (tx "00ff1A") = Ok (Some [0; 255; 26]) /\
  decode_hex (tx "0") = Ok None /\ decode_hex (tx "0x") = Ok None /\ encode_base64 [] = Ok None.
Proof.
  destruct (C127_base64 (tx "light work.")) as (e & E & _ & D); [discriminate|apply bts; vm_compute; reflexivity|vm_compute; discriminate|].
  assert (EQ : e = tx "bGlnaHQgd29yay4=") by (vm_compute in E; injection E as <-; reflexivity). subst e. split; [exact E|]. split; [exact D|]. repeat split; vm_compute; reflexivity.
Qed.

(** ** C128 *)
(** A text is written with entities so that a browser shows just that text. *)
Theorem C128_entities : forall p, in_int (6 * length p + 1) -> encode_entity p = Ok (html p) /\ shown p (html p) /\ (forall t, shown t (html p) -> t = p).
Proof. intros p F. split; [apply encode_entity_ok; now apply in_int_fits|]. split; [apply html_shown|]. intros t S. eapply shown_one; [exact S|apply html_shown]. Qed.
Print Assumptions C128_entities.
(** Nothing in it can end a tag or an attribute. *)
Theorem C128_clean : forall p e c, encode_entity p = Ok e -> In c e -> ~ In c [60; 62; 34; 39; 10; 13].
Proof.
  intros p e c E I. unfold encode_entity in E. destruct (fits (entity_count p + 1)); [|discriminate E]. rewrite entity_loop_ok in E by (cbn; lia). injection E as <-. now apply (html_clean p).
Qed.
Print Assumptions C128_clean.
Example C128_case : encode_entity (tx "<a href='x'>" ++ [38; 34; 13; 10] ++ tx "&lt;") = Ok (tx "&lt;a href=&#39;x&#39;&gt;&amp;&quot;&#13;&#10;&amp;lt;").
Proof. vm_compute. reflexivity. Qed.
