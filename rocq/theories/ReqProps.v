(** Property theorems about the Request plug-in (C80-C84). *)
From Coq Require Import String.
From Verif Require Import Common Txt NumSpec NumModel ProgSpec ReqSpec ReqModel ReqProofs.
Local Open Scope N_scope.
Local Notation length := List.length.
Local Notation "'tx' s" := (lit s%string) (at level 8, s at level 0).

(** * C80: fields of the address *)
Theorem C80_query : forall mk r s q fs n, begin mk r = Ok s -> r_query r = Some q -> query_of fs q -> no_zero n ->
  request_string (s_get s) n = value_of n fs /\ request_array (s_get s) n = values_of n fs.
Proof. exact query_fields_msg. Qed.
Print Assumptions C80_query.
(** Any other query string is read as [query_fields] says; no more memory is written than was reserved. *)
Theorem C80_any_query : forall mk r s q n, begin mk r = Ok s -> r_query r = Some q -> no_zero n ->
  request_string (s_get s) n = value_of n (query_fields q) /\ request_array (s_get s) n = values_of n (query_fields q).
Proof. exact query_msg. Qed.
Print Assumptions C80_any_query.
Theorem C80_no_query : forall mk r s n, begin mk r = Ok s -> r_query r = None ->
  request_string (s_get s) n = None /\ request_array (s_get s) n = [].
Proof. exact query_none. Qed.
Print Assumptions C80_no_query.
(** Every request is read to its end without undefined behaviour, provided that the length is a number that fits. *)
Theorem C80_safe : forall mk r, (forall t, r_clen r = Some t -> exists n, in_digits t n /\ (n < INT_MAX)%Z) -> exists s, begin mk r = Ok s.
Proof. exact begin_ok. Qed.
Print Assumptions C80_safe.
Definition no_files : nat -> option text := fun _ => None.
Definition get_request (q : text) : request := mkReq (Some q) None None None [].
(** a=1&b=%41+B&a=2&c *)
Example C80_example : exists s, begin no_files (get_request (tx "a=1&b=%41+B&a=2&c")) = Ok s /\
  query_of [(tx "a", tx "1"); (tx "b", tx "A B"); (tx "a", tx "2"); (tx "c", [])] (tx "a=1&b=%41+B&a=2&c") /\
  request_string (s_get s) (tx "a") = Some (tx "1") /\ request_array (s_get s) (tx "a") = [tx "1"; tx "2"] /\
  request_string (s_get s) (tx "b") = Some (tx "A B") /\ request_string (s_get s) (tx "c") = Some [] /\
  request_string (s_get s) (tx "d") = None.
Proof.
  eexists. split; [vm_compute; reflexivity|]. split; [|vm_compute; repeat split].
  exists [tx "a=1"; tx "b=%41+B"; tx "a=2"; tx "c"]. split; [|reflexivity].
  assert (R : forall c, existsb (N.eqb c) [0; 37; 38; 43; 61] = false -> raw_name c).
  { intros c H HI. assert (existsb (N.eqb c) [0; 37; 38; 43; 61] = true) by (apply existsb_exists; exists c; split; [exact HI|apply N.eqb_refl]). congruence. }
  assert (R' : forall c, existsb (N.eqb c) [0; 37; 38; 43] = false -> raw_value c).
  { intros c H HI. assert (existsb (N.eqb c) [0; 37; 38; 43] = true) by (apply existsb_exists; exists c; split; [exact HI|apply N.eqb_refl]). congruence. }
  assert (Z : forall t, existsb (N.eqb 0) t = false -> no_zero t).
  { intros t H HI. assert (existsb (N.eqb 0) t = true) by (apply existsb_exists; exists 0; split; [exact HI|reflexivity]). congruence. }
  assert (E1 : forall c, existsb (N.eqb c) [0; 37; 38; 43; 61] = false -> encodes raw_name [c] [c]) by (intros; apply enc_raw; [apply R; assumption|apply enc_nil]).
  assert (E2 : forall c, existsb (N.eqb c) [0; 37; 38; 43] = false -> encodes raw_value [c] [c]) by (intros; apply enc_raw; [apply R'; assumption|apply enc_nil]).
  constructor; [apply (wf_both (tx "a") (tx "1") (tx "a") (tx "1")); try discriminate; try (apply Z; reflexivity); [apply E1|apply E2]; reflexivity|].
  constructor; [apply (wf_both (tx "b") (tx "A B") (tx "b") (tx "%41+B")); try discriminate; try (apply Z; reflexivity); [apply E1; reflexivity|]|].
  { apply (enc_hex _ 65 _ _ 52 49 4 1); [left; lia|left; lia|reflexivity|]. apply enc_space. apply E2. reflexivity. }
  constructor; [apply (wf_both (tx "a") (tx "2") (tx "a") (tx "2")); try discriminate; try (apply Z; reflexivity); [apply E1|apply E2]; reflexivity|].
  constructor; [|constructor]. apply (wf_alone (tx "c") (tx "c")); try discriminate; try (apply Z; reflexivity). apply E1. reflexivity.
Qed.
(** A field without a name: its value becomes a name. *)
Theorem C80_no_name_refuted : exists x, let q := tx "=" ++ x in
  forall s, begin no_files (get_request q) = Ok s -> request_array (s_get s) [] = [] /\ request_string (s_get s) x = Some [].
Proof. exists (tx "secret"). cbv zeta. intros s H. vm_compute in H. injection H as <-. vm_compute. split; reflexivity. Qed.
Print Assumptions C80_no_name_refuted.
(** A NUL byte in a value: the rest is lost. *)
Theorem C80_zero_refuted : exists x e s, encodes raw_value x e /\ begin no_files (get_request (tx "a=" ++ e)) = Ok s /\
  request_string (s_get s) (tx "a") <> Some x /\ request_string (s_get s) (tx "a") = Some (tx "cat").
Proof.
  exists (tx "cat" ++ [0] ++ tx ".gif"), (tx "cat%00.gif"). eexists. split.
  - repeat (apply enc_raw; [vm_compute; intuition discriminate|]).
    apply (enc_hex _ 0 _ _ 48 48 0 0); [left; lia|left; lia|reflexivity|].
    repeat (apply enc_raw; [vm_compute; intuition discriminate|]). apply enc_nil.
  - split; [vm_compute; reflexivity|]. split; [vm_compute; discriminate|vm_compute; reflexivity].
Qed.
Print Assumptions C80_zero_refuted.

(** * C81: cookies *)
Theorem C81_cookies_partial : forall mk r s ks n, begin mk r = Ok s -> r_cookie r = Some (cookies_text ks) -> Forall cookie_ok ks -> no_zero n ->
  request_string (s_cookie s) n = value_of n (cookie_fields ks) /\ request_array (s_cookie s) n = values_of n (cookie_fields ks).
Proof. exact cookie_msg. Qed.
Print Assumptions C81_cookies_partial.
Definition cookie_request (t : text) : request := mkReq None (Some t) None None [].
Example C81_example : exists s, let ks := [(tx "id", tx "x7", None); (tx "name", tx "a; b", Some 34); (tx "e", [], None); (tx "id", tx "=", None)] in
  cookies_text ks = tx "id=x7; name=""a; b""; e=; id==" /\ Forall cookie_ok ks /\
  begin no_files (cookie_request (cookies_text ks)) = Ok s /\
  request_string (s_cookie s) (tx "name") = Some (tx "a; b") /\ request_array (s_cookie s) (tx "id") = [tx "x7"; tx "="] /\
  request_string (s_cookie s) (tx "e") = Some [].
Proof.
  eexists. cbv zeta. split; [reflexivity|]. split; [|split; [vm_compute; reflexivity|vm_compute; repeat split]].
  assert (N1 : forall c n, existsb (N.eqb 61) (c :: n) = false -> existsb (N.eqb 0) (c :: n) = false -> c <> 32 -> c <> 9 -> cookie_name (c :: n)).
  { intros c n H1 H2 H3 H4. split; [discriminate|].
    split; [intros HI; assert (existsb (N.eqb 61) (c :: n) = true) by (apply existsb_exists; exists 61; split; [exact HI|reflexivity]); congruence|].
    split; [intros HI; assert (existsb (N.eqb 0) (c :: n) = true) by (apply existsb_exists; exists 0; split; [exact HI|reflexivity]); congruence|].
    intros d r E. injection E as <- _. split; assumption. }
  repeat (apply Forall_cons || apply Forall_nil); (split; [apply N1; vm_compute; try reflexivity; discriminate|]).
  - split; [intros c Hc; vm_compute in Hc |- *; intuition (subst; discriminate)|intros c r E; injection E as <- _; vm_compute; intuition discriminate].
  - split; [vm_compute; tauto|]. split; vm_compute; intuition discriminate.
  - split; [intros c Hc HI; destruct HI|intros c r E; discriminate].
  - split; [intros c Hc; vm_compute in Hc |- *; intuition (subst; discriminate)|intros c r E; injection E as <- _; vm_compute; intuition discriminate].
Qed.
(** the characters of which the value of a cookie may consist according to RFC 6265 *)
Definition cookie_octet (c : N) : Prop :=
  c = 33 \/ 35 <= c <= 43 \/ 45 <= c <= 58 \/ 60 <= c <= 91 \/ 93 <= c <= 126.
(** A value that begins with an apostrophe takes all later cookies away. *)
Theorem C81_apostrophe_refuted : exists x s, Forall cookie_octet x /\
  begin no_files (cookie_request (tx "a=" ++ x ++ tx "; b=2")) = Ok s /\
  request_string (s_cookie s) (tx "a") = None /\ request_string (s_cookie s) (tx "b") = None.
Proof.
  exists [39; 116; 105; 115]. eexists.                                 (* 'tis *)
  split; [repeat (apply Forall_cons; [unfold cookie_octet; lia|]); apply Forall_nil|]. split; [vm_compute; reflexivity|]. vm_compute. split; reflexivity.
Qed.
Print Assumptions C81_apostrophe_refuted.
(** A cookie without a value, and a space in a value, hide the next cookie. *)
Theorem C81_no_value_refuted : exists t s, t = tx "flag; b=2" /\ begin no_files (cookie_request t) = Ok s /\
  request_string (s_cookie s) (tx "b") = None /\ request_string (s_cookie s) (tx "flag; b") = Some (tx "2").
Proof. do 2 eexists. split; [reflexivity|]. split; [vm_compute; reflexivity|]. vm_compute. split; reflexivity. Qed.
Print Assumptions C81_no_value_refuted.
Theorem C81_space_refuted : exists t s, t = tx "a=1 2; b=3" /\ begin no_files (cookie_request t) = Ok s /\
  request_string (s_cookie s) (tx "a") = Some (tx "1") /\ request_string (s_cookie s) (tx "b") = None.
Proof. do 2 eexists. split; [reflexivity|]. split; [vm_compute; reflexivity|]. vm_compute. split; reflexivity. Qed.
Print Assumptions C81_space_refuted.

(** * C82: fields that are posted *)
Theorem C82_post : forall mk r body extra t params fs, query_of fs body -> in_digits t (Z.of_nat (length body)) -> (Z.of_nat (length body) < INT_MAX)%Z ->
  r_ctype r = Some (form_urlencoded ++ params) -> r_clen r = Some t -> r_in r = body ++ extra ->
  exists s, begin mk r = Ok s /\ s_ups s = [] /\
    forall n, no_zero n -> request_string (s_post s) n = value_of n fs /\ request_array (s_post s) n = values_of n fs.
Proof. exact post_request. Qed.
Print Assumptions C82_post.
(** A body that is cut off is not read at all. *)
Theorem C82_cut_off : forall mk r t k params, in_digits t k -> (Z.of_nat (length (r_in r)) < k < INT_MAX)%Z ->
  r_ctype r = Some (form_urlencoded ++ params) -> r_clen r = Some t ->
  exists s, begin mk r = Ok s /\ s_ups s = [] /\ forall n, request_string (s_post s) n = None /\ request_array (s_post s) n = [].
Proof. exact post_short_request. Qed.
Print Assumptions C82_cut_off.
Definition post_request (len body : text) : request := mkReq None None (Some (form_urlencoded ++ tx "; charset=UTF-8")) (Some len) body.
Example C82_example : exists s, begin no_files (post_request (tx "6") (tx "x=1&y=more")) = Ok s /\
  request_string (s_post s) (tx "x") = Some (tx "1") /\ request_string (s_post s) (tx "y") = Some [] /\
  query_fields (tx "x=1&y=") = [(tx "x", tx "1"); (tx "y", [])].
Proof. eexists. split; [vm_compute; reflexivity|]. vm_compute. repeat split. Qed.
Example C82_example_cut : exists s, begin no_files (post_request (tx "12") (tx "x=1&y=more")) = Ok s /\ request_string (s_post s) (tx "x") = None.
Proof. eexists. split; vm_compute; reflexivity. Qed.
(** A length of 2147483647 is undefined behaviour; so is one that does not fit. *)
Theorem C82_length_refuted : exists t, digits t /\ begin no_files (post_request t (tx "x=1")) = UB.
Proof. exists (tx "2147483647"). split; [repeat constructor; vm_compute; discriminate|vm_compute; reflexivity]. Qed.
Print Assumptions C82_length_refuted.

(** * C83: forms with uploads *)
Theorem C83_form_partial : forall mk r b q ps, boundary_ok b -> Forall (part_ok b) ps -> r_ctype r = Some (form_type b q) -> r_in r = form_body b ps ->
  exists s, begin mk r = Ok s /\ s_ups s = snd (form_fields mk 0 ps) /\
    forall n, no_zero n -> request_string (s_post s) n = value_of n (fst (form_fields mk 0 ps)) /\
      request_array (s_post s) n = values_of n (fst (form_fields mk 0 ps)) /\
      request_file (s_post s) n = match values_of n (fst (form_fields mk 0 ps)) with x :: y :: r => x :: y :: r | _ => [] end.
Proof. exact multi_request. Qed.
Print Assumptions C83_form_partial.
(** The value of a part ends at the first boundary, wherever parts of the boundary occur before. *)
Theorem C83_value : forall b x rest, b <> [] -> ~ In 13 b -> (forall c, In c b -> 0 < c < 128) -> ~ occurs_in (13 :: b) x ->
  copyvalue (13 :: b) (x ++ (13 :: b) ++ rest) = (x, rest).
Proof. exact copyvalue_ok. Qed.
Print Assumptions C83_value.
Definition tmp (k : nat) : option text := match k with O => Some (tx "/tmp/_upAAAAAA") | S O => None | _ => Some (tx "/tmp/_upBBBBBB") end.
Definition some_parts : list part :=
  [Field (tx "who") (tx "me" ++ crlf ++ tx "--XY"); Upload (tx "doc") (tx "a.bin") (Some (tx "application/x; v=1")) ([0; 13; 10; 255] ++ tx "--XYZ");
   Upload (tx "none") [] None []; Field (tx "last") []].
Definition multi (ctype body : text) : request := mkReq None None (Some ctype) (Some (tx "999")) body.
Lemma some_parts_ok : boundary_ok (tx "XYZ") /\ Forall (part_ok (tx "XYZ")) some_parts.
Proof.
  assert (O : forall x, existsb (fun k => text_eqb (firstn 7 (skipn k x)) (crlf ++ tx "--XYZ")) (seq 0 (S (length x))) = false -> ~ occurs_in (crlf ++ tx "--XYZ") x).
  { intros x H (u & v & E). assert (existsb (fun k => text_eqb (firstn 7 (skipn k x)) (crlf ++ tx "--XYZ")) (seq 0 (S (length x))) = true); [|congruence].
    apply existsb_exists. exists (length u). split.
    - apply in_seq. rewrite E, app_length. lia.
    - rewrite E, skipn_app, Nat.sub_diag, skipn_all. reflexivity. }
  assert (Q : forall t, existsb (fun c => existsb (N.eqb c) t) [0; 10; 34] = false -> quotable t).
  { intros t H c Hc HI. assert (existsb (fun c => existsb (N.eqb c) t) [0; 10; 34] = true); [|congruence].
    apply existsb_exists. exists c. split; [exact Hc|]. apply existsb_exists. exists c. split; [exact HI|apply N.eqb_refl]. }
  split.
  - split; [discriminate|]. intros c Hc. vm_compute in Hc. split; [intuition (subst; lia)|]. vm_compute. intuition (subst; discriminate).
  - unfold some_parts. repeat (apply Forall_cons || apply Forall_nil); (split; [apply O; vm_compute; reflexivity|]).
    + split; [apply Q; reflexivity|vm_compute; intuition discriminate].
    + split; [apply Q; reflexivity|]. split; [apply Q; reflexivity|]. intros t E. injection E as <-. split; vm_compute; intuition discriminate.
    + split; [apply Q; reflexivity|]. split; [apply Q; reflexivity|]. intros t E. discriminate.
    + split; [apply Q; reflexivity|vm_compute; intuition discriminate].
Qed.
Example C83_example : exists s, begin tmp (multi (form_type (tx "XYZ") true) (form_body (tx "XYZ") some_parts)) = Ok s /\
  request_string (s_post s) (tx "who") = Some (tx "me" ++ crlf ++ tx "--XY") /\ request_file (s_post s) (tx "doc") = [tx "/tmp/_upAAAAAA"; tx "a.bin"] /\
  s_ups s = [(tx "/tmp/_upAAAAAA", [0; 13; 10; 255] ++ tx "--XYZ")] /\ request_string (s_post s) (tx "none") = None /\
  request_string (s_post s) (tx "last") = Some [].
Proof. eexists. split; [vm_compute; reflexivity|]. vm_compute. repeat split. Qed.
(** A parameter in front of the boundary: the form is ignored. *)
Theorem C83_charset_refuted : exists ctype s, ctype = tx "multipart/form-data; charset=utf-8; boundary=XYZ" /\
  begin tmp (multi ctype (form_body (tx "XYZ") some_parts)) = Ok s /\ s_post s = [].
Proof. do 2 eexists. split; [reflexivity|]. split; vm_compute; reflexivity. Qed.
Print Assumptions C83_charset_refuted.
(** An upload that breaks off is kept and told like a complete one; if it breaks off in the boundary, bytes are missing. *)
Theorem C83_cut_off_refuted : exists p body rest s, p = Upload (tx "doc") (tx "a.bin") (Some (tx "text/plain")) (tx "twelve" ++ crlf ++ tx "letters") /\
  form_body (tx "XYZ") [p] = body ++ rest /\ body = tx "--XYZ" ++ crlf ++ part_head p ++ tx "twelve" ++ crlf /\
  begin tmp (multi (form_type (tx "XYZ") false) body) = Ok s /\
  request_file (s_post s) (tx "doc") = [tx "/tmp/_upAAAAAA"; tx "a.bin"] /\ s_ups s = [(tx "/tmp/_upAAAAAA", tx "twelve")].
Proof. do 4 eexists. split; [reflexivity|]. split; [|split; [reflexivity|]]; [instantiate (1 := tx "letters" ++ crlf ++ tx "--XYZ--" ++ crlf); reflexivity|].
  split; [vm_compute; reflexivity|]. vm_compute. split; reflexivity. Qed.
Print Assumptions C83_cut_off_refuted.

(** * C84: files that were uploaded *)
Theorem C84_file_partial : forall mk r b q ps1 n f ct x ps2, boundary_ok b -> Forall (part_ok b) (ps1 ++ Upload n f ct x :: ps2) -> f <> [] ->
  Forall (fun p => part_name p <> n) ps1 -> Forall (fun p => part_name p <> n) ps2 ->
  r_ctype r = Some (form_type b q) -> r_in r = form_body b (ps1 ++ Upload n f ct x :: ps2) ->
  exists s, begin mk r = Ok s /\
    match mk (uploads ps1) with
    | Some path => request_file (s_post s) n = [path; f] /\ In (path, x) (s_ups s)
    | None => request_file (s_post s) n = []
    end.
Proof. exact upload_request. Qed.
Print Assumptions C84_file_partial.
(** Two ordinary fields of the same name are told as a file: whoever sends the request chooses the path. *)
Theorem C84_path_refuted : exists body len s, body = tx "doc=/etc/passwd&doc=a.bin" /\ in_digits len (Z.of_nat (length body)) /\
  begin tmp (post_request len body) = Ok s /\ s_ups s = [] /\ request_file (s_post s) (tx "doc") = [tx "/etc/passwd"; tx "a.bin"].
Proof.
  exists (tx "doc=/etc/passwd&doc=a.bin"), (tx "25"). eexists. split; [reflexivity|].
  split; [split; [discriminate|split; [repeat constructor; vm_compute; discriminate|reflexivity]]|].
  split; [vm_compute; reflexivity|]. vm_compute. split; reflexivity.
Qed.
Print Assumptions C84_path_refuted.
