(** Property theorems about texts (C01-C14, C51). *)
From Verif Require Import Common TextModel TextSpec Utf8Proofs TextProofs.

Local Ltac chars := repeat first [apply Forall_nil | apply Forall_cons]; first [now constructor | constructor; unfold cont; lia].

(** "hé€" *)
Definition ex_hee : list text := [[104]; [195; 169]; [226; 130; 172]]%N.
Lemma ex_hee_chars : Forall is_char ex_hee.
Proof. unfold ex_hee. chars. Qed.

(** * C01 *)
Theorem C01_length_counts_characters : forall cs o, Forall is_char cs -> fits (concat cs) ->
  string_length (mkT (concat cs) o) = Ok (Z.of_nat (length cs)).
Proof. exact string_length_wf. Qed.
Print Assumptions C01_length_counts_characters.
Theorem C01_length_additive : forall a b ca cb c,
  chars_of (tval a) ca -> chars_of (tval b) cb -> fits (tval a ++ tval b) ->
  string_concat a b = Ok c ->
  exists la lb, string_length a = Ok la /\ string_length b = Ok lb /\ string_length c = Ok (la + lb)%Z.
Proof. exact string_length_concat. Qed.
Print Assumptions C01_length_additive.
Example C01_example : Forall is_char ex_hee /\ fits (concat ex_hee) /\
  string_length (build_string (concat ex_hee)) = Ok 3%Z /\ string_bytes (build_string (concat ex_hee)) = 6.
Proof. repeat split; try exact ex_hee_chars; try (unfold fits, LONG_MAX; simpl; lia). Qed.

(** * C02 *)
Theorem C02_characters_partition : forall cs o, Forall is_char cs ->
  exists l, string_characters (mkT (concat cs) o) = Some (Ok l) /\ map tval l = cs /\ Forall owned_ok l.
Proof. exact string_characters_partition. Qed.
Print Assumptions C02_characters_partition.
Example C02_example : string_characters (build_string (concat ex_hee)) = Some (Ok (map build_string ex_hee)).
Proof. vm_compute. reflexivity. Qed.
(** A text ending inside a character (as read from a file or a pipe): memory
    behind the text is read. *)
Theorem C02_malformed_refuted : exists t, string_characters (build_string t) = Some UB.
Proof. exists [104; 195]%N. vm_compute. reflexivity. Qed.
Print Assumptions C02_malformed_refuted.

(** * C03 *)
(** In range, or in a text in which every character is one byte: exactly the requested characters. *)
Theorem C03_from_length_partial : forall cs t (n m : Z),
  Forall is_char cs -> tval t = concat cs -> owned_ok t -> (1 <= n)%Z -> (0 <= m)%Z ->
  (Z.of_nat (length (tval t)) + n + m <= LONG_MAX)%Z ->
  (m = 0 \/ length cs = length (tval t) \/ n - 1 + m <= Z.of_nat (length cs))%Z ->
  exists e, string_from_length t n m = Ok e /\
    tval (e_self e) = concat (firstn (Z.to_nat m) (skipn (Z.to_nat (n - 1)) cs)) /\
    owned_ok (e_self e) /\ (tval t <> [] -> e_lost e = false).
Proof. exact from_length_normal. Qed.
Print Assumptions C03_from_length_partial.
(** All other requests (at n >= 1, m > 0) read outside the text. *)
Theorem C03_from_length_overrun : forall cs t (n m : Z),
  Forall is_char cs -> tval t = concat cs -> (1 <= n)%Z -> (0 < m)%Z ->
  (Z.of_nat (length (tval t)) + n + m <= LONG_MAX)%Z ->
  length cs < length (tval t) -> (Z.of_nat (length cs) < n - 1 + m)%Z ->
  string_from_length t n m = UB.
Proof. exact from_length_overrun. Qed.
Print Assumptions C03_from_length_overrun.
(** "é" from: 1 length: 2 *)
Theorem C03_from_length_refuted : exists cs n m, Forall is_char cs /\ (1 <= n)%Z /\ (0 <= m)%Z /\
  string_from_length (build_string (concat cs)) n m = UB.
Proof. exists [[195; 169]]%N, 1%Z, 2%Z. split; [chars|]. split; [lia|]. split; [lia|]. vm_compute. reflexivity. Qed.
Print Assumptions C03_from_length_refuted.
Example C03_example : string_from_length (build_string (concat ex_hee)) 2 2 =
  Ok (mkE (mkT [195; 169; 226; 130; 172]%N true) false).
Proof. vm_compute. reflexivity. Qed.
Example C03_example_clip : string_from_length (build_string [104; 105]%N) 2 9 = Ok (mkE (mkT [105]%N true) false).
Proof. vm_compute. reflexivity. Qed.
(** Position 0: the start is moved to 1 but the length is kept, so "abc" from: 0 length: 2 is "ab". *)
Theorem C03_position_zero_refuted : exists t n m, is_ascii t /\
  (exists e, string_from_length (build_string t) n m = Ok e /\
   tval (e_self e) <> firstn (Z.to_nat (n - 1 + m)) t) /\ n = 0%Z /\ (0 < m)%Z.
Proof.
  exists [97; 98; 99]%N, 0%Z, 2%Z. split; [repeat constructor|]. split; [|split; [reflexivity|lia]].
  eexists. split; [vm_compute; reflexivity|]. vm_compute. discriminate.
Qed.
Print Assumptions C03_position_zero_refuted.
(** Negative lengths count backwards from position [n]; a start before the text is moved to
    its beginning without shortening the length. *)
Theorem C03_from_length_backward_partial : forall cs t (n m : Z),
  Forall is_char cs -> tval t = concat cs -> owned_ok t -> tval t <> [] -> (m < 0)%Z ->
  (- LONG_MAX <= n - 1 + m)%Z -> (n - 1 - m <= LONG_MAX)%Z ->
  (Z.of_nat (length (tval t)) - m <= LONG_MAX)%Z -> (- LONG_MAX <= n)%Z ->
  let a := Z.max 0 (n - 1 + m) in
  (length cs = length (tval t) \/ a - m <= Z.of_nat (length cs))%Z ->
  exists e, string_from_length t n m = Ok e /\
    tval (e_self e) = concat (firstn (Z.to_nat (- m)) (skipn (Z.to_nat a) cs)) /\
    owned_ok (e_self e) /\ e_lost e = false.
Proof. exact from_length_backward. Qed.
Print Assumptions C03_from_length_backward_partial.
Theorem C03_from_length_backward_overrun : forall cs t (n m : Z),
  Forall is_char cs -> tval t = concat cs -> (m < 0)%Z ->
  (- LONG_MAX <= n - 1 + m)%Z -> (n - 1 - m <= LONG_MAX)%Z ->
  (Z.of_nat (length (tval t)) - m <= LONG_MAX)%Z -> (- LONG_MAX <= n)%Z ->
  length cs < length (tval t) -> (Z.of_nat (length cs) < Z.max 0 (n - 1 + m) - m)%Z ->
  string_from_length t n m = UB.
Proof. exact from_length_backward_overrun. Qed.
Print Assumptions C03_from_length_backward_overrun.
(** "heé" from: 3 length: -2 *)
Example C03_example_backward : string_from_length (build_string [104; 101; 195; 169]%N) 3 (-2) =
  Ok (mkE (mkT [104; 101]%N true) false).
Proof. vm_compute. reflexivity. Qed.

(** * C04 *)
Theorem C04_offset_partial : forall cs t (n : Z),
  Forall is_char cs -> tval t = concat cs -> owned_ok t ->
  (Z.of_nat (length (tval t)) + Z.of_nat (length (tval t)) + 1 <= LONG_MAX)%Z -> (0 <= n)%Z ->
  (n <= Z.of_nat (length cs) \/ Z.of_nat (length (tval t)) <= n)%Z ->
  exists r, string_skip t n = Ok r /\ ans_text r = concat (skipn (Z.to_nat n) cs).
Proof. exact string_skip_ok. Qed.
Print Assumptions C04_offset_partial.
Theorem C04_offset_overrun : forall cs t (n : Z),
  Forall is_char cs -> tval t = concat cs ->
  (Z.of_nat (length (tval t)) + Z.of_nat (length (tval t)) + 1 <= LONG_MAX)%Z ->
  (Z.of_nat (length cs) < n < Z.of_nat (length (tval t)))%Z ->
  string_skip t n = UB.
Proof. exact string_skip_ub. Qed.
Print Assumptions C04_offset_overrun.
(** "éé" offset: 3 *)
Theorem C04_offset_refuted : exists cs n, Forall is_char cs /\ (0 <= n)%Z /\
  string_skip (build_string (concat cs)) n = UB.
Proof. exists [[195; 169]; [195; 169]]%N, 3%Z. split; [chars|]. split; [lia|]. vm_compute. reflexivity. Qed.
Print Assumptions C04_offset_refuted.
Example C04_example : exists r, string_skip (build_string (concat ex_hee)) 1 = Ok r /\ ans_text r = [195; 169; 226; 130; 172]%N.
Proof. eexists. split; vm_compute; reflexivity. Qed.

(** * C05 *)
Theorem C05_character_at : forall cs o (n : Z), Forall is_char cs -> fits (concat cs) -> (0 <= n <= LONG_MAX)%Z ->
  string_at (mkT (concat cs) o) n =
  Ok (if (n =? 0)%Z then None else option_map build_string (nth_error cs (Z.to_nat (n - 1)))).
Proof. exact string_at_wf. Qed.
Print Assumptions C05_character_at.
(** Negative positions are converted to [size_t]. *)
Theorem C05_negative_refuted : exists cs n, Forall is_char cs /\ (n < 0)%Z /\ string_at (build_string (concat cs)) n = UB.
Proof. exists ex_hee, (-1)%Z. split; [exact ex_hee_chars|]. split; [lia|]. reflexivity. Qed.
Print Assumptions C05_negative_refuted.
Example C05_example : string_at (build_string (concat ex_hee)) 2 = Ok (Some (build_string [195; 169]%N)) /\
  string_at (build_string (concat ex_hee)) 4 = Ok None /\ string_at (build_string (concat ex_hee)) 0 = Ok None.
Proof. vm_compute. auto. Qed.

(** * C06 *)
Theorem C06_equality_partial : forall a b, no_nul (tval a) -> no_nul (tval b) ->
  exists r, string_eq a b = Ok r /\ (r = true <-> tval a = tval b).
Proof. exact string_eq_no_nul. Qed.
Print Assumptions C06_equality_partial.
(** For all texts: equal means same length and same bytes in front of the first NUL. *)
Theorem C06_equality_exact : forall a b, exists r, string_eq a b = Ok r /\
  (r = true <-> length (tval a) = length (tval b) /\ upto_nul (tval a) = upto_nul (tval b)).
Proof. exact string_eq_char. Qed.
Print Assumptions C06_equality_exact.
Theorem C06_inequality_is_negation : forall a b, exists r, string_eq a b = Ok r /\ string_neq a b = Ok (negb r).
Proof. exact string_neq_char. Qed.
Print Assumptions C06_inequality_is_negation.
Theorem C06_equality_equivalence : forall a b c,
  string_eq a a = Ok true /\ string_eq a b = string_eq b a /\
  (string_eq a b = Ok true -> string_eq b c = Ok true -> string_eq a c = Ok true).
Proof. exact string_eq_equiv. Qed.
Print Assumptions C06_equality_equivalence.
Theorem C06_equality_refuted : exists a b, tval a <> tval b /\ string_eq a b = Ok true.
Proof. exists (build_string [65; 0; 66]%N), (build_string [65; 0; 67]%N). split; [discriminate|]. vm_compute. reflexivity. Qed.
Print Assumptions C06_equality_refuted.
Example C06_example : no_nul [104; 105]%N /\ string_eq (build_string [104; 105]%N) (build_string [104; 105]%N) = Ok true
  /\ string_eq (build_string [104; 105]%N) (build_string [104; 106]%N) = Ok false.
Proof. split; [repeat constructor; discriminate|]. vm_compute. auto. Qed.

(** * C07 *)
Theorem C07_compare_antisymmetric : forall a b, exists r, string_compare a b = Ok r /\ string_compare b a = Ok (- r)%Z.
Proof. exact compare_swap. Qed.
Print Assumptions C07_compare_antisymmetric.
(** Only the common length is looked at; there the order is the lexicographic one. *)
Theorem C07_compare_partial : forall a b, no_nul (tval a) ->
  exists r, string_compare a b = Ok r /\
    Z.sgn r = sgn_of (lex (firstn (length (tval b)) (tval a)) (firstn (length (tval a)) (tval b))).
Proof. exact compare_common_prefix. Qed.
Print Assumptions C07_compare_partial.
Theorem C07_compare_same_length : forall a b, no_nul (tval a) -> length (tval a) = length (tval b) ->
  exists r, string_compare a b = Ok r /\ Z.sgn r = sgn_of (lex (tval a) (tval b)).
Proof. exact compare_same_length. Qed.
Print Assumptions C07_compare_same_length.
Theorem C07_order_messages : forall a b, exists r, string_compare a b = Ok r /\
  string_before a b = Ok (r <? 0)%Z /\ string_after a b = Ok (0 <? r)%Z /\
  string_before_or_same a b = Ok (negb (0 <? r)%Z) /\ string_after_or_same a b = Ok (negb (r <? 0)%Z) /\
  string_before b a = Ok (0 <? r)%Z.
Proof. exact compare_derived. Qed.
Print Assumptions C07_order_messages.
(** "a" and "ab" compare as 0. *)
Theorem C07_compare_zero_refuted : exists a b, no_nul (tval a) /\ no_nul (tval b) /\ tval a <> tval b /\ string_compare a b = Ok 0%Z.
Proof.
  exists (build_string [97]%N), (build_string [97; 98]%N).
  split; [repeat constructor; discriminate|]. split; [repeat constructor; discriminate|]. split; [discriminate|]. reflexivity.
Qed.
Print Assumptions C07_compare_zero_refuted.
(** "ac" <= "a" <= "ab" but not "ac" <= "ab". *)
Theorem C07_compare_transitive_refuted : exists a b c,
  string_before_or_same a b = Ok true /\ string_before_or_same b c = Ok true /\ string_before_or_same a c = Ok false.
Proof. exists (build_string [97; 99]%N), (build_string [97]%N), (build_string [97; 98]%N). vm_compute. auto. Qed.
Print Assumptions C07_compare_transitive_refuted.
Example C07_example : string_compare (build_string [97; 98]%N) (build_string [97; 99]%N) = Ok (-1)%Z.
Proof. vm_compute. reflexivity. Qed.

(** * C08 *)
Theorem C08_concat : forall a b, string_concat a b = Ok (build_string (tval a ++ tval b)).
Proof. exact string_concat_ok. Qed.
Print Assumptions C08_concat.
Theorem C08_append : forall a b, owned_ok a ->
  exists e, string_append a b = Ok e /\ tval (e_self e) = tval a ++ tval b /\ owned_ok (e_self e) /\
    ((tval a = [] -> towned a = false) -> e_lost e = false).
Proof. exact string_append_ok. Qed.
Print Assumptions C08_append.
Example C08_example : string_append (build_string [97; 0]%N) (build_string [98]%N) = Ok (mkE (mkT [97; 0; 98]%N true) false).
Proof. vm_compute. reflexivity. Qed.

(** * C09 *)
Theorem C09_replace : forall t p r, owned_ok t -> tval p <> [] ->
  exists e, string_replace t p r = Some (Ok e) /\ replaced (tval p) (tval r) (tval t) (tval (e_self e)) /\
    owned_ok (e_self e).
Proof. exact string_replace_ok. Qed.
Print Assumptions C09_replace.
Theorem C09_replace_empty_pattern : forall t p r, tval p = [] -> string_replace t p r = Some (Ok (mkE t false)).
Proof. exact string_replace_empty_pattern. Qed.
Print Assumptions C09_replace_empty_pattern.
(** The specification has at most one solution. *)
Theorem C09_replaced_unique : forall p r t u v, p <> [] -> replaced p r t u -> replaced p r t v -> u = v.
Proof. exact replaced_det. Qed.
Print Assumptions C09_replaced_unique.
(** "aaaba" replace: "aa" with: "xyz" *)
Example C09_example : string_replace (build_string [97; 97; 97; 98; 97]%N) (build_string [97; 97]%N) (build_string [120; 121; 122]%N)
  = Some (Ok (mkE (mkT [120; 121; 122; 97; 98; 97]%N true) false)).
Proof. vm_compute. reflexivity. Qed.

(** * C10 *)
Theorem C10_join_split : forall t d, exists parts, string_split t d = Ok parts /\ joined (tval d) (map tval parts) = tval t.
Proof. exact split_join. Qed.
Print Assumptions C10_join_split.
(** One-byte separators, all texts. *)
Theorem C10_split_byte : forall t x o, exists parts, string_split t (mkT [x] o) = Ok parts /\
  joined [x] (map tval parts) = tval t /\ Forall (fun p => ~ In x (tval p)) parts.
Proof. exact split_byte. Qed.
Print Assumptions C10_split_byte.
(** Separators of one character, well-formed texts: the parts are the pieces between the separators. *)
Theorem C10_split_character_partial : forall cs d o o', Forall is_char cs -> is_char d ->
  exists parts, string_split (mkT (concat cs) o) (mkT d o') = Ok parts /\
    map tval parts = map (@concat N) (split_chars d cs []) /\
    Forall (fun p => ~ In d p) (split_chars d cs []).
Proof. exact split_char_sep_full. Qed.
Print Assumptions C10_split_character_partial.
(** "aab" split: "ab" answers one part, which contains the separator. *)
Theorem C10_split_refuted : exists t d part, string_split (build_string t) (build_string d) = Ok [part] /\
  d <> [] /\ occurs (tval part) d.
Proof.
  exists [97; 97; 98]%N, [97; 98]%N, (build_string [97; 97; 98]%N). split; [vm_compute; reflexivity|].
  split; [discriminate|]. exists 1, [97]%N, []. split; reflexivity.
Qed.
Print Assumptions C10_split_refuted.
Example C10_example : string_split (build_string [97; 44; 44; 98]%N) (build_string [44]%N) =
  Ok [build_string [97]%N; build_string []; build_string [98]%N].
Proof. vm_compute. reflexivity. Qed.

(** * C11 *)
Theorem C11_find : forall cs ps o o', Forall is_char cs -> Forall is_char ps -> ps <> [] -> fits (concat cs) ->
  (exists k, string_index_of (mkT (concat cs) o) (mkT (concat ps) o') = Ok (Some (Z.of_nat k + 1)%Z) /\
     chars_at cs ps k /\ forall j, chars_at cs ps j -> k <= j) \/
  (string_index_of (mkT (concat cs) o) (mkT (concat ps) o') = Ok None /\ forall k, ~ chars_at cs ps k).
Proof. exact index_of_chars. Qed.
Print Assumptions C11_find.
Theorem C11_last : forall cs ps o o', Forall is_char cs -> Forall is_char ps -> ps <> [] -> fits (concat cs) ->
  (exists k, string_last_index_of (mkT (concat cs) o) (mkT (concat ps) o') = Ok (Some (Z.of_nat k + 1)%Z) /\
     chars_at cs ps k /\ forall j, chars_at cs ps j -> j <= k) \/
  (string_last_index_of (mkT (concat cs) o) (mkT (concat ps) o') = Ok None /\ forall k, ~ chars_at cs ps k).
Proof. exact last_index_of_chars. Qed.
Print Assumptions C11_last.
Theorem C11_contains : forall cs ps o o', Forall is_char cs -> Forall is_char ps -> ps <> [] -> fits (concat cs) ->
  exists r, string_contains (mkT (concat cs) o) (mkT (concat ps) o') = Ok r /\
   (r = true <-> exists k, chars_at cs ps k).
Proof. exact contains_chars. Qed.
Print Assumptions C11_contains.
(** The empty text is never found. *)
Theorem C11_empty_pattern : forall t o, string_index_of t (mkT [] o) = Ok None /\
  string_last_index_of t (mkT [] o) = Ok None /\ string_contains t (mkT [] o) = Ok false.
Proof. exact find_empty. Qed.
Print Assumptions C11_empty_pattern.
Example C11_example : string_index_of (build_string [195; 169; 120; 195; 169]%N) (build_string [195; 169]%N) = Ok (Some 1%Z) /\
  string_last_index_of (build_string [195; 169; 120; 195; 169]%N) (build_string [195; 169]%N) = Ok (Some 3%Z) /\
  string_contains (build_string [195; 169]%N) (build_string [195; 170]%N) = Ok false.
Proof. vm_compute. auto. Qed.

(** * C12 *)
Theorem C12_minus : forall t s, exists r, string_minus t s = Ok r /\
  ((exists u, tval t = u ++ tval s /\ ans_text r = u) \/
   ((forall u, tval t <> u ++ tval s) /\ ans_text r = tval t)).
Proof. exact string_minus_ok. Qed.
Print Assumptions C12_minus.
Example C12_example : string_minus (build_string [97; 98; 99]%N) (build_string [98; 99]%N) = Ok (Fresh (build_string [97]%N)) /\
  string_minus (build_string [97; 98; 99]%N) (build_string [98]%N) = Ok (Self (mkE (build_string [97; 98; 99]%N) false)).
Proof. vm_compute. auto. Qed.

(** * C13 *)
Theorem C13_trim : forall t, owned_ok t -> exists r, string_trim t = Ok r /\ trimmed (tval t) (ans_text r).
Proof. exact string_trim_ok. Qed.
Print Assumptions C13_trim.
Theorem C13_trimmed_unique : forall t s s', trimmed t s -> trimmed t s' -> s = s'.
Proof. exact trimmed_det. Qed.
Print Assumptions C13_trimmed_unique.
Example C13_example : string_trim (build_string [32; 9; 97; 32; 98; 10]%N) = Ok (Self (mkE (mkT [97; 32; 98]%N true) false)).
Proof. vm_compute. reflexivity. Qed.

(** * C14 *)
Theorem C14_uppercase_partial : forall t, owned_ok t -> tval t <> [] ->
  exists e, string_to_upper t = Ok e /\ Forall2 upper_of (tval t) (tval (e_self e)) /\ e_lost e = false.
Proof. exact to_upper_ok. Qed.
Print Assumptions C14_uppercase_partial.
Theorem C14_lowercase_partial : forall t, owned_ok t -> tval t <> [] ->
  exists e, string_to_lower t = Ok e /\ Forall2 lower_of (tval t) (tval (e_self e)) /\ e_lost e = false.
Proof. exact to_lower_ok. Qed.
Print Assumptions C14_lowercase_partial.
(** The empty text: the literal "" is handed to free. *)
Theorem C14_case_empty_refuted : exists t, owned_ok t /\ string_to_upper t = UB /\ string_to_lower t = UB.
Proof. exists (build_string []). split; [intros H; elim H; reflexivity|]. split; reflexivity. Qed.
Print Assumptions C14_case_empty_refuted.
Example C14_example : string_to_upper (build_string [104; 195; 169; 122]%N) = Ok (mkE (mkT [72; 195; 169; 90]%N true) false).
Proof. vm_compute. reflexivity. Qed.

(** * C51: memory of texts *)
Theorem C51_text_history_partial : forall os t, tidy t -> safe_hist t os ->
  exists e, thist t os = Some (Ok e) /\ e_lost e = false /\ sweep_txt (e_self e) = Ok false.
Proof. exact thist_tidy. Qed.
Print Assumptions C51_text_history_partial.
(** Shrinking a text to nothing by [replace:with:] leaves a block nobody frees: at collection … *)
Theorem C51_text_leak_refuted : exists t os e, thist (build_string t) os = Some (Ok e) /\
  sweep_txt (e_self e) = Ok true.
Proof. exists [97]%N, [OReplace [97]%N []]. eexists. split; vm_compute; reflexivity. Qed.
Print Assumptions C51_text_leak_refuted.
(** … or at the next [append:]. *)
Theorem C51_text_leak_append_refuted : exists t os e, thist (build_string t) os = Some (Ok e) /\ e_lost e = true.
Proof. exists [97]%N, [OReplace [97]%N []; OAppend [98]%N]. eexists. split; vm_compute; reflexivity. Qed.
Print Assumptions C51_text_leak_append_refuted.
Example C51_example : tidy (build_string [97; 32]%N) /\
  safe_hist (build_string [97; 32]%N) [OTrim; OUpper; OAppend [98]%N; OReplace [98]%N []] /\
  thist (build_string [97; 32]%N) [OTrim; OUpper; OAppend [98]%N; OReplace [98]%N []] = Some (Ok (mkE (mkT [65]%N true) false)).
Proof.
  split; [apply tidy_build|]. split; [|vm_compute; reflexivity].
  repeat (apply sh_cons; [try exact I; try discriminate|intros e E; vm_compute in E; injection E as <-; split; [try exact I; try discriminate|]]).
  apply sh_nil.
Qed.

(** * C56: a message a text does not know fills in the slot of that name. *)
Theorem C56_fill_in_keyword : forall prefix t name arg, owned_ok t -> name <> [] ->
  exists e, string_fill_in prefix t (build_string (name ++ [prefix])) arg = Some (Ok e) /\
    replaced name (tval arg) (tval t) (tval (e_self e)) /\ owned_ok (e_self e).
Proof. exact fill_in_keyword. Qed.
Print Assumptions C56_fill_in_keyword.
Theorem C56_fill_in_plain : forall prefix t name c arg, owned_ok t -> c <> prefix ->
  exists e, string_fill_in prefix t (build_string (name ++ [c])) arg = Some (Ok e) /\
    replaced (name ++ [c]) (tval arg) (tval t) (tval (e_self e)) /\ owned_ok (e_self e).
Proof. exact fill_in_plain. Qed.
Print Assumptions C56_fill_in_plain.
Theorem C56_fill_in_bare_prefix : forall prefix t arg,
  string_fill_in prefix t (build_string [prefix]) arg = Some (Ok (mkE t false)).
Proof. exact fill_in_bare_prefix. Qed.
Print Assumptions C56_fill_in_bare_prefix.
(** "2 + x = 3" x: "1" *)
Example C56_example : string_fill_in 58 (build_string [50; 43; 120; 61; 51]%N) (build_string [120; 58]%N) (build_string [49]%N)
  = Some (Ok (mkE (mkT [50; 43; 49; 61; 51]%N true) false)).
Proof. vm_compute. reflexivity. Qed.

(** * C57: a text counts as true exactly when it is not empty. *)
Theorem C57_text_truth : forall t, string_to_boolean t = true <-> tval t <> [].
Proof. exact to_boolean_spec. Qed.
Print Assumptions C57_text_truth.
Example C57_example : string_to_boolean (build_string [48]%N) = true /\ string_to_boolean (build_string []) = false.
Proof. split; reflexivity. Qed.
