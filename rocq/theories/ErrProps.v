(** Claim C116. *)
From Coq Require Import String.
From Verif Require Import Common Txt TextSpec NumModel NumSpec ErrSpec ErrDicts ErrModel ErrProofs.
Local Open Scope N_scope.

(** ** C116: errors say what they should *)
(** The messages without places are shown as they are in every language, whatever the error number. *)
Theorem C116_plain : forall l m reason, In l langs -> In m (plain l) -> error (lit m) reason = Ok (lit m).
Proof. exact plain_ok. Qed.
Print Assumptions C116_plain.
(** Any text without a percent sign is shown, up to 499 bytes. *)
Theorem C116_any : forall m reason, no_places m -> error m reason = Ok (firstn 499 m).
Proof. exact any_ok. Qed.
Print Assumptions C116_any.
(** A file that cannot be opened: the reason of the operating system is part of the text. *)
Theorem C116_open_partial : forall l reason, In l langs -> ~ In (code l) ["hy"; "ky"; "ps"]%string ->
  exists a b, one_place (lit (open_err l)) a b /\ error (lit (open_err l)) reason = Ok (firstn 499 (a ++ reason ++ b)).
Proof. exact open_ok. Qed.
Print Assumptions C116_open_partial.
(** A mistake in a program: the text names what was found, the program, and the line, and ends with the hint. *)
Theorem C116_parse_partial : forall l t hint path line reason, In l langs ->
  (hint = None \/ exists h, In h (hints l) /\ hint = Some (lit h)) ->
  no_places path -> (List.length path <= 110)%nat -> (0 <= line < 2147483647)%Z ->
  exists a b c d ds, three_places (lit (syntax_err l)) a b c d /\ written (line + 1) ds /\
    parse_error (lit (syntax_err l)) t hint path line reason = Ok (a ++ describe t ++ b ++ path ++ c ++ ds ++ d ++ match hint with Some h => h | None => [] end)%list.
Proof. exact parse_whole. Qed.
Print Assumptions C116_parse_partial.
(** With a longer path the part before the hint is cut after 249 bytes; the hint is there. *)
Theorem C116_parse_long_partial : forall l t hint path line reason, In l langs ->
  (hint = None \/ exists h, In h (hints l) /\ hint = Some (lit h)) ->
  no_places path -> (0 <= line < 2147483647)%Z ->
  exists a b c d ds, three_places (lit (syntax_err l)) a b c d /\ written (line + 1) ds /\
    parse_error (lit (syntax_err l)) t hint path line reason =
      Ok (firstn 249 (a ++ describe t ++ b ++ path ++ c ++ ds ++ d) ++ match hint with Some h => h | None => [] end)%list.
Proof.
  exact (fun l t hint path line reason L H P N => match parse_any l t hint path line reason L H P N with
    ex_intro _ a (ex_intro _ b (ex_intro _ c (ex_intro _ d (ex_intro _ ds (conj T (conj W (conj E _))))))) =>
      ex_intro _ a (ex_intro _ b (ex_intro _ c (ex_intro _ d (ex_intro _ ds (conj T (conj W E)))))) end).
Qed.
Print Assumptions C116_parse_long_partial.
(** Different tokens have different names. *)
Theorem C116_tokens : forall a b, describe a = describe b -> a = b.
Proof. exact describe_inj. Qed.
Print Assumptions C116_tokens.

Definition english : lang := nth 0 (filter (fun l => (code l =? "en")%string) langs) (hd (mkL "" [] [] "" "") langs).
Lemma english_in : In english langs.
Proof.
  assert (I : In english (filter (fun l => (code l =? "en")%string) langs)).
  { unfold english. apply nth_In. vm_compute. lia. }
  apply filter_In in I. exact (proj1 I).
Qed.
Example C116_example : In english langs /\
  error (lit (open_err english)) (lit "Permission denied") = Ok (lit "Unable to open: Permission denied.") /\
  no_places (lit "/home/me/a.ctr") /\
  parse_error (lit (syntax_err english)) TDot None (lit "/home/me/a.ctr") 4 (lit "Success") =
    Ok (lit "Parse error, unexpected . ( /home/me/a.ctr: 5 )" ++ [10])%list.
Proof. split; [exact english_in|]. split; [vm_compute; reflexivity|]. split; [apply clean_ok; reflexivity|vm_compute; reflexivity]. Qed.
(** In three languages the reason is missing. *)
Theorem C116_open_refuted : exists l, In l langs /\ forall r1 r2, error (lit (open_err l)) r1 = error (lit (open_err l)) r2.
Proof.
  assert (I : In (nth 0 (filter (fun l => (code l =? "hy")%string) langs) english) (filter (fun l => (code l =? "hy")%string) langs)).
  { apply nth_In. vm_compute. lia. }
  apply filter_In in I. eexists. split; [exact (proj1 I)|]. intros r1 r2. rewrite !any_ok; [reflexivity|apply clean_ok; vm_compute; reflexivity..].
Qed.
Print Assumptions C116_open_refuted.
(** The text of a mistake is used as a format a second time: a program whose path contains percent signs crashes the report of its mistakes … *)
Theorem C116_percent_refuted : exists l path, In l langs /\ forall t reason, parse_error (lit (syntax_err l)) t None path 0 reason = UB.
Proof. exists english, (lit "a%s%s.ctr"). split; [exact english_in|]. intros t reason. destruct t; vm_compute; reflexivity. Qed.
Print Assumptions C116_percent_refuted.
(** … or reports another program. *)
Theorem C116_other_path_refuted : exists l p1 p2 reason, In l langs /\ p1 <> p2 /\ no_nul p1 /\
  forall t, exists e, parse_error (lit (syntax_err l)) t None p1 0 reason = Ok e /\ parse_error (lit (syntax_err l)) t None p2 0 reason = Ok e.
Proof.
  exists english, (lit "%s.ctr"), (lit "Success.ctr"), (lit "Success"). split; [exact english_in|]. split; [discriminate|].
  split; [vm_compute; repeat constructor; discriminate|]. intros t. destruct t; eexists; split; vm_compute; reflexivity.
Qed.
Print Assumptions C116_other_path_refuted.
(** A long path of whole characters is cut within a character, and the line is missing. *)
Theorem C116_cut_refuted : exists l path cs t e, In l langs /\ chars_of path cs /\ no_places path /\
  parse_error (lit (syntax_err l)) t None path 0 [] = Ok e /\ (forall ds, ~ chars_of e ds) /\
  forall line, (0 <= line < 2147483647)%Z -> parse_error (lit (syntax_err l)) t None path line [] = Ok e.
Proof.
  set (path := concat (repeat [195; 169] 120)).
  assert (E : exists e, parse_error (lit (syntax_err english)) TDot None path 0 [] = Ok e /\ last e 0 = 195).
  { eexists. split; vm_compute; reflexivity. }
  destruct E as (e & E & LE). assert (P : no_places path) by (apply clean_ok; vm_compute; reflexivity).
  exists english, path, (repeat [195; 169] 120), TDot, e. split; [exact english_in|].
  split. { split; [|reflexivity]. apply Forall_forall. intros c I. apply repeat_spec in I. subst c. constructor; unfold cont; lia. }
  split; [exact P|]. split; [exact E|]. split.
  - intros ds [F C]. pose proof (chars_last ds F) as L. rewrite <- C, LE in L. lia.
  - intros line LN. rewrite <- E.
    destruct (parse_any english TDot None path line [] english_in (or_introl eq_refl) P LN) as (a & b & c & d & ds & T & _ & R & _).
    destruct (parse_any english TDot None path 0 [] english_in (or_introl eq_refl) P ltac:(lia)) as (a' & b' & c' & d' & ds' & T' & _ & R' & _).
    rewrite R, R'. f_equal. f_equal.
    assert (U : forall a b c d, three_places (lit (syntax_err english)) a b c d -> a = lit "Parse error, unexpected " /\ b = lit " ( ").
    { clear. intros a b c d (EQ & A & B & _). pose proof (cut_unique 115 (lit (syntax_err english)) a _ EQ A) as K1.
      vm_compute in K1. injection K1 as <- K2. split; [reflexivity|]. symmetry in K2. pose proof (cut_unique 115 _ b _ (eq_sym K2) B) as K3.
      vm_compute in K3. injection K3 as <- _. reflexivity. }
    destruct (U _ _ _ _ T) as [-> ->]. destruct (U _ _ _ _ T') as [-> ->].
    assert (Y : forall r r', firstn 249 (lit "Parse error, unexpected " ++ describe TDot ++ lit " ( " ++ path ++ r) =
                             firstn 249 (lit "Parse error, unexpected " ++ describe TDot ++ lit " ( " ++ path ++ r')).
    { intros r r'. rewrite !app_assoc. set (x := (((lit "Parse error, unexpected " ++ describe TDot) ++ lit " ( ") ++ path)%list).
      assert (XL : List.length x = 268%nat) by (vm_compute; reflexivity). rewrite !(firstn_app 249 x), XL. reflexivity. }
    apply Y.
Qed.
Print Assumptions C116_cut_refuted.
