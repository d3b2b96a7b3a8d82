(** Property theorems about editable texts of the Media plug-in (C85-C95).

    [shows k m d]: the image [m] holds the document [d]; [quiet g d]: the cursor is where [d]
    has it, nothing is selected and Shift is up.  [C91_write_utf8] establishes the first for every
    text in UTF-8, and every theorem says what holds after it, so that they can be chained
    (as [C95_session] does). *)
From Coq Require Import String.
From Verif Require Import Common Txt TextSpec SipModel EditSpec EditModel EditProofs.
Local Open Scope Z_scope.
Local Notation length := List.length.
Local Notation "'lt' s" := (lit s%string) (at level 8, s at level 0).
Local Notation zl t := (Z.of_nat (length t)).
Definition usual : mach := {| alloc := calloc; laps := true |}.
Definition strict : mach := {| alloc := calloc; laps := false |}.
Definition at_ (i : Z) : glob := {| ix := i; sb := i; se := i; sh := false |}.
(** é, CR LF, b, and a space *)
Definition sample : doc := ([[13; 10]; [195; 169]]%N, [[98]; [32]]%N).
Definition sample_img : img := {| tx := Some [195; 169; 13; 10; 98; 32; 0]%N; ln := 6; cp := 6 |}.
Lemma sample_shows : shows true sample_img sample /\ quiet (at_ 4) sample /\ write usual (content sample) = Ok sample_img.
Proof.
  split; [|split; [repeat split|vm_compute; reflexivity]]. unfold shows, sample, sample_img. cbn [fst snd tx ln cp].
  split; [apply unitsb; reflexivity|]. split; [apply unitsb; reflexivity|]. split; [reflexivity|]. split; [lia|].
  exists []. split; [reflexivity|]. split; [vm_compute; discriminate|]. intros _. constructor.
Qed.

(** * C85: left and right *)
Theorem C85_left_right : forall M k m g d, shows k m d -> quiet g d ->
  (exists g', step M m g KLeft = Ok (m, g') /\ ix g' = zl (before (left d)) /\ quiet g' (left d)) /\
  (exists g', step M m g KRight = Ok (m, g') /\ ix g' = zl (before (right d)) /\ quiet g' (right d)).
Proof. exact left_right_key. Qed.
Print Assumptions C85_left_right.
Example C85_example : exists g1 g2, step usual sample_img (at_ 4) KLeft = Ok (sample_img, g1) /\ ix g1 = 2 /\
  step usual sample_img g1 KLeft = Ok (sample_img, g2) /\ ix g2 = 0 /\ left (left sample) = ([], [[195; 169]; [13; 10]; [98]; [32]]%N).
Proof. eexists _, _. split; [vm_compute; reflexivity|]. split; [reflexivity|]. split; [vm_compute; reflexivity|]. split; reflexivity. Qed.
(** A line feed alone, which [append:] lets in: Left moves the cursor before the begin of the text, and typing
    then writes there. *)
Theorem C85_line_feed_refuted : exists t m1 g1 g2, write usual [] = Ok m1 /\ (exists m, append usual m1 (at_ 0) t = Ok (m, g1) /\
  step usual m g1 KLeft = Ok (m, g2) /\ ix g2 = -1 /\ step usual m g2 (KText (lt "x")) = UB).
Proof.
  exists [10%N]. eexists _, _, _. split; [vm_compute; reflexivity|]. eexists. split; [vm_compute; reflexivity|].
  split; [vm_compute; reflexivity|]. split; vm_compute; reflexivity.
Qed.
Print Assumptions C85_line_feed_refuted.

(** * C86: home and end *)
Theorem C86_home_end : forall M k m g d, shows k m d -> quiet g d ->
  (exists g', step M m g KHome = Ok (m, g') /\ ix g' = zl (before (home d)) /\ quiet g' (home d)) /\
  (exists g', step M m g KEnd = Ok (m, g') /\ ix g' = zl (before (ending d)) /\ quiet g' (ending d)).
Proof. exact home_end_key. Qed.
Print Assumptions C86_home_end.
Example C86_example : exists g1 g2, step usual sample_img (at_ 4) KEnd = Ok (sample_img, g1) /\ ix g1 = 6 /\
  step usual sample_img g1 KHome = Ok (sample_img, g2) /\ ix g2 = 4.
Proof. eexists _, _. split; [vm_compute; reflexivity|]. split; [reflexivity|]. split; vm_compute; reflexivity. Qed.

(** * C87: up, down and pages *)
Theorem C87_up_down_partial : forall M k m g d, shows k m d -> quiet g d ->
  (fst (home d) <> [eol] -> exists g', step M m g KUp = Ok (m, g') /\ ix g' = zl (before (up d)) /\ quiet g' (up d)) /\
  (exists g', step M m g KDown = Ok (m, g') /\ ix g' = zl (before (down d)) /\ quiet g' (down d)).
Proof. exact up_down_key. Qed.
Print Assumptions C87_up_down_partial.
Theorem C87_pages_partial : forall M k m g d, shows k m d -> quiet g d ->
  ((forall n, (n < 10)%nat -> fst (home (repeatedly n up d)) <> [eol]) ->
     exists g', step M m g KPageUp = Ok (m, g') /\ ix g' = zl (before (repeatedly 10 up d)) /\ quiet g' (repeatedly 10 up d)) /\
  (exists g', step M m g KPageDown = Ok (m, g') /\ ix g' = zl (before (repeatedly 10 down d)) /\ quiet g' (repeatedly 10 down d)).
Proof. exact page_key. Qed.
Print Assumptions C87_pages_partial.
Example C87_example : fst (home sample) <> [eol] /\ exists g1 g2, step usual sample_img (at_ 5) KUp = Ok (sample_img, g1) /\ ix g1 = 2 /\
  step usual sample_img g1 KDown = Ok (sample_img, g2) /\ ix g2 = 5.
Proof. split; [discriminate|]. eexists _, _. split; [vm_compute; reflexivity|]. split; [reflexivity|]. split; vm_compute; reflexivity. Qed.
(** Full statement: [forall M k m g d, shows k m d -> quiet g d -> exists g', step M m g KUp = Ok (m, g') /\ ix g' = zl (before (up d))].
    It fails below an empty first line: the byte before the text is read. *)
Theorem C87_empty_line_refuted : exists t m d, write usual t = Ok m /\ shows true m d /\ quiet (at_ 2) d /\ step usual m (at_ 2) KUp = UB.
Proof.
  exists [13; 10; 120]%N. eexists. exists ([[13; 10]]%N, [[120]]%N). split; [vm_compute; reflexivity|]. split; [|split; [repeat split|vm_compute; reflexivity]].
  unfold shows. cbn [fst snd tx ln cp]. split; [apply unitsb; reflexivity|]. split; [apply unitsb; reflexivity|]. split; [reflexivity|]. split; [lia|].
  exists []. split; [reflexivity|]. split; [vm_compute; discriminate|]. intros _. constructor.
Qed.
Print Assumptions C87_empty_line_refuted.

(** * C88: typing *)
Theorem C88_type : forall M m g d us, good M -> shows true m d -> quiet g d -> units us -> concat us <> [8%N] -> concat us <> [127%N] ->
  exists m' g', step M m g (KText (concat us)) = Ok (m', g') /\ text_get m' = Ok (before d ++ concat us ++ after d) /\
    ix g' = zl (before d ++ concat us) /\ shows true m' (insert us d) /\ quiet g' (insert us d).
Proof. exact type_key. Qed.
Print Assumptions C88_type.
Theorem C88_return_tab : forall M m g d, good M -> shows true m d -> quiet g d ->
  (exists m' g', step M m g KReturn = Ok (m', g') /\ text_get m' = Ok (before d ++ eol ++ after d) /\ shows true m' (insert [eol] d) /\ quiet g' (insert [eol] d)) /\
  (exists m' g', step M m g KTab = Ok (m', g') /\ text_get m' = Ok (before d ++ [32; 32; 32; 32]%N ++ after d) /\
     shows true m' (insert [[32]; [32]; [32]; [32]]%N d) /\ quiet g' (insert [[32]; [32]; [32]; [32]]%N d)).
Proof. exact return_tab_key. Qed.
Print Assumptions C88_return_tab.
Example C88_example : good usual /\ units [[226; 130; 172]]%N /\ exists m' g', step usual sample_img (at_ 4) (KText [226; 130; 172]%N) = Ok (m', g') /\
  text_get m' = Ok [195; 169; 13; 10; 226; 130; 172; 98; 32]%N /\ ix g' = 7.
Proof.
  split; [apply good_calloc|]. split; [apply unitsb; reflexivity|]. eexists _, _. split; [vm_compute; reflexivity|].
  split; vm_compute; reflexivity.
Qed.
(** After Delete has removed a character of more than one byte, its last bytes are still in the block
    and come back when something is typed at the end. *)
Theorem C88_after_delete_refuted : exists d m m1 g1 m2 g2, shows true m d /\ quiet (at_ 1) d /\ step usual m (at_ 1) KDelete = Ok (m1, g1) /\
  text_get m1 = Ok (before d) /\ snd (delete d) = [] /\ step usual m1 g1 (KText (lt "X")) = Ok (m2, g2) /\
  before d = lt "a" /\ text_get m2 = Ok (lt "aX" ++ [10%N]) /\ text_get m2 <> Ok (lt "aX").
Proof.
  exists ([[97]]%N, [[13; 10]]%N), {| tx := Some [97; 13; 10; 0]%N; ln := 3; cp := 3 |}. eexists _, _, _, _.
  split; [|split; [repeat split|split; [vm_compute; reflexivity|]]].
  - unfold shows. cbn [fst snd tx ln cp]. split; [apply unitsb; reflexivity|]. split; [apply unitsb; reflexivity|]. split; [reflexivity|]. split; [lia|].
    exists []. split; [reflexivity|]. split; [vm_compute; discriminate|]. intros _. constructor.
  - split; [vm_compute; reflexivity|]. split; [reflexivity|]. split; [vm_compute; reflexivity|]. split; [reflexivity|]. split; [vm_compute; reflexivity|].
    vm_compute. discriminate.
Qed.
Print Assumptions C88_after_delete_refuted.

(** * C89: backspace and delete *)
Theorem C89_backspace : forall M k m g d, good M -> shows k m d -> quiet g d ->
  exists m' g', step M m g KBackspace = Ok (m', g') /\ text_get m' = Ok (content (backspace d)) /\ ix g' = zl (before (backspace d)) /\
    shows k m' (backspace d) /\ quiet g' (backspace d).
Proof. exact backspace_key. Qed.
Print Assumptions C89_backspace.
Theorem C89_delete : forall M k m g d, good M -> shows k m d -> quiet g d ->
  exists m' g', step M m g KDelete = Ok (m', g') /\ text_get m' = Ok (content (delete d)) /\ ix g' = zl (before (delete d)) /\
    shows (k && next_single d) m' (delete d) /\ quiet g' (delete d).
Proof. exact delete_key. Qed.
Print Assumptions C89_delete.
Example C89_example : exists m1 g1 m2 g2, step usual sample_img (at_ 4) KBackspace = Ok (m1, g1) /\ text_get m1 = Ok [195; 169; 98; 32]%N /\
  step usual m1 g1 KDelete = Ok (m2, g2) /\ text_get m2 = Ok [195; 169; 32]%N.
Proof. eexists _, _, _, _. split; [vm_compute; reflexivity|]. split; [reflexivity|]. split; vm_compute; reflexivity. Qed.
(** [memcpy] is used although source and destination overlap: by the letter of ISO C this is undefined. *)
Theorem C89_overlap_refuted : exists t m, write strict t = Ok m /\ step strict m (at_ 1) KBackspace = UB /\ step strict m (at_ 0) KDelete = UB.
Proof. exists (lt "abc"). eexists. split; [vm_compute; reflexivity|]. split; vm_compute; reflexivity. Qed.
Print Assumptions C89_overlap_refuted.

(** * C90: the selection *)
(** Shift held down while the cursor is moved selects what it passes; [selected] tells its begin and end;
    Delete and Backspace, [cut] and [append:] remove or replace exactly that. *)
Theorem C90_select : forall M ms k m g d, shows k m d -> ix g = zl (before d) -> moves_fine ms d -> ms <> [] ->
  exists g', run M m g (KShift :: map key_of ms ++ [KShiftUp]) = Ok (m, g') /\ ix g' = zl (before (moved_by ms d)) /\ sh g' = false /\
    sb g' = zl (before d) /\ se g' = zl (before (moved_by ms d)).
Proof. exact select_key. Qed.
Print Assumptions C90_select.
Theorem C90_selected : forall k m d g p q, shows k m d -> (p <= q <= length (all d))%nat ->
  (sb g = zl (concat (firstn p (all d))) /\ se g = zl (concat (firstn q (all d))) \/
   sb g = zl (concat (firstn q (all d))) /\ se g = zl (concat (firstn p (all d)))) ->
  selected m g = Ok (Z.of_nat (chars (concat (firstn p (all d)))) + 1, Z.of_nat (chars (concat (firstn q (all d)))) + 1).
Proof. exact selected_ok. Qed.
Print Assumptions C90_selected.
Theorem C90_delete : forall M ms k m g d e, laps M = true -> shows k m d -> ix g = zl (before d) -> moves_fine ms d ->
  length (fst (moved_by ms d)) <> length (fst d) -> e = KDelete \/ e = KBackspace ->
  let d' := erase (all d) (length (fst d)) (length (fst (moved_by ms d))) in
  exists m' g', run M m g ((KShift :: map key_of ms ++ [KShiftUp]) ++ [e]) = Ok (m', g') /\
    text_get m' = Ok (content d') /\ ix g' = zl (before d') /\ shows k m' d' /\ quiet g' d'.
Proof. exact shift_delete. Qed.
Print Assumptions C90_delete.
Theorem C90_append : forall M m d g p q us, good M -> shows true m d -> (p <= length (all d))%nat -> (q <= length (all d))%nat -> ix g = zl (before d) ->
  sb g = zl (concat (firstn p (all d))) /\ se g = zl (concat (firstn q (all d))) -> units us /\ concat us <> [8%N] /\ concat us <> [127%N] ->
  let d' := insert us (if Nat.eqb p q then d else erase (all d) p q) in
  exists m' g', append M m g (concat us) = Ok (m', g') /\ text_get m' = Ok (content d') /\ ix g' = zl (before d') /\ shows true m' d'.
Proof. exact append_ok. Qed.
Print Assumptions C90_append.
Example C90_example : moves_fine [MLeft; MLeft] sample /\ exists m1 g1 m2 g2,
  run usual sample_img (at_ 4) (KShift :: map key_of [MLeft; MLeft] ++ [KShiftUp]) = Ok (m1, g1) /\ selected m1 g1 = Ok (1, 4) /\
  step usual m1 g1 KDelete = Ok (m2, g2) /\ text_get m2 = Ok [98; 32]%N /\ ix g2 = 0.
Proof. split; [repeat split|]. eexists _, _, _, _. split; [vm_compute; reflexivity|]. split; [vm_compute; reflexivity|]. split; [vm_compute; reflexivity|]. split; vm_compute; reflexivity. Qed.
(** Shift pressed and released without anything else: what is between the cursor and the end of the previous
    selection is selected, and the next Backspace removes all of it. *)
Theorem C90_shift_alone_refuted : exists m g m2 g2, write usual (lt "hello world") = Ok m /\
  run usual m (at_ 0) [KEnd; KShift; KShiftUp] = Ok (m, g) /\ ix g = 11 /\ has_selection g = true /\
  step usual m g KBackspace = Ok (m2, g2) /\ text_get m2 = Ok [].
Proof.
  eexists _, _, _, _. split; [vm_compute; reflexivity|]. split; [vm_compute; reflexivity|]. split; [reflexivity|]. split; [reflexivity|].
  split; vm_compute; reflexivity.
Qed.
Print Assumptions C90_shift_alone_refuted.
(** Home, End and the page keys leave the selection as it is, the arrow keys do not. *)
Theorem C90_home_keeps_refuted : exists m g g1 g2 m3 g3, write usual (lt "hello") = Ok m /\
  run usual m (at_ 0) [KShift; KRight; KShiftUp] = Ok (m, g) /\ step usual m g KLeft = Ok (m, g1) /\ has_selection g1 = false /\
  step usual m g KEnd = Ok (m, g2) /\ ix g2 = 5 /\ step usual m g2 KBackspace = Ok (m3, g3) /\ text_get m3 = Ok (lt "ello").
Proof.
  eexists _, _, _, _, _, _. split; [vm_compute; reflexivity|]. split; [vm_compute; reflexivity|]. split; [vm_compute; reflexivity|]. split; [reflexivity|].
  split; [vm_compute; reflexivity|]. split; [reflexivity|]. split; vm_compute; reflexivity.
Qed.
Print Assumptions C90_home_keeps_refuted.
(** There is one selection for all images: [cut] of an image with a shorter text writes outside of it. *)
Theorem C90_other_image_refuted : exists m g m', write usual (lt "hello") = Ok m /\ run usual m (at_ 0) [KShift; KEnd; KShiftUp] = Ok (m, g) /\
  write usual (lt "a") = Ok m' /\ cut usual m' g = UB.
Proof. eexists _, _, _. split; [vm_compute; reflexivity|]. split; [vm_compute; reflexivity|]. split; vm_compute; reflexivity. Qed.
Print Assumptions C90_other_image_refuted.
(** After [cut], [selected] answers a position beyond the end of the text. *)
Theorem C90_stale_refuted : exists m g m' g', write usual (lt "ab") = Ok m /\ run usual m (at_ 0) [KShift; KEnd; KShiftUp] = Ok (m, g) /\
  cut usual m g = Ok (m', g') /\ text_get m' = Ok [] /\ selected m' g' = Ok (3, 3).
Proof. eexists _, _, _, _. split; [vm_compute; reflexivity|]. split; [vm_compute; reflexivity|]. split; [vm_compute; reflexivity|]. split; vm_compute; reflexivity. Qed.
Print Assumptions C90_stale_refuted.

(** * C91: write: *)
Theorem C91_write : forall M t, good M -> exists m z, write M t = Ok m /\ text_get m = Ok (lines_normal (without_zero t)) /\
  tx m = Some (lines_normal (without_zero t) ++ 0%N :: z) /\ zero_tail z /\ ln m = zl (lines_normal (without_zero t)) /\ cp m = ln m.
Proof. exact write_ok. Qed.
Print Assumptions C91_write.
Theorem C91_lines : forall t, ~ In 9%N (lines_normal t) /\
  (forall P c Q, lines_normal t = P ++ c :: Q -> (c = 10%N <-> exists P', P = P' ++ [13%N])) /\
  lines_normal (lines_normal t) = lines_normal t.
Proof. intros t. split; [eapply normal_tabs, le_n|]. split; [apply normal_paired|apply normal_twice]. Qed.
Print Assumptions C91_lines.
Theorem C91_unchanged : forall t, ~ In 9%N t -> (forall P c Q, t = P ++ c :: Q -> (c = 10%N <-> exists P', P = P' ++ [13%N])) -> lines_normal t = t.
Proof. exact normal_same. Qed.
Print Assumptions C91_unchanged.
(** A text in UTF-8 becomes a document on which the other theorems build, with the cursor anywhere. *)
Theorem C91_write_utf8 : forall M t cs, good M -> chars_of t cs -> no_nul t -> ends_well t ->
  exists m us, write M t = Ok m /\ units us /\ concat us = lines_normal t /\ forall d, all d = us -> shows true m d.
Proof. exact write_utf8. Qed.
Print Assumptions C91_write_utf8.
Example C91_example : exists m, write usual (lt "a" ++ [10; 9]%N ++ lt "b" ++ [13]%N ++ lt "c") = Ok m /\
  text_get m = Ok (lt "a" ++ [13; 10; 32]%N ++ lt "b" ++ [13; 10]%N ++ lt "c").
Proof. eexists. split; vm_compute; reflexivity. Qed.
(** A CR at the end of the text: it is not made of characters and line ends, and Down moves the cursor
    beyond the end, or reads there. *)
Theorem C91_last_cr_refuted : exists m g, write usual (lt "a" ++ [13%N]) = Ok m /\ text_get m = Ok (lt "a" ++ [13%N]) /\
  step usual m (at_ 0) KDown = Ok (m, g) /\ ix g = 3 /\ ln m = 2 /\ step usual m (at_ 1) KDown = UB /\
  ~ (exists us, units us /\ concat us = lt "a" ++ [13%N]).
Proof.
  eexists _, _. split; [vm_compute; reflexivity|]. split; [vm_compute; reflexivity|]. split; [vm_compute; reflexivity|].
  split; [reflexivity|]. split; [reflexivity|]. split; [vm_compute; reflexivity|]. intros (us & U & E).
  assert (L : Forall (fun u => exists c r, u = c :: r /\ (c = 13%N -> exists r', r = 10%N :: r') /\ (Forall trails r \/ u = eol)) us).
  { eapply Forall_impl; [|exact U]. intros u Hu. destruct Hu as [c cs Hc Hcs|].
    - exists c, cs. split; [reflexivity|]. split; [intros ->; destruct Hc as [Hc|Hc]; lia|left; exact Hcs].
    - exists 13%N, [10%N]. split; [reflexivity|]. split; [eauto|right; reflexivity]. }
  destruct us as [|u us]; [discriminate|]. inversion L as [|? ? (c & r & -> & A & B) L2]; subst. cbn in E. injection E as -> E.
  destruct r as [|x r]; cbn in E.
  - destruct us as [|u us]; [discriminate|]. inversion L2 as [|? ? (c & r & -> & A2 & B2) L3]; subst. cbn in E. injection E as -> E.
    destruct (A2 eq_refl) as (r' & ->). discriminate.
  - injection E as -> E. destruct B as [B|B]; [inversion B as [|? ? [B1 B2] ?]; lia|discriminate].
Qed.
Print Assumptions C91_last_cr_refuted.
(** Nothing writes the NUL at the end: with a memory manager that hands out used blocks, as the pools do, the text
    is followed by what was there before. *)
Theorem C91_no_end_refuted : exists M m, (forall n, (n <= length (alloc M n))%nat) /\ write M (lt "hi") = Ok m /\ text_get m = Ok (lt "hiUSED").
Proof.
  exists {| alloc := fun n => repeat 46%N (n - 1) ++ lt "USED" ++ [0%N]; laps := true |}. eexists. split.
  - intros n. cbn [alloc]. rewrite !app_length, repeat_length. cbn [length]. change (length (lt "USED")) with 4%nat. lia.
  - split; vm_compute; reflexivity.
Qed.
Print Assumptions C91_no_end_refuted.

(** * C92: the clipboard *)
(** Full statement: [forall M t, good M -> no_nul t -> clipboard M (Some t) = Ok (lines_normal t)]. *)
Theorem C92_clipboard_partial : forall M t, good M -> no_nul t -> (length t < length (alloc M (length t)))%nat -> clipboard M (Some t) = Ok (lines_normal t).
Proof. exact clipboard_ok. Qed.
Print Assumptions C92_clipboard_partial.
Example C92_example : clipboard usual (Some (lt "the quick brown foxes ab")) = Ok (lt "the quick brown foxes ab") /\
  (length (lt "the quick brown foxes ab") < length (alloc usual (length (lt "the quick brown foxes ab"))))%nat.
Proof. split; [vm_compute; reflexivity|]. vm_compute. lia. Qed.
(** There is no room for the NUL at the end: for every text, except those of 24, 56 or 120 bytes, the reader runs
    out of the copy. *)
Theorem C92_clipboard_refuted : exists M, good M /\ forall t, no_nul t -> (length t <> 24 /\ length t <> 56 /\ length t <> 120)%nat ->
  clipboard M (Some t) = UB.
Proof. exists usual. split; [apply good_calloc|apply clipboard_none]. Qed.
Print Assumptions C92_clipboard_refuted.

(** * C93: the mouse *)
(** The line under the mouse, and in it the nearest gap between two characters. *)
Theorem C93_click_partial : forall G k m g us width x y, shows k m ([], us) ->
  let d := line_at (Z.to_nat (g_offset G + Z.quot (y - g_y G - g_pady G) (g_lineheight G))) us in
  let l := the_line d in let relx := x - g_x G - g_padx G in
  exists j, mouse_down G m g width false x y =
      Ok {| ix := zl (before (along j d)); sb := zl (before (along j d)); se := zl (before (along j d)); sh := true |} /\
    (j <= length l)%nat /\ (widening width l -> gap width l 1 < relx -> nearest width l relx j).
Proof. exact click_ok. Qed.
Print Assumptions C93_click_partial.
Theorem C93_drag : forall G m g width x y x' y' i i' g1, infercursorpos G m width x y = Ok i -> infercursorpos G m width x' y' = Ok i' ->
  mouse_down G m g width false x y = Ok g1 -> mouse_up G (Some m) g1 width x' y' = Ok {| ix := i'; sb := i; se := i'; sh := false |}.
Proof. exact drag_ok. Qed.
Print Assumptions C93_drag.
Definition screen : geometry := {| g_x := 0; g_y := 0; g_padx := 0; g_pady := 0; g_lineheight := 20; g_offset := 0 |}.
Definition ten (t : text) : Z := 10 * zl t.
(** the second line of the sample, 12 pixels from its begin *)
Example C93_example : the_line (line_at 1 (all sample)) = [[98]; [32]]%N /\ widening ten (the_line (line_at 1 (all sample))) /\
  exists g', mouse_down screen sample_img (at_ 0) ten false 12 25 = Ok g' /\ ix g' = 5.
Proof.
  split; [reflexivity|]. split; [|eexists; split; vm_compute; reflexivity].
  intros i j H. change (length (the_line (line_at 1 (all sample)))) with 2%nat in H. change (the_line (line_at 1 (all sample))) with [[98]; [32]]%N.
  destruct i as [|[|[|i]]]; destruct j as [|[|[|j]]]; try lia; vm_compute; discriminate.
Qed.
(** Full statement: the last clause of [C93_click_partial] without [gap width l 1 < relx].  Within the first
    character the cursor always goes before it, however near the gap after it is. *)
Theorem C93_first_character_refuted : exists m us, shows true m ([], us) /\
  mouse_down screen m (at_ 0) ten false 9 5 = Ok {| ix := 0; sb := 0; se := 0; sh := true |} /\
  the_line (line_at 0 us) = us /\ gap ten us 0 = 0 /\ gap ten us 1 = 10 /\ ~ nearest ten us 9 0.
Proof.
  exists {| tx := Some (lt "ab" ++ [0%N]); ln := 2; cp := 2 |}, [[97]; [98]]%N. split; [|split; [vm_compute; reflexivity|]].
  - unfold shows. cbn [fst snd tx ln cp]. split; [apply unitsb; reflexivity|]. split; [apply unitsb; reflexivity|]. split; [reflexivity|]. split; [lia|].
    exists []. split; [reflexivity|]. split; [vm_compute; discriminate|]. intros _. constructor.
  - split; [reflexivity|]. split; [reflexivity|]. split; [reflexivity|]. intros (_ & H). specialize (H 1%nat ltac:(vm_compute; lia)). vm_compute in H. apply H. reflexivity.
Qed.
Print Assumptions C93_first_character_refuted.
(** The mouse button released while Shift is down and no text has the focus: the image that is not there is read. *)
Theorem C93_no_focus_refuted : exists g, step usual sample_img (at_ 0) KShift = Ok (sample_img, g) /\ mouse_up screen None g ten 1 1 = UB.
Proof. eexists. split; vm_compute; reflexivity. Qed.
Print Assumptions C93_no_focus_refuted.

(** * C94: a double click selects the word *)
Theorem C94_word : forall G k m g width x y d P w1 w2 Q, shows k m d -> infercursorpos G m width x y = Ok (zl (before d)) ->
  before d = P ++ w1 -> after d = w2 ++ Q -> word_free (w1 ++ w2) ->
  (P = [] \/ exists P' c, P = P' ++ [c] /\ blank c) -> (Q = [] \/ exists c Q', Q = c :: Q' /\ blank c) ->
  mouse_down G m g width true x y = Ok {| ix := zl (before d); sb := zl P; se := zl (P ++ w1 ++ w2); sh := false |}.
Proof. exact double_ok. Qed.
Print Assumptions C94_word.
Example C94_example : exists m g, write usual (lt "one two three") = Ok m /\ mouse_down screen m (at_ 0) ten true 52 5 = Ok g /\
  ix g = 5 /\ sb g = 4 /\ se g = 7.
Proof. eexists _, _. split; [vm_compute; reflexivity|]. split; [vm_compute; reflexivity|]. repeat split. Qed.

(** * C95: a whole session *)
(** Text written by the program, edited with any number of keys: the message [text] answers what an editor of
    characters and lines would have made of it. *)
Theorem C95_session_partial : forall M t cs, good M -> chars_of t cs -> no_nul t -> ends_well t ->
  exists m us, write M t = Ok m /\ units us /\ concat us = lines_normal t /\
    forall as_, all_fine true as_ ([], us) ->
    let d := fold_left (fun d a => done a d) as_ ([], us) in
    exists m' g', run M m {| ix := 0; sb := 0; se := 0; sh := false |} (map event_of as_) = Ok (m', g') /\
      text_get m' = Ok (content d) /\ ix g' = zl (before d).
Proof. exact session_from_write. Qed.
Print Assumptions C95_session_partial.
Definition keys : list action :=
  [AMove MEnd; AType [[195; 169]]%N; AReturn; AType [[110]; [111]; [119]]%N; AMove MUp; AMove MHome; ADelete; AMove MDown; ATab; AMove MPageDown; ABackspace].
Example C95_example : chars_of (lt "cafe") [lt "c"; lt "a"; lt "f"; lt "e"] /\ ends_well (lt "cafe") /\
  all_fine true keys ([], [[99]; [97]; [102]; [101]]%N) /\
  exists m m' g', write usual (lt "cafe") = Ok m /\ run usual m (at_ 0) (map event_of keys) = Ok (m', g') /\
    text_get m' = Ok (lt "afe" ++ [195; 169; 13; 10]%N ++ lt "    no").
Proof.
  split; [split; [repeat constructor|reflexivity]|]. split.
  { intros (p & E). apply (f_equal (fun l => List.last l 0%N)) in E. rewrite List.last_last in E. vm_compute in E. discriminate. }
  split; [|eexists _, _, _; split; [vm_compute; reflexivity|split; vm_compute; reflexivity]].
  assert (T : forall us, forallb unitb us = true -> text_eqb (concat us) [8%N] = false -> text_eqb (concat us) [127%N] = false -> typeable us).
  { intros us A B C. split; [apply unitsb; exact A|]. split; intros F; rewrite F in *; discriminate. }
  cbn [all_fine keys fine still]. repeat (split; [solve [exact I|reflexivity|split; [reflexivity|apply T; reflexivity]|vm_compute; discriminate]|]). exact I.
Qed.
