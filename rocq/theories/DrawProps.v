(** C123, C124: how texts on images are shown, and the cursor. *)
From Coq Require Import String.
From Verif Require Import Common Fuel Txt EditSpec EditModel EditProofs DrawSpec DrawModel DrawProofs DrawMore.
Local Open Scope string_scope.
Local Open Scope list_scope.
Local Open Scope nat_scope.

(** ** C123 *)
(** The lines of a text are drawn below each other, the selected part with the colours exchanged, whatever lies behind the text in its block. *)
Theorem C123_draw_partial : forall k width g t rest n b e ls, ls <> [] -> Forall (fun l => ~ In 13%N l) ls -> t = joined ls -> n = List.length t -> rest <> [] -> b <= e ->
  offset g mod 200 + most g < 400 ->
  exists c, render_text true true k width g (mkArea (t ++ rest) n b e) clear_edcache = Ret (Shown (drawn k width g b e 0 0 ls) c).
Proof.
  intros k width g t rest n b e ls NE F -> -> R BE G. destruct (render_ok (mkArea (joined ls ++ rest) (List.length (joined ls)) b e) k width g) with (ls := ls) (rest := rest) (c := clear_edcache) as (c & _ & H);
    cbn; try assumption; try reflexivity; [rewrite app_length; destruct rest; [congruence|cbn; lia]|apply coherent_clear|]. now exists c.
Qed.
Print Assumptions C123_draw_partial.
(** A program writes lines: they are the lines drawn, tabs as spaces. *)
Theorem C123_write_partial : forall M ls k width g b e, good M -> ls <> [] -> Forall one_line ls -> b <= e -> offset g mod 200 + most g < 400 ->
  exists m block c, write M (newlines ls) = Ok m /\ tx m = Some block /\
    render_text true true k width g (mkArea block (Z.to_nat (ln m)) b e) clear_edcache = Ret (Shown (drawn k width g b e 0 0 (map no_tabs ls)) c).
Proof.
  intros M ls k width g b e G NE F BE GQ. destruct (write_draw M ls k width g b e clear_edcache G NE F BE GQ (coherent_clear k)) as (m & block & c & W & T & _ & R). now exists m, block, c.
Qed.
Print Assumptions C123_write_partial.
(** All writings of a history are seen with the looks the images have then, if between two writings with different looks a colour is set. *)
Theorem C123_history_partial : forall width g l ms ks b e, (forall i, offset (g i) mod 200 + most (g i) < 400) -> (forall j, i_look (ms j) = ks j /\ i_hasfont (ms j) = true) -> b <= e ->
  steady ks None l -> Forall proper l -> exists out, acts_run width g l (ms, (b, e), clear_edcache) = Ret out /\ map pictures out = map Some (seen width g ks (b, e) l).
Proof. intros width g l ms ks b e G M BE S P. eapply run_ok; [exact G|exact M|exact BE| |exact S|exact P]. intros k. apply coherent_clear. Qed.
Print Assumptions C123_history_partial.
(** The pieces of a line are all of its bytes in order, each in the colours exchanged exactly if it is selected. *)
Theorem C123_pieces : forall b e s l, b <= e ->
  flat_map (fun p => map (fun c => (fst p, c)) (snd p)) (pieces b e s l) = combine (map (fun i => (b <=? i) && (i <? e)) (seq s (List.length l))) l.
Proof. exact pieces_ok. Qed.
Print Assumptions C123_pieces.
(** Without a font writing ends the program with an error; without a picture nothing happens. *)
Theorem C123_no_font : forall k width g a c, render_text true false k width g a c = Ret Fatal /\ forall f, render_text false f k width g a c = Ret Unchanged.
Proof. intros. split; reflexivity. Qed.
Print Assumptions C123_no_font.
(** Each letter 10 wide *)
Definition ten (f : nat) (t : text) : Z := (10 * Z.of_nat (List.length t))%Z.
Definition sheet : page := mkPage 5 7 16 0 default_rows.
Definition black : look := mkLook 1 0 255.
(** Two lines, the selection from the middle of the first to the middle of the second *)
Example C123_example : exists c, render_text true true black ten sheet (mkArea (joined [lit "abcd"; lit "efg"] ++ [0%N]) 9 2 7) clear_edcache =
  Ret (Shown [(Plain 1 0 (lit "ab"), 5, 7); (Shaded 1 255 0 (lit "cd"), 25, 7); (Shaded 1 255 0 (lit "e"), 5, 23); (Plain 1 0 (lit "fg"), 15, 23)]%Z c).
Proof.
  eexists. vm_compute. reflexivity.
Qed.
Example C123_example_drawn : drawn black ten sheet 2 7 0 0 [lit "abcd"; lit "efg"] =
  [(Plain 1 0 (lit "ab"), 5, 7); (Shaded 1 255 0 (lit "cd"), 25, 7); (Shaded 1 255 0 (lit "e"), 5, 23); (Plain 1 0 (lit "fg"), 15, 23)]%Z.
Proof. vm_compute. reflexivity. Qed.
Definition images : nat -> picture_of := fun _ => mkImage black true.
Definition looks : nat -> look := fun _ => black.
Definition tale : list act := [Write 0 [lit "abc"]; Font 1 2; Ink 1 9; Write 1 [lit "abc"; lit "d"]; Select 0 1; Write 1 [lit "abc"; lit "d"]].
Example C123_example_tale : steady looks None tale /\ Forall proper tale.
Proof.
  split; [vm_compute; tauto|]. repeat constructor; try discriminate; cbn; try lia; intros X; repeat (destruct X as [X|X]; [discriminate X|]); exact X.
Qed.
(** After [font:] an image still shows its text in the old font. *)
Theorem C123_font_refuted : exists l out, Forall proper l /\ acts_run ten (fun _ => sheet) l (images, (0, 0), clear_edcache) = Ret out /\
  seen ten (fun _ => sheet) looks (0, 0) l = [[(Plain 1 0 (lit "a"), 5, 7)]; [(Plain 2 0 (lit "a"), 5, 7)]]%Z /\
  map pictures out = [Some [(Plain 1 0 (lit "a"), 5, 7)]; Some [(Plain 1 0 (lit "a"), 5, 7)]]%Z.
Proof.
  exists [Write 0 [lit "a"]; Font 0 2; Write 0 [lit "a"]]. eexists. split; [|split; [vm_compute; reflexivity|split; vm_compute; reflexivity]].
  repeat constructor; try discriminate; cbn; intros X; repeat (destruct X as [X|X]; [discriminate X|]); exact X.
Qed.
Print Assumptions C123_font_refuted.
(** Highlighted text keeps the old colour after [highlight:]. *)
Theorem C123_highlight_refuted : exists l out, Forall proper l /\ acts_run ten (fun _ => sheet) l (images, (0, 1), clear_edcache) = Ret out /\
  seen ten (fun _ => sheet) looks (0, 1) l = [[(Shaded 1 255 0 (lit "a"), 5, 7)]; [(Shaded 1 3 0 (lit "a"), 5, 7)]]%Z /\
  map pictures out = [Some [(Shaded 1 255 0 (lit "a"), 5, 7)]; Some [(Shaded 1 255 0 (lit "a"), 5, 7)]]%Z.
Proof.
  exists [Write 0 [lit "a"]; Highlight 0 3; Write 0 [lit "a"]]. eexists. split; [|split; [vm_compute; reflexivity|split; vm_compute; reflexivity]].
  repeat constructor; try discriminate; cbn; intros X; repeat (destruct X as [X|X]; [discriminate X|]); exact X.
Qed.
Print Assumptions C123_highlight_refuted.
(** Two images with different colours and the same text: the second is shown in the colour of the first. *)
Theorem C123_two_refuted : exists l out, Forall proper l /\ acts_run ten (fun _ => sheet) l (images, (0, 0), clear_edcache) = Ret out /\
  seen ten (fun _ => sheet) looks (0, 0) l = [[(Plain 1 8 (lit "ok"), 5, 7)]; [(Plain 1 9 (lit "ok"), 5, 7)]]%Z /\
  map pictures out = [Some [(Plain 1 8 (lit "ok"), 5, 7)]; Some [(Plain 1 8 (lit "ok"), 5, 7)]]%Z.
Proof.
  exists [Ink 0 8; Ink 1 9; Write 0 [lit "ok"]; Write 1 [lit "ok"]]. eexists. split; [|split; [vm_compute; reflexivity|split; vm_compute; reflexivity]].
  repeat constructor; try discriminate; cbn; intros X; repeat (destruct X as [X|X]; [discriminate X|]); exact X.
Qed.
Print Assumptions C123_two_refuted.
(** Of forty lines only thirty-one are drawn, however high the image is. *)
Theorem C123_rows_refuted : exists ls out c, List.length ls = 40 /\ Forall (fun l => l = lit "a") ls /\
  render_text true true black ten sheet (mkArea (joined ls ++ [0%N]) (List.length (joined ls)) 0 0) clear_edcache = Ret (Shown out c) /\ List.length out = 31.
Proof.
  exists (repeat (lit "a") 40). eexists _, _. split; [reflexivity|]. split; [apply Forall_forall; intros x X; now apply repeat_spec in X|]. split; vm_compute; reflexivity.
Qed.
Print Assumptions C123_rows_refuted.
(** An image of 600 lines one pixel high: writing the text stores outside the cache. *)
Theorem C123_outside_refuted : exists ls, render_text true true black ten (mkPage 0 0 1 0 600) (mkArea (joined ls ++ [0%N]) (List.length (joined ls)) 0 0) clear_edcache = Bad.
Proof. exists (repeat (lit "a") 401). vm_compute. reflexivity. Qed.
Print Assumptions C123_outside_refuted.

(** ** C124 *)
(** The cursor stands behind the part of its line that is before it, on the row of that line. *)
Theorem C124_cursor_partial : forall ls off most m row off', ls <> [] -> Forall (fun l => ~ In 10%N l /\ ~ In 13%N l) ls -> render_cursor (joined ls) off most = (m, row, off') ->
  m = last_line ls /\ (row + Z.of_nat off' = Z.of_nat (List.length ls - 1))%Z.
Proof. intros ls off most m row off' NE F E. rewrite cursor_ok in E by assumption. injection E as <- <- <-. split; [reflexivity|lia]. Qed.
Print Assumptions C124_cursor_partial.
(** While nothing is typed the text scrolls line by line until the line of the cursor is in view, *)
Theorem C124_scrolls_partial : forall ls most n off, ls <> [] -> Forall (fun l => ~ In 10%N l /\ ~ In 13%N l) ls -> 1 <= most ->
  (off - (List.length ls - 1)) + (List.length ls - (off + most)) <= n -> frames n (joined ls) off most <= List.length ls - 1 < frames n (joined ls) off most + most.
Proof. intros. now apply frames_follow. Qed.
Print Assumptions C124_scrolls_partial.
(** and then stays. *)
Theorem C124_stays_partial : forall ls most off n, ls <> [] -> Forall (fun l => ~ In 10%N l /\ ~ In 13%N l) ls -> off <= List.length ls - 1 < off + most -> frames n (joined ls) off most = off.
Proof. intros. now apply frames_still. Qed.
Print Assumptions C124_stays_partial.
Example C124_example : render_cursor (joined [lit "ab"; lit "cde"; lit "f"]) 0 2 = (lit "f", 1%Z, 1) /\ frames 1 (joined [lit "ab"; lit "cde"; lit "f"]) 0 2 = 1.
Proof. split; vm_compute; reflexivity. Qed.
(** A newline that was inserted: the text is drawn in one line, the cursor at its end stands behind the first letters. *)
Theorem C124_newline_refuted : exists t c m row off, render_text true true black ten sheet (mkArea (t ++ [0%N]) (List.length t) 0 0) clear_edcache = Ret (Shown [(Plain 1 0 t, 5, 7)]%Z c) /\
  render_cursor t 0 30 = (m, row, off) /\ row = 0%Z /\ ten 1 m = 20%Z /\ ten 1 t = 70%Z.
Proof. exists (lit "abcde" ++ 10%N :: lit "f"). eexists _, _, _, _. split; [vm_compute; reflexivity|]. split; [vm_compute; reflexivity|]. vm_compute. repeat split. Qed.
Print Assumptions C124_newline_refuted.
