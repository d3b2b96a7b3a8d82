(** Claim C145: a text is clicked and edited where it is drawn. *)
From Coq Require Import ZArith SpecFloat.
From Verif Require Import Common FloatSpec NumModel EditSpec EditModel EditProofs EditProps AlignSpec AlignModel AlignProofs.
Local Open Scope Z_scope.

(** After any settings the text begins where the last align-x:y: says and its lines are as high as the last line-height: says, from 1 to 100. *)
Theorem C145_settings : forall x y l b p q h, sets (made x y) l = Ok b -> aligned l p q -> high l h ->
  pen b = (p, q) /\ lh b = h /\ 1 <= h <= 100 /\ bx b = x /\ by_ b = y.
Proof. exact settings_ok. Qed.
Print Assumptions C145_settings.
(** A click in a row of the text puts the cursor into its line, at the nearest gap; missing: alignments below 0 and images between pixels. *)
Theorem C145_click_partial : forall X Y l b p q h off k m us width x y r, sets (made (of_Z X) (of_Z Y)) l = Ok b -> aligned l p q -> high l h -> 0 <= p -> 0 <= q ->
  near X -> near Y -> near p -> near q -> near x -> near y -> near off -> shows k m ([], us) -> 0 <= r -> in_row (Y + q) h r y ->
  let d := line_at (Z.to_nat (off + r)) us in
  exists j, click b off m width x y = Ok (Z.of_nat (length (before (along j d)))) /\ (j <= length (the_line d))%nat /\
    (widening width (the_line d) -> gap width (the_line d) 1 < x - X - p -> nearest width (the_line d) (x - X - p) j).
Proof. exact clicked_ok. Qed.
Print Assumptions C145_click_partial.
(** The cursor is shown in its row, behind the text before it; missing: the same. *)
Theorem C145_cursor_partial : forall X Y l b p q h w r, sets (made (of_Z X) (of_Z Y)) l = Ok b -> aligned l p q -> high l h -> 0 <= p -> 0 <= q ->
  near X -> near Y -> near p -> near q -> near w -> 0 <= r -> near ((r + 1) * h) ->
  cursor b w r = Ok (X + p + w, Y + q + r * h, (X + p + w, Y + q + (r + 1) * h)).
Proof. exact cursor_ok. Qed.
Print Assumptions C145_cursor_partial.
(** A click on the cursor means the place where it is; missing: the same. *)
Theorem C145_back_partial : forall X Y l b p q h off w r x1 y1 x2 y2 d, sets (made (of_Z X) (of_Z Y)) l = Ok b -> aligned l p q -> high l h -> 0 <= p -> 0 <= q ->
  near X -> near Y -> near p -> near q -> near w -> 0 <= r -> near ((r + 1) * h) -> near off -> cursor b w r = Ok (x1, y1, (x2, y2)) ->
  near x1 -> near y1 -> near y2 -> y1 <= d < y2 -> spot b off x1 d = Ok (w, off + r).
Proof. exact back_ok. Qed.
Print Assumptions C145_back_partial.

Definition said_ : list setting := [Height (of_Z 20); Align (of_Z 3) (of_Z 4); Height (of_Z 200)].
Example C145_example : exists b, sets (made (of_Z 30) (of_Z 40)) said_ = Ok b /\ aligned said_ 3 4 /\ high said_ 20 /\ lh b = 20 /\
  in_row (40 + 4) 20 1 70 /\ click b 0 sample_img ten 45 70 = Ok 5 /\ cursor b 12 1 = Ok (45, 64, (45, 84)).
Proof.
  eexists. split; [vm_compute; reflexivity|]. split; [vm_compute; auto|]. split; [exists 20; vm_compute; auto|]. split; [reflexivity|].
  split; [unfold in_row; lia|]. split; vm_compute; reflexivity.
Qed.
Example C145_example_height : high [Height (of_Z 200)] 100 /\ high [Height (of_Z (-7))] 1 /\ high [Align (of_Z 1) (of_Z 1)] 10.
Proof. split; [exists 200; vm_compute; auto|]. split; [exists (-7); vm_compute; auto|reflexivity]. Qed.

(** A text that begins left of or above its image is drawn there, but a click on it and its cursor are undefined: the padding is unsigned (media.c 109, 644, 2969). *)
Theorem C145_negative_refuted : exists a q b, sets (made (of_Z 30) (of_Z 40)) [Align a q] = Ok b /\ pen b = (-1, 0) /\ spot b 0 45 70 = UB /\ cursor b 12 1 = UB.
Proof. exists (of_Z (-1)), (of_Z 0). eexists. split; [vm_compute; reflexivity|]. vm_compute. auto. Qed.
Print Assumptions C145_negative_refuted.
(** On an image between pixels a click on the cursor can mean the line above. *)
Definition half : num := S754_finite false 4503599627370496 (-53).
Theorem C145_between_refuted : exists y b x1 y1 x2 y2, finite y /\ sets (made (of_Z 30) y) [Height (of_Z 20)] = Ok b /\ cursor b 12 1 = Ok (x1, y1, (x2, y2)) /\
  y1 < y2 /\ spot b 0 x1 y1 = Ok (12, 0).
Proof.
  exists half. do 5 eexists. split; [vm_compute; split; [reflexivity|discriminate]|]. split; [vm_compute; reflexivity|]. split; [vm_compute; reflexivity|].
  split; vm_compute; reflexivity.
Qed.
Print Assumptions C145_between_refuted.
(** A huge height is not limited to 100 but undefined: the limit is applied to the int (media.c 2911-2916). *)
Theorem C145_huge_refuted : exists a x y, finite a /\ sets (made x y) [Height a] = UB.
Proof. exists (of_Z 10000000000), (of_Z 0), (of_Z 0). split; [vm_compute; split; [reflexivity|discriminate]|vm_compute; reflexivity]. Qed.
Print Assumptions C145_huge_refuted.
