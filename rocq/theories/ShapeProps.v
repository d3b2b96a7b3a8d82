(** C133: drawing points and lines on images. *)
From Coq Require Import QArith SpecFloat List.
From Verif Require Import Common FloatSpec NumModel ReelSpec ShapeSpec ShapeModel ShapeProofs.
Import ListNotations.
Local Open Scope Z_scope.

(** The full claim: [image draw: list color: c] draws the points and lines of the list, in this order and nothing else, in the colour [c]
    on the image; a line joins its points wherever they are at that time; points and colours keep what they were given.
    It holds for images with a texture, lists without Nil, lines with both ends, and colours whose numbers nobody changes. *)
Theorem C133_draw_partial (wide : bool) st t l items c r g b : t <> NoTexture -> Forall2 (shows st) l items ->
  part_is st (color_r st c) r -> part_is st (color_g st c) g -> part_is st (color_b st c) b ->
  (if wide then 0 <= r <= 255 /\ 0 <= g <= 255 /\ 0 <= b <= 255 else 0 <= r <= 127 /\ 0 <= g <= 127 /\ 0 <= b <= 127) ->
  exists d, img_draw wide true st t (Some l) c = Ok (d, Drawable) /\ on d <> OnScreen /\ colour d = (r, g, b) /\ strokes d = flat_map strokes_of items.
Proof. exact (draw_good wide st t l items c r g b). Qed.
Print Assumptions C133_draw_partial.
(** A line joins its points: after [from: a to: b] and any messages to other objects, it shows the places of [a] and [b]. *)
Theorem C133_follows st l a b st1 os st2 x1 y1 x2 y2 : line_from_to st l a b = Ok st1 -> run st1 os = Ok st2 ->
  Forall (fun o => target_of o <> Some l) os -> shows st2 a (IPoint x1 y1) -> shows st2 b (IPoint x2 y2) -> shows st2 l (ILine x1 y1 x2 y2).
Proof. exact (line_follows st l a b st1 os st2 x1 y1 x2 y2). Qed.
Print Assumptions C133_follows.
(** A point answers the place it was given, and stays there whatever happens to other objects, the numbers it was given included. *)
Theorem C133_place st p a b va vb x y x0 y0 : get st p = Ok (OPoint x0 y0) -> tonum st a = Ok va -> tonum st b = Ok vb ->
  is_whole va x -> is_whole vb y -> int_value x -> int_value y ->
  exists st', point_xyset st p a b = Ok st' /\ shows st' p (IPoint x y).
Proof. exact (xyset_whole st p a b va vb x y x0 y0). Qed.
Print Assumptions C133_place.
Theorem C133_stays st os st' p x y : run st os = Ok st' -> Forall (fun o => target_of o <> Some p) os -> shows st p (IPoint x y) -> shows st' p (IPoint x y).
Proof. exact (point_stays st os st' p x y). Qed.
Print Assumptions C133_stays.
(** A colour is the one that was set, as long as its numbers are left alone. *)
Theorem C133_colour_partial st c a b d st1 os st2 va vb vd r g u : get st a = Ok (ONum va) -> get st b = Ok (ONum vb) -> get st d = Ok (ONum vd) ->
  is_whole va r -> is_whole vb g -> is_whole vd u -> color_rgb_set st c a b d = Ok st1 -> run st1 os = Ok st2 ->
  Forall (fun o => target_of o <> Some c /\ target_of o <> Some a /\ target_of o <> Some b /\ target_of o <> Some d) os ->
  part_is st2 (color_r st2 c) r /\ part_is st2 (color_g st2 c) g /\ part_is st2 (color_b st2 c) u.
Proof. exact (color_lasts st c a b d st1 os st2 va vb vd r g u). Qed.
Print Assumptions C133_colour_partial.
(** Nil, the numbers 10, 20 and 200, two points, a line, a colour (at 11) *)
Definition canvas0 : store := [ONil; ONum (of_Z 10); ONum (of_Z 20); ONum (of_Z 200)].
(** [transparency:] changes the transparency only, [red:green:blue:] everything but the transparency. *)
Theorem C133_transparency st c a v st' : get st a = Ok (ONum v) -> color_a_set st c a = Ok st' ->
  color_a st' c = Ok a /\ color_r st' c = color_r st c /\ color_g st' c = color_g st c /\ color_b st' c = color_b st c /\ get st' a = Ok (ONum v).
Proof. exact (alpha_set st c a v st'). Qed.
Print Assumptions C133_transparency.
Theorem C133_opaque st c a b d st' : color_rgb_set st c a b d = Ok st' -> color_a st' c = color_a st c.
Proof. exact (rgb_alpha st c a b d st'). Qed.
Print Assumptions C133_opaque.
(** New colours are black, new points in the corner. *)
Theorem C133_new st st' c : color_new st = (st', c) ->
  part_is st' (color_r st' c) 0 /\ part_is st' (color_g st' c) 0 /\ part_is st' (color_b st' c) 0 /\ part_is st' (color_a st' c) 0.
Proof. exact (new_black st st' c). Qed.
Print Assumptions C133_new.
Theorem C133_new_point st st' p : point_new st = (st', p) -> shows st' p (IPoint 0 0).
Proof. exact (new_corner st st' p). Qed.
Print Assumptions C133_new_point.
Example C133_new_case : (let (st, c) := color_new canvas0 in do st <- color_a_set st c 3; do a <- color_a st c; get st a) = Ok (ONum (of_Z 200)).
Proof. vm_compute. reflexivity. Qed.
(** A Nil in the list ends the drawing. *)
Theorem C133_until_nil st l items n rest : Forall2 (shows st) l items -> get st n = Ok ONil -> draw_shapes st (l ++ n :: rest) = Ok (flat_map strokes_of items).
Proof. exact (shows_until st l items n rest). Qed.
Print Assumptions C133_until_nil.
Definition canvas_ops : list op := [NewPoint; NewPoint; NewLine 0; PointXY 4 1 2; PointXY 5 2 1; LineFromTo 6 4 5; NewColor; ColorRgb 11 1 2 1; PointXY 4 2 2].
Definition drawn (o : outcome (drawing * texture)) : outcome (target * (Z * Z * Z) * list stroke) := do (d, _) <- o; Ok (on d, colour d, strokes d).
Example C133_case : (do st <- run canvas0 canvas_ops; drawn (img_draw false true st Plain (Some [5; 6; 1]%nat) 11)) =
  Ok (Copied, (10, 20, 10), [SPoint 20 10; SLine 20 20 20 10]).
Proof. vm_compute. reflexivity. Qed.
(** A colour refers to the numbers it was given: [n add: 1] changes it. *)
Theorem C133_alias_refuted : exists st st1 st2 c n v, color_rgb_set st c n n n = Ok st1 /\ number_inc st1 n n = Ok st2 /\
  get st n = Ok (ONum v) /\ is_whole v 10 /\ part_is st1 (color_r st1 c) 10 /\ part_is st2 (color_r st2 c) 20.
Proof.
  exists [ONum (of_Z 10); ONum (of_Z 0); OColor 1 1 1 1], [ONum (of_Z 10); ONum (of_Z 0); OColor 0 0 0 1], [ONum (of_Z 20); ONum (of_Z 0); OColor 0 0 0 1], 2%nat, 0%nat, (of_Z 10).
  split; [vm_compute; reflexivity|]. split; [vm_compute; reflexivity|]. split; [reflexivity|].
  assert (W : is_whole (of_Z 10) 10) by (split; vm_compute; intuition congruence). assert (W2 : is_whole (of_Z 20) 20) by (split; vm_compute; intuition congruence).
  split; [exact W|]. split; [exists 0%nat, (of_Z 10); auto|exists 0%nat, (of_Z 20); auto].
Qed.
Print Assumptions C133_alias_refuted.
(** A line without ends is a dot in the corner. *)
Theorem C133_no_ends_refuted : exists st l s, line_new [ONil] 0 = (st, l) /\ draw_shapes st [l] = Ok [s] /\ s = SLine 0 0 0 0.
Proof. exists [ONil; OLine 0 0], 1%nat, (SLine 0 0 0 0). vm_compute. auto. Qed.
Print Assumptions C133_no_ends_refuted.
(** An image without a picture: the strokes go to the screen. *)
Theorem C133_screen_refuted : exists st c l d, img_draw false true st NoTexture (Some l) c = Ok (d, NoTexture) /\ on d = OnScreen /\ strokes d <> [].
Proof.
  exists [OPoint (of_Z 1) (of_Z 2); ONum (of_Z 0); OColor 1 1 1 1], 2%nat, [0%nat], (mkD OnScreen (0, 0, 0) [SPoint 1 2]).
  split; [vm_compute; reflexivity|]. split; [reflexivity|discriminate].
Qed.
Print Assumptions C133_screen_refuted.
(** The parts of a colour are converted to [char]: from 128 on this is undefined in ISO C. *)
Theorem C133_bright_refuted : exists st c v, (forall l, img_draw false true st Drawable (Some l) c = UB) /\ is_whole v 200 /\
  exists r, color_r st c = Ok r /\ get st r = Ok (ONum v).
Proof.
  exists [ONum (of_Z 200); OColor 0 0 0 0], 1%nat, (of_Z 200). split; [intros l; vm_compute; reflexivity|].
  split; [split; vm_compute; intuition congruence|]. exists 0%nat. auto.
Qed.
Print Assumptions C133_bright_refuted.
(** Something that is no list is read as if it were one; places outside the range of int are undefined. *)
Theorem C133_no_list_refuted : exists st c p a, img_draw true true st Drawable None c = UB /\ point_xyset st p a a = UB.
Proof. exists [ONum (of_Z 3000000000); OPoint (of_Z 0) (of_Z 0); ONum (of_Z 0); OColor 2 2 2 2], 3%nat, 1%nat, 0%nat. vm_compute. auto. Qed.
Print Assumptions C133_no_list_refuted.
