(** Images on the screen, independent of the code. *)
From Coq Require Import QArith.
From Verif Require Import Common FloatSpec NumModel.
Local Open Scope Z_scope.

(** A rectangle of pixels *)
Record rect := mkR { rx : Z; ry : Z; rw : Z; rh : Z }.
Definition covers (r : rect) (px py : Z) : Prop := rx r <= px < rx r + rw r /\ ry r <= py < ry r + rh r.
(** Two rectangles overlap if they have a pixel in common. *)
Definition overlap (a b : rect) : Prop := exists px py, covers a px py /\ covers b px py.

Definition overlapb (a b : rect) : bool :=
  (rx a <? rx a + rw a) && (rx b <? rx b + rw b) && (ry a <? ry a + rh a) && (ry b <? ry b + rh b) &&
  (rx a <? rx b + rw b) && (rx b <? rx a + rw a) && (ry a <? ry b + rh b) && (ry b <? ry a + rh a).

(** [x] is the position [k] / 2^20: whole pixels and fractions of them *)
Definition at_pos (x : num) (k : Z) : Prop := finite x /\ (SF2Q x == QZ k (-20))%Q.
(** positions up to 2^29 pixels from the corner *)
Definition on_map (k : Z) : Prop := Z.abs k <= 2 ^ 49.
(** the pixel of a position: the fraction is dropped *)
Definition pixel (k : Z) : Z := Z.quot k (2 ^ 20).
(** The pixels of a picture of width [w] and height [h] at ([x], [y]); with [n] > 1 the picture is a film strip of [n] frames. *)
Definition shape_at (x y : num) (w n h : Z) (r : rect) : Prop :=
  exists kx ky, at_pos x kx /\ at_pos y ky /\ on_map kx /\ on_map ky /\ 1 <= n /\ n <= w <= 2 ^ 29 /\ 1 <= h <= 2 ^ 29 /\
    r = mkR (pixel kx) (pixel ky) (w / n) h.
(** The same without a limit on the position *)
Definition shape_any (x y : num) (w n h : Z) (r : rect) : Prop :=
  exists kx ky, at_pos x kx /\ at_pos y ky /\ r = mkR (pixel kx) (pixel ky) (w / n) h.

(** Where an image [a] came from relative to the middle of a wall [b], before it moved *)
Definition from_left (a b : rect) : Prop := rx a + Z.quot (rw a) 2 < rx b + Z.quot (rw b) 2.
Definition from_above (a b : rect) : Prop := ry a + Z.quot (rh a) 2 < ry b + Z.quot (rh b) 2.
(** The image, now at [r], has not come out at the other side of the wall in either direction. *)
Definition not_through (old r wall : rect) : Prop :=
  (from_left old wall -> rx r + rw r <= rx wall + rw wall) /\ (~ from_left old wall -> rx wall <= rx r) /\
  (from_above old wall -> ry r + rh r <= ry wall + rh wall) /\ (~ from_above old wall -> ry wall <= ry r).
