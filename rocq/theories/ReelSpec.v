(** Film strips and the way a picture faces, independent of the code. *)
From Coq Require Import QArith SpecFloat.
From Verif Require Import Common FloatSpec PhysSpec.
Local Open Scope Z_scope.

(** The picture of an image is a strip of [n] frames beside each other; frame [i] of a strip of width [w] and height [h] *)
Definition frame_rect (n i w h : Z) : rect := mkR (i * (w / n)) 0 (w / n) h.
Definition inside (r : rect) (w h : Z) : Prop := 0 <= rx r /\ rx r + rw r <= w /\ 0 <= ry r /\ ry r + rh r <= h.
(** A film: every frame is shown for [1000 - 10 * rate] milliseconds, rates below 0 count as 0 and above 99 as 99 *)
Definition period (rate : Z) : Z := 1000 - 10 * Z.max 0 (Z.min 99 rate).
Definition film_frame (n rate t : Z) : Z := (t / period rate) mod n.
(** Walking: the next frame every [rate] pixels; position [k] / 2^20 *)
Definition walk_frame (n rate k : Z) : Z := (k / (rate * 2 ^ 20)) mod n.

(** The pictures look to the right.  A picture that is mirrored and then turned clockwise by [a] degrees looks into this direction,
    counted like directions are: 0 right, 90 up, 180 left, 270 down *)
Definition heading (a : Z) (mirrored : bool) : Z := ((if mirrored then 180 else 0) - a) mod 360.
(** Direction [d] goes to the left, to the right *)
Definition leftward (d : Z) : Prop := 90 < d < 270.
Definition rightward (d : Z) : Prop := 0 <= d < 90 \/ 270 < d < 360.
(** The last of the directions that is exactly to the left ([Some true]) or to the right ([Some false]) *)
Fixpoint last_side (ds : list Z) : option bool :=
  match ds with
  | [] => None
  | d :: r => match last_side r with Some b => Some b | None => if d =? 180 then Some true else if d =? 0 then Some false else None end
  end.
(** A number that is whole *)
Definition is_whole (x : spec_float) (z : Z) : Prop := finite x /\ (SF2Q x == inject_Z z)%Q.
