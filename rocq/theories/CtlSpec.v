(** Controlling an image with keys, independent of the code. *)
From Verif Require Import Common.
Local Open Scope Z_scope.

Inductive key := KLeft | KRight | KUp | KDown.
(** [Frame]: the images are moved and drawn *)
Inductive event := Down (k : key) | Up (k : key) | ShiftDown | ShiftUp | ButtonUp | Frame.

(** Where a key sends the player, in degrees, -1: nowhere; [None]: the event leaves the direction alone.  Mode 1: to all sides (a player
    with gravity jumps instead of going up), 2: up and down, 3: left and right.
    [flies]: the player has no gravity or little of it; [away]: the keyboard belongs to a text, or the player is frozen. *)
Definition heading_of (mode : Z) (flies away : bool) (e : event) : option Z :=
  match e with
  | Down KLeft => if negb away && ((mode =? 1) || (mode =? 3)) then Some 180 else None
  | Down KRight => if negb away && ((mode =? 1) || (mode =? 3)) then Some 0 else None
  | Down KUp => if negb away && ((mode =? 1) && flies || (mode =? 2)) then Some 90 else None
  | Down KDown => if negb away && flies && ((mode =? 1) || (mode =? 2)) then Some 270 else None
  | Up KLeft | Up KRight => Some (-1)
  | Up KUp | Up KDown => if flies then Some (-1) else None
  | _ => None
  end.
(** [r] is the latest word of [l], oldest first; [d] if there is none *)
Definition latest {A} (l : list (option A)) (d r : A) : Prop :=
  (exists a b, l = a ++ Some r :: b /\ Forall (fun o => o = None) b) \/ (Forall (fun o => o = None) l /\ r = d).

(** The camera at [c] shows the columns (or rows) from [c] up to [c + size]. *)
Definition shows (c size p : Z) : Prop := c <= p < c + size.
(** A player at [p] is well in view: at least [b] pixels from both ends. *)
Definition in_view (c size b p : Z) : Prop := c + b <= p <= c + size - b.
