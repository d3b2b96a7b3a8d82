(** What a screen shows, independent of the code: messages to Media, and what is drawn. *)
From Verif Require Import Common NumModel PhysSpec.
Import ListNotations.
Local Open Scope Z_scope.

(** [Size]: width:height:, [Corner]: left:top:, [Screen]: a screen with a background of this size begins, [Back]: its background is drawn,
    [Pic]: an image is drawn, with its place; both with the middle of the player at that time. *)
Inductive event :=
| Size (a b : num) | Corner (a b : num) | Screen (w h : Z) | Back (p : Z * Z) | Pic (p : Z * Z) (fixed : bool) (r : rect).
(** A part of the background and where it goes; where an image goes *)
Inductive drawn := Ground (src dst : rect) | Image (r : rect).

(** What was said last. *)
Fixpoint last_size (es : list event) : option (num * num) :=
  match es with [] => None | e :: r => match last_size r with Some x => Some x | None => match e with Size a b => Some (a, b) | _ => None end end end.
Fixpoint last_corner (es : list event) : option (num * num) :=
  match es with [] => None | e :: r => match last_corner r with Some x => Some x | None => match e with Corner a b => Some (a, b) | _ => None end end end.
(** Nothing said: no camera, in the corner. *)
Definition said (o : option (num * num)) (w h : Z) : Prop :=
  match o with Some (a, b) => c_int a = Ok w /\ c_int b = Ok h | None => w = 0 /\ h = 0 end.
Definition no_size (e : event) : bool := match e with Size _ _ => false | _ => true end.
Definition no_screen (e : event) : bool := match e with Screen _ _ => false | _ => true end.
(** How many things of [es] the camera is used for *)
Definition looks (es : list event) : Z :=
  Z.of_nat (length (filter (fun e => match e with Back _ => true | Pic _ fixed _ => negb fixed | _ => false end) es)).
