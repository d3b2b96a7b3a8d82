(** The settings of images in the Media plug-in, and sending images somewhere (plugins/media/media.c 2337-2382, 2437-2473, 2511-2532,
    2570-2735, 2760-2780).

    Arguments are numbers and booleans already (what other objects are as numbers is modelled elsewhere).  The image is one of [PhysModel];
    the frames in between are [PhysModel.frame].  The size of a new image is what the place in the table had before (2337-2382 do not set it).
    Left out: texts, colours and fonts ([DrawModel], [SlotModel]), and messages to images that have no data. *)
From Coq Require Import SpecFloat.
From Verif Require Import Common NumModel PhysSpec PhysModel TuneSpec.
Local Open Scope Z_scope.

(** media.c 2337-2382, [ctr_img_new] *)
Definition img_new (w0 h0 : Z) : img :=
  mkI (of_Z 0) (of_Z 0) (of_Z 0) (of_Z 0) (of_Z (-1)) (of_Z (-1)) (of_Z 0) (of_Z 0) (of_Z 0) (of_Z 1) (of_Z 1) (of_Z (-1)) (of_Z 0) h0 w0 1
    false false false false false true true.
(** media.c 2648-2653, [ctr_img_solid] *)
Definition img_solid (m : img) (b : bool) : img :=
  mkI (x m) (y m) (ox m) (oy m) (tx m) (ty m) (gravity m) (gspeed m) (fric m) (accel m) (speed m) (dir m) (mov m) (h m) (w m) (anims m) b (collidable m) (bounce m) (fixed m) (ghost m) (visible m) (alive m).
(** media.c 2672-2677, [ctr_img_active] *)
Definition img_active (m : img) (b : bool) : img :=
  mkI (x m) (y m) (ox m) (oy m) (tx m) (ty m) (gravity m) (gspeed m) (fric m) (accel m) (speed m) (dir m) (mov m) (h m) (w m) (anims m) (solid m) b (bounce m) (fixed m) (ghost m) (visible m) (alive m).
(** media.c 2631-2636, [ctr_img_bounce] *)
Definition img_bounce (m : img) (b : bool) : img :=
  mkI (x m) (y m) (ox m) (oy m) (tx m) (ty m) (gravity m) (gspeed m) (fric m) (accel m) (speed m) (dir m) (mov m) (h m) (w m) (anims m) (solid m) (collidable m) b (fixed m) (ghost m) (visible m) (alive m).
(** media.c 2437-2441, [ctr_img_fixed_set] *)
Definition img_fixed_set (m : img) (b : bool) : img :=
  mkI (x m) (y m) (ox m) (oy m) (tx m) (ty m) (gravity m) (gspeed m) (fric m) (accel m) (speed m) (dir m) (mov m) (h m) (w m) (anims m) (solid m) (collidable m) (bounce m) b (ghost m) (visible m) (alive m).
(** media.c 2453-2457, [ctr_img_ghost_set] *)
Definition img_ghost_set (m : img) (b : bool) : img :=
  mkI (x m) (y m) (ox m) (oy m) (tx m) (ty m) (gravity m) (gspeed m) (fric m) (accel m) (speed m) (dir m) (mov m) (h m) (w m) (anims m) (solid m) (collidable m) (bounce m) (fixed m) b (visible m) (alive m).
(** media.c 2469-2473, [ctr_img_visible_set] *)
Definition img_visible_set (m : img) (b : bool) : img :=
  mkI (x m) (y m) (ox m) (oy m) (tx m) (ty m) (gravity m) (gspeed m) (fric m) (accel m) (speed m) (dir m) (mov m) (h m) (w m) (anims m) (solid m) (collidable m) (bounce m) (fixed m) (ghost m) b (alive m).
(** media.c 2690-2695, [ctr_img_gravity] *)
Definition img_gravity (m : img) (v : num) : img :=
  mkI (x m) (y m) (ox m) (oy m) (tx m) (ty m) v (gspeed m) (fric m) (accel m) (speed m) (dir m) (mov m) (h m) (w m) (anims m) (solid m) (collidable m) (bounce m) (fixed m) (ghost m) (visible m) (alive m).
(** media.c 2707-2712, [ctr_img_speed] *)
Definition img_speed (m : img) (v : num) : img :=
  mkI (x m) (y m) (ox m) (oy m) (tx m) (ty m) (gravity m) (gspeed m) (fric m) (accel m) v (dir m) (mov m) (h m) (w m) (anims m) (solid m) (collidable m) (bounce m) (fixed m) (ghost m) (visible m) (alive m).
(** media.c 2724-2729, [ctr_img_friction] *)
Definition img_friction (m : img) (v : num) : img :=
  mkI (x m) (y m) (ox m) (oy m) (tx m) (ty m) (gravity m) (gspeed m) v (accel m) (speed m) (dir m) (mov m) (h m) (w m) (anims m) (solid m) (collidable m) (bounce m) (fixed m) (ghost m) (visible m) (alive m).
(** media.c 2760-2765, [ctr_img_accel] *)
Definition img_accel (m : img) (v : num) : img :=
  mkI (x m) (y m) (ox m) (oy m) (tx m) (ty m) (gravity m) (gspeed m) (fric m) v (speed m) (dir m) (mov m) (h m) (w m) (anims m) (solid m) (collidable m) (bounce m) (fixed m) (ghost m) (visible m) (alive m).
(** media.c 2570-2580, [ctr_img_xy] *)
Definition img_xy (m : img) (a b : num) : outcome img :=
  do px <- c_int a; do py <- c_int b;
  Ok (mkI (of_Z px) (of_Z py) (of_Z px) (of_Z py) (tx m) (ty m) (gravity m) (gspeed m) (fric m) (accel m) (speed m) (dir m) (mov m) (h m) (w m) (anims m) (solid m) (collidable m) (bounce m) (fixed m) (ghost m) (visible m) (alive m)).
(** media.c 2582-2586, [ctr_img_x] *)
Definition img_x (m : img) : num := x m.
(** media.c 2588-2593, [ctr_img_y] *)
Definition img_y (m : img) : outcome num := do py <- c_int (y m); Ok (of_Z py).
Section Tune.
Variable atan2f : num -> num -> num.
(** media.c 2606-2619, [ctr_img_mov_set] *)
Definition heading_of (dx dy : num) : num :=
  let deg := mul64 (atan2f (mul64 (of_Z (-1)) dy) dx) (div64 (of_Z 180) pi64) in
  if SFltb deg (of_Z 0) then add64 (of_Z 360) deg else deg.
Definition img_mov_set (m : img) (a b : num) : img :=
  let d := heading_of (sub64 a (x m)) (sub64 b (y m)) in
  mkI (x m) (y m) (ox m) (oy m) a b (gravity m) (gspeed m) (fric m) (accel m) (speed m) d (mov m) (h m) (w m) (anims m) (solid m) (collidable m) (bounce m) (fixed m) (ghost m) (visible m) (alive m).
Definition say (m : img) (s : setting) : img :=
  match s with
  | Wall b => img_solid m b | Active b => img_active m b | Bounce b => img_bounce m b | Static b => img_fixed_set m b
  | Ghost b => img_ghost_set m b | Visible b => img_visible_set m b
  | Gravity v => img_gravity m v | Speed v => img_speed m v | Friction v => img_friction m v | Accelerate v => img_accel m v
  end.

(** The game with [CtrMediaInputFreeze] (true: frozen) and [CtrMediaJumpHeightFactor] *)
Record state := mkS { game_of : game; frozen : bool; factor : Z }.
Definition with_game (s : state) (g : game) : state := mkS g (frozen s) (factor s).
(** media.c 2511-2516, [ctr_img_controllable] *)
Definition img_controllable (s : state) (i : nat) (v : num) : outcome state :=
  do c <- c_int v;
  let g := game_of s in
  Ok (with_game s (mkG (imgs g) (Some i) c (jump g) (jheight g) (contact g) (winw g) (winh g) (sent g))).
(** media.c 2528-2532, [ctr_img_freeze]: kept for all images; keys steer only when it is [False] (867, 890, 910, 951) *)
Definition img_freeze (s : state) (b : bool) : state := mkS (game_of s) b (factor s).
(** media.c 2777-2780, [ctr_img_jump_height]: kept for all images *)
Definition img_jump_height (s : state) (v : num) : outcome state := do f <- c_int v; Ok (mkS (game_of s) (frozen s) f).

Variables (cosf sinf logf : num -> num) (powf : num -> num -> num) (pi_180 pi : num).
Variable on_hit : game -> nat -> nat -> list img.
Variable on_arrival : game -> nat -> list img.
(** What happens: a new image, messages to image [i], a frame *)
Inductive event :=
| New (w0 h0 : Z) | Say (i : nat) (s : setting) | PutAt (i : nat) (a b : num) | SendTo (i : nat) (a b : num)
| Controllable (i : nat) (v : num) | Freeze (i : nat) (b : bool) | JumpHeight (i : nat) (v : num) | Frame (dt : num).
Definition to_image (s : state) (i : nat) (f : img -> outcome img) : outcome state :=
  do m <- img_at (game_of s) i; do m' <- f m; Ok (with_game s (put (game_of s) i m')).
Definition happen (s : state) (e : event) : outcome state :=
  match e with
  | New w0 h0 => Ok (with_game s (with_imgs (game_of s) (imgs (game_of s) ++ [img_new w0 h0])))
  | Say i t => to_image s i (fun m => Ok (say m t))
  | PutAt i a b => to_image s i (fun m => img_xy m a b)
  | SendTo i a b => to_image s i (fun m => Ok (img_mov_set m a b))
  | Controllable i v => do _ <- img_at (game_of s) i; img_controllable s i v
  | Freeze i b => do _ <- img_at (game_of s) i; Ok (img_freeze s b)
  | JumpHeight i v => do _ <- img_at (game_of s) i; img_jump_height s v
  | Frame dt => do g <- frame cosf sinf logf powf pi_180 pi on_hit on_arrival (game_of s) dt; Ok (with_game s g)
  end.
Fixpoint story (s : state) (es : list event) : outcome state :=
  match es with [] => Ok s | e :: r => do s <- happen s e; story s r end.
(** media.c 230-262, 3280-3282 *)
Definition start (ww wh : Z) : state := mkS (mkG [] None 0 0 0 None ww wh []) false 100.
End Tune.
