(** Keys, the camera and clicks of the Media plug-in (plugins/media/media.c 858-972, 1035-1092, 1706-1722, 818-856).

    What the program and its listeners may change at any time is in [env] and given with every event.  Left out: texts (EditModel),
    sounds, gamepads and fingers (they call the same functions). *)
From Coq Require Import SpecFloat.
From Verif Require Import Common NumModel PhysSpec CtlSpec.
Local Open Scope Z_scope.

(** The player: [controllableObject] *)
Record who := mkW { gravity : num; speed : num; accel : num; height : Z }.
(** [CtrMediaControlMode], [CtrMediaInputFreeze == CtrStdBoolFalse], [focusObject], the player, [CtrMediaJumpHeightFactor] *)
Record env := mkE { mode : Z; awake : bool; focus : bool; player : option who; factor : Z }.
(** [dir], [c4speed] (media.c 1359), [CtrMediaRotation], [CtrMediaJump], [CtrMediaJumpHeight], [CtrMediaSelectStart];
    direction and speed of the player *)
Record ctl := mkC { dir : Z; c4 : Z; rot : Z; jump : Z; jheight : Z; selecting : bool; pdir : num; pmov : num }.
Definition with_dir (s : ctl) (d : Z) := mkC d (c4 s) (rot s) (jump s) (jheight s) (selecting s) (pdir s) (pmov s).
Definition with_c4 (s : ctl) (d : Z) := mkC (dir s) d (rot s) (jump s) (jheight s) (selecting s) (pdir s) (pmov s).
Definition with_rot (s : ctl) (d : Z) := mkC (dir s) (c4 s) d (jump s) (jheight s) (selecting s) (pdir s) (pmov s).
Definition with_jump (s : ctl) (d : Z) := mkC (dir s) (c4 s) (rot s) d (jheight s) (selecting s) (pdir s) (pmov s).
Definition with_jheight (s : ctl) (d : Z) := mkC (dir s) (c4 s) (rot s) (jump s) d (selecting s) (pdir s) (pmov s).
Definition with_selecting (s : ctl) (b : bool) := mkC (dir s) (c4 s) (rot s) (jump s) (jheight s) b (pdir s) (pmov s).
Definition with_player (s : ctl) (d v : num) := mkC (dir s) (c4 s) (rot s) (jump s) (jheight s) (selecting s) d v.

Definition flying (p : who) : bool := SFltb (gravity p) (of_Z 1).
Definition heavy (p : who) : bool := SFleb (of_Z 1) (gravity p).

(** media.c 858-875, [ctr_internal_media_keydown_left] *)
Definition keydown_left (e : env) (s : ctl) : ctl :=
  if focus e then s
  else match player e with
  | Some p => if awake e then
      if (mode e =? 1) || (mode e =? 3) then with_dir s 180 else if mode e =? 4 then with_rot s 5 else s
      else s
  | None => s
  end.
(** media.c 877-898, [ctr_internal_media_keydown_right] *)
Definition keydown_right (e : env) (s : ctl) : ctl :=
  if focus e then s
  else match player e with
  | Some p => if awake e then
      if (mode e =? 1) || (mode e =? 3) then with_dir s 0 else if mode e =? 4 then with_rot s (-5) else s
      else s
  | None => s
  end.
(** media.c 900-919, [ctr_internal_media_keydown_down] *)
Definition keydown_down (e : env) (s : ctl) : ctl :=
  if focus e then s
  else match player e with
  | Some p => if awake e then
      if flying p && ((mode e =? 1) || (mode e =? 2)) then with_dir s 270 else if mode e =? 4 then with_c4 s (-1) else s
      else s
  | None => s
  end.
(** media.c 921-931, [ctr_internal_media_keyup_down] *)
Definition keyup_down (e : env) (s : ctl) : ctl :=
  if mode e =? 4 then with_c4 s 0
  else match player e with Some p => if flying p then with_dir s (-1) else s | None => s end.
(** media.c 933-939, [ctr_internal_media_keyup_right] *)
Definition keyup_right (e : env) (s : ctl) : ctl := if mode e =? 4 then with_rot s 0 else with_dir s (-1).
(** media.c 941-972, [ctr_internal_media_keydown_up] *)
Definition keydown_up (e : env) (s : ctl) : ctl :=
  if focus e then s
  else match player e with
  | Some p => if awake e then
      if heavy p && (mode e =? 1) then (if jump s =? 0 then with_jump s 1 else s)
      else if (mode e =? 1) || (mode e =? 2) then with_dir s 90 else if mode e =? 4 then with_c4 s 1 else s
      else s
  | None => s
  end.
(** fmin, fmax: the other one if one is not a number *)
Definition fmin (a b : num) : num :=
  match a, b with S754_nan, _ => b | _, S754_nan => a | _, _ => if SFltb b a then b else a end.
Definition fmax (a b : num) : num :=
  match a, b with S754_nan, _ => b | _, S754_nan => a | _, _ => if SFltb a b then b else a end.
(** media.c 1706-1722, before the images of a frame *)
Definition turn (e : env) (s : ctl) : outcome ctl :=
  if mode e =? 4 then
    let d := dir s + rot s in
    let d1 := if 359 <? d then 0 else d in
    Ok (with_dir s (if d1 <? 0 then 359 else d1))
  else Ok s.
Definition push (e : env) (s : ctl) : ctl :=
  match player e with
  | Some p =>
      if -1 <? dir s then
        with_player s (of_Z (dir s))
          (fmax (of_Z 0) (fmin (speed p) (add64 (pmov s) (mul64 (mul64 (speed p) (accel p)) (of_Z (if mode e =? 4 then c4 s else 1))))))
      else s
  | None => s
  end.
Definition take_off (e : env) (s : ctl) : outcome ctl :=
  match player e with
  | Some p =>
      if (jump s =? 1) && negb (factor e =? 0) then
        if in_int (height p * factor e) then Ok (with_jump (with_jheight s (height p * factor e)) 2) else UB
      else Ok s
  | None => Ok s
  end.
(** media.c 1434-1705, the events of the keyboard; 1466-1473: while text is selected (a shift key is down), the release of a mouse button
    asks for the text that has the keyboard, [ctr_internal_media_getfocusimage] (196) does not look whether there is one *)
Definition step (s : ctl) (ev : env * event) : outcome ctl :=
  let e := fst ev in
  match snd ev with
  | Down KLeft => Ok (keydown_left e s)
  | Down KRight => Ok (keydown_right e s)
  | Down KUp => Ok (keydown_up e s)
  | Down KDown => Ok (keydown_down e s)
  | Up KLeft | Up KRight => Ok (keyup_right e s)
  | Up KUp | Up KDown => Ok (keyup_down e s)
  | ShiftDown => Ok (with_selecting s true)
  | ShiftUp => Ok (with_selecting s false)
  | ButtonUp => if selecting s then (if focus e then Ok (with_selecting s false) else UB) else Ok s
  | Frame => do s1 <- turn e s; take_off e (push e s1)
  end.
Fixpoint run (s : ctl) (l : list (env * event)) : outcome ctl :=
  match l with [] => Ok s | ev :: r => do s1 <- step s ev; run s1 r end.
(** media.c 1362, 1398-1399, 240-251 *)
Definition start : ctl := mkC (-1) 0 0 0 0 false (of_Z (-1)) (of_Z 0).

(** ** The camera *)
(** [camera.x], [camera.y] *)
Definition i32 (z : Z) : outcome Z := if in_int z then Ok z else UB.
(** media.c 1037 *)
Definition border_of (cw : Z) : outcome Z := c_int (mul64 (of_Z cw) (div64 (of_Z 3) (of_Z 10))).
(** media.c 1040-1061 for one axis: [c]: the camera, [size]: its size, [b]: the border, [win]: the size of the window, [p]: the middle of
    the player *)
Definition follow (c size b win p : Z) : outcome Z :=
  do lo <- i32 (c + b);
  do hi <- i32 (c + size - b);
  do free <- i32 (win - size);
  let c1 := if (hi <? p) && (c <? free) then c + 1 else c in
  Ok (if (p <? lo) && (0 <? c1) then c1 - 1 else c1).
(** media.c 1035-1069, [ctr_internal_media_camera], the camera itself; [init]: [CtrMediaCameraInit] *)
Definition camera (cam : Z * Z) (init : bool) (cw ch ww wh px py : Z) : outcome (Z * Z) :=
  do b <- border_of cw;
  do cx <- follow (fst cam) cw b ww px;
  do cy <- follow (snd cam) ch b wh py;
  Ok (if init then (cx, cy) else (0, 0)).
(** media.c 1045-1048, the middle of the player *)
Definition middle (px py : num) (w h anims : Z) : outcome (Z * Z) :=
  if anims =? 0 then UB
  else
    do cx <- c_int (add64 px (of_Z (Z.quot (Z.quot w anims) 2)));
    do cy <- c_int (add64 py (of_Z (Z.quot h 2)));
    Ok (cx, cy).
(** media.c 1079-1092: where an image is drawn *)
Definition on_screen (cam : Z * Z) (cw ch vx vy : Z) (r : rect) : rect :=
  let x := rx r - fst cam in
  let y := ry r - snd cam in
  if (cw <? x) || (x + rw r <? 0) || (ch <? y) || (y + rh r <? 0) then mkR (x + vx) (y + vy) 0 0
  else mkR (x + vx) (y + vy) (rw r) (rh r).

(** ** Clicks *)
(** [MediaIMG]: place, size, frames, whether it is shown and whether it still exists *)
Record pic := mkP { px : num; py : num; pw : Z; ph : Z; frames : Z; shown : bool; there : bool }.
(** media.c 821-827 *)
Definition clicked (bx by_ : Z) (m : pic) : bool :=
  SFltb (px m) (of_Z bx) && SFltb (py m) (of_Z by_) && SFltb (of_Z bx) (add64 (px m) (of_Z (Z.quot (pw m) (if frames m =? 0 then 1 else frames m))))
  && SFltb (of_Z by_) (add64 (py m) (of_Z (ph m))) && there m.
(** media.c 818-856, [ctr_internal_media_mouse_down]; texts are left out.  [listener]: whether the listener of image [i] ends in
    an error, which ends the round *)
Fixpoint mouse_down (listener : nat -> bool) (bx by_ : Z) (l : list pic) (i : nat) : list nat :=
  match l with
  | [] => []
  | m :: r => if clicked bx by_ m then i :: (if listener i then [] else mouse_down listener bx by_ r (S i)) else mouse_down listener bx by_ r (S i)
  end.
