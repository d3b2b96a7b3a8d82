(** Model of the camera over the messages and rounds of a screen (plugins/media/media.c 599-613, 1035-1100, 1354-1415, 1724-1739).

    Listeners run between any two things that are drawn, so all the messages may come anywhere.  What is drawn with the texture of the
    background and whether the window really gets the size of the background is left to SDL. *)
From Verif Require Import Common NumModel PhysSpec CtlSpec CtlModel ViewSpec.
Import ListNotations.
Local Open Scope Z_scope.

(** [CtrMediaCamera.w], [.h]; [CtrMediaViewport.x], [.y]; [CtrMediaZoom]; [camera.x], [.y] (1036); [CtrMediaCameraInit]; the last size given to
    SDL_RenderSetLogicalSize; [windowWidth], [windowHeight]; [dimensions] *)
Record state := mkS { cw : Z; ch : Z; vx : Z; vy : Z; zoom : bool; cam : Z * Z; init : bool; logical : option (Z * Z); ww : Z; wh : Z; dims : rect }.
(** media.c 261-275, 1036 *)
Definition start : state := mkS 0 0 0 0 false (0, 0) false None 0 0 (mkR 0 0 0 0).
(** media.c 599-606, [ctr_media_width_height] *)
Definition width_height (s : state) (a b : num) : outcome state :=
  do w <- c_int a; do h <- c_int b;
  Ok (mkS w h (vx s) (vy s) (if (vx s =? 0) && (vy s =? 0) then true else zoom s) (cam s) (init s) (logical s) (ww s) (wh s) (dims s)).
(** media.c 608-613, [ctr_media_left_top] *)
Definition left_top (s : state) (a b : num) : outcome state :=
  do x <- c_int a; do y <- c_int b;
  Ok (mkS (cw s) (ch s) x y false (cam s) (init s) (logical s) (ww s) (wh s) (dims s)).
(** media.c 1364, 1382-1391 *)
Definition screen (s : state) (w h : Z) : state :=
  mkS (cw s) (ch s) (vx s) (vy s) (zoom s) (cam s) false (logical s) w h (mkR 0 0 w h).
(** media.c 1035-1069, the camera with what it keeps *)
Definition look (s : state) (p : Z * Z) : outcome state :=
  do c <- camera (cam s) (init s) (cw s) (ch s) (ww s) (wh s) (fst p) (snd p);
  Ok (mkS (cw s) (ch s) (vx s) (vy s) (zoom s) c true (if negb (init s) && zoom s then Some (cw s, ch s) else logical s) (ww s) (wh s) (dims s)).
(** media.c 1411, 1096: is there a camera? *)
Definition on (s : state) : bool := (0 <? cw s) && (0 <? ch s).
(** media.c 1411-1415 with 1070-1078 and 1090-1091 *)
Definition background (s : state) (p : Z * Z) : outcome (state * drawn) :=
  if on s then
    do s1 <- look s p;
    let src := mkR (fst (cam s1)) (snd (cam s1)) (cw s1) (ch s1) in
    let dst := mkR (vx s1) (vy s1) (cw s1) (ch s1) in
    Ok (mkS (cw s1) (ch s1) (vx s1) (vy s1) (zoom s1) (cam s1) (init s1) (logical s1) (ww s1) (wh s1) dst, Ground src dst)
  else Ok (s, Ground (dims s) (dims s)).
(** media.c 1096-1098 with 1079-1091 *)
Definition picture (s : state) (p : Z * Z) (fixed : bool) (r : rect) : outcome (state * drawn) :=
  if on s && negb fixed then do s1 <- look s p; Ok (s1, Image (on_screen (cam s1) (cw s1) (ch s1) (vx s1) (vy s1) r)) else Ok (s, Image r).

(** The messages and the steps of a round of media.c 1354-1415, 1724-1739 *)
Definition happen (s : state) (e : event) : outcome (state * list drawn) :=
  match e with
  | Size a b => do s1 <- width_height s a b; Ok (s1, [])
  | Corner a b => do s1 <- left_top s a b; Ok (s1, [])
  | Screen w h => Ok (screen s w h, [])
  | Back p => do r <- background s p; Ok (fst r, [snd r])
  | Pic p fixed r => do r <- picture s p fixed r; Ok (fst r, [snd r])
  end.
Fixpoint story (s : state) (es : list event) : outcome (state * list drawn) :=
  match es with
  | [] => Ok (s, [])
  | e :: r => do a <- happen s e; do b <- story (fst a) r; Ok (fst b, snd a ++ snd b)
  end.
