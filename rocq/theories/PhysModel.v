(** Images that move and collide (plugins/media/media.c 283-328, 713-816, 986-1033, 1139-1234).

    Numbers are doubles.  [cos], [sin], [log], [pow] and the rectangle functions of SDL are given.  Images are the entries of
    [mediaIMGs]; pointers to them are their indices.  Overflow of an [int] and conversions out of range are undefined.
    The listeners of collisions and of arrival are any functions on the game that keep the number of images.
    Left out: text, fonts and drawing. *)
From Coq Require Import SpecFloat.
From Verif Require Import Common NumModel PhysSpec.
Local Open Scope Z_scope.

(** media.c 95-120 *)
Record img := mkI {
  x : num; y : num; ox : num; oy : num; tx : num; ty : num; gravity : num; gspeed : num; fric : num; accel : num;
  speed : num; dir : num; mov : num; h : Z; w : Z; anims : Z;
  solid : bool; collidable : bool; bounce : bool; fixed : bool; ghost : bool; visible : bool; alive : bool }.
Definition at_xy (m : img) (nx ny : num) : img :=
  mkI nx ny (ox m) (oy m) (tx m) (ty m) (gravity m) (gspeed m) (fric m) (accel m) (speed m) (dir m) (mov m) (h m) (w m) (anims m)
    (solid m) (collidable m) (bounce m) (fixed m) (ghost m) (visible m) (alive m).
Definition with_gspeed (m : img) (g : num) : img :=
  mkI (x m) (y m) (ox m) (oy m) (tx m) (ty m) (gravity m) g (fric m) (accel m) (speed m) (dir m) (mov m) (h m) (w m) (anims m)
    (solid m) (collidable m) (bounce m) (fixed m) (ghost m) (visible m) (alive m).
Definition with_dir (m : img) (d : num) : img :=
  mkI (x m) (y m) (ox m) (oy m) (tx m) (ty m) (gravity m) (gspeed m) (fric m) (accel m) (speed m) d (mov m) (h m) (w m) (anims m)
    (solid m) (collidable m) (bounce m) (fixed m) (ghost m) (visible m) (alive m).
Definition with_mov (m : img) (v : num) : img :=
  mkI (x m) (y m) (ox m) (oy m) (tx m) (ty m) (gravity m) (gspeed m) (fric m) (accel m) (speed m) (dir m) v (h m) (w m) (anims m)
    (solid m) (collidable m) (bounce m) (fixed m) (ghost m) (visible m) (alive m).
Definition with_old (m : img) (a b : num) : img :=
  mkI (x m) (y m) a b (tx m) (ty m) (gravity m) (gspeed m) (fric m) (accel m) (speed m) (dir m) (mov m) (h m) (w m) (anims m)
    (solid m) (collidable m) (bounce m) (fixed m) (ghost m) (visible m) (alive m).

(** Messages sent to images: a collision with another image, arrival *)
Inductive note := Hit (to_ other : nat) | Arrived (who : nat).
(** [mediaIMGs], [controllableObject], [CtrMediaControlMode], [CtrMediaJump], [CtrMediaJumpHeight], [CtrMediaContactSurface],
    [windowWidth], [windowHeight]; the messages sent, the latest first *)
Record game := mkG { imgs : list img; player : option nat; mode : Z; jump : Z; jheight : Z; contact : option nat;
  winw : Z; winh : Z; sent : list note }.
Definition with_imgs (g : game) (l : list img) : game := mkG l (player g) (mode g) (jump g) (jheight g) (contact g) (winw g) (winh g) (sent g).
Definition with_jump (g : game) (j : Z) : game := mkG (imgs g) (player g) (mode g) j (jheight g) (contact g) (winw g) (winh g) (sent g).
Definition with_jheight (g : game) (j : Z) : game := mkG (imgs g) (player g) (mode g) (jump g) j (contact g) (winw g) (winh g) (sent g).
Definition with_contact (g : game) (c : option nat) : game := mkG (imgs g) (player g) (mode g) (jump g) (jheight g) c (winw g) (winh g) (sent g).
Definition with_sent (g : game) (n : note) : game := mkG (imgs g) (player g) (mode g) (jump g) (jheight g) (contact g) (winw g) (winh g) (n :: sent g).
Definition img_at (g : game) (i : nat) : outcome img := match nth_error (imgs g) i with Some m => Ok m | None => UB end.
Definition put (g : game) (i : nat) (m : img) : game := with_imgs g (firstn i (imgs g) ++ m :: skipn (S i) (imgs g)).
Definition is_player (g : game) (i : nat) : bool := match player g with Some p => Nat.eqb p i | None => false end.

(** Arithmetic of [int] *)
Definition i32 (z : Z) : outcome Z := if in_int z then Ok z else UB.
Definition idiv (a b : Z) : outcome Z := if b =? 0 then UB else i32 (Z.quot a b).
Definition lt (a b : num) : bool := SFltb a b.
Definition le (a b : num) : bool := SFleb a b.
(** a [double] as a condition *)
Definition nonzero (a : num) : bool := negb (SFeqb a zero64).
Definition int_num (z : Z) : num := of_Z z.

(** SDL_HasIntersection and SDL_IntersectRect: false for empty rectangles; the width and the height of the common part *)
Definition emptyb (r : rect) : bool := (rw r <=? 0) || (rh r <=? 0).
Definition fitsb (r : rect) : bool := in_int (rx r + rw r) && in_int (ry r + rh r).
Definition has_intersection (a b : rect) : outcome bool :=
  if emptyb a || emptyb b then Ok false
  else if fitsb a && fitsb b then
    Ok ((Z.max (rx a) (rx b) <? Z.min (rx a + rw a) (rx b + rw b)) && (Z.max (ry a) (ry b) <? Z.min (ry a + rh a) (ry b + rh b)))
  else UB.
Definition common_w (a b : rect) : Z := Z.min (rx a + rw a) (rx b + rw b) - Z.max (rx a) (rx b).
Definition common_h (a b : rect) : Z := Z.min (ry a + rh a) (ry b + rh b) - Z.max (ry a) (ry b).

(** media.c 1000-1001 and elsewhere, [(int) m->w / (m->anims ? m->anims : 1)] *)
Definition frame_w (m : img) : outcome Z := idiv (w m) (if anims m =? 0 then 1 else anims m).

Section Game.
Variables (cosf sinf logf : num -> num) (powf : num -> num -> num).
Variables (pi_180 : num) (* M_PI / 180.0 *) (pi : num).
Variable on_hit : game -> nat -> nat -> list img.
Variable on_arrival : game -> nat -> list img.

(** media.c 298-305: one corner of the turned shape, [x] or [y]; [a], [b]: the corner relative to the middle *)
Definition corner_x (cx a b : Z) (rad : num) : outcome Z :=
  c_int (add64 (add64 (int_num cx) (mul64 (int_num a) (cosf rad))) (mul64 (int_num b) (sinf rad))).
Definition corner_y (cy a b : Z) (rad : num) : outcome Z :=
  c_int (add64 (sub64 (int_num cy) (mul64 (int_num a) (sinf rad))) (mul64 (int_num b) (cosf rad))).
(** media.c 295-327, the box around the turned shape *)
Definition turned (r : rect) (d : num) : outcome rect :=
  do cx <- i32 (rx r + Z.quot (rw r) 2);
  do cy <- i32 (ry r + Z.quot (rh r) 2);
  let rad := mul64 d pi_180 in
  let (l, t) := (rx r - cx, ry r - cy) in
  let (r', b) := (rx r + rw r - cx, ry r + rh r - cy) in
  do ltx <- corner_x cx l t rad; do lty <- corner_y cy l t rad;
  do rtx <- corner_x cx r' t rad; do rty <- corner_y cy r' t rad;
  do lbx <- corner_x cx l b rad; do lby <- corner_y cy l b rad;
  do rbx <- corner_x cx r' b rad; do rby <- corner_y cy r' b rad;
  let x1 := Z.min (Z.min (Z.min ltx rtx) lbx) rbx in
  let y1 := Z.min (Z.min (Z.min lty rty) lby) rby in
  let x2 := Z.max (Z.max (Z.max ltx rtx) lbx) rbx in
  let y2 := Z.max (Z.max (Z.max lty rty) lby) rby in
  do ww <- i32 (x2 - x1);
  do hh <- i32 (y2 - y1);
  Ok (mkR x1 y1 ww hh).
(** media.c 283-328, [ctr_internal_media_image_maprect] *)
Definition upright (g : game) : outcome bool :=
  match player g with
  | Some p => do m <- img_at g p; Ok (((mode g =? 1) && nonzero (gravity m)) || (negb (mode g =? 4) && negb (mode g =? 1)))
  | None => Ok (negb (mode g =? 4) && negb (mode g =? 1))
  end.
Definition maprect (g : game) (m : img) : outcome rect :=
  do px <- c_int (x m);
  do py <- c_int (y m);
  do fw <- frame_w m;
  do up <- upright g;
  let r := mkR px py fw (h m) in
  if up then Ok r else turned r (dir m).

(** media.c 713-746, [ctr_internal_media_image_resolvecollision1] *)
Definition resolve1 (m : img) (r r2 : rect) (right down : bool) : outcome img :=
  do touch <- has_intersection r r2;
  if touch then
    do xdepth <- (if right then i32 ((if rx r2 <? rx r then rx r - rx r2 else 0) + common_w r r2)
                  else i32 ((if rx r + rw r <? rx r2 + rw r2 then (rx r2 + rw r2) - (rx r + rw r) else 0) + common_w r r2));
    do ydepth <- (if down then i32 ((if ry r2 <? ry r then ry r - ry r2 else 0) + common_h r r2)
                  else i32 ((if ry r + rh r <? ry r2 + rh r2 then (ry r2 + rh r2) - (ry r + rh r) else 0) + common_h r r2));
    if xdepth <=? ydepth then
      if right then Ok (at_xy m (c_floor (sub64 (x m) (int_num xdepth))) (y m))
      else Ok (at_xy m (c_ceil (add64 (x m) (int_num xdepth))) (y m))
    else
      if down then Ok (at_xy (with_gspeed m zero64) (x m) (c_floor (sub64 (y m) (int_num ydepth))))
      else Ok (at_xy m (x m) (c_ceil (add64 (y m) (int_num ydepth))))
  else Ok m.

(** media.c 774-789 and 791-806: a platform that moves down or up does not crush the player *)
Definition shifted (g : game) (i : nat) (m m2 : img) : bool :=
  is_player g i && (mode g =? 1) && le (int_num 1) (gravity m) && nonzero (mov m2) && negb (nonzero (gravity m2))
  && (lt (int_num 180) (dir m2) || lt (dir m2) (int_num 180)) && lt (y m2) (y m) && (jump g =? 0).
(** media.c 748-816, [ctr_internal_media_image_resolvecollision] *)
Definition resolve (g : game) (i j : nat) : outcome game :=
  do m <- img_at g i;
  do m2 <- img_at g j;
  do r <- maprect g m;
  let g0 := put g i (at_xy m (ox m) (oy m)) in
  do m0 <- img_at g0 i;
  do rold <- maprect g0 m0;
  do r2 <- maprect g m2;
  do cx1 <- i32 (rx rold + Z.quot (rw rold) 2);
  do cx2 <- i32 (rx r2 + Z.quot (rw r2) 2);
  do cy1 <- i32 (ry rold + Z.quot (rh rold) 2);
  do cy2 <- i32 (ry r2 + Z.quot (rh r2) 2);
  if shifted g i m m2 then
    let nx := if lt (x m) (int_num cx2) then sub64 (x m2) (int_num (rw r)) else add64 (x m2) (int_num (rw r2)) in
    Ok (put g i (at_xy m nx (y m)))
  else
    let right := cx1 <? cx2 in
    let down := cy1 <? cy2 in
    do m1 <- resolve1 m (mkR (rx r) (ry rold) (rw r) (rh r)) r2 right down;
    do m' <- resolve1 m1 r r2 right down;
    Ok (put g i m').

(** media.c 1005: the image stands on the wall *)
Definition lands (m m2 : img) (ww w2 : Z) : bool :=
  nonzero (gravity m) && le (x m2) (add64 (x m) (int_num ww)) && le (x m) (add64 (x m2) (int_num w2))
  && le (add64 (y m) (int_num (h m))) (add64 (y m2) (int_num (Z.quot (h m) 2))).
(** media.c 1018-1020 *)
Definition bounced (m : img) : outcome img :=
  do d <- c_int (dir m);
  do e <- i32 (d + 145);
  Ok (with_dir m (int_num (Z.rem e 360))).
Definition tell (g : game) (a b : nat) : game := with_imgs (with_sent g (Hit a b)) (on_hit g a b).
(** media.c 1004-1021: image [i] has run into the wall [j] *)
Definition run_into (g : game) (i j : nat) : outcome game :=
  do m <- img_at g i;
  do m2 <- img_at g j;
  do ww <- frame_w m;
  do w2 <- frame_w m2;
  do g1 <- (if lands m m2 ww w2 then
              let g' := put g i (with_gspeed (at_xy m (x m) (add64 (sub64 (y m2) (int_num (h m))) (int_num 1))) zero64) in
              Ok (if is_player g i then with_contact g' (Some j) else g')
            else
              do g' <- resolve g i j;
              do m' <- img_at g' i;
              Ok (put g' i (with_mov m' zero64)));
  let g2 := if is_player g i && (jump g1 =? 2) then with_jump g1 3
            else if is_player g i && (jump g1 =? 3) then with_jump g1 0 else g1 in
  do m2' <- img_at g2 i;
  if bounce m2' then do m3 <- bounced m2'; Ok (put g2 i m3) else Ok g2.
(** media.c 995-1030, one round of [ctr_internal_media_detect_collisions] *)
Definition meet (g : game) (i : nat) (r : rect) (j : nat) : outcome game :=
  do m <- img_at g i;
  do m2 <- img_at g j;
  if Nat.eqb i j || fixed m || fixed m2 || negb (alive m) || negb (alive m2) then Ok g
  else
    do ww <- frame_w m;
    do w2 <- frame_w m2;
    do r2 <- maprect g m2;
    do touch <- has_intersection r r2;
    if touch then
      do g1 <- (if solid m2 && negb (solid m) && negb (ghost m) then run_into g i j else Ok g);
      do m' <- img_at g1 i;
      let g2 := if collidable m' then tell g1 i j else g1 in
      do m2' <- img_at g2 j;
      Ok (if collidable m2' then tell g2 j i else g2)
    else Ok g.
Fixpoint meet_all (g : game) (i : nat) (r : rect) (js : list nat) : outcome game :=
  match js with [] => Ok g | j :: js' => do g1 <- meet g i r j; meet_all g1 i r js' end.
(** media.c 986-1033, [ctr_internal_media_detect_collisions] *)
Definition detect (g : game) (i : nat) (r : rect) : outcome game := meet_all g i r (seq 0 (length (imgs g))).

(** media.c 1139-1234, [ctr_internal_media_image_calculate_motion]; [dt]: 60 times the seconds since the last frame *)
(** 1144-1154, the player jumps *)
Definition jumping (g : game) (i : nat) (dt : num) : outcome game :=
  if is_player g i && (jump g =? 2) then
    do m <- img_at g i;
    let g1 := put g i (at_xy m (x m) (sub64 (y m) (mul64 (logf (int_num (jheight g))) dt))) in
    do jh <- c_int (div64 (int_num (jheight g)) (powf (div64 (int_num 12) (int_num 10)) dt));
    Ok (if jh <? 1 then with_jheight (with_jump g1 3) 0 else with_jheight g1 jh)
  else Ok g.
(** 1158-1165 *)
Definition faster (g : game) (i : nat) (m : img) : img :=
  if lt (mov m) (speed m) && negb (is_player g i) then with_mov m (add64 (mov m) (mul64 (speed m) (accel m))) else m.
Definition slower (m : img) : img :=
  if lt zero64 (fric m) && lt zero64 (mov m)
  then with_mov m (if lt (mov m) (fric m) then zero64 else sub64 (mov m) (fric m)) else m.
(** 1171-1175 *)
Definition still_on (m c : img) : outcome bool :=
  if nonzero (gravity m) then
    do ww <- idiv (w m) (anims m);
    if le (x c) (add64 (x m) (int_num ww)) then
      do wc <- idiv (w c) (anims c);
      Ok (le (x m) (add64 (x c) (int_num wc)) && le (add64 (y m) (int_num (h m))) (add64 (y c) (int_num (Z.quot (h m) 2))))
    else Ok false
  else Ok false.
(** 1166-1188 *)
Definition falling (g : game) (i : nat) (dt : num) : outcome game :=
  do m <- img_at g i;
  do ground <- i32 (winh g - h m);
  if negb (ghost m) && lt zero64 (gravity m) && lt (y m) (int_num ground) then
    if le (int_num 1) (gravity m) then
      let gs := add64 (gspeed m) (mul64 (mul64 (gravity m) (div64 (int_num 1) (int_num 10))) dt) in
      let m1 := at_xy (with_gspeed m gs) (x m) (add64 (y m) (mul64 dt gs)) in
      let g1 := put g i m1 in
      match contact g with
      | Some c =>
          if is_player g i then
            do mc <- img_at g1 c;
            do on <- still_on m1 mc;
            Ok (if on then g1 else with_contact g1 None)
          else Ok g1
      | None => Ok g1
      end
    else if le (div64 (int_num 1) (int_num 10)) (gravity m) then Ok (put g i (at_xy m (x m) (add64 (y m) (mul64 dt (gravity m)))))
    else Ok g
  else
    let g1 := if is_player g i then with_jump g 0 else g in
    Ok (put g1 i (with_gspeed m zero64)).
(** 1198-1206, [round] on both sides *)
Definition between (t a b : num) : bool :=
  (le (c_round a) (c_round t) && le (c_round t) (c_round b)) || (le (c_round t) (c_round a) && le (c_round b) (c_round t)).
Definition cos_deg (d : num) : num := cosf (div64 (mul64 d pi) (int_num 180)).
Definition sin_deg (d : num) : num := sinf (div64 (mul64 d pi) (int_num 180)).
(** 1189-1213 *)
Definition moving (g : game) (i : nat) (dt : num) : outcome game :=
  do m <- img_at g i;
  if lt zero64 (mov m) && lt (int_num (-1)) (dir m) then
    let nx := if SFeqb (x m) (tx m) then x m else add64 (x m) (mul64 (mul64 dt (mov m)) (cos_deg (dir m))) in
    let ny := if SFeqb (y m) (ty m) then y m else sub64 (y m) (mul64 (mul64 dt (mov m)) (sin_deg (dir m))) in
    let m1 := at_xy m nx ny in
    if between (tx m1) (ox m1) (x m1) && between (ty m1) (oy m1) (y m1) then
      let g1 := put g i (with_dir m1 (int_num (-1))) in
      Ok (with_imgs (with_sent g1 (Arrived i)) (on_arrival g1 i))
    else Ok (put g i m1)
  else Ok g.
(** 1214-1233: the player is carried by what it stands on and stays in the window *)
Definition carried (g : game) (i : nat) (dt : num) : outcome game :=
  if is_player g i && (mode g =? 1) then
    match contact g with
    | Some c =>
        do mc <- img_at g c;
        do m <- img_at g i;
        if nonzero (mov mc) && lt (int_num (-1)) (dir mc)
        then Ok (put g i (at_xy m (add64 (x m) (mul64 (mul64 dt (mov mc)) (cos_deg (dir mc))))
                                (sub64 (y m) (mul64 (mul64 dt (mov mc)) (sin_deg (dir mc))))))
        else Ok g
    | None => Ok g
    end
  else Ok g.
Definition kept_inside (g : game) (i : nat) : outcome game :=
  if is_player g i && (mode g <? 5) then
    do m <- img_at g i;
    do fw <- idiv (w m) (anims m);
    do xmax <- i32 (winw g - fw);
    do ymax <- i32 (winh g - h m);
    let x1 := if lt (int_num xmax) (x m) then int_num xmax else x m in
    let y1 := if lt (int_num ymax) (y m) then int_num ymax else y m in
    let x2 := if lt x1 (int_num 0) then int_num 0 else x1 in
    let y2 := if negb (mode g =? 1) || (jump g =? 0) then (if lt y1 (int_num 0) then int_num 0 else y1) else y1 in
    Ok (put g i (at_xy m x2 y2))
  else Ok g.
Definition motion (g : game) (i : nat) (dt : num) : outcome game :=
  do g1 <- jumping g i dt;
  do m <- img_at g1 i;
  let g2 := put g1 i (slower (faster g1 i m)) in
  do g3 <- falling g2 i dt;
  do g4 <- moving g3 i dt;
  do g5 <- carried g4 i dt;
  kept_inside g5 i.

(** media.c 1724-1732: one image in one frame; drawing is left out *)
Definition one_image (g : game) (i : nat) (dt : num) : outcome game :=
  do m <- img_at g i;
  if visible m then
    do g1 <- motion g i dt;
    do m1 <- img_at g1 i;
    do r <- maprect g1 m1;
    do g2 <- detect g1 i r;
    do m2 <- img_at g2 i;
    Ok (put g2 i (with_old m2 (x m2) (y m2)))
  else Ok g.
Fixpoint all_images (g : game) (js : list nat) (dt : num) : outcome game :=
  match js with [] => Ok g | i :: r => do g1 <- one_image g i dt; all_images g1 r dt end.
Definition frame (g : game) (dt : num) : outcome game := all_images g (seq 0 (length (imgs g))) dt.
End Game.
