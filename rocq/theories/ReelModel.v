(** Drawing an image of the Media plug-in: its frame, where it is drawn and which way it faces (plugins/media/media.c 692-712, 1094-1137,
    1738-1742, 2485-2489, 2809-2832).

    Numbers are doubles; overflow of an [int], conversions out of range and division by zero are undefined.  The conversion of the clock
    to [int] (700) is the one of gcc, modulo 2^32.  What SDL does with the two rectangles is not modelled: the arguments are the result. *)
From Coq Require Import SpecFloat.
From Verif Require Import Common NumModel PhysSpec CtlModel PhysModel ReelSpec.
Local Open Scope Z_scope.

(** media.c 95-119 *)
Record sprite := mkSp { px : num; pdir : num; plast : num; pgrav : num; pmov : num;
  pw : Z; ph : Z; panims : Z; prate : Z; pnodirani : Z; psolid : bool; pfixed : bool }.
Definition with_last (m : sprite) (d : num) : sprite :=
  mkSp (px m) (pdir m) d (pgrav m) (pmov m) (pw m) (ph m) (panims m) (prate m) (pnodirani m) (psolid m) (pfixed m).
Definition with_reel (m : sprite) (n r : Z) : sprite :=
  mkSp (px m) (pdir m) (plast m) (pgrav m) (pmov m) (pw m) (ph m) n r (pnodirani m) (psolid m) (pfixed m).
Definition with_nodirani (m : sprite) (n : Z) : sprite :=
  mkSp (px m) (pdir m) (plast m) (pgrav m) (pmov m) (pw m) (ph m) (panims m) (prate m) n (psolid m) (pfixed m).
(** media.c 2350-2363, a new image of this size *)
Definition fresh_sprite (w h : Z) : sprite := mkSp (of_Z 0) (of_Z (-1)) (of_Z (-1)) (of_Z 0) (of_Z 0) w h 1 5 0 false false.
(** media.c 2826-2832, [ctr_img_reel] *)
Definition img_reel (m : sprite) (n r : num) : outcome sprite := do a <- c_int n; do b <- c_int r; Ok (with_reel m a b).
(** media.c 2809-2814, [ctr_img_autoplay] *)
Definition img_autoplay (m : sprite) (b : bool) : sprite := with_nodirani m (if b then 2 else 0).
(** media.c 2485-2489, [ctr_media_nodirani] *)
Definition img_nodirani (m : sprite) (b : bool) : sprite := with_nodirani m (if b then 1 else 0).

Definition imod (a b : Z) : outcome Z := if b =? 0 then UB else if in_int (Z.quot a b) then Ok (Z.rem a b) else UB.
(** media.c 700, [CtrMediaTime = CtrMediaTicks2] *)
Definition media_time (ticks : Z) : Z := let r := ticks mod 2 ^ 32 in if r <? 2 ^ 31 then r else r - 2 ^ 32.
(** media.c 692-712, [ctr_internal_media_anim_frames]: the size on the screen and the part of the picture; [ticks]: [CtrMediaTicks2] *)
Definition anim_frames (ticks : Z) (m : sprite) : outcome (Z * Z * rect) :=
  do fw <- idiv (pw m) (if panims m =? 0 then 1 else panims m);
  do step <- (if pnodirani m =? 2 then
      let s1 := if 100 <=? prate m then 99 else prate m in
      let s2 := if s1 <? 0 then 0 else s1 in
      do q <- idiv (media_time ticks) (1000 - s2 * 10);
      do k <- c_int (c_floor (of_Z q));
      imod k (panims m)
    else if nonzero (pmov m) then do k <- c_int (c_floor (div64 (px m) (of_Z (prate m)))); imod k (panims m)
    else Ok 0);
  do rw <- (if (0 <? panims m) && (panims m <? pw m) then idiv (pw m) (panims m) else Ok (pw m));
  do sx <- i32 (fw * step);
  Ok (rw, ph m, mkR sx 0 fw (ph m)).

(** The arguments of SDL_RenderCopyEx; SDL_RenderCopy neither turns nor mirrors *)
Record shot := mkShot { part : rect; place : rect; angle : num; mirrored : bool }.
(** The camera after it has followed the player, its size and the viewport *)
Record view := mkV { vcam : Z * Z; vw : Z; vh : Z; vx : Z; vy : Z }.

(** media.c 1102-1136: the turn, whether mirrored, and the direction to remember *)
Definition pose (mode : Z) (is_player : bool) (m : sprite) : outcome (num * bool * sprite) :=
  if SFltb (of_Z (-1)) (pdir m) && negb (psolid m) && (pnodirani m =? 0) && (mode =? 1) then
    if nonzero (pgrav m) then
      do xdir <- c_int (pdir m);
      if SFltb (pgrav m) (of_Z 1) then
        let side := SFeqb (pdir m) (of_Z 180) || SFeqb (pdir m) (of_Z 0) in
        let m1 := if side then with_last m (pdir m) else m in
        do xdir2 <- (if negb (SFeqb (plast m1) (of_Z (-1))) && negb side then c_int (plast m1) else Ok xdir);
        Ok (of_Z 0, if is_player then xdir2 =? 180 else (90 <=? xdir2) && (xdir2 <=? 270), m1)
      else Ok (of_Z 0, (180 <=? xdir) && (xdir <=? 270), m)
    else Ok (if SFeqb (pdir m) (of_Z (-1)) then of_Z 0 else pdir m, SFeqb (pdir m) (of_Z 90) || SFeqb (pdir m) (of_Z 270), m)
  else if (mode =? 4) && negb (psolid m) && (pnodirani m =? 0) then
    Ok (sub64 (of_Z 360) (if SFeqb (pdir m) (of_Z (-1)) then of_Z 0 else pdir m), false, m)
  else Ok (of_Z 0, false, m).
(** media.c 1094-1137, [ctr_internal_media_render_image]; [r]: the place (1734-1735), its size is set here *)
Definition render_image (mode : Z) (is_player : bool) (v : view) (ticks : Z) (r : Z * Z) (m : sprite) : outcome (option shot * sprite) :=
  do f <- anim_frames ticks m;
  let '(w, h, s) := f in
  let r0 := mkR (fst r) (snd r) w h in
  let r1 := if (0 <? vw v) && (0 <? vh v) && negb (pfixed m) then on_screen (vcam v) (vw v) (vh v) (vx v) (vy v) r0 else r0 in
  if (rw r1 =? 0) || (rh r1 =? 0) then Ok (None, m)
  else
    do p <- pose mode is_player m;
    let '(a, b, m1) := p in
    Ok (Some (mkShot s r1 a b), m1).

(** An image over the rounds of the main loop (1724-1742): everything but the remembered direction may change in between *)
Record round := mkRound { now : Z; where_ : Z * Z; seen : view; looks : sprite }.
Fixpoint film (mode : Z) (is_player : bool) (last : num) (l : list round) : outcome (list (option shot) * num) :=
  match l with
  | [] => Ok ([], last)
  | f :: r =>
      do a <- render_image mode is_player (seen f) (now f) (where_ f) (with_last (looks f) last);
      do b <- film mode is_player (plast (snd a)) r;
      Ok (fst a :: fst b, snd b)
  end.
