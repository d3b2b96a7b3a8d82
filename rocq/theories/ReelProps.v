(** C129 and C130: film strips, and the way pictures face. *)
From Coq Require Import QArith SpecFloat List.
From Verif Require Import Common FloatSpec NumModel PhysSpec PhysModel ReelSpec ReelModel ReelProofs.
Import ListNotations.
Local Open Scope Z_scope.

(** ** C129 *)
(** The full claim: an image with [reel: n rate: r] shows one frame of its strip at its place: with autoplay the frames one after the
    other, each for its time; without, the next frame every [r] pixels while it moves and the first frame while it does not.  It holds
    for whole numbers [n] of frames narrower than the strip, [r] above 0, positions right of the left border and clocks below 2^31. *)
Theorem C129_film_partial t m : pnodirani m = 2 -> 1 <= panims m -> panims m < pw m <= 2147483647 -> 0 <= t < 2 ^ 31 ->
  anim_frames t m = Ok (pw m / panims m, ph m, frame_rect (panims m) (film_frame (panims m) (prate m) t) (pw m) (ph m)).
Proof. exact (film_shows t m). Qed.
Print Assumptions C129_film_partial.
Theorem C129_walk_partial t m k : pnodirani m <> 2 -> nonzero (pmov m) = true -> at_pos (px m) k -> 0 <= k <= 2 ^ 49 ->
  1 <= prate m <= 2147483647 -> 1 <= panims m -> panims m < pw m <= 2147483647 ->
  anim_frames t m = Ok (pw m / panims m, ph m, frame_rect (panims m) (walk_frame (panims m) (prate m) k) (pw m) (ph m)).
Proof. exact (walk_shows t m k). Qed.
Print Assumptions C129_walk_partial.
Theorem C129_still t m : pnodirani m <> 2 -> nonzero (pmov m) = false -> 1 <= panims m -> panims m < pw m <= 2147483647 ->
  anim_frames t m = Ok (pw m / panims m, ph m, frame_rect (panims m) 0 (pw m) (ph m)).
Proof. exact (still_shows t m). Qed.
Print Assumptions C129_still.
(** What is shown is a part of the picture, as large on the screen as in the picture. *)
Theorem C129_inside t m k : 1 <= panims m -> panims m < pw m <= 2147483647 -> 0 <= ph m ->
  (pnodirani m = 2 /\ 0 <= t < 2 ^ 31) \/ (pnodirani m <> 2 /\ at_pos (px m) k /\ 0 <= k <= 2 ^ 49 /\ 1 <= prate m <= 2147483647) ->
  exists f, anim_frames t m = Ok (pw m / panims m, ph m, f) /\ inside f (pw m) (ph m) /\ rw f = pw m / panims m /\ rh f = ph m.
Proof. exact (shown_inside t m k). Qed.
Print Assumptions C129_inside.
(** A film goes through its frames in order and starts again; a frame stays until its time is over. *)
Theorem C129_order t m fw h f : pnodirani m = 2 -> 1 <= panims m -> panims m < pw m <= 2147483647 ->
  0 <= t -> t + period (prate m) < 2 ^ 31 -> anim_frames t m = Ok (fw, h, f) ->
  exists i, 0 <= i < panims m /\ f = frame_rect (panims m) i (pw m) (ph m) /\
    (forall u, t <= u < (t / period (prate m) + 1) * period (prate m) -> anim_frames u m = Ok (fw, h, f)) /\
    anim_frames (t + period (prate m)) m = Ok (fw, h, frame_rect (panims m) ((i + 1) mod panims m) (pw m) (ph m)).
Proof. exact (film_order t m fw h f). Qed.
Print Assumptions C129_order.
(** As asked for with [reel: n rate: r] and [autoplay: True] *)
Theorem C129_asked m0 m n r k r' t : is_whole n k -> is_whole r r' -> - 2147483648 <= r' <= 2147483647 -> 1 <= k -> k < pw m0 <= 2147483647 -> 0 <= t < 2 ^ 31 ->
  img_reel m0 n r = Ok m -> pw m = pw m0 /\ ph m = ph m0 /\
  anim_frames t (img_autoplay m true) = Ok (pw m / k, ph m, frame_rect k (film_frame k r' t) (pw m) (ph m)).
Proof. exact (asked_film m0 m n r k r' t). Qed.
Print Assumptions C129_asked.
(** The frame is drawn at the place of the image, seen from the camera if there is one and the image is not fixed; an image that is not drawn
    has no pixel in sight. *)
Theorem C129_place mode pl v t r m o m' w h f : anim_frames t m = Ok (w, h, f) -> 1 <= w -> 1 <= h -> render_image mode pl v t r m = Ok (o, m') ->
  let camera := (0 <? vw v) && (0 <? vh v) && negb (pfixed m) in
  let x := if camera then fst r - fst (vcam v) else fst r in
  let y := if camera then snd r - snd (vcam v) else snd r in
  match o with
  | Some s => part s = f /\ place s = mkR (if camera then x + vx v else x) (if camera then y + vy v else y) w h
  | None => camera = true /\ m' = m /\ forall px py, covers (mkR x y w h) px py -> ~ (0 <= px < vw v /\ 0 <= py < vh v)
  end.
Proof. exact (render_place mode pl v t r m o m' w h f). Qed.
Print Assumptions C129_place.
Definition runner : sprite := mkSp (div64 (of_Z 85) (of_Z 2)) (of_Z 0) (of_Z (-1)) (of_Z 0) (of_Z 3) 130 40 4 10 0 false false.
Example C129_case : img_reel (fresh_sprite 130 40) (of_Z 4) (of_Z 20) = Ok (with_reel (fresh_sprite 130 40) 4 20) /\
  anim_frames 1700 (img_autoplay (with_reel (fresh_sprite 130 40) 4 20) true) = Ok (32, 40, mkR 64 0 32 40) /\
  anim_frames 1700 (img_autoplay (with_reel (fresh_sprite 130 40) 4 200) true) = Ok (32, 40, mkR 64 0 32 40) /\
  anim_frames 1700 runner = Ok (32, 40, mkR 0 0 32 40) /\
  anim_frames 0 (mkSp (of_Z 55) (of_Z 0) (of_Z (-1)) (of_Z 0) (of_Z 3) 130 40 4 10 0 false false) = Ok (32, 40, mkR 32 0 32 40) /\
  at_pos (px runner) (85 * 2 ^ 19).
Proof. do 5 (split; [vm_compute; reflexivity|]). split; [vm_compute; intuition congruence|vm_compute; reflexivity]. Qed.
(** The clock of a film counts the milliseconds since the start in an [int]: after 25 days the frames are left of the picture. *)
Theorem C129_clock_refuted : exists t m, 0 <= t < 2 ^ 32 /\ pnodirani m = 2 /\ 1 <= panims m < pw m /\
  exists fw h f, anim_frames t m = Ok (fw, h, f) /\ ~ inside f (pw m) (ph m).
Proof.
  exists (2 ^ 31 + 1000), (img_autoplay (with_reel (fresh_sprite 130 40) 4 20) true). repeat (split; [vm_compute; intuition congruence|]).
  eexists _, _, _. split; [vm_compute; reflexivity|]. intros (A & _). vm_compute in A. congruence.
Qed.
Print Assumptions C129_clock_refuted.
(** [reel: 0 rate: r]: division by zero as soon as the image moves or plays; [reel: n rate: 0]: conversion of infinity when it moves. *)
Theorem C129_zero_refuted : exists m, img_reel (fresh_sprite 130 40) (of_Z 0) (of_Z 20) = Ok m /\
  (forall t, anim_frames t (img_autoplay m true) = UB).
Proof. eexists. split; [vm_compute; reflexivity|]. intros t. apply (no_frames 20 40 130). split; discriminate. Qed.
Print Assumptions C129_zero_refuted.
Theorem C129_rate_refuted : exists m, pnodirani m = 0 /\ nonzero (pmov m) = true /\ panims m = 4 /\ prate m = 0 /\ forall t, anim_frames t m = UB.
Proof.
  exists (mkSp (of_Z 55) (of_Z 0) (of_Z (-1)) (of_Z 0) (of_Z 3) 130 40 4 0 0 false false).
  repeat (split; [vm_compute; reflexivity|]). intros t. vm_compute. reflexivity.
Qed.
Print Assumptions C129_rate_refuted.
(** An image that moves left of the left border shows no frame of its strip. *)
Theorem C129_left_refuted : exists m, pnodirani m = 0 /\ nonzero (pmov m) = true /\ px m = of_Z (-15) /\ 1 <= panims m < pw m /\ 1 <= prate m /\
  forall t, exists fw h f, anim_frames t m = Ok (fw, h, f) /\ ~ inside f (pw m) (ph m).
Proof.
  exists (mkSp (of_Z (-15)) (of_Z 0) (of_Z (-1)) (of_Z 0) (of_Z 3) 130 40 4 10 0 false false).
  repeat (split; [vm_compute; intuition congruence|]). intros t. eexists _, _, _. split; [vm_compute; reflexivity|].
  intros (A & _). vm_compute in A. congruence.
Qed.
Print Assumptions C129_left_refuted.
(** A strip with frames of one pixel is drawn as wide as the strip. *)
Theorem C129_narrow_refuted : exists m, panims m = pw m /\ 1 <= panims m /\ forall t, exists fw h f,
  anim_frames t m = Ok (fw, h, f) /\ fw <> rw f.
Proof.
  exists (with_reel (fresh_sprite 8 40) 8 5). repeat (split; [vm_compute; congruence|]). intros t. eexists _, _, _.
  split; [vm_compute; reflexivity|]. cbn. congruence.
Qed.
Print Assumptions C129_narrow_refuted.

(** ** C130 *)
(** The full claim: pictures are drawn facing the direction they go to: turned and mirrored in games seen from above, mirrored for the left
    in platform games and for images that hover, where going up or down does not change it.  It holds for the four main directions seen
    from above, all directions of control mode 4, the player of games with hovering, and part of the directions of platform games. *)
Theorem C130_above_partial pl v t r m d s m' : turns m -> nonzero (pgrav m) = false -> is_whole (pdir m) d ->
  (d = 0 \/ d = 90 \/ d = 180 \/ d = 270) -> render_image 1 pl v t r m = Ok (Some s, m') ->
  exists a, is_whole (angle s) a /\ heading a (mirrored s) = d.
Proof. exact (above_faces pl v t r m d s m'). Qed.
Print Assumptions C130_above_partial.
Theorem C130_racing pl v t r m s m' : turns m -> finite (pdir m) -> (0 <= SF2Q (pdir m) <= 360)%Q ->
  render_image 4 pl v t r m = Ok (Some s, m') ->
  mirrored s = false /\ rounded (angle s) (360 - SF2Q (pdir m)) /\
  forall d, is_whole (pdir m) d -> is_whole (angle s) (360 - d) /\ heading (360 - d) (mirrored s) = d mod 360.
Proof. exact (racing_faces pl v t r m s m'). Qed.
Print Assumptions C130_racing.
Theorem C130_platform_partial pl v t r m d s m' : turns m -> finite (pgrav m) /\ (1 <= SF2Q (pgrav m))%Q -> is_whole (pdir m) d ->
  rightward d \/ (leftward d /\ 180 <= d) -> render_image 1 pl v t r m = Ok (Some s, m') ->
  angle s = of_Z 0 /\ (mirrored s = true <-> leftward d).
Proof. exact (platform_faces pl v t r m d s m'). Qed.
Print Assumptions C130_platform_partial.
(** The player of a game with hovering looks to the left if left was the last of the directions left and right it went to. *)
Theorem C130_hover l ds shots last' : Forall2 hover_round l ds -> film 1 true (of_Z (-1)) l = Ok (map Some shots, last') ->
  forall i s, nth_error shots i = Some s -> (mirrored s = true <-> last_side (firstn (S i) ds) = Some true) /\ angle s = of_Z 0.
Proof. exact (hover_faces l ds shots last'). Qed.
Print Assumptions C130_hover.
(** Images that play a film, walls, images that are not to be turned, and images in other modes are drawn as they are. *)
Theorem C130_plain mode pl v t r m s m' : pnodirani m <> 0 \/ psolid m = true \/ (mode <> 1 /\ mode <> 4) ->
  render_image mode pl v t r m = Ok (Some s, m') -> angle s = of_Z 0 /\ mirrored s = false.
Proof. exact (plain_faces mode pl v t r m s m'). Qed.
Print Assumptions C130_plain.
Theorem C130_asked mode pl v t r m s m' b : b = img_nodirani m true \/ b = img_autoplay m true ->
  render_image mode pl v t r b = Ok (Some s, m') -> angle s = of_Z 0 /\ mirrored s = false.
Proof. exact (asked_plain mode pl v t r m s m' b). Qed.
Print Assumptions C130_asked.
(** Nothing but the remembered direction changes. *)
Theorem C130_frame mode pl v t r m o m' : render_image mode pl v t r m = Ok (o, m') -> m' = m \/ m' = with_last m (pdir m).
Proof. exact (render_keeps mode pl v t r m o m'). Qed.
Print Assumptions C130_frame.

Definition no_camera : view := mkV (0, 0) 0 0 0 0.
Definition fish (d : Z) : sprite := mkSp (of_Z 10) (of_Z d) (of_Z (-1)) (div64 (of_Z 1) (of_Z 2)) (of_Z 3) 60 40 1 5 0 false false.
Definition swim (d : Z) : round := mkRound 0 (10, 20) no_camera (fish d).
Definition car (d : Z) : sprite := mkSp (of_Z 10) (of_Z d) (of_Z (-1)) (of_Z 0) (of_Z 3) 60 40 1 5 0 false false.
Definition hero (d : Z) : sprite := mkSp (of_Z 10) (of_Z d) (of_Z (-1)) (of_Z 1) (of_Z 3) 60 40 1 5 0 false false.
Definition views (o : outcome (list (option shot) * num)) : option (list (option bool)) :=
  match o with Ok (l, _) => Some (map (option_map mirrored) l) | UB => None end.
Example C130_case : views (film 1 true (of_Z (-1)) (map swim [90; 180; 90; 0; 270])) = Some [Some false; Some true; Some true; Some false; Some false] /\
  render_image 1 false no_camera 0 (10, 20) (car 90) = Ok (Some (mkShot (mkR 0 0 60 40) (mkR 10 20 60 40) (of_Z 90) true), car 90) /\
  render_image 4 false no_camera 0 (10, 20) (car 90) = Ok (Some (mkShot (mkR 0 0 60 40) (mkR 10 20 60 40) (of_Z 270) false), car 90) /\
  render_image 1 false no_camera 0 (10, 20) (hero 180) = Ok (Some (mkShot (mkR 0 0 60 40) (mkR 10 20 60 40) (of_Z 0) true), hero 180) /\
  render_image 0 false no_camera 0 (10, 20) (hero 180) = Ok (Some (mkShot (mkR 0 0 60 40) (mkR 10 20 60 40) (of_Z 0) false), hero 180).
Proof. repeat split; vm_compute; reflexivity. Qed.
(** Seen from above, an image that goes up and to the right looks down and to the right. *)
Theorem C130_above_refuted : exists m d s, turns m /\ nonzero (pgrav m) = false /\ is_whole (pdir m) d /\ 0 <= d < 360 /\
  render_image 1 false no_camera 0 (10, 20) m = Ok (Some s, m) /\
  exists a, is_whole (angle s) a /\ d = 45 /\ heading a (mirrored s) = 315.
Proof.
  exists (car 45), 45, (mkShot (mkR 0 0 60 40) (mkR 10 20 60 40) (of_Z 45) false). split; [split; reflexivity|]. split; [reflexivity|].
  split; [split; [vm_compute; intuition congruence|vm_compute; reflexivity]|]. split; [vm_compute; intuition congruence|]. split; [vm_compute; reflexivity|].
  exists 45. split; [split; [vm_compute; intuition congruence|vm_compute; reflexivity]|]. split; reflexivity.
Qed.
Print Assumptions C130_above_refuted.
(** In a platform game an image that goes up and to the left looks to the right. *)
Theorem C130_platform_refuted : exists m d s, turns m /\ (SF2Q (pgrav m) == 1)%Q /\ is_whole (pdir m) d /\ leftward d /\
  render_image 1 false no_camera 0 (10, 20) m = Ok (Some s, m) /\ mirrored s = false.
Proof.
  exists (hero 135), 135, (mkShot (mkR 0 0 60 40) (mkR 10 20 60 40) (of_Z 0) false). split; [split; reflexivity|]. split; [vm_compute; reflexivity|].
  split; [split; [vm_compute; intuition congruence|vm_compute; reflexivity]|]. split; [split; reflexivity|]. split; [vm_compute; reflexivity|reflexivity].
Qed.
Print Assumptions C130_platform_refuted.
(** A hovering image that is not the player and once went straight to the left looks to the left when it goes up and to the right. *)
Theorem C130_others_refuted : exists l shots last', Forall2 hover_round l [180; 45] /\ rightward 45 /\
  film 1 false (of_Z (-1)) l = Ok (map Some shots, last') /\ map mirrored shots = [true; true].
Proof.
  set (sh := mkShot (mkR 0 0 60 40) (mkR 10 20 60 40) (of_Z 0) true).
  exists (map swim [180; 45]), [sh; sh], (of_Z 180). split.
  - repeat constructor; vm_compute; congruence.
  - split; [left; vm_compute; intuition congruence|]. split; vm_compute; reflexivity.
Qed.
Print Assumptions C130_others_refuted.
(** The player turns left where the camera does not see it: then it goes up, is seen, and looks to the right. *)
Theorem C130_hidden_refuted : exists l s last', Forall2 hover_round l [180; 90] /\
  film 1 true (of_Z (-1)) l = Ok ([None; Some s], last') /\ last_side [180; 90] = Some true /\ mirrored s = false.
Proof.
  exists [mkRound 0 (700, 20) (mkV (0, 0) 300 200 0 0) (fish 180); mkRound 16 (700, 20) (mkV (500, 0) 300 200 0 0) (fish 90)],
    (mkShot (mkR 0 0 60 40) (mkR 200 20 60 40) (of_Z 0) false), (of_Z (-1)). split.
  - repeat constructor; vm_compute; congruence.
  - repeat split; vm_compute; reflexivity.
Qed.
Print Assumptions C130_hidden_refuted.
(** [autoplay: False] also forgets that the image is not to be turned. *)
Theorem C130_forgets_refuted : exists m s m', psolid m = false /\
  render_image 1 false no_camera 0 (10, 20) (img_autoplay (img_nodirani m true) false) = Ok (Some s, m') /\ mirrored s = true.
Proof.
  exists (hero 180), (mkShot (mkR 0 0 60 40) (mkR 10 20 60 40) (of_Z 0) true), (hero 180). repeat split; vm_compute; reflexivity.
Qed.
Print Assumptions C130_forgets_refuted.
