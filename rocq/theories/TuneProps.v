(** C134: the settings of images. C135: where images are sent. *)
From Coq Require Import QArith SpecFloat List.
From Verif Require Import Common FloatSpec NumModel PhysSpec PhysModel ReelSpec TuneSpec TuneModel TuneProofs.
Import ListNotations.
Local Open Scope Z_scope.

(** The full claim: an image has the settings it was given last, or the defaults; messages to other images and frames change none of
    them; the image that was made controllable last is steered in the way given; places that are set are the places answered.
    It holds for the ten settings of images, for the player and for whole places (with listeners that send no messages). *)
Theorem C134_settings at2 cosf sinf logf powf p180 p on_hit on_arrival es s ww wh i m : quiet_listeners on_hit on_arrival ->
  story at2 cosf sinf logf powf p180 p on_hit on_arrival (start ww wh) es = Ok s -> nth_error (imgs (game_of s)) i = Some m ->
  solid m = latest (fun t => match t with Wall b => Some b | _ => None end) i false (said es) /\
  collidable m = latest (fun t => match t with Active b => Some b | _ => None end) i false (said es) /\
  bounce m = latest (fun t => match t with Bounce b => Some b | _ => None end) i false (said es) /\
  fixed m = latest (fun t => match t with Static b => Some b | _ => None end) i false (said es) /\
  ghost m = latest (fun t => match t with Ghost b => Some b | _ => None end) i false (said es) /\
  visible m = latest (fun t => match t with Visible b => Some b | _ => None end) i true (said es) /\
  gravity m = latest (fun t => match t with Gravity v => Some v | _ => None end) i (of_Z 0) (said es) /\
  speed m = latest (fun t => match t with Speed v => Some v | _ => None end) i (of_Z 1) (said es) /\
  fric m = latest (fun t => match t with Friction v => Some v | _ => None end) i (of_Z 0) (said es) /\
  accel m = latest (fun t => match t with Accelerate v => Some v | _ => None end) i (of_Z 1) (said es).
Proof. exact (settings_story at2 cosf sinf logf powf p180 p on_hit on_arrival es s ww wh i m). Qed.
Print Assumptions C134_settings.
(** The player, how it is steered, and freezing: what was said last, to whichever image. *)
Theorem C134_player at2 cosf sinf logf powf p180 p on_hit on_arrival es s ww wh : quiet_listeners on_hit on_arrival ->
  story at2 cosf sinf logf powf p180 p on_hit on_arrival (start ww wh) es = Ok s ->
  controls s = last_some player_event None es /\ frozen s = last_some freeze_event false es.
Proof. exact (globals_story at2 cosf sinf logf powf p180 p on_hit on_arrival es s ww wh). Qed.
Print Assumptions C134_player.
(** A setting changes neither place, destination, movement and size, nor whether the image is there at all. *)
Definition body (m : img) := (x m, y m, ox m, oy m, (tx m, ty m), (gspeed m, dir m, mov m), (h m, w m, anims m), alive m).
Theorem C134_apart m t : body (say m t) = body m.
Proof. now destruct t. Qed.
Print Assumptions C134_apart.
(** [x: a y: b] with whole numbers: [x?] and [y?] answer them; nothing else changes. *)
Theorem C134_place_partial m a b px py : is_whole a px -> is_whole b py -> - 2147483648 <= px <= 2147483647 -> - 2147483648 <= py <= 2147483647 ->
  exists m', img_xy m a b = Ok m' /\ is_whole (img_x m') px /\ (exists v, img_y m' = Ok v /\ is_whole v py) /\
    ox m' = x m' /\ oy m' = y m' /\ settings m' = settings m /\ dir m' = dir m /\ mov m' = mov m /\ tx m' = tx m /\ ty m' = ty m.
Proof. exact (place_ok m a b px py). Qed.
Print Assumptions C134_place_partial.

(** Two images; the second goes down, the first to the right *)
Definition unit_cos (v : num) : num := if SFeqb v (of_Z 0) then of_Z 1 else of_Z 0.
Definition unit_sin (v : num) : num := if SFeqb v (of_Z 0) then of_Z 0 else of_Z (-1).
Definition half : num := div64 (of_Z 1) (of_Z 2).
Definition some_time : num := add64 (of_Z 2) half.
Definition no_hit (g : game) (_ _ : nat) : list img := imgs g.
Definition no_arrival (g : game) (_ : nat) : list img := imgs g.
Lemma quiet_case : quiet_listeners no_hit no_arrival. Proof. split; reflexivity. Qed.
Definition tale (es : list event) : outcome state :=
  story crude unit_cos unit_sin (fun v => v) (fun v _ => v) (of_Z 0) pi64 no_hit no_arrival (start 640 480) es.
Definition two : list event := [New 10 10; New 10 10; PutAt 1 (of_Z 200) (of_Z 0)].
Example C134_case :
  (do s <- tale (two ++ [Say 0 (Wall true); Say 1 (Speed (of_Z 3)); Say 0 (Speed (of_Z 2)); Controllable 1 (of_Z 1); Frame (of_Z 1); Say 0 (Visible false)]);
   Ok (map settings (imgs (game_of s)), controls s, frozen s)) =
  Ok ([(true, false, false, false, false, false, (of_Z 0, of_Z 2, of_Z 0, of_Z 1)); (false, false, false, false, false, true, (of_Z 0, of_Z 3, of_Z 0, of_Z 1))],
      Some (1%nat, 1), false).
Proof. vm_compute. reflexivity. Qed.
(** [x?] answers fractions of pixels, [y?] drops them. *)
Definition sent_off : list event := two ++ [SendTo 0 (of_Z 100) (of_Z 0); SendTo 1 (of_Z 200) (of_Z 100); Frame some_time].
Theorem C134_place_refuted : exists es s m m2, tale es = Ok s /\ imgs (game_of s) = [m; m2] /\
  (SF2Q (x m) == 5 # 2)%Q /\ (SF2Q (img_x m) == 5 # 2)%Q /\ (SF2Q (y m2) == 5 # 2)%Q /\ img_y m2 = Ok (of_Z 2).
Proof.
  exists sent_off. destruct (tale sent_off) as [s|] eqn:E; [|vm_compute in E; discriminate E]. vm_compute in E. injection E as <-.
  eexists _, _, _. split; [reflexivity|]. split; [reflexivity|]. repeat split; vm_compute; reflexivity.
Qed.
Print Assumptions C134_place_refuted.
(** [freeze: True] of an image that is not steered freezes the one that is; so does [jump-height:]. *)
Theorem C134_freeze_refuted : exists es s, tale es = Ok s /\ In (Freeze 0 true) es /\ In (Freeze 1 false) es /\ controls s = Some (1%nat, 1) /\ frozen s = true.
Proof.
  exists (two ++ [Freeze 1 false; Controllable 1 (of_Z 1); Freeze 0 true]). eexists. split; [vm_compute; reflexivity|].
  split; [cbn; auto 10|]. split; [cbn; auto 10|]. split; reflexivity.
Qed.
Print Assumptions C134_freeze_refuted.
Theorem C134_jump_refuted : exists es s, tale es = Ok s /\ In (JumpHeight 1 (of_Z 50)) es /\ controls s = Some (1%nat, 1) /\ factor s <> 50.
Proof.
  exists (two ++ [JumpHeight 1 (of_Z 50); Controllable 1 (of_Z 1); JumpHeight 0 (of_Z 20)]). eexists. split; [vm_compute; reflexivity|].
  split; [cbn; auto 10|]. split; [reflexivity|]. cbn. discriminate.
Qed.
Print Assumptions C134_jump_refuted.
(** Half a jump is none. *)
Theorem C134_half_refuted : exists s s', tale two = Ok s /\ img_jump_height s half = Ok s' /\ factor s' = 0 /\ (0 < SF2Q half)%Q.
Proof.
  destruct (tale two) as [s|] eqn:E; [|vm_compute in E; discriminate E]. exists s, (mkS (game_of s) (frozen s) 0).
  split; [reflexivity|]. split; [vm_compute; reflexivity|]. split; [reflexivity|]. vm_compute. reflexivity.
Qed.
Print Assumptions C134_half_refuted.
(** The number of a control mode that is no [int] is undefined behaviour. *)
Theorem C134_mode_refuted : exists s v, tale two = Ok s /\ finite v /\ img_controllable s 0 v = UB /\ img_jump_height s v = UB.
Proof.
  destruct (tale two) as [s|] eqn:E; [|vm_compute in E; discriminate E]. exists s, (of_Z 3000000000).
  split; [reflexivity|]. split; [vm_compute; intuition congruence|]. split; vm_compute; reflexivity.
Qed.
Print Assumptions C134_mode_refuted.

(** C135. The full claim: [to-x: a y: b] points the image into the direction of the place: 0 to the right, 90 up, 180 to the left, 270 down
    and in between accordingly.  Proved: exactly on the axes, the right quarter otherwise, for every [atan2] that is right about these.
    Missing: how near the angle comes within the quarter (that is up to [atan2] and two roundings). *)
Theorem C135_axes at2 m a b kx ky ka kb : axes at2 -> at_pos (x m) kx -> at_pos (y m) ky -> at_pos a ka -> at_pos b kb ->
  on_map kx -> on_map ky -> on_map ka -> on_map kb -> let d := dir (img_mov_set at2 m a b) in
  (kb = ky -> kx < ka -> is_whole d 0) /\ (ka = kx -> kb < ky -> is_whole d 90) /\
  (kb = ky -> ka < kx -> is_whole d 180) /\ (ka = kx -> ky < kb -> is_whole d 270).
Proof. exact (send_axes at2 m a b kx ky ka kb). Qed.
Print Assumptions C135_axes.
Theorem C135_quarters_partial at2 m a b kx ky ka kb : quarters at2 -> at_pos (x m) kx -> at_pos (y m) ky -> at_pos a ka -> at_pos b kb ->
  on_map kx -> on_map ky -> on_map ka -> on_map kb -> let d := dir (img_mov_set at2 m a b) in
  (kb < ky -> kx <= ka -> within d 0 90) /\ (kb < ky -> ka <= kx -> within d 90 180) /\
  (ky < kb -> ka <= kx -> within d 180 270) /\ (ky < kb -> kx <= ka -> within d 270 360 \/ is_whole d 0).
Proof. exact (send_quarters at2 m a b kx ky ka kb). Qed.
Print Assumptions C135_quarters_partial.
(** The place is kept as the destination; the image does not move yet and keeps its settings. *)
Theorem C135_destination at2 m a b : let m' := img_mov_set at2 m a b in
  tx m' = a /\ ty m' = b /\ x m' = x m /\ y m' = y m /\ mov m' = mov m /\ settings m' = settings m.
Proof. exact (send_keeps at2 m a b). Qed.
Print Assumptions C135_destination.
(** There is an [atan2] of this kind, and an image it is used for. *)
Example C135_atan2 : axes crude /\ quarters crude. Proof. exact (conj crude_axes crude_quarters). Qed.
Example C135_case : (do s <- tale sent_off; Ok (map dir (imgs (game_of s)))) = Ok [S754_zero true; of_Z 270] /\
  (do s <- tale (two ++ [SendTo 1 (of_Z 100) (of_Z 0)]); Ok (map dir (imgs (game_of s)))) = Ok [of_Z (-1); of_Z 180] /\
  at_pos (of_Z 100) (100 * 2 ^ 20) /\ on_map (100 * 2 ^ 20).
Proof.
  split; [vm_compute; reflexivity|]. split; [vm_compute; reflexivity|]. split; [split; [vm_compute; intuition congruence|vm_compute; reflexivity]|].
  unfold on_map. vm_compute. congruence.
Qed.
(** An image that is sent to where it is does not stand still: it starts to the right (the direction becomes 0). *)
Theorem C135_here_refuted : exists es s m, tale es = Ok s /\ imgs (game_of s) = [m] /\ x m = tx m /\ y m = ty m /\ is_whole (dir m) 0.
Proof.
  exists [New 10 10; SendTo 0 (of_Z 0) (of_Z 0)]. eexists _, _. split; [vm_compute; reflexivity|]. repeat split; vm_compute; reflexivity.
Qed.
Print Assumptions C135_here_refuted.
