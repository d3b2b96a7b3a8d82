(** Claims C113, C114 and C115. *)
From Coq Require Import SpecFloat QArith Sorted.
From Verif Require Import Common FloatSpec NumModel PhysSpec CtlSpec CtlModel CtlProofs.
Local Open Scope Z_scope.

(** ** C113: keys *)
(** Outside mode 4 the latest key event that concerns the direction decides on it. *)
Theorem C113_heading : forall l s, run start l = Ok s ->
  Forall (fun ev => mode (fst ev) <> 4) l ->
  Forall (fun ev => forall p, player (fst ev) = Some p -> gravity p <> S754_nan) l ->
  latest (map (fun ev => heading_of (mode (fst ev))
            (match player (fst ev) with Some p => SFltb (gravity p) (of_Z 1) | None => false end)
            (focus (fst ev) || negb (awake (fst ev)) || match player (fst ev) with Some _ => false | None => true end) (snd ev)) l)
    (-1) (dir s).
Proof. exact (fun l s => heading_ok l start s). Qed.
Print Assumptions C113_heading.
(** The direction is none or an angle, whatever the program does. *)
Theorem C113_angle : forall l s, run start l = Ok s -> -1 <= dir s <= 359.
Proof. exact (fun l s H => proj1 (run_sane l start s start_sane H)). Qed.
Print Assumptions C113_angle.
(** In mode 4 a frame turns by the rotation of the keys; past either end it continues at the other. *)
Theorem C113_turns : forall l s0 e s, run start l = Ok s0 -> step s0 (e, Frame) = Ok s -> mode e = 4 -> 0 <= dir s <= 359 /\
  (dir s = dir s0 + rot s0 \/ (dir s0 + rot s0 < 0 /\ dir s = 359) \/ (359 < dir s0 + rot s0 /\ dir s = 0)).
Proof. exact turned_ok. Qed.
Print Assumptions C113_turns.
(** With a direction, the player goes there, never backwards and never faster than their speed. *)
Theorem C113_driven : forall l e p s, run start (l ++ [(e, Frame)]) = Ok s -> player e = Some p -> 0 <= dir s ->
  SFleb (of_Z 0) (speed p) = true ->
  pdir s = of_Z (dir s) /\ SFleb (of_Z 0) (pmov s) = true /\ SFleb (pmov s) (speed p) = true.
Proof. exact driven_ok. Qed.
Print Assumptions C113_driven.
(** A jump begins with the up key, for a player with gravity, not during a jump. *)
Theorem C113_jump : forall s ev s', step s ev = Ok s' -> jump s <> 1 -> jump s' = 1 ->
  snd ev = Down KUp /\ jump s = 0 /\ mode (fst ev) = 1 /\ focus (fst ev) = false /\ awake (fst ev) = true /\
  exists p, player (fst ev) = Some p /\ SFleb (of_Z 1) (gravity p) = true.
Proof. exact jump_ok. Qed.
Print Assumptions C113_jump.
(** No crash, if no mouse button is released without a text that has the keyboard and jumps fit an int. *)
Theorem C113_safe_partial : forall l,
  Forall (fun ev => (snd ev = ButtonUp -> focus (fst ev) = true) /\
    (forall p, player (fst ev) = Some p -> - 2147483648 <= height p * factor (fst ev) <= 2147483647)) l ->
  exists s, run start l = Ok s.
Proof. exact (fun l => safe_ok l start). Qed.
Print Assumptions C113_safe_partial.

Definition bird : who := mkW (of_Z 0) (of_Z 4) (div64 (of_Z 1) (of_Z 2)) 32.
Definition hare : who := mkW (of_Z 1) (of_Z 4) (div64 (of_Z 1) (of_Z 2)) 32.
Definition play (m : Z) (w : who) : env := mkE m true false (Some w) 100.
Example C113_example :
  exists s, run start [(play 1 hare, Down KLeft); (play 1 hare, Down KUp); (play 1 hare, Frame); (play 1 hare, Up KUp); (play 1 hare, Frame)] = Ok s /\
    dir s = 180 /\ jump s = 2 /\ jheight s = 3200 /\ pmov s = of_Z 4 /\ pdir s = of_Z 180.
Proof. eexists. split; [vm_compute; reflexivity|]. vm_compute. repeat split. Qed.
Example C113_example_turn :
  exists s0 s, run start [(play 4 bird, Down KLeft); (play 4 bird, Frame)] = Ok s0 /\ step s0 (play 4 bird, Frame) = Ok s /\ dir s0 = 4 /\ dir s = 9.
Proof. eexists; eexists. split; [vm_compute; reflexivity|]. split; [vm_compute; reflexivity|]. vm_compute. auto. Qed.
(** A key that is still down is forgotten when another one is released. *)
Theorem C113_released_refuted : exists e l s, run start l = Ok s /\ In (e, Down KLeft) l /\ ~ In (e, Up KLeft) l /\
  Forall (fun ev => fst ev = e) l /\ mode e = 1 /\ dir s = -1.
Proof.
  exists (play 1 bird), [(play 1 bird, Down KRight); (play 1 bird, Down KLeft); (play 1 bird, Up KRight)].
  eexists. split; [vm_compute; reflexivity|]. split; [right; left; reflexivity|]. split.
  - intros [H|[H|[H|[]]]]; apply (f_equal snd) in H; discriminate H.
  - split; [repeat constructor|]. split; reflexivity.
Qed.
Print Assumptions C113_released_refuted.
(** A frozen player keeps running. *)
Theorem C113_frozen_refuted : exists e e' s s', awake e' = false /\ run start [(e, Down KRight)] = Ok s /\ run s [(e', Frame)] = Ok s' /\
  pmov s = of_Z 0 /\ SFltb (of_Z 0) (pmov s') = true.
Proof.
  exists (play 1 bird), (mkE 1 false false (Some bird) 100). eexists; eexists. split; [reflexivity|].
  split; [vm_compute; reflexivity|]. split; [vm_compute; reflexivity|]. split; vm_compute; reflexivity.
Qed.
Print Assumptions C113_frozen_refuted.
(** In mode 4 the player is turned although no key was touched. *)
Theorem C113_untouched_refuted : exists e s, run start [(e, Frame)] = Ok s /\ pdir start = of_Z (-1) /\ pdir s = of_Z 359.
Proof. exists (play 4 bird). eexists. split; [vm_compute; reflexivity|]. split; vm_compute; reflexivity. Qed.
Print Assumptions C113_untouched_refuted.
(** In mode 2 a player with gravity goes up forever after the key has been released. *)
Theorem C113_up_forever_refuted : exists e s, run start [(e, Down KUp); (e, Up KUp)] = Ok s /\ dir s = 90.
Proof. exists (play 2 hare). eexists. split; [vm_compute; reflexivity|]. reflexivity. Qed.
Print Assumptions C113_up_forever_refuted.
(** A shift key and a click crash the program unless a text has the keyboard. *)
Theorem C113_shift_click_refuted : exists e, run start [(e, ShiftDown); (e, ButtonUp)] = UB.
Proof. exists (play 1 bird). reflexivity. Qed.
Print Assumptions C113_shift_click_refuted.

(** ** C114: the camera *)
(** The camera stays on the map and moves by at most a pixel. *)
Theorem C114_on_map : forall cam init cw ch ww wh px py cam', camera cam init cw ch ww wh px py = Ok cam' ->
  0 <= fst cam <= Z.max 0 (ww - cw) -> 0 <= snd cam <= Z.max 0 (wh - ch) ->
  0 <= fst cam' <= Z.max 0 (ww - cw) /\ 0 <= snd cam' <= Z.max 0 (wh - ch) /\
  (init = true -> Z.abs (fst cam' - fst cam) <= 1 /\ Z.abs (snd cam' - snd cam) <= 1).
Proof. exact camera_bounds. Qed.
Print Assumptions C114_on_map.
(** While the player stands still, the camera comes to rest: three tenths of its width around the player are in view, or the map ends
    there.  The camera must be at least three fifths as high as it is wide. *)
Theorem C114_finds_partial : forall cam cw ch ww wh px py,
  0 <= cw <= ww -> 0 <= ch <= wh -> 3 * cw <= 5 * ch -> ww <= 2147483647 -> wh <= 2147483647 ->
  0 <= fst cam <= ww - cw -> 0 <= snd cam <= wh - ch ->
  exists b n cam', 0 <= b /\ 3 * cw - 10 <= 10 * b <= 3 * cw /\
    (forall m, (n <= m)%nat -> cameras m cam cw ch ww wh px py = Ok cam') /\
    (in_view (fst cam') cw b px \/ (px < fst cam' + b /\ fst cam' = 0) \/ (fst cam' + cw - b < px /\ fst cam' = ww - cw)) /\
    (in_view (snd cam') ch b py \/ (py < snd cam' + b /\ snd cam' = 0) \/ (snd cam' + ch - b < py /\ snd cam' = wh - ch)).
Proof. exact found_ok. Qed.
Print Assumptions C114_finds_partial.
(** A pixel of an image within the view of the camera is drawn at its place, *)
Theorem C114_drawn : forall cam cw ch vx vy r px py, covers r px py -> shows (fst cam) cw px -> shows (snd cam) ch py ->
  covers (on_screen cam cw ch vx vy r) (px - fst cam + vx) (py - snd cam + vy) /\
  rw (on_screen cam cw ch vx vy r) = rw r /\ rh (on_screen cam cw ch vx vy r) = rh r.
Proof. exact culled_ok. Qed.
Print Assumptions C114_drawn.
(** and no other. *)
Theorem C114_drawn_only : forall cam cw ch vx vy r px py, covers (on_screen cam cw ch vx vy r) px py ->
  covers r (px - vx + fst cam) (py - vy + snd cam).
Proof. exact drawn_ok. Qed.
Print Assumptions C114_drawn_only.

Example C114_example : cameras 100 (0, 0) 320 240 1000 1000 300 200 = Ok (76, 56) /\
  cameras 101 (0, 0) 320 240 1000 1000 300 200 = Ok (76, 56) /\ camera (5, 9) true 320 240 1000 1000 300 200 = Ok (6, 10).
Proof. repeat split; vm_compute; reflexivity. Qed.
Example C114_example_drawn : on_screen (76, 56) 320 240 10 0 (mkR 290 190 16 16) = mkR 224 134 16 16 /\
  on_screen (76, 56) 320 240 10 0 (mkR 590 190 16 16) = mkR 524 134 0 0.
Proof. split; vm_compute; reflexivity. Qed.
(** A wide camera never comes to rest. *)
Theorem C114_shakes_refuted : exists cw ch ww wh px py a b, a <> b /\
  camera a true cw ch ww wh px py = Ok b /\ camera b true cw ch ww wh px py = Ok a.
Proof. exists 640, 300, 1000, 600, 400, 491, (100, 300), (100, 299). split; [discriminate|]. split; vm_compute; reflexivity. Qed.
Print Assumptions C114_shakes_refuted.
(** The background and an image of the same frame are drawn with different cameras (media.c 1413, 1097). *)
Theorem C114_apart_refuted : exists cam cw ch ww wh px py background image r,
  camera cam true cw ch ww wh px py = Ok background /\ camera background true cw ch ww wh px py = Ok image /\
  rx (on_screen image cw ch 0 0 r) <> rx r - fst background.
Proof.
  exists (0, 0), 320, 240, 1000, 1000, 300, 100, (1, 0), (2, 0), (mkR 100 100 10 10). split; [vm_compute; reflexivity|].
  split; [vm_compute; reflexivity|]. vm_compute. discriminate.
Qed.
Print Assumptions C114_apart_refuted.
(** A player without frames crashes the program. *)
Theorem C114_frames_refuted : exists x y w h, middle x y w h 0 = UB /\ middle x y w h 1 = Ok (108, 208).
Proof. exists (of_Z 100), (of_Z 200), 16, 16. split; vm_compute; reflexivity. Qed.
Print Assumptions C114_frames_refuted.

(** ** C115: clicks *)
(** Told are images of which the place of the click lies strictly inside, each once and in their order, up to the first error. *)
Theorem C115_told : forall listener bx by_ l j,
  StronglySorted lt (mouse_down listener bx by_ l 0) /\
  (In j (mouse_down listener bx by_ l 0) -> exists m, nth_error l j = Some m /\ clicked bx by_ m = true) /\
  (forall m, nth_error l j = Some m -> clicked bx by_ m = true -> (forall i, (i < j)%nat -> listener i = false) ->
     In j (mouse_down listener bx by_ l 0)) /\
  (forall i, In i (mouse_down listener bx by_ l 0) -> listener i = true -> In j (mouse_down listener bx by_ l 0) -> (j <= i)%nat).
Proof. exact told_ok. Qed.
Print Assumptions C115_told.
Theorem C115_inside : forall m r bx by_, shape_at (px m) (py m) (pw m) (frames m) (ph m) r -> Z.abs bx <= 2147483648 -> Z.abs by_ <= 2147483648 ->
  (clicked bx by_ m = true <-> there m = true /\
    (SF2Q (px m) < inject_Z bx /\ inject_Z bx < SF2Q (px m) + inject_Z (rw r) /\
     SF2Q (py m) < inject_Z by_ /\ inject_Z by_ < SF2Q (py m) + inject_Z (rh r))%Q).
Proof. exact inside_ok. Qed.
Print Assumptions C115_inside.

Definition card (x y : Z) (v : bool) : pic := mkP (of_Z x) (of_Z y) 20 10 2 v true.
Example C115_example : mouse_down (fun _ => false) 5 5 [card 0 0 true; card 20 0 true; card 1 1 true] 0 = [0; 2]%nat /\
  mouse_down (fun _ => true) 5 5 [card 0 0 true; card 20 0 true; card 1 1 true] 0 = [0]%nat.
Proof. split; vm_compute; reflexivity. Qed.
(** The first column of an image is not part of it. *)
Theorem C115_edge_refuted : exists m bx by_, px m = of_Z 0 /\ py m = of_Z 0 /\ covers (mkR 0 0 (pw m / frames m) (ph m)) bx by_ /\
  mouse_down (fun _ => false) bx by_ [m] 0 = [].
Proof. exists (card 0 0 true), 0, 5. split; [reflexivity|]. split; [reflexivity|]. split; [unfold covers; cbn; lia|]. vm_compute. reflexivity. Qed.
Print Assumptions C115_edge_refuted.
(** An image seen through the camera is clicked where it is not. *)
Theorem C115_camera_refuted : exists m cam bx by_, px m = of_Z 100 /\ py m = of_Z 0 /\
  covers (on_screen cam 320 240 0 0 (mkR 100 0 (pw m / frames m) (ph m))) bx by_ /\ mouse_down (fun _ => false) bx by_ [m] 0 = [].
Proof.
  exists (card 100 0 true), (100, 0), 5, 5. split; [reflexivity|]. split; [reflexivity|]. split; [vm_compute; split; split; congruence|].
  vm_compute. reflexivity.
Qed.
Print Assumptions C115_camera_refuted.
(** An image that is not shown is told. *)
Theorem C115_hidden_refuted : exists m bx by_, shown m = false /\ mouse_down (fun _ => false) bx by_ [m] 0 = [0]%nat.
Proof. exists (card 0 0 false), 5, 5. split; vm_compute; reflexivity. Qed.
Print Assumptions C115_hidden_refuted.
