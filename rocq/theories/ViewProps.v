(** Claim C144: what a screen shows under a camera. *)
From Verif Require Import Common NumModel PhysSpec CtlSpec CtlModel ViewSpec ViewModel ViewProofs.
Import ListNotations.
Local Open Scope Z_scope.

(** With a camera the background is a piece of the size of the camera, drawn as it is in the corner last given, *)
Theorem C144_shown : forall es p s o w h x y, story start (es ++ [Back p]) = Ok (s, o) -> said (last_size es) w h -> said (last_corner es) x y ->
  0 < w -> 0 < h -> exists o', o = o' ++ [Ground (mkR (fst (cam s)) (snd (cam s)) w h) (mkR x y w h)].
Proof. exact shown_ok. Qed.
Print Assumptions C144_shown.
(** and images are seen through it, fixed images and those without a camera at their place. *)
Theorem C144_images : forall es p r fixed s o w h x y, story start (es ++ [Pic p fixed r]) = Ok (s, o) -> said (last_size es) w h -> said (last_corner es) x y ->
  if (0 <? w) && (0 <? h) && negb fixed then exists o', o = o' ++ [Image (on_screen (cam s) w h x y r)] else exists o', o = o' ++ [Image r].
Proof. exact image_ok. Qed.
Print Assumptions C144_images.
(** Nothing beyond the background is shown; missing: the size of the camera must not change during the screen. *)
Theorem C144_on_background_partial : forall es1 es2 W H w h s1 o1 s o, story start (es1 ++ [Screen W H]) = Ok (s1, o1) -> story s1 es2 = Ok (s, o) ->
  forallb no_size es2 = true -> forallb no_screen es2 = true -> said (last_size es1) w h -> 0 < w <= W -> 0 < h <= H ->
  forall src dst, In (Ground src dst) o -> 0 <= rx src /\ rx src + rw src <= W /\ 0 <= ry src /\ ry src + rh src <= H /\ rw src = w /\ rh src = h.
Proof. exact inside_ok. Qed.
Print Assumptions C144_on_background_partial.
(** Without a camera the whole background is shown; missing: the camera must not be switched off during the screen. *)
Theorem C144_whole_partial : forall es1 es2 W H w h s1 o1 s o, story start (es1 ++ [Screen W H]) = Ok (s1, o1) -> story s1 es2 = Ok (s, o) ->
  forallb no_size es2 = true -> forallb no_screen es2 = true -> said (last_size es1) w h -> w <= 0 \/ h <= 0 ->
  forall src dst, In (Ground src dst) o -> src = mkR 0 0 W H /\ dst = mkR 0 0 W H.
Proof. exact whole_ok. Qed.
Print Assumptions C144_whole_partial.
(** The camera moves by at most one pixel for every thing that is drawn through it. *)
Theorem C144_pace : forall es s s' o, init s = true -> forallb no_screen es = true -> story s es = Ok (s', o) ->
  Z.abs (fst (cam s') - fst (cam s)) <= looks es /\ Z.abs (snd (cam s') - snd (cam s)) <= looks es.
Proof. exact pace_ok. Qed.
Print Assumptions C144_pace.
(** While the player stands still, the camera comes to them and rests: three tenths of its width around them are in view, or the background ends. *)
Theorem C144_finds_partial : forall s p, on s = true -> init s = true -> cw s <= ww s -> ch s <= wh s -> 3 * cw s <= 5 * ch s -> ww s <= 2147483647 -> wh s <= 2147483647 ->
  0 <= fst (cam s) <= ww s - cw s -> 0 <= snd (cam s) <= wh s - ch s ->
  exists b n c, 0 <= b /\ 3 * cw s - 10 <= 10 * b <= 3 * cw s /\
    (forall m, (n <= m)%nat -> exists s' o, story s (repeat (Back p) m) = Ok (s', o) /\ cam s' = c) /\
    (in_view (fst c) (cw s) b (fst p) \/ (fst p < fst c + b /\ fst c = 0) \/ (fst c + cw s - b < fst p /\ fst c = ww s - cw s)) /\
    (in_view (snd c) (ch s) b (snd p) \/ (snd p < snd c + b /\ snd c = 0) \/ (snd c + ch s - b < snd p /\ snd c = wh s - ch s)).
Proof. exact found_story. Qed.
Print Assumptions C144_finds_partial.
(** As long as no corner is given, a screen is enlarged to what the camera shows; *)
Theorem C144_enlarged : forall es W H p s o w h a b, story start (es ++ [Screen W H; Back p]) = Ok (s, o) -> last_corner es = None ->
  last_size es = Some (a, b) -> c_int a = Ok w -> c_int b = Ok h -> 0 < w -> 0 < h -> logical s = Some (w, h).
Proof. exact zoom_ok. Qed.
Print Assumptions C144_enlarged.
(** from then on this stays so until the next screen. *)
Theorem C144_steady : forall es s s' o, init s = true -> forallb no_screen es = true -> story s es = Ok (s', o) -> logical s' = logical s.
Proof. exact logical_kept. Qed.
Print Assumptions C144_steady.

Definition q (z : Z) : num := of_Z z.
Example C144_example : exists s, story start [Corner (q 10) (q 20); Size (q 100) (q 80); Screen 300 200; Back (0, 0); Pic (90, 70) false (mkR 50 40 16 16); Back (90, 70); Pic (0, 0) true (mkR 3 4 5 6)]
  = Ok (s, [Ground (mkR 0 0 100 80) (mkR 10 20 100 80); Image (mkR 59 59 16 16); Ground (mkR 2 2 100 80) (mkR 10 20 100 80); Image (mkR 3 4 5 6)]) /\
  logical s = None /\ init s = true.
Proof. eexists. split; [vm_compute; reflexivity|]. vm_compute. auto. Qed.
Example C144_example_off : exists s, story start [Screen 300 200; Back (0, 0); Pic (90, 70) false (mkR 50 40 16 16)]
  = Ok (s, [Ground (mkR 0 0 300 200) (mkR 0 0 300 200); Image (mkR 50 40 16 16)]).
Proof. eexists. vm_compute. reflexivity. Qed.
Example C144_example_enlarged : exists s o, story start [Size (q 100) (q 80); Screen 300 200; Back (0, 0)] = Ok (s, o) /\ logical s = Some (100, 80).
Proof. eexists. eexists. split; [vm_compute; reflexivity|]. vm_compute. reflexivity. Qed.

Example C144_example_finds : exists s' o, story (mkS 100 80 0 0 true (0, 0) true None 300 200 (mkR 0 0 300 200)) (repeat (Back (150, 100)) 90) = Ok (s', o) /\ cam s' = (80, 50).
Proof. eexists. eexists. split; [vm_compute; reflexivity|]. vm_compute. reflexivity. Qed.

(** Switching the camera off shows only a piece of the background, from its corner (media.c 1412-1415). *)
Theorem C144_off_refuted : exists es s o, story start ([Size (q 100) (q 80); Screen 300 200; Back (0, 0)] ++ es) = Ok (s, o) /\
  cw s = 0 /\ ch s = 0 /\ last o (Image (mkR 0 0 0 0)) = Ground (mkR 0 0 100 80) (mkR 0 0 100 80).
Proof. exists [Size (q 0) (q 0); Back (0, 0)]. eexists. eexists. split; [vm_compute; reflexivity|]. vm_compute. auto. Qed.
Print Assumptions C144_off_refuted.
(** A camera that grows during a screen shows what is beyond the background, and goes back only with the player. *)
Theorem C144_grow_refuted : exists es s o src dst, story start es = Ok (s, o) /\ last o (Image (mkR 0 0 0 0)) = Ground src dst /\ rw src <= ww s /\
  ww s < rx src + rw src.
Proof.
  exists ([Size (q 100) (q 80); Screen 110 200; Back (0, 0)] ++ repeat (Back (100, 40)) 10 ++ [Size (q 110) (q 80); Back (90, 40)]).
  eexists. eexists. eexists. eexists. split; [vm_compute; reflexivity|]. split; [vm_compute; reflexivity|]. vm_compute. split; [discriminate|reflexivity].
Qed.
Print Assumptions C144_grow_refuted.
(** The camera is faster with more images on the screen: once for the background, once for each image. *)
Theorem C144_speed_refuted : exists s p r s1 o1 s2 o2, init s = true /\ story s [Back p] = Ok (s1, o1) /\ story s [Back p; Pic p false r; Pic p false r] = Ok (s2, o2) /\
  fst (cam s1) = fst (cam s) + 1 /\ fst (cam s2) = fst (cam s) + 3.
Proof.
  exists (mkS 100 80 0 0 true (0, 0) true None 300 200 (mkR 0 0 300 200)), (200, 40), (mkR 1 1 1 1). eexists. eexists. eexists. eexists.
  split; [reflexivity|]. split; [vm_compute; reflexivity|]. split; [vm_compute; reflexivity|]. vm_compute. auto.
Qed.
Print Assumptions C144_speed_refuted.
(** A corner of 0, 0, as it is at first, ends the enlarging; *)
Theorem C144_corner_refuted : exists es s o, story start (Size (q 100) (q 80) :: es ++ [Screen 300 200; Back (0, 0)]) = Ok (s, o) /\ vx s = 0 /\ vy s = 0 /\ logical s = None.
Proof. exists [Corner (q 0) (q 0)]. eexists. eexists. split; [vm_compute; reflexivity|]. vm_compute. auto. Qed.
Print Assumptions C144_corner_refuted.
(** and the enlarging of an earlier screen stays on a later one without a camera. *)
Theorem C144_stays_refuted : exists es s o, story start es = Ok (s, o) /\ cw s = 0 /\ ch s = 0 /\ last o (Image (mkR 0 0 0 0)) = Ground (mkR 0 0 300 200) (mkR 0 0 300 200) /\
  logical s = Some (100, 80).
Proof.
  exists [Size (q 100) (q 80); Screen 300 200; Back (0, 0); Size (q 0) (q 0); Screen 300 200; Back (0, 0)]. eexists. eexists. split; [vm_compute; reflexivity|]. vm_compute. auto.
Qed.
Print Assumptions C144_stays_refuted.
