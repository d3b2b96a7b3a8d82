(** The player and the window (C111); motion (C112). *)
From Coq Require Import SpecFloat QArith.
From Verif Require Import Common FloatSpec NumModel PhysSpec PhysModel PhysProofs MoveProofs PhysProps.
Local Open Scope Z_scope.

(** However the player moved, jumped, fell or was carried in a frame, afterwards its place is between the left and the right edge of
    the window, and not below its lower edge; unless it jumps in a platform game, not above the upper edge either.
    (A place that is not a number is left alone.  An image that is larger than the window is put at 0.)  The listener of
    arrivals may do anything with the images. *)
Theorem C111_inside : forall cosf sinf logf powf pi on_arrival g i dt g' m',
  motion cosf sinf logf powf pi on_arrival g i dt = Ok g' -> player g = Some i -> mode g < 5 -> nth_error (imgs g') i = Some m' ->
  anims m' <> 0 /\
  (x m' <> S754_nan -> in_range (x m') (winw g - Z.quot (w m') (anims m'))) /\
  (y m' <> S754_nan -> SFleb (y m') (of_Z (winh g - h m')) = true \/ y m' = of_Z 0) /\
  (y m' <> S754_nan -> mode g <> 1 \/ jump g' = 0 -> in_range (y m') (winh g - h m')).
Proof. exact motion_inside. Qed.
Print Assumptions C111_inside.
Definition moved (m : img) (v d : num) : img := with_dir (with_mov m v) d.
Definition free (l : list img) (md : Z) : game := mkG l (Some 0%nat) md 0 0 None 100 100 [].
Definition calm (g : game) (i : nat) : list img := imgs g.
Example C111_example : at_place (motion one nul one (fun _ => one) (n 3) calm (free [moved (picture (n 85) (n (-4)) (n 85) (n 0) 10 10 false false) (n 20) (n 0)] 3) 0 (n 1)) 0
  = Some (n 90, n 0).
Proof. vm_compute. reflexivity. Qed.

(** At the end of the frame the player can be outside: a solid image pushes it there. *)
Theorem C111_pushed_out_refuted : exists g g' m', player g = Some 0%nat /\ mode g = 3 /\
  one_image one nul one (fun _ => one) (n 0) (n 0) quiet calm g 0 (n 1) = Ok g' /\ nth_error (imgs g') 0 = Some m' /\ x m' = n (-7).
Proof.
  exists (free [picture (n 1) (n 10) (n 1) (n 0) 10 10 false false; picture (n 3) (n 12) (n 3) (n 12) 40 40 true false] 3).
  eexists. eexists. split; [reflexivity|]. split; [reflexivity|]. split; [vm_compute; reflexivity|]. split; reflexivity.
Qed.
Print Assumptions C111_pushed_out_refuted.
(** A player whose film strip is said to have no frames ([reel: 0 rate: ...]): division by zero *)
Definition reel (m : img) (k : Z) : img :=
  mkI (x m) (y m) (ox m) (oy m) (tx m) (ty m) (gravity m) (gspeed m) (fric m) (accel m) (speed m) (dir m) (mov m) (h m) (w m) k
    (solid m) (collidable m) (bounce m) (fixed m) (ghost m) (visible m) (alive m).
Theorem C111_no_frames_refuted : exists g m, player g = Some 0%nat /\ mode g = 3 /\ nth_error (imgs g) 0 = Some m /\ anims m = 0 /\
  (exists r, shape m r) /\ motion one nul one (fun _ => one) (n 0) calm g 0 (n 1) = UB.
Proof.
  exists (free [reel (picture (n 1) (n 10) (n 1) (n 10) 10 10 false false) 0] 3). eexists. split; [reflexivity|]. split; [reflexivity|].
  split; [reflexivity|]. split; [reflexivity|]. split; [|vm_compute; reflexivity].
  exists (mkR 1 10 10 10). destruct (picture_shape 1 10 (n 1) (n 10) 10 10 false false) as [_ S]; try lia. split; [cbn; lia|exact S].
Qed.
Print Assumptions C111_no_frames_refuted.

(** Friction takes speed away but never turns an image round; with more friction than speed it stops. *)
Theorem C112_friction : forall m, finite (mov m) -> finite (fric m) -> (0 <= SF2Q (mov m))%Q -> (0 < SF2Q (fric m))%Q -> (SF2Q (mov m) < Qpower 2 1023)%Q ->
  finite (mov (slower m)) /\ (0 <= SF2Q (mov (slower m)) <= SF2Q (mov m))%Q /\ (SF2Q (mov m) <= SF2Q (fric m) -> SF2Q (mov (slower m)) == 0)%Q.
Proof. exact slower_ok. Qed.
Print Assumptions C112_friction.
(** An image with speed and direction arrives in the step in which its destination lies between the previous and the new place, on both
    axes; it is only told so when the destination is between them up to a pixel; then it has no direction any more. *)
Theorem C112_arrives : forall cosf sinf pi on_arrival g i dt m g', nth_error (imgs g) i = Some m -> moving cosf sinf pi on_arrival g i dt = Ok g' ->
  lt zero64 (mov m) = true -> lt (int_num (-1)) (dir m) = true ->
  exists nx ny,
    nx = (if SFeqb (x m) (tx m) then x m else add64 (x m) (mul64 (mul64 dt (mov m)) (cos_deg cosf pi (dir m)))) /\
    ny = (if SFeqb (y m) (ty m) then y m else sub64 (y m) (mul64 (mul64 dt (mov m)) (sin_deg sinf pi (dir m)))) /\
    (finite nx -> finite ny -> finite (ox m) -> finite (oy m) -> finite (tx m) -> finite (ty m) ->
     let between q a b := ((a <= q <= b)%Q \/ (b <= q <= a)%Q) in
     let near q a b := ((a - 1 <= q <= b + 1)%Q \/ (b - 1 <= q <= a + 1)%Q) in
     (between (SF2Q (tx m)) (SF2Q (ox m)) (SF2Q nx) -> between (SF2Q (ty m)) (SF2Q (oy m)) (SF2Q ny) -> sent g' = Arrived i :: sent g) /\
     (sent g' <> sent g -> near (SF2Q (tx m)) (SF2Q (ox m)) (SF2Q nx) /\ near (SF2Q (ty m)) (SF2Q (oy m)) (SF2Q ny))) /\
    (sent g' = sent g \/ sent g' = Arrived i :: sent g /\ imgs g' = on_arrival (put g i (with_dir (at_xy m nx ny) (int_num (-1)))) i) /\
    (sent g' = sent g -> g' = put g i (at_xy m nx ny)).
Proof. exact moving_arrives. Qed.
Print Assumptions C112_arrives.
(** Without a direction or without speed an image does not move by itself and does not arrive (again). *)
Theorem C112_rests : forall cosf sinf pi on_arrival g i dt m, nth_error (imgs g) i = Some m ->
  lt zero64 (mov m) = false \/ lt (int_num (-1)) (dir m) = false -> moving cosf sinf pi on_arrival g i dt = Ok g.
Proof. exact moving_rests. Qed.
Print Assumptions C112_rests.
Definition bound_for (m : img) (a b : num) : img :=
  mkI (x m) (y m) (ox m) (oy m) a b (gravity m) (gspeed m) (fric m) (accel m) (speed m) (dir m) (mov m) (h m) (w m) (anims m)
    (solid m) (collidable m) (bounce m) (fixed m) (ghost m) (visible m) (alive m).
Definition fast (m : img) (sp ac fr : num) : img :=
  mkI (x m) (y m) (ox m) (oy m) (tx m) (ty m) (gravity m) (gspeed m) fr ac sp (dir m) (mov m) (h m) (w m) (anims m)
    (solid m) (collidable m) (bounce m) (fixed m) (ghost m) (visible m) (alive m).
Example C112_friction_example :
  map (fun fr => mov (slower (fast (moved (picture (n 0) (n 0) (n 0) (n 0) 10 10 false false) (n 5) (n 0)) (n 9) (n 0) (n fr)))) [2; 5; 7] = [n 3; n 0; n 0].
Proof. vm_compute. reflexivity. Qed.
(** From 7 with speed 7 to the right, bound for (10, 0): it arrives, and is then at 14. *)
Example C112_arrives_example :
  match moving one nul (n 3) calm (free [moved (bound_for (picture (n 7) (n 0) (n 7) (n 0) 10 10 false false) (n 10) (n 0)) (n 7) (n 0)] 5) 0 (n 1) with
  | Ok g => sent g = [Arrived 0] /\ option_map x (nth_error (imgs g) 0) = Some (n 14) /\ option_map dir (nth_error (imgs g) 0) = Some (n (-1))
  | UB => False
  end.
Proof. vm_compute. repeat split. Qed.

(** An image that was told it has arrived is not at its destination. *)
Theorem C112_destination_refuted : exists g g' m m', nth_error (imgs g) 0 = Some m /\ tx m = n 10 /\ ty m = n 0 /\
  one_image one nul one (fun _ => one) (n 0) (n 3) quiet calm g 0 (n 1) = Ok g' /\ sent g' = [Arrived 0] /\ sent g = [] /\
  nth_error (imgs g') 0 = Some m' /\ x m' = n 14.
Proof.
  exists (free [moved (bound_for (picture (n 7) (n 0) (n 7) (n 0) 10 10 false false) (n 10) (n 0)) (n 7) (n 0)] 5).
  do 3 eexists. split; [reflexivity|]. split; [reflexivity|]. split; [reflexivity|]. split; [vm_compute; reflexivity|]. repeat split.
Qed.
Print Assumptions C112_destination_refuted.
(** media.c 1141: "keep a constant physics speed".  Friction is the same in every frame, however long the frame took: after the same
    time, in two frames or in one, the speeds differ. *)
Theorem C112_frame_rate_refuted : exists g ga gb gc ma mb,
  let step g dt := one_image one nul one (fun _ => one) (n 0) (n 3) quiet calm g 0 dt in
  step g (n 1) = Ok ga /\ step ga (n 1) = Ok gb /\ step g (n 2) = Ok gc /\
  nth_error (imgs gb) 0 = Some ma /\ nth_error (imgs gc) 0 = Some mb /\ mov ma = n 5 /\ mov mb = n 6 /\ x ma = n 11 /\ x mb = n 12.
Proof.
  exists (free [fast (moved (bound_for (picture (n 0) (n 0) (n 0) (n 0) 10 10 false false) (n 90) (n 0)) (n 7) (n 0)) (n 7) (n 0) (n 1)] 5).
  do 5 eexists. cbv zeta. split; [vm_compute; reflexivity|]. split; [vm_compute; reflexivity|]. split; [vm_compute; reflexivity|]. repeat split.
Qed.
Print Assumptions C112_frame_rate_refuted.
