(** Collisions of images (C110). *)
From Coq Require Import SpecFloat QArith.
From Verif Require Import Common FloatSpec NumModel PhysSpec PhysModel PhysProofs.
Local Open Scope Z_scope.

(** An image that ran into a solid image no longer overlaps it afterwards, whatever their places and sizes, if its front had not come
    out at the other side of the solid image; nothing but its place (and the speed of its fall) has changed. *)
Theorem C110_apart : forall cosf sinf pi_180 g i j m m2 r rold r2, flat g -> i <> j ->
  nth_error (imgs g) i = Some m -> nth_error (imgs g) j = Some m2 ->
  shape m r -> old_shape m rold -> shape m2 r2 -> shifted g i m m2 = false -> not_through rold r r2 ->
  exists m' r', resolve cosf sinf pi_180 g i j = Ok (put g i m') /\ rest m m' /\ new_shape m' r' /\ ~ overlap r' r2.
Proof. exact resolve_ok. Qed.
Print Assumptions C110_apart.

(** In a platform game the player is put beside a platform that comes from above. *)
Theorem C110_beside : forall cosf sinf pi_180 g i j m m2 r rold r2, flat g -> i <> j ->
  nth_error (imgs g) i = Some m -> nth_error (imgs g) j = Some m2 ->
  shape m r -> old_shape m rold -> shape m2 r2 -> shifted g i m m2 = true -> rw r <= rx r2 ->
  exists m' r', resolve cosf sinf pi_180 g i j = Ok (put g i m') /\ rest m m' /\ new_shape m' r' /\ ~ overlap r' r2.
Proof. exact resolve_shifted. Qed.
Print Assumptions C110_beside.

(** The whole of running into a solid image: an image with gravity whose lower edge is at most half its height below the top stands on
    it, one row deep, and stops falling; every other one is pushed out and stops.  No other image changes.  The jump of the player goes on
    to its next phase; a bouncing image turns by 145 degrees. *)
Theorem C110_run_into : forall cosf sinf pi_180 g i j m m2 r rold r2 kd, flat g -> i <> j ->
  nth_error (imgs g) i = Some m -> nth_error (imgs g) j = Some m2 ->
  shape m r -> old_shape m rold -> shape m2 r2 -> overlap r r2 -> at_pos (dir m) kd -> on_map kd ->
  (0 <= SF2Q (x m))%Q -> (0 <= SF2Q (x m2))%Q ->
  not_through rold r r2 -> (player g = Some i -> mode g = 1 -> rw r <= rx r2) -> rh r <= ry r2 ->
  exists g' m' r', run_into cosf sinf pi_180 g i j = Ok g' /\ nth_error (imgs g') i = Some m' /\
    (forall k, k <> i -> nth_error (imgs g') k = nth_error (imgs g) k) /\ new_shape m' r' /\
    jump g' = next_jump g i /\ sent g' = sent g /\ dir m' = next_dir m kd /\
    (stands m m2 -> r' = mkR (rx r) (ry r2 - rh r + 1) (rw r) (rh r) /\ gspeed m' = zero64 /\ mov m' = mov m /\
       contact g' = if is_player g i then Some j else contact g) /\
    (~ stands m m2 -> ~ overlap r' r2 /\ mov m' = zero64 /\ contact g' = contact g).
Proof. exact run_into_ok. Qed.
Print Assumptions C110_run_into.

(** One image against all others, with listeners that leave the images alone: only this image moves, and for each of the
    others that it overlaps (and that is neither fixed nor gone) each of the two is told about the other once, if it wants to be told. *)
Theorem C110_told : forall cosf sinf pi_180 on_hit g i m r rs g', passive on_hit -> okr r -> flat g -> nth_error (imgs g) i = Some m ->
  (forall j mj, j <> i -> nth_error (imgs g) j = Some mj -> fixed mj = false -> alive mj = true -> shape mj (rs j)) ->
  detect cosf sinf pi_180 on_hit g i r = Ok g' ->
  (forall k, k <> i -> nth_error (imgs g') k = nth_error (imgs g) k) /\
  sent g' = rev (flat_map (told g i r rs) (seq 0 (length (imgs g)))) ++ sent g.
Proof. exact detect_told. Qed.
Print Assumptions C110_told.

(** Cases *)
Definition n (z : Z) : num := of_Z z.
Definition picture (px py qx qy : num) (ww hh : Z) (wall active : bool) : img :=
  mkI px py qx qy (n 0) (n 0) (n 0) (n 0) (n 0) (n 0) (n 0) (n (-1)) (n 0) hh ww 1 wall active false false false true true.
Definition game_of (l : list img) : game := mkG l (Some 0%nat) 3 0 0 None 100 100 [].
Definition one : num -> num := fun _ => n 1.
Definition nul : num -> num := fun _ => n 0.
Definition quiet (g : game) (a b : nat) : list img := imgs g.
Definition at_place (o : outcome game) (i : nat) : option (num * num) :=
  match o with Ok g => match nth_error (imgs g) i with Some m => Some (x m, y m) | None => None end | UB => None end.

(** An image of 10 x 10 at 8 moves to (12, 6), into a solid image at (20, 8): it is pushed back to 8. *)
Example C110_example : at_place (resolve one nul (n 0) (game_of [picture (n 12) (n 6) (n 8) (n 5) 10 10 false false; picture (n 20) (n 8) (n 20) (n 8) 10 10 true false]) 0 1) 0
  = Some (n 8, n 6).
Proof. vm_compute. reflexivity. Qed.
Lemma at_n z : Z.abs z <= 2 ^ 29 -> at_pos (n z) (z * K).
Proof. intros H. apply at_whole. lia. Qed.
Lemma pixel_K z : pixel (z * K) = z.
Proof. unfold pixel. change (2 ^ 20) with K. apply Z.quot_mul. discriminate. Qed.
Lemma picture_shape a b c d ww hh s t : Z.abs a <= 2 ^ 29 -> Z.abs b <= 2 ^ 29 -> 1 <= ww <= 2 ^ 29 -> 1 <= hh <= 2 ^ 29 ->
  shape (picture (n a) (n b) c d ww hh s t) (mkR a b ww hh).
Proof.
  intros A B W H. split; [discriminate|]. exists (a * K), (b * K). cbn [x y w h picture]. change (nframes _) with 1.
  repeat split; try (apply at_n; assumption); try (unfold on_map, K; lia). now rewrite !pixel_K, Z.div_1_r.
Qed.
(** The hypotheses of [C110_apart] hold in this case. *)
Example C110_apart_case : exists m' r',
  let g := game_of [picture (n 12) (n 6) (n 8) (n 5) 10 10 false false; picture (n 20) (n 8) (n 20) (n 8) 10 10 true false] in
  resolve one nul (n 0) g 0 1 = Ok (put g 0 m') /\ rest (picture (n 12) (n 6) (n 8) (n 5) 10 10 false false) m' /\ new_shape m' r' /\ ~ overlap r' (mkR 20 8 10 10).
Proof.
  apply C110_apart with (r := mkR 12 6 10 10) (rold := mkR 8 5 10 10) (m2 := picture (n 20) (n 8) (n 20) (n 8) 10 10 true false).
  - split; [intros p E; injection E as <-; eexists; reflexivity|]. left. split; discriminate.
  - discriminate.
  - reflexivity.
  - reflexivity.
  - apply picture_shape; lia.
  - apply (picture_shape 8 5 (n 8) (n 5) 10 10 false false); lia.
  - apply picture_shape; lia.
  - vm_compute. reflexivity.
  - unfold not_through, from_left, from_above. cbn [rx ry rw rh]. change (Z.quot 10 2) with 5. lia.
Qed.
(** An image with gravity falls onto a platform and stands on it. *)
Definition falls (m : img) : img :=
  mkI (x m) (y m) (ox m) (oy m) (tx m) (ty m) (n 1) (n 3) (fric m) (accel m) (speed m) (dir m) (mov m) (h m) (w m) (anims m)
    (solid m) (collidable m) true (fixed m) (ghost m) (visible m) (alive m).
Example C110_run_into_example :
  match run_into one nul (n 0) (game_of [falls (picture (n 12) (n 43) (n 12) (n 40) 10 10 false false); picture (n 0) (n 50) (n 0) (n 50) 90 10 true false]) 0 1 with
  | Ok g => contact g = Some 1%nat /\ option_map y (nth_error (imgs g) 0) = Some (n 41) /\ option_map gspeed (nth_error (imgs g) 0) = Some (n 0) /\
      option_map dir (nth_error (imgs g) 0) = Some (n 144)
  | UB => False
  end.
Proof. vm_compute. repeat split. Qed.
(** Three images, the first overlaps the second, which wants to be told *)
Example C110_told_example :
  match detect one nul (n 0) quiet (game_of [picture (n 12) (n 6) (n 8) (n 5) 10 10 false true; picture (n 20) (n 8) (n 20) (n 8) 10 10 false true;
     picture (n 60) (n 8) (n 60) (n 8) 10 10 false true]) 0 (mkR 12 6 10 10) with
  | Ok g => sent g = [Hit 1 0; Hit 0 1]
  | UB => False
  end.
Proof. vm_compute. reflexivity. Qed.

(** An image that moves straight to the right into a wall is pushed back by twice the depth: a gap remains. *)
Theorem C110_touch_refuted : exists g i j m m2 m', nth_error (imgs g) i = Some m /\ nth_error (imgs g) j = Some m2 /\
  shape m (mkR 12 8 10 10) /\ old_shape m (mkR 8 8 10 10) /\ shape m2 (mkR 20 8 10 10) /\
  resolve one nul (n 0) g i j = Ok (put g i m') /\ new_shape m' (mkR 8 8 10 10).
Proof.
  exists (game_of [picture (n 12) (n 8) (n 8) (n 8) 10 10 false false; picture (n 20) (n 8) (n 20) (n 8) 10 10 true false]), 0%nat, 1%nat,
    (picture (n 12) (n 8) (n 8) (n 8) 10 10 false false), (picture (n 20) (n 8) (n 20) (n 8) 10 10 true false), (picture (n 8) (n 8) (n 8) (n 8) 10 10 false false).
  split; [reflexivity|]. split; [reflexivity|]. split; [apply picture_shape; lia|]. split; [apply (picture_shape 8 8 (n 8) (n 8) 10 10 false false); lia|].
  split; [apply picture_shape; lia|]. split; [vm_compute; reflexivity|].
  exists (8 * K), (8 * K). split; [apply at_n; lia|]. split; [apply at_n; lia|]. rewrite !pixel_K. reflexivity.
Qed.
Print Assumptions C110_touch_refuted.
(** A wide image that moves over a thin pole stays over it. *)
Theorem C110_through_refuted : exists g i j m m2 m', nth_error (imgs g) i = Some m /\ nth_error (imgs g) j = Some m2 /\
  shape m (mkR 2 8 60 10) /\ old_shape m (mkR 0 8 60 10) /\ shape m2 (mkR 50 0 4 40) /\
  resolve one nul (n 0) g i j = Ok (put g i m') /\ new_shape m' (mkR (-6) 8 60 10) /\ overlap (mkR (-6) 8 60 10) (mkR 50 0 4 40).
Proof.
  exists (game_of [picture (n 2) (n 8) (n 0) (n 8) 60 10 false false; picture (n 50) (n 0) (n 50) (n 0) 4 40 true false]), 0%nat, 1%nat,
    (picture (n 2) (n 8) (n 0) (n 8) 60 10 false false), (picture (n 50) (n 0) (n 50) (n 0) 4 40 true false), (picture (n (-6)) (n 8) (n 0) (n 8) 60 10 false false).
  split; [reflexivity|]. split; [reflexivity|]. split; [apply picture_shape; lia|]. split; [apply (picture_shape 0 8 (n 0) (n 8) 60 10 false false); lia|].
  split; [apply picture_shape; lia|]. split; [vm_compute; reflexivity|]. split.
  - exists ((-6) * K), (8 * K). split; [apply at_n; lia|]. split; [apply at_n; lia|]. rewrite !pixel_K. reflexivity.
  - apply overlap_iff. cbn [rx ry rw rh]. lia.
Qed.
Print Assumptions C110_through_refuted.
(** Positions that are not multiples of 2^-20: the image at 1 - 2^-53, moved down, into a wall at 5 *)
Definition almost_one : num := S754_finite false 9007199254740991 (-53).
Theorem C110_fraction_refuted : exists g i j m', finite almost_one /\
  nth_error (imgs g) i = Some (picture almost_one (n 8) almost_one (n 0) 10 10 false false) /\
  resolve one nul (n 0) g i j = Ok (put g i m') /\ x m' = n (-4) /\ w m' = 10 /\ overlap (mkR (-4) 8 10 10) (mkR 5 11 40 40) /\
  option_map (fun m => (x m, y m, w m, h m)) (nth_error (imgs g) j) = Some (n 5, n 11, 40, 40).
Proof.
  exists (game_of [picture almost_one (n 8) almost_one (n 0) 10 10 false false; picture (n 5) (n 11) (n 5) (n 11) 40 40 true false]), 0%nat, 1%nat.
  eexists. split; [vm_compute; split; [reflexivity|discriminate]|]. split; [reflexivity|]. split; [vm_compute; reflexivity|]. split; [reflexivity|].
  split; [reflexivity|]. split; [apply overlap_iff; cbn [rx ry rw rh]; lia|reflexivity].
Qed.
Print Assumptions C110_fraction_refuted.
(** Two images that overlap are told about each other twice in every frame. *)
Theorem C110_twice_refuted : exists g g', frame one nul one (fun _ => one) (n 0) (n 0) quiet (fun g _ => imgs g) g (n 1) = Ok g' /\
  sent g = [] /\ length (imgs g) = 2%nat /\ sent g' = [Hit 0 1; Hit 1 0; Hit 1 0; Hit 0 1].
Proof.
  exists (game_of [picture (n 12) (n 6) (n 8) (n 5) 10 10 false true; picture (n 20) (n 8) (n 20) (n 8) 10 10 false true]).
  eexists. split; [vm_compute; reflexivity|]. split; [reflexivity|]. split; reflexivity.
Qed.
Print Assumptions C110_twice_refuted.
