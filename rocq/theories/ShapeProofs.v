(** Proofs about points, lines, colours and drawing. *)
From Coq Require Import QArith SpecFloat Lia List Bool.
From Verif Require Import Common FloatSpec FloatProofs NumModel NumProofs ReelSpec ShapeSpec ShapeModel.
Import ListNotations.
Local Open Scope Z_scope.

Lemma get_ok st r o : get st r = Ok o <-> nth_error st r = Some o.
Proof. unfold get. destruct (nth_error st r); split; congruence. Qed.
Lemma put_same st r o o' : get st r = Ok o' -> get (put st r o) r = Ok o.
Proof.
  rewrite get_ok. intros E. assert (L : (r < length st)%nat) by (apply nth_error_Some; congruence). apply get_ok. unfold put.
  rewrite nth_error_app2; rewrite firstn_length, Nat.min_l by lia; [|lia]. now rewrite Nat.sub_diag.
Qed.
Lemma put_other st r q o : (r < length st)%nat -> q <> r -> get (put st r o) q = get st q.
Proof.
  intros L NE. unfold get, put. destruct (Nat.lt_ge_cases q r).
  - rewrite nth_error_app1 by (rewrite firstn_length; lia).
    assert (E : nth_error (firstn r st) q = nth_error st q) by (rewrite <- (firstn_skipn r st) at 2; now rewrite nth_error_app1 by (rewrite firstn_length; lia)).
    now rewrite E.
  - rewrite nth_error_app2; rewrite firstn_length, Nat.min_l by lia; [|lia]. destruct (q - r)%nat eqn:E; [lia|]. cbn [nth_error].
    assert (E2 : nth_error (skipn (S r) st) n = nth_error st q).
    { rewrite <- (firstn_skipn (S r) st) at 2. rewrite nth_error_app2; rewrite firstn_length, Nat.min_l by lia; [|lia]. f_equal. lia. }
    now rewrite E2.
Qed.
Lemma get_lt st r o : get st r = Ok o -> (r < length st)%nat.
Proof. rewrite get_ok. intros E. apply nth_error_Some. congruence. Qed.
Lemma get_app st l r o : get st r = Ok o -> get (st ++ l) r = Ok o.
Proof. intros E. pose proof (get_lt _ _ _ E). rewrite get_ok in *. now rewrite nth_error_app1. Qed.
Lemma of_Z_int z : int_value z -> c_int (of_Z z) = Ok z.
Proof. intros B. unfold int_value in B. destruct (of_Z_ok z) as [F V]; [lia|]. now apply c_int_whole. Qed.

(** What the API tells about an object *)
Definition shows (st : store) (r : nat) (i : item) : Prop :=
  match i with
  | IPoint x y => point_x st r = Ok x /\ point_y st r = Ok y
  | ILine x1 y1 x2 y2 => exists f t, line_start st r = Ok f /\ line_end st r = Ok t /\
      (point_x st f = Ok x1 /\ point_y st f = Ok y1) /\ (point_x st t = Ok x2 /\ point_y st t = Ok y2)
  | IOther => (exists v, get st r = Ok (ONum v) \/ get st r = Ok (OText v)) \/ get st r = Ok OThing \/ (exists a b c d, get st r = Ok (OColor a b c d))
  end.
Lemma shows_draw st r i : shows st r i -> exists o, get st r = Ok o /\ o <> ONil /\ draw_shape st o = Ok (strokes_of i).
Proof.
  destruct i as [x y|x1 y1 x2 y2|]; cbn [shows strokes_of].
  - unfold point_x, point_y. intros [X Y]. destruct (get st r) as [[]|]; cbn [obind] in *; try discriminate.
    eexists. split; [reflexivity|]. split; [discriminate|]. cbn [draw_shape]. now rewrite X, Y.
  - intros (f & t & F & T & [X1 Y1] & [X2 Y2]). unfold line_start, line_end in *. destruct (get st r) as [[]|]; cbn [obind] in *; try discriminate.
    injection F as <-. injection T as <-. eexists. split; [reflexivity|]. split; [discriminate|]. cbn [draw_shape].
    unfold point_x, point_y in *. destruct (get st f0) as [[]|]; cbn [obind] in *; try discriminate.
    destruct (get st t0) as [[]|]; cbn [obind] in *; try discriminate. cbn [prop_x prop_y]. now rewrite X1, Y1, X2, Y2.
  - intros [(v & [E|E])|[E|(a & b & c & d & E)]]; rewrite E; (eexists; split; [reflexivity|]); (split; [discriminate|reflexivity]).
Qed.
Lemma shows_list st l is : Forall2 (shows st) l is -> draw_shapes st l = Ok (flat_map strokes_of is).
Proof.
  induction 1 as [|r i l is S _ IH]; [reflexivity|]. cbn [draw_shapes flat_map].
  destruct (shows_draw st r i S) as (o & -> & NN & D). cbn [obind]. destruct o; [easy|..]; rewrite D; cbn [obind]; now rewrite IH.
Qed.
Lemma shows_until st l is nil rest : Forall2 (shows st) l is -> get st nil = Ok ONil -> draw_shapes st (l ++ nil :: rest) = Ok (flat_map strokes_of is).
Proof.
  intros H N. induction H as [|r i l is S _ IH]; cbn [app draw_shapes flat_map].
  - now rewrite N.
  - destruct (shows_draw st r i S) as (o & -> & NN & D). cbn [obind]. destruct o; [easy|..]; rewrite D; cbn [obind]; now rewrite IH.
Qed.

(** the numbers of a colour *)
Definition part_is (st : store) (o : outcome nat) (z : Z) : Prop := exists r v, o = Ok r /\ get st r = Ok (ONum v) /\ is_whole v z.
Lemma char_of (wide : bool) v z : is_whole v z -> (if wide then 0 <= z <= 255 else 0 <= z <= 127) -> c_char wide v = Ok z.
Proof.
  intros [F V] B. unfold c_char. destruct wide.
  - rewrite (c_int_whole v z F V) by lia. cbn [obind]. rewrite Z.mod_small by lia. reflexivity.
  - rewrite (trunc_whole v z F V). replace ((-128 <=? z) && (z <=? 127)) with true by (symmetry; apply andb_true_iff; rewrite !Z.leb_le; lia).
    rewrite Z.mod_small by lia. reflexivity.
Qed.
Lemma draw_ok (wide : bool) made st t l is c r g b : Forall2 (shows st) l is ->
  part_is st (color_r st c) r -> part_is st (color_g st c) g -> part_is st (color_b st c) b ->
  (if wide then 0 <= r <= 255 /\ 0 <= g <= 255 /\ 0 <= b <= 255 else 0 <= r <= 127 /\ 0 <= g <= 127 /\ 0 <= b <= 127) ->
  img_draw wide made st t (Some l) c = Ok (mkD (fst (choose_target made t)) (r, g, b) (flat_map strokes_of is), snd (choose_target made t)).
Proof.
  intros H (r1 & v1 & E1 & G1 & W1) (r2 & v2 & E2 & G2 & W2) (r3 & v3 & E3 & G3 & W3) B. unfold img_draw.
  destruct (choose_target made t) as [tg t']. cbn [fst snd].
  unfold color_r, color_g, color_b in *. destruct (get st c) as [o|]; cbn [obind] in *; [|discriminate]. destruct o; try discriminate.
  injection E1 as ->. injection E2 as ->. injection E3 as ->. unfold prop_rgb, tonum. rewrite G1, G2, G3. cbn [obind as_number].
  rewrite (char_of wide v1 r W1), (char_of wide v2 g W2), (char_of wide v3 b W3) by (destruct wide; lia). cbn [obind].
  rewrite (shows_list st l is H). reflexivity.
Qed.

(** * Points *)
Lemma xyset_ok st p a b st' : point_xyset st p a b = Ok st' ->
  exists x y va vb x0 y0, get st p = Ok (OPoint x0 y0) /\ tonum st a = Ok va /\ tonum st b = Ok vb /\ c_int va = Ok x /\ c_int vb = Ok y /\ int_value x /\ int_value y /\
    st' = put st p (OPoint (of_Z x) (of_Z y)).
Proof.
  unfold point_xyset. destruct (tonum st a) as [va|] eqn:A; cbn [obind]; [|discriminate]. destruct (c_int va) as [x|] eqn:X; cbn [obind]; [|discriminate].
  destruct (tonum st b) as [vb|] eqn:Bq; cbn [obind]; [|discriminate]. destruct (c_int vb) as [y|] eqn:Y; cbn [obind]; [|discriminate].
  destruct (get st p) as [[]|] eqn:P; cbn [obind]; try discriminate. intros E. injection E as <-.
  assert (I : forall v z, c_int v = Ok z -> int_value z).
  { intros v z. unfold c_int. destruct (trunc v) as [w|]; [|discriminate]. destruct (in_int w) eqn:W; [|discriminate]. intros E. injection E as <-.
    unfold in_int, INT_MAX in W. apply andb_true_iff in W. rewrite !Z.leb_le in W. unfold int_value. lia. }
  exists x, y, va, vb, x0, y0. repeat split; auto; eapply I; eassumption.
Qed.
Lemma xyset_shows st p a b st' va vb : point_xyset st p a b = Ok st' -> tonum st a = Ok va -> tonum st b = Ok vb ->
  exists x y, c_int va = Ok x /\ c_int vb = Ok y /\ shows st' p (IPoint x y).
Proof.
  intros H A B. destruct (xyset_ok st p a b st' H) as (x & y & va' & vb' & x0 & y0 & P & A' & B' & X & Y & IX & IY & ->).
  rewrite A in A'. rewrite B in B'. injection A' as <-. injection B' as <-. exists x, y. repeat split; auto; unfold point_x, point_y; rewrite (put_same _ _ _ _ P); cbn [obind];
    now apply of_Z_int.
Qed.
Lemma xyset_whole st p a b va vb x y x0 y0 : get st p = Ok (OPoint x0 y0) -> tonum st a = Ok va -> tonum st b = Ok vb -> is_whole va x -> is_whole vb y -> int_value x -> int_value y ->
  exists st', point_xyset st p a b = Ok st' /\ shows st' p (IPoint x y).
Proof.
  intros P A B [FX VX] [FY VY] IX IY. pose proof (c_int_whole va x FX VX IX) as X. pose proof (c_int_whole vb y FY VY IY) as Y.
  unfold point_xyset. rewrite A. cbn [obind]. rewrite X. cbn [obind]. rewrite B. cbn [obind]. rewrite Y. cbn [obind]. rewrite P. cbn [obind].
  eexists. split; [reflexivity|]. cbn [shows]. unfold point_x, point_y. rewrite (put_same _ _ _ _ P). cbn [obind]. split; now apply of_Z_int.
Qed.

(** * Only the messages to an object change it *)
Definition target_of (o : op) : option nat :=
  match o with PointXY p _ _ => Some p | LineFromTo l _ _ => Some l | ColorRgb c _ _ _ => Some c | ColorA c _ => Some c | NumberInc n _ => Some n | _ => None end.
Lemma cast_get st a st' r q o : cast2number st a = Ok (st', r) -> get st q = Ok o -> get st' q = Ok o.
Proof.
  unfold cast2number, add_obj. destruct (get st a) as [[]|]; cbn [obind]; intros E G; inversion E; subst; auto; now apply get_app.
Qed.
Lemma step_other st o st' q x : step st o = Ok st' -> target_of o <> Some q -> get st q = Ok x -> get st' q = Ok x.
Proof.
  destruct o; cbn [step target_of]; intros H T G.
  - injection H as <-. now apply get_app.
  - injection H as <-. now apply get_app.
  - injection H as <-. now apply get_app.
  - destruct (xyset_ok _ _ _ _ _ H) as (? & ? & ? & ? & ? & ? & P & _ & _ & _ & _ & _ & _ & ->). rewrite put_other; [assumption|exact (get_lt _ _ _ P)|congruence].
  - unfold line_from_to in H. destruct (get st a); cbn [obind] in H; [|discriminate]. destruct (get st b); cbn [obind] in H; [|discriminate].
    destruct (get st l) as [[]|] eqn:P; cbn [obind] in H; try discriminate. injection H as <-. rewrite put_other; [assumption|exact (get_lt _ _ _ P)|congruence].
  - unfold color_rgb_set in H. destruct (cast2number st a) as [[s1 r1]|] eqn:C1; cbn [obind] in H; [|discriminate].
    destruct (cast2number s1 b) as [[s2 r2]|] eqn:C2; cbn [obind] in H; [|discriminate].
    destruct (cast2number s2 d) as [[s3 r3]|] eqn:C3; cbn [obind] in H; [|discriminate].
    pose proof (cast_get _ _ _ _ _ _ C3 (cast_get _ _ _ _ _ _ C2 (cast_get _ _ _ _ _ _ C1 G))) as G3.
    destruct (get s3 c) as [[]|] eqn:P; cbn [obind] in H; try discriminate. injection H as <-. rewrite put_other; [assumption|exact (get_lt _ _ _ P)|congruence].
  - unfold color_a_set in H. destruct (cast2number st a) as [[s1 r1]|] eqn:C1; cbn [obind] in H; [|discriminate].
    pose proof (cast_get _ _ _ _ _ _ C1 G) as G1.
    destruct (get s1 c) as [[]|] eqn:P; cbn [obind] in H; try discriminate. injection H as <-. rewrite put_other; [assumption|exact (get_lt _ _ _ P)|congruence].
  - unfold number_inc in H. destruct (tonum st a); cbn [obind] in H; [|discriminate].
    destruct (get st n) as [[]|] eqn:P; cbn [obind] in H; try discriminate. injection H as <-. rewrite put_other; [assumption|exact (get_lt _ _ _ P)|congruence].
Qed.
Lemma run_other os : forall st st' q x, run st os = Ok st' -> Forall (fun o => target_of o <> Some q) os -> get st q = Ok x -> get st' q = Ok x.
Proof.
  induction os as [|o os IH]; cbn [run]; intros st st' q x H F G; [congruence|].
  destruct (step st o) as [s1|] eqn:S; cbn [obind] in H; [|discriminate]. inversion F; subst. eapply IH; eauto. eapply step_other; eauto.
Qed.
Lemma point_stays st os st' p x y : run st os = Ok st' -> Forall (fun o => target_of o <> Some p) os -> shows st p (IPoint x y) -> shows st' p (IPoint x y).
Proof.
  cbn [shows]. unfold point_x, point_y. intros R F [X Y]. destruct (get st p) as [o|] eqn:G; cbn [obind] in *; [|discriminate].
  now rewrite (run_other _ _ _ _ _ R F G).
Qed.
(** A line joins its points wherever they are *)
Lemma line_follows st l a b st1 os st2 x1 y1 x2 y2 : line_from_to st l a b = Ok st1 -> run st1 os = Ok st2 -> Forall (fun o => target_of o <> Some l) os ->
  shows st2 a (IPoint x1 y1) -> shows st2 b (IPoint x2 y2) -> shows st2 l (ILine x1 y1 x2 y2).
Proof.
  unfold line_from_to. intros H R F A B. destruct (get st a) eqn:GA; cbn [obind] in H; [|discriminate]. destruct (get st b) eqn:GB; cbn [obind] in H; [|discriminate].
  destruct (get st l) as [[]|] eqn:P; cbn [obind] in H; try discriminate. injection H as <-.
  pose proof (run_other _ _ _ _ _ R F (put_same _ _ _ _ P)) as G. cbn [shows] in *. exists a, b. unfold line_start, line_end. rewrite G. cbn [obind]. auto.
Qed.
(** A colour answers the numbers it was given *)
Lemma rgb_numbers st c a b d st' va vb vd : get st a = Ok (ONum va) -> get st b = Ok (ONum vb) -> get st d = Ok (ONum vd) -> color_rgb_set st c a b d = Ok st' ->
  color_r st' c = Ok a /\ color_g st' c = Ok b /\ color_b st' c = Ok d /\ get st' a = Ok (ONum va) /\ get st' b = Ok (ONum vb) /\ get st' d = Ok (ONum vd).
Proof.
  intros A B D. unfold color_rgb_set, cast2number. rewrite A. cbn [obind]. rewrite B. cbn [obind]. rewrite D. cbn [obind].
  destruct (get st c) as [[]|] eqn:P; cbn [obind]; try discriminate. intros H. injection H as <-. pose proof (get_lt _ _ _ P) as L.
  unfold color_r, color_g, color_b. rewrite (put_same _ _ _ _ P). cbn [obind].
  assert (NA : a <> c) by (intros ->; congruence). assert (NB : b <> c) by (intros ->; congruence). assert (ND : d <> c) by (intros ->; congruence).
  rewrite (put_other st c a), (put_other st c b), (put_other st c d) by assumption. auto 8.
Qed.
(** the colour drawn with after it was set, whatever else was done in between, unless one of its numbers was changed *)
Lemma color_lasts st c a b d st1 os st2 va vb vd r g u : get st a = Ok (ONum va) -> get st b = Ok (ONum vb) -> get st d = Ok (ONum vd) ->
  is_whole va r -> is_whole vb g -> is_whole vd u -> color_rgb_set st c a b d = Ok st1 -> run st1 os = Ok st2 ->
  Forall (fun o => target_of o <> Some c /\ target_of o <> Some a /\ target_of o <> Some b /\ target_of o <> Some d) os ->
  part_is st2 (color_r st2 c) r /\ part_is st2 (color_g st2 c) g /\ part_is st2 (color_b st2 c) u.
Proof.
  intros A B D WA WB WD H R F. destruct (rgb_numbers _ _ _ _ _ _ _ _ _ A B D H) as (CR & CG & CB & GA & GB & GD).
  assert (FF : forall q, q = c \/ q = a \/ q = b \/ q = d -> Forall (fun o => target_of o <> Some q) os).
  { intros q Q. eapply Forall_impl; [|exact F]. cbn. intros o (X1 & X2 & X3 & X4). destruct Q as [->|[->|[->| ->]]]; auto. }
  assert (GC : exists o, get st1 c = Ok o) by (unfold color_r in CR; destruct (get st1 c); [eauto|discriminate]). destruct GC as (o & GC).
  pose proof (run_other _ _ _ _ _ R (FF c ltac:(auto)) GC) as GC2.
  unfold part_is, color_r, color_g, color_b in *. rewrite GC in CR, CG, CB. rewrite GC2. cbn [obind] in *.
  split; [|split].
  - exists a, va. split; [exact CR|]. split; [eapply run_other; eauto|exact WA].
  - exists b, vb. split; [exact CG|]. split; [eapply run_other; eauto|exact WB].
  - exists d, vd. split; [exact CB|]. split; [eapply run_other; eauto 6|exact WD].
Qed.
Lemma draw_good (wide : bool) st t l items c r g b : t <> NoTexture -> Forall2 (shows st) l items ->
  part_is st (color_r st c) r -> part_is st (color_g st c) g -> part_is st (color_b st c) b ->
  (if wide then 0 <= r <= 255 /\ 0 <= g <= 255 /\ 0 <= b <= 255 else 0 <= r <= 127 /\ 0 <= g <= 127 /\ 0 <= b <= 127) ->
  exists d, img_draw wide true st t (Some l) c = Ok (d, Drawable) /\ on d <> OnScreen /\ colour d = (r, g, b) /\ strokes d = flat_map strokes_of items.
Proof.
  intros T H R G B V. rewrite (draw_ok wide true st t l items c r g b H R G B V). exists (mkD (fst (choose_target true t)) (r, g, b) (flat_map strokes_of items)).
  destruct t; [now destruct T|..]; repeat split; discriminate.
Qed.
(** Transparency *)
Lemma alpha_set st c a v st' : get st a = Ok (ONum v) -> color_a_set st c a = Ok st' ->
  color_a st' c = Ok a /\ color_r st' c = color_r st c /\ color_g st' c = color_g st c /\ color_b st' c = color_b st c /\ get st' a = Ok (ONum v).
Proof.
  intros A H. unfold color_a_set, cast2number in H. rewrite A in H. cbn [obind] in H.
  destruct (get st c) as [[]|] eqn:P; cbn [obind] in H; try discriminate. injection H as <-.
  unfold color_a, color_r, color_g, color_b. rewrite (put_same _ _ _ _ P), P. cbn [obind]. do 4 (split; [reflexivity|]).
  rewrite put_other; [assumption|exact (get_lt _ _ _ P)|]. intros ->. congruence.
Qed.
Lemma rgb_alpha st c a b d st' : color_rgb_set st c a b d = Ok st' -> color_a st' c = color_a st c.
Proof.
  unfold color_rgb_set. intros H. destruct (cast2number st a) as [[s1 r1]|] eqn:C1; cbn [obind] in H; [|discriminate].
  destruct (cast2number s1 b) as [[s2 r2]|] eqn:C2; cbn [obind] in H; [|discriminate]. destruct (cast2number s2 d) as [[s3 r3]|] eqn:C3; cbn [obind] in H; [|discriminate].
  destruct (get s3 c) as [[]|] eqn:P; cbn [obind] in H; try discriminate. injection H as <-. unfold color_a. rewrite (put_same _ _ _ _ P). cbn [obind].
  destruct (get st c) as [o|] eqn:P0; cbn [obind].
  - pose proof (cast_get _ _ _ _ _ _ C3 (cast_get _ _ _ _ _ _ C2 (cast_get _ _ _ _ _ _ C1 P0))) as G. rewrite G in P. injection P as ->. reflexivity.
  - exfalso. assert (L : (length st <= c)%nat) by (unfold get in P0; destruct (nth_error st c) eqn:N; [discriminate|]; now apply nth_error_None).
    assert (K : forall s u s' r, cast2number s u = Ok (s', r) -> (forall q w e z, get s c <> Ok (OColor q w e z)) -> forall q w e z, get s' c <> Ok (OColor q w e z)).
    { intros s u s' k0. unfold cast2number, add_obj. destruct (get s u) as [o|]; cbn [obind]; [|discriminate]. intros E NC q w e z.
      assert (S' : s' = s \/ s' = s ++ [ONum (as_number o)]) by (destruct o; inversion E; auto). destruct S' as [->| ->]; [auto|].
      unfold get in *. destruct (Nat.lt_ge_cases c (length s)); [rewrite nth_error_app1 by lia; apply NC|]. rewrite nth_error_app2 by lia.
      destruct (c - length s)%nat as [|k]; cbn; [discriminate|]. now destruct k. }
    assert (N0 : forall q w e z, get st c <> Ok (OColor q w e z)) by (intros; rewrite P0; discriminate).
    exact (K _ _ _ _ C3 (K _ _ _ _ C2 (K _ _ _ _ C1 N0)) _ _ _ _ P).
Qed.
Lemma new_black st st' c : color_new st = (st', c) ->
  part_is st' (color_r st' c) 0 /\ part_is st' (color_g st' c) 0 /\ part_is st' (color_b st' c) 0 /\ part_is st' (color_a st' c) 0.
Proof.
  unfold color_new. cbv zeta. set (n := length st). intros E. apply pair_equal_spec in E. destruct E as [<- <-].
  assert (G : forall k o, nth_error [ONum (of_Z 0); ONum (of_Z 0); ONum (of_Z 0); ONum (of_Z 0); OColor n (n + 1) (n + 2) (n + 3)] k = Some o ->
    get (st ++ [ONum (of_Z 0); ONum (of_Z 0); ONum (of_Z 0); ONum (of_Z 0); OColor n (n + 1) (n + 2) (n + 3)]) (n + k) = Ok o).
  { intros k o H. unfold get. rewrite nth_error_app2 by (unfold n; lia). replace (n + k - length st)%nat with k by (unfold n; lia). now rewrite H. }
  assert (W : is_whole (of_Z 0) 0) by (split; vm_compute; intuition congruence).
  pose proof (G 4%nat _ eq_refl) as GC. pose proof (G 0%nat _ eq_refl) as G0. rewrite Nat.add_0_r in G0.
  unfold part_is, color_r, color_g, color_b, color_a. rewrite GC. cbn [obind].
  split; [exists n, (of_Z 0); auto|]. split; [exists (n + 1)%nat, (of_Z 0); auto|]. split; [exists (n + 2)%nat, (of_Z 0); auto|exists (n + 3)%nat, (of_Z 0); auto].
Qed.
Lemma new_corner st st' p : point_new st = (st', p) -> shows st' p (IPoint 0 0).
Proof.
  unfold point_new, add_obj. intros E. injection E as <- <-. cbn [shows]. unfold point_x, point_y, get. rewrite nth_error_app2, Nat.sub_diag by lia. cbn. auto.
Qed.
