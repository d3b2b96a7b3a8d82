(** Proofs about images, fonts and sounds. *)
From Verif Require Import Common Fuel SlotSpec SlotModel.
Local Open Scope nat_scope.

(** ** Lists *)
Lemma replace_nth {A} (l : list A) n x i : nth_error (replace l n x) i = if i =? n then match nth_error l i with Some _ => Some x | None => None end else nth_error l i.
Proof.
  revert n i. induction l as [|y l IH]; intros n i; cbn [replace]; [destruct (i =? n); destruct i; reflexivity|]. destruct n as [|n], i as [|i]; cbn [nth_error Nat.eqb]; try reflexivity. apply IH.
Qed.
Lemma replace_length {A} (l : list A) n x : length (replace l n x) = length l.
Proof. revert n. induction l as [|y l IH]; intros [|n]; cbn; try reflexivity. now rewrite IH. Qed.
Lemma live_some h x k : live h x = Some k -> x < length h.
Proof. unfold live. intros H. destruct (nth_error h x) eqn:E; [|discriminate H]. apply nth_error_Some. congruence. Qed.
Lemma live_app h h' x k : live h x = Some k -> live (h ++ h') x = Some k.
Proof. intros H. pose proof (live_some _ _ _ H). unfold live in *. now rewrite nth_error_app1. Qed.
Lemma live_free h y x k : live h x = Some k -> x <> y -> live (free h y) x = Some k.
Proof. intros H N. unfold live, free in *. rewrite replace_nth. destruct (Nat.eqb_spec x y); [congruence|exact H]. Qed.
Lemma upd_same {A} (f : nat -> A) i x : upd f i x i = x.
Proof. unfold upd. now rewrite Nat.eqb_refl. Qed.
Lemma upd_other {A} (f : nat -> A) i x j : j <> i -> upd f i x j = f j.
Proof. intros H. unfold upd. destruct (Nat.eqb_spec j i); [congruence|reflexivity]. Qed.

(** ** The tables and the objects *)
Definition pi (e : oref * bool) : list nat := match fst e with OI j => [j] | _ => [] end.
Definition pf (e : oref * bool) : list nat := match fst e with OF j => [j] | _ => [] end.
Definition pa (e : oref * bool) : list nat := match fst e with OS j | OM j => [j] | _ => [] end.
Lemma pos_unique (p : oref * bool -> list nat) l a b e e' j : NoDup (flat_map p l) -> nth_error l a = Some e -> nth_error l b = Some e' -> In j (p e) -> In j (p e') -> a = b.
Proof.
  revert a b. induction l as [|x l IH]; intros a b ND A B JE JE'; [destruct a; discriminate A|]. cbn [flat_map] in ND.
  assert (ND2 : NoDup (flat_map p l)). { clear -ND. induction (p x) as [|y r IH]; [exact ND|]. apply IH. now inversion ND. }
  assert (X : forall n e0, nth_error l n = Some e0 -> In j (p e0) -> In j (p x) -> False).
  { intros n e0 N I1 I2. assert (I3 : In j (flat_map p l)) by (apply in_flat_map; exists e0; split; [now apply nth_error_In in N|exact I1]).
    clear -ND I2 I3. induction (p x) as [|y r IH]; [exact I2|]. cbn in ND. inversion ND as [|? ? NI ND']; subst. destruct I2 as [<-|I2]; [apply NI; apply in_or_app; now right|now apply IH]. }
  destruct a as [|a], b as [|b]; cbn [nth_error] in *.
  - reflexivity.
  - injection A as <-. exfalso. now apply (X b e').
  - injection B as <-. exfalso. now apply (X a e).
  - f_equal. now apply (IH a b).
Qed.
Lemma replace_flat (p : oref * bool -> list nat) l o r b b' : (forall x y, p (r, x) = p (r, y)) -> nth_error l o = Some (r, b) -> flat_map p (replace l o (r, b')) = flat_map p l.
Proof.
  intros H. revert o. induction l as [|x l IH]; intros o N; [destruct o; discriminate N|]. destruct o as [|o]; cbn [replace flat_map nth_error] in *.
  - injection N as ->. now rewrite (H b' b).
  - now rewrite IH.
Qed.

Definition holds (h : heap) (x : option nat) (k : option kept) : Prop :=
  match k with None => x = None | Some k => exists y, x = Some y /\ live h y = Some k end.
Definition font_rel (m : media) (x : option nat) (fo : option (option nat * nat)) : Prop :=
  match fo with
  | None => x = None
  | Some (q, g) => exists z, x = Some z /\ live (hp m) z = Some (TFont g) /\
      match q with Some q => exists k, nth_error (objs m) q = Some (OF k, false) /\ fnts m k = Some z | None => forall k, fnts m k <> Some z end
  end.
Definition rel (m : media) (e : oref * bool) (x : thing) : Prop :=
  match e, x with
  | (OI j, false), Img f p fo v =>
      let s := imgs m j in j < icount m /\ vis s = v /\ holds (hp m) (surf s) (option_map Surface f) /\ holds (hp m) (tex s) (option_map Texture p) /\ font_rel m (ifont s) fo
  | (OI j, true), Gone => let s := imgs m j in j < icount m /\ (vis s = false \/ tex s = None) /\ ifont s = None
  | (OF k, false), Fnt f => k < fcount m /\ holds (hp m) (fnts m k) (option_map TFont f)
  | (OF k, true), Gone => k < fcount m
  | (OS j, false), Snd f => j < acount m /\ holds (hp m) (auds m j) (option_map Chunk f)
  | (OM j, false), Mus f => j < acount m /\ holds (hp m) (auds m j) (option_map Music f)
  | (OS j, true), Gone | (OM j, true), Gone => j < acount m
  | (ONil, false), Nil | (ONil, true), Gone => True
  | _, _ => False
  end.
Definition inj (f : nat -> option nat) : Prop := forall i j x, f i = Some x -> f j = Some x -> i = j.
Definition below (n : nat) (f : nat -> option nat) : Prop := forall i x, f i = Some x -> x < n.
Record inv (m : media) (s : stage) (md : made) : Prop := {
  v_len : length (objs m) = length (things s);
  v_rel : forall o e x, nth_error (objs m) o = Some e -> nth_error (things s) o = Some x -> rel m e x;
  v_i : flat_map pi (objs m) = seq 0 (icount m); v_f : flat_map pf (objs m) = seq 0 (fcount m); v_a : flat_map pa (objs m) = seq 0 (acount m);
  v_mi : images md = icount m; v_mf : fonts md = fcount m; v_ma : sounds md = acount m; v_100 : icount m <= 100;
  v_ts : inj (fun j => tex (imgs m j)); v_ss : inj (fun j => surf (imgs m j)); v_fs : inj (fnts m); v_as : inj (auds m);
  v_tb : below (length (hp m)) (fun j => tex (imgs m j)); v_sb : below (length (hp m)) (fun j => surf (imgs m j)); v_fb : below (length (hp m)) (fnts m); v_ab : below (length (hp m)) (auds m);
  v_new : forall j, acount m <= j -> auds m j = None;
  v_pl : control m = player s; v_pi : forall o, player s = Some o -> exists f p fo v, nth_error (things s) o = Some (Img f p fo v) }.
Lemma inv_empty : inv empty (mkStage [] None) (mkMade 0 0 0).
Proof. constructor; cbn; try reflexivity; try lia; try (intros ? ? ? H; discriminate H); try (intros ? ? H; discriminate H); intros; try discriminate; now destruct o. Qed.

Lemma inv_obj m s md o x : inv m s md -> nth_error (things s) o = Some x -> exists e, nth_error (objs m) o = Some e /\ rel m e x.
Proof.
  intros V N. destruct (nth_error (objs m) o) as [e|] eqn:E; [exists e; split; [reflexivity|exact (v_rel _ _ _ V o e x E N)]|].
  apply nth_error_None in E. rewrite (v_len _ _ _ V) in E. assert (o < length (things s)) by (apply nth_error_Some; congruence). lia.
Qed.
Lemma inv_img m s md o f p fo v : inv m s md -> nth_error (things s) o = Some (Img f p fo v) -> exists j, nth_error (objs m) o = Some (OI j, false) /\ rel m (OI j, false) (Img f p fo v).
Proof. intros V N. destruct (inv_obj _ _ _ _ _ V N) as ([r b] & E & R). destruct r, b; cbn in R; try (exfalso; exact R). exists j. now split. Qed.
Lemma inv_fnt m s md o f : inv m s md -> nth_error (things s) o = Some (Fnt f) -> exists k, nth_error (objs m) o = Some (OF k, false) /\ rel m (OF k, false) (Fnt f).
Proof. intros V N. destruct (inv_obj _ _ _ _ _ V N) as ([r b] & E & R). destruct r, b; cbn in R; try (exfalso; exact R). exists k. now split. Qed.
Lemma inv_snd m s md o f : inv m s md -> nth_error (things s) o = Some (Snd f) -> exists k, nth_error (objs m) o = Some (OS k, false) /\ rel m (OS k, false) (Snd f).
Proof. intros V N. destruct (inv_obj _ _ _ _ _ V N) as ([r b] & E & R). destruct r, b; cbn in R; try (exfalso; exact R). exists j. now split. Qed.
Lemma inv_mus m s md o f : inv m s md -> nth_error (things s) o = Some (Mus f) -> exists k, nth_error (objs m) o = Some (OM k, false) /\ rel m (OM k, false) (Mus f).
Proof. intros V N. destruct (inv_obj _ _ _ _ _ V N) as ([r b] & E & R). destruct r, b; cbn in R; try (exfalso; exact R). exists j. now split. Qed.
Lemma nodup_i m s md : inv m s md -> NoDup (flat_map pi (objs m)).
Proof. intros V. rewrite (v_i _ _ _ V). apply seq_NoDup. Qed.
Lemma nodup_f m s md : inv m s md -> NoDup (flat_map pf (objs m)).
Proof. intros V. rewrite (v_f _ _ _ V). apply seq_NoDup. Qed.
Lemma nodup_a m s md : inv m s md -> NoDup (flat_map pa (objs m)).
Proof. intros V. rewrite (v_a _ _ _ V). apply seq_NoDup. Qed.

(** ** What is left alone *)
(** The things SDL keeps that belong to an object *)
Definition uses (m : media) (e : oref * bool) (x : nat) : Prop :=
  match e with
  | (OI j, false) => tex (imgs m j) = Some x \/ surf (imgs m j) = Some x \/ ifont (imgs m j) = Some x
  | (OF k, false) => fnts m k = Some x
  | (OS j, false) | (OM j, false) => auds m j = Some x
  | _ => False
  end.
Definition same_place (m m' : media) (e : oref * bool) : Prop :=
  match fst e with OI j => imgs m' j = imgs m j | OF k => fnts m' k = fnts m k | OS j | OM j => auds m' j = auds m j | ONil => True end.
Lemma holds_keep h h' x k : holds h x k -> (forall y, x = Some y -> forall k, live h y = Some k -> live h' y = Some k) -> holds h' x k.
Proof. intros H L. destruct k as [k|]; [|exact H]. destruct H as (y & E & H). exists y. split; [exact E|]. now apply L. Qed.
Lemma rel_keep m m' e x : icount m <= icount m' -> fcount m <= fcount m' -> acount m <= acount m' -> same_place m m' e ->
  (forall y, uses m e y -> forall k, live (hp m) y = Some k -> live (hp m') y = Some k) ->
  (forall q k, nth_error (objs m) q = Some (OF k, false) -> nth_error (objs m') q = Some (OF k, false) /\ fnts m' k = fnts m k) ->
  (forall z, z < length (hp m) -> (forall k, fnts m k <> Some z) -> forall k, fnts m' k <> Some z) -> rel m e x -> rel m' e x.
Proof.
  intros CI CF CA SP L OW FR R. destruct e as [r b]. destruct r as [j|k|j|j|], b, x; cbn in R |- *; try (exfalso; exact R); cbn in SP; try rewrite SP; try exact I; try lia.
  - split; [lia|]. apply R.
  - destruct R as (J & V & S & T & F). split; [lia|]. split; [exact V|].
    split; [eapply holds_keep; [exact S|]; intros y E; apply L; cbn; auto|]. split; [eapply holds_keep; [exact T|]; intros y E; apply L; cbn; auto|].
    destruct font as [[q g]|]; cbn in F |- *; [|exact F]. destruct F as (z & E & LV & O). exists z. split; [exact E|]. split; [apply L; [cbn; auto|exact LV]|].
    destruct q as [q|]; [|apply FR; [now apply live_some in LV|exact O]]. destruct O as (k & OQ & FK). exists k. destruct (OW q k OQ) as (O1 & O2). split; [exact O1|now rewrite O2].
  - destruct R as (J & S). split; [lia|]. eapply holds_keep; [exact S|]. intros y E. now apply L.
  - destruct R as (J & S). split; [lia|]. eapply holds_keep; [exact S|]. intros y E. now apply L.
  - destruct R as (J & S). split; [lia|]. eapply holds_keep; [exact S|]. intros y E. now apply L.
Qed.

(** ** A new object *)
Lemma nth_end {A} (l : list A) x o y : nth_error (l ++ [x]) o = Some y -> nth_error l o = Some y \/ o = length l /\ y = x.
Proof.
  intros H. destruct (Nat.lt_ge_cases o (length l)) as [L|L]; [left; now rewrite nth_error_app1 in H|]. rewrite nth_error_app2 in H by exact L. destruct (o - length l) as [|n] eqn:E; cbn in H; [|destruct n; discriminate H].
  right. split; [lia|congruence].
Qed.
Lemma seq_next n : seq 0 (S n) = seq 0 n ++ [n].
Proof. apply seq_S. Qed.
Lemma objs_of m s md o e x : inv m s md -> nth_error (objs m ++ [e]) o = Some x -> (nth_error (objs m) o = Some x /\ o < length (things s)) \/ o = length (things s) /\ x = e.
Proof. intros V H. apply nth_end in H as [H|[H ->]]; [left|right]; rewrite <- (v_len _ _ _ V); (split; [assumption|]); [|reflexivity]. apply nth_error_Some. congruence. Qed.
Ltac old_new V H H' := let A := fresh "A" in let B := fresh "B" in
  destruct (objs_of _ _ _ _ _ _ V H) as [[A B]|[-> ->]]; [rewrite nth_error_app1 in H' by exact B|rewrite nth_error_app2, Nat.sub_diag in H' by lia; cbn [nth_error] in H'; injection H' as <-].
Lemma player_app s x : (forall o, player s = Some o -> exists f p fo v, nth_error (things s) o = Some (Img f p fo v)) ->
  forall o, player s = Some o -> exists f p fo v, nth_error (things s ++ [x]) o = Some (Img f p fo v).
Proof. intros H o P. destruct (H o P) as (f & p & fo & v & N). exists f, p, fo, v. rewrite nth_error_app1; [exact N|]. apply nth_error_Some. congruence. Qed.
Lemma used_i m s md o j b : inv m s md -> nth_error (objs m) o = Some (OI j, b) -> j < icount m.
Proof. intros V N. assert (I : In j (flat_map pi (objs m))) by (apply in_flat_map; exists (OI j, b); split; [now apply nth_error_In in N|now left]). rewrite (v_i _ _ _ V) in I. apply in_seq in I. lia. Qed.
Lemma used_f m s md o j b : inv m s md -> nth_error (objs m) o = Some (OF j, b) -> j < fcount m.
Proof. intros V N. assert (I : In j (flat_map pf (objs m))) by (apply in_flat_map; exists (OF j, b); split; [now apply nth_error_In in N|now left]). rewrite (v_f _ _ _ V) in I. apply in_seq in I. lia. Qed.
Lemma used_s m s md o j b : inv m s md -> nth_error (objs m) o = Some (OS j, b) -> j < acount m.
Proof. intros V N. assert (I : In j (flat_map pa (objs m))) by (apply in_flat_map; exists (OS j, b); split; [now apply nth_error_In in N|now left]). rewrite (v_a _ _ _ V) in I. apply in_seq in I. lia. Qed.
Lemma used_m m s md o j b : inv m s md -> nth_error (objs m) o = Some (OM j, b) -> j < acount m.
Proof. intros V N. assert (I : In j (flat_map pa (objs m))) by (apply in_flat_map; exists (OM j, b); split; [now apply nth_error_In in N|now left]). rewrite (v_a _ _ _ V) in I. apply in_seq in I. lia. Qed.
Lemma new_image m s md m' a : inv m s md -> images md < 100 -> img_new m = Ret (m', a) ->
  a = Made (length (things s)) /\ inv m' (mkStage (things s ++ [Img None None None true]) (player s)) (mkMade (S (images md)) (fonts md) (sounds md)).
Proof.
  intros V L. unfold img_new. destruct (Nat.leb_spec 100 (icount m)) as [X|X]; [intros H; discriminate H|]. intros H. injection H as <- <-. split; [f_equal; apply (v_len _ _ _ V)|].
  assert (NT : forall (g : islot -> option nat), g (mkIslot None None None true) = None -> forall j, (fun j => g (upd (imgs m) (icount m) (mkIslot None None None true) j)) j = if j =? icount m then None else g (imgs m j)).
  { intros g G j. cbn. unfold upd. destruct (j =? icount m); [exact G|reflexivity]. }
  constructor; cbn.
  - rewrite !app_length, (v_len _ _ _ V). reflexivity.
  - intros o e x N1 N2. old_new V N1 N2.
    + assert (e = e) by reflexivity. apply (rel_keep m); cbn; try lia.
      * destruct e as [r b]. destruct r; cbn; try reflexivity. apply upd_other. pose proof (used_i _ _ _ _ _ _ V A). lia.
      * auto.
      * intros q k Q. split; [|reflexivity]. rewrite nth_error_app1; [exact Q|]. apply nth_error_Some. congruence.
      * auto.
      * exact (v_rel _ _ _ V o e x A N2).
    + cbn. rewrite upd_same. cbn. repeat split. lia.
  - rewrite flat_map_app, (v_i _ _ _ V). cbn [flat_map pi fst app]. now rewrite <- seq_next.
  - rewrite flat_map_app, (v_f _ _ _ V). cbn [flat_map pf fst app]. now rewrite app_nil_r.
  - rewrite flat_map_app, (v_a _ _ _ V). cbn [flat_map pa fst app]. now rewrite app_nil_r.
  - now rewrite (v_mi _ _ _ V).
  - apply (v_mf _ _ _ V).
  - apply (v_ma _ _ _ V).
  - lia.
  - intros i j x. pose proof (NT tex eq_refl i) as Ni. pose proof (NT tex eq_refl j) as Nj. cbn in Ni, Nj. cbn. rewrite Ni, Nj. destruct (i =? icount m); [discriminate|]. destruct (j =? icount m); [discriminate|]. apply (v_ts _ _ _ V).
  - intros i j x. pose proof (NT surf eq_refl i) as Ni. pose proof (NT surf eq_refl j) as Nj. cbn in Ni, Nj. cbn. rewrite Ni, Nj. destruct (i =? icount m); [discriminate|]. destruct (j =? icount m); [discriminate|]. apply (v_ss _ _ _ V).
  - apply (v_fs _ _ _ V).
  - apply (v_as _ _ _ V).
  - intros i x. pose proof (NT tex eq_refl i) as Ni. cbn in Ni. cbn. rewrite Ni. destruct (i =? icount m); [discriminate|]. apply (v_tb _ _ _ V).
  - intros i x. pose proof (NT surf eq_refl i) as Ni. cbn in Ni. cbn. rewrite Ni. destruct (i =? icount m); [discriminate|]. apply (v_sb _ _ _ V).
  - apply (v_fb _ _ _ V).
  - apply (v_ab _ _ _ V).
  - apply (v_new _ _ _ V).
  - apply (v_pl _ _ _ V).
  - apply player_app. apply (v_pi _ _ _ V).
Qed.
Lemma new_nil m s md : inv m s md -> inv (fst (birth m ONil)) (mkStage (things s ++ [Nil]) (player s)) md.
Proof.
  intros V. constructor; cbn.
  - rewrite !app_length, (v_len _ _ _ V). reflexivity.
  - intros o e x N1 N2. old_new V N1 N2; [|exact I]. apply (rel_keep m); cbn; try lia.
    + unfold same_place. destruct (fst e); reflexivity.
    + auto.
    + intros q k Q. split; [|reflexivity]. rewrite nth_error_app1; [exact Q|]. apply nth_error_Some. congruence.
    + auto.
    + exact (v_rel _ _ _ V o e x A N2).
  - rewrite flat_map_app, (v_i _ _ _ V). cbn [flat_map pi fst app]. now rewrite app_nil_r.
  - rewrite flat_map_app, (v_f _ _ _ V). cbn [flat_map pf fst app]. now rewrite app_nil_r.
  - rewrite flat_map_app, (v_a _ _ _ V). cbn [flat_map pa fst app]. now rewrite app_nil_r.
  - apply (v_mi _ _ _ V).
  - apply (v_mf _ _ _ V).
  - apply (v_ma _ _ _ V).
  - apply (v_100 _ _ _ V).
  - apply (v_ts _ _ _ V).
  - apply (v_ss _ _ _ V).
  - apply (v_fs _ _ _ V).
  - apply (v_as _ _ _ V).
  - apply (v_tb _ _ _ V).
  - apply (v_sb _ _ _ V).
  - apply (v_fb _ _ _ V).
  - apply (v_ab _ _ _ V).
  - apply (v_new _ _ _ V).
  - apply (v_pl _ _ _ V).
  - apply player_app. apply (v_pi _ _ _ V).
Qed.
Lemma new_font m s md m' a : inv m s md -> fcount m < 10 -> font_new m = Ret (m', a) ->
  a = Made (length (things s)) /\ inv m' (mkStage (things s ++ [Fnt None]) (player s)) (mkMade (images md) (S (fonts md)) (sounds md)).
Proof.
  intros V L. unfold font_new. destruct (Nat.leb_spec 10 (fcount m)) as [X|X]; [lia|]. intros H. injection H as <- <-. split; [f_equal; apply (v_len _ _ _ V)|].
  assert (NT : forall j, upd (fnts m) (fcount m) None j = if j =? fcount m then None else fnts m j) by reflexivity.
  constructor; cbn.
  - rewrite !app_length, (v_len _ _ _ V). reflexivity.
  - intros o e x N1 N2. old_new V N1 N2.
    + apply (rel_keep m); cbn; try lia.
      * destruct e as [r b]. destruct r; cbn; try reflexivity. apply upd_other. pose proof (used_f _ _ _ _ _ _ V A). lia.
      * auto.
      * intros q k Q. split; [rewrite nth_error_app1; [exact Q|]; apply nth_error_Some; congruence|]. apply upd_other. pose proof (used_f _ _ _ _ _ _ V Q). lia.
      * intros z _ H k. rewrite NT. destruct (k =? fcount m); [discriminate|apply H].
      * exact (v_rel _ _ _ V o e x A N2).
    + cbn. rewrite upd_same. cbn. split; [lia|reflexivity].
  - rewrite flat_map_app, (v_i _ _ _ V). cbn [flat_map pi fst app]. now rewrite app_nil_r.
  - rewrite flat_map_app, (v_f _ _ _ V). cbn [flat_map pf fst app]. now rewrite <- seq_next.
  - rewrite flat_map_app, (v_a _ _ _ V). cbn [flat_map pa fst app]. now rewrite app_nil_r.
  - apply (v_mi _ _ _ V).
  - now rewrite (v_mf _ _ _ V).
  - apply (v_ma _ _ _ V).
  - apply (v_100 _ _ _ V).
  - apply (v_ts _ _ _ V).
  - apply (v_ss _ _ _ V).
  - intros i j x. cbn. rewrite !NT. destruct (i =? fcount m); [discriminate|]. destruct (j =? fcount m); [discriminate|]. apply (v_fs _ _ _ V).
  - apply (v_as _ _ _ V).
  - apply (v_tb _ _ _ V).
  - apply (v_sb _ _ _ V).
  - intros i x. cbn. rewrite NT. destruct (i =? fcount m); [discriminate|]. apply (v_fb _ _ _ V).
  - apply (v_ab _ _ _ V).
  - apply (v_new _ _ _ V).
  - apply (v_pl _ _ _ V).
  - apply player_app. apply (v_pi _ _ _ V).
Qed.
Lemma new_audio m s md m' a load music f : inv m s md -> acount m < 50 -> audio_new load music f m = Ret (m', a) ->
  a = match load f with Good => Made (length (things s)) | _ => Error end /\
  inv m' (mkStage (things s ++ [(if music then Mus else Snd) (match load f with Good => Some f | _ => None end)]) (player s)) (mkMade (images md) (fonts md) (S (sounds md))).
Proof.
  intros V L. unfold audio_new. destruct (Nat.leb_spec 50 (acount m)) as [X|X]; [lia|]. rewrite (v_new _ _ _ V (acount m)) by lia. cbn [rbind].
  set (hb := match load f with Missing => (hp m, None) | Broken => (hp m, None) | Good => (hp m ++ [Some (if music then SlotModel.Music f else Chunk f)], Some (length (hp m))) end).
  assert (HB : exists h b, hb = (h, b) /\ (exists r, h = hp m ++ r) /\ match load f with Good => b = Some (length (hp m)) /\ live h (length (hp m)) = Some (if music then SlotModel.Music f else Chunk f) | _ => b = None end).
  { unfold hb. destruct (load f); eexists _, _; (split; [reflexivity|]); (split; [eexists; symmetry; (apply app_nil_r || reflexivity)|]); try reflexivity.
    split; [reflexivity|]. unfold live. now rewrite nth_error_app2, Nat.sub_diag by lia. }
  destruct HB as (h & b & -> & (r & HR) & HB). intros H. injection H as <- <-.
  split. { destruct (load f); [subst b; reflexivity|subst b; reflexivity|]. destruct HB as (-> & _). cbn. f_equal. apply (v_len _ _ _ V). }
  assert (NT : forall j, upd (auds m) (acount m) b j = if j =? acount m then b else auds m j) by reflexivity.
  assert (LB : length (hp m) <= length h) by (rewrite HR, app_length; lia).
  assert (BF : forall x, b = Some x -> x = length (hp m) /\ x < length h).
  { intros x E. destruct (load f); [congruence|congruence|]. destruct HB as (E2 & LV). rewrite E in E2. injection E2 as ->. split; [reflexivity|now apply live_some in LV]. }
  assert (OLD : forall o e x, nth_error (objs m) o = Some e -> rel m e x -> rel (mkMedia h (imgs m) (icount m) (fnts m) (fcount m) (upd (auds m) (acount m) b) (S (acount m)) (objs m ++ [((if music then OM else OS) (acount m), false)]) (control m)) e x).
  { intros o e x A R. apply (rel_keep m); cbn; try lia.
    - destruct e as [[j|j|j|j|] b']; cbn; try reflexivity; apply upd_other; [pose proof (used_s _ _ _ _ _ _ V A)|pose proof (used_m _ _ _ _ _ _ V A)]; lia.
    - intros y _ k LV. rewrite HR. now apply live_app.
    - intros q k Q. split; [rewrite nth_error_app1; [exact Q|]; apply nth_error_Some; congruence|reflexivity].
    - auto.
    - exact R. }
  constructor; cbn.
  - rewrite !app_length, (v_len _ _ _ V). reflexivity.
  - intros o e x N1 N2. destruct music; old_new V N1 N2.
    + apply (OLD o); [exact A|exact (v_rel _ _ _ V o e x A N2)].
    + cbn. rewrite upd_same. split; [lia|]. destruct (load f); cbn; [exact HB|exact HB|]. destruct HB as (E & LV). now exists (length (hp m)).
    + apply (OLD o); [exact A|exact (v_rel _ _ _ V o e x A N2)].
    + cbn. rewrite upd_same. split; [lia|]. destruct (load f); cbn; [exact HB|exact HB|]. destruct HB as (E & LV). now exists (length (hp m)).
  - rewrite flat_map_app, (v_i _ _ _ V). destruct music; cbn [flat_map pi fst app]; now rewrite app_nil_r.
  - rewrite flat_map_app, (v_f _ _ _ V). destruct music; cbn [flat_map pf fst app]; now rewrite app_nil_r.
  - rewrite flat_map_app, (v_a _ _ _ V). destruct music; cbn [flat_map pa fst app]; now rewrite <- seq_next.
  - apply (v_mi _ _ _ V).
  - apply (v_mf _ _ _ V).
  - now rewrite (v_ma _ _ _ V).
  - apply (v_100 _ _ _ V).
  - apply (v_ts _ _ _ V).
  - apply (v_ss _ _ _ V).
  - apply (v_fs _ _ _ V).
  - intros i j x. cbn. rewrite !NT. destruct (Nat.eqb_spec i (acount m)), (Nat.eqb_spec j (acount m)); try (subst; reflexivity).
    + intros E E2. destruct (BF x E). pose proof (v_ab _ _ _ V _ _ E2). lia.
    + intros E2 E. destruct (BF x E). pose proof (v_ab _ _ _ V _ _ E2). lia.
    + apply (v_as _ _ _ V).
  - intros i x E. pose proof (v_tb _ _ _ V i x E). lia.
  - intros i x E. pose proof (v_sb _ _ _ V i x E). lia.
  - intros i x E. pose proof (v_fb _ _ _ V i x E). lia.
  - intros i x. cbn. rewrite NT. destruct (i =? acount m); intros E; [now apply BF in E|]. pose proof (v_ab _ _ _ V i x E). lia.
  - intros j J. rewrite NT. destruct (Nat.eqb_spec j (acount m)); [lia|]. apply (v_new _ _ _ V). lia.
  - apply (v_pl _ _ _ V).
  - apply player_app. apply (v_pi _ _ _ V).
Qed.

(** ** An image changes *)
Lemma put_nth s o x i y : nth_error (things (put s o x)) i = Some y -> i = o /\ y = x \/ i <> o /\ nth_error (things s) i = Some y.
Proof. cbn. rewrite replace_nth. destruct (Nat.eqb_spec i o) as [->|N]; [|now right]. destruct (nth_error (things s) o); [|discriminate]. intros H. injection H as <-. now left. Qed.
Lemma image_change m s md o j r sl X : inv m s md -> nth_error (objs m) o = Some (OI j, false) ->
  (forall x, tex sl = Some x -> tex (imgs m j) = Some x \/ length (hp m) <= x < length (hp m ++ r)) ->
  (forall x, surf sl = Some x -> surf (imgs m j) = Some x \/ length (hp m) <= x < length (hp m ++ r)) ->
  is_img X = true -> rel (with_img m (hp m ++ r) j sl) (OI j, false) X -> inv (with_img m (hp m ++ r) j sl) (put s o X) md.
Proof.
  intros V O T S IX R. assert (LB : length (hp m) <= length (hp m ++ r)) by (rewrite app_length; lia).
  assert (NT : forall (g : islot -> option nat) i, g (upd (imgs m) j sl i) = if i =? j then g sl else g (imgs m i)) by (intros g i; unfold upd; destruct (i =? j); reflexivity).
  constructor; cbn.
  - rewrite replace_length. apply (v_len _ _ _ V).
  - intros i e x N1 N2. apply put_nth in N2 as [[-> ->]|[NE N2]].
    + rewrite O in N1. injection N1 as <-. exact R.
    + apply (rel_keep m); cbn; try lia.
      * destruct e as [[j'|j'|j'|j'|] b']; cbn; try reflexivity. apply upd_other. intros ->. apply NE. apply (pos_unique pi (objs m) i o _ _ j (nodup_i _ _ _ V) N1 O); now left.
      * intros y _ k LV. now apply live_app.
      * intros q k Q. now split.
      * auto.
      * exact (v_rel _ _ _ V i e x N1 N2).
  - apply (v_i _ _ _ V).
  - apply (v_f _ _ _ V).
  - apply (v_a _ _ _ V).
  - apply (v_mi _ _ _ V).
  - apply (v_mf _ _ _ V).
  - apply (v_ma _ _ _ V).
  - apply (v_100 _ _ _ V).
  - intros a b x. cbn. rewrite !NT. destruct (Nat.eqb_spec a j), (Nat.eqb_spec b j); subst; try reflexivity.
    + intros E1 E2. destruct (T x E1) as [E|E]; [now apply (v_ts _ _ _ V j b x)|]. pose proof (v_tb _ _ _ V b x E2). lia.
    + intros E2 E1. destruct (T x E1) as [E|E]; [now apply (v_ts _ _ _ V a j x)|]. pose proof (v_tb _ _ _ V a x E2). lia.
    + apply (v_ts _ _ _ V).
  - intros a b x. cbn. rewrite !NT. destruct (Nat.eqb_spec a j), (Nat.eqb_spec b j); subst; try reflexivity.
    + intros E1 E2. destruct (S x E1) as [E|E]; [now apply (v_ss _ _ _ V j b x)|]. pose proof (v_sb _ _ _ V b x E2). lia.
    + intros E2 E1. destruct (S x E1) as [E|E]; [now apply (v_ss _ _ _ V a j x)|]. pose proof (v_sb _ _ _ V a x E2). lia.
    + apply (v_ss _ _ _ V).
  - apply (v_fs _ _ _ V).
  - apply (v_as _ _ _ V).
  - intros a x. cbn. rewrite NT. destruct (a =? j); intros E; [destruct (T x E) as [E2|E2]; [|lia]; pose proof (v_tb _ _ _ V j x E2); lia|]. pose proof (v_tb _ _ _ V a x E). lia.
  - intros a x. cbn. rewrite NT. destruct (a =? j); intros E; [destruct (S x E) as [E2|E2]; [|lia]; pose proof (v_sb _ _ _ V j x E2); lia|]. pose proof (v_sb _ _ _ V a x E). lia.
  - intros a x E. pose proof (v_fb _ _ _ V a x E). lia.
  - intros a x E. pose proof (v_ab _ _ _ V a x E). lia.
  - apply (v_new _ _ _ V).
  - apply (v_pl _ _ _ V).
  - intros p P. destruct (v_pi _ _ _ V p P) as (f & q & fo & v & N). rewrite replace_nth. destruct (Nat.eqb_spec p o) as [->|NE]; [|now exists f, q, fo, v]. rewrite N. destruct X; try discriminate IX. eexists _, _, _, _. reflexivity.
Qed.
Lemma font_rel_keep m m' x fo : (forall z k, live (hp m) z = Some k -> live (hp m') z = Some k) -> objs m' = objs m -> fnts m' = fnts m -> font_rel m x fo -> font_rel m' x fo.
Proof. intros L O F H. destruct fo as [[q g]|]; [|exact H]. cbn in *. destruct H as (z & E & LV & H). exists z. split; [exact E|]. split; [now apply L|]. rewrite O, F. exact H. Qed.
Lemma with_img_nil m j sl : with_img m (hp m) j sl = with_img m (hp m ++ []) j sl.
Proof. now rewrite app_nil_r. Qed.
Definition good_step (load : nat -> content) (d : deed) : Prop :=
  forall m s md s' md' a, inv m s md -> act load d (s, md) = Some (s', md', a) -> exists m', deed_step load d m = Ret (m', a) /\ inv m' s' md'.
Lemma step_source load o f : good_step load (Source o f).
Proof.
  intros m s md s' md' a V. cbn [act deed_step]. destruct (nth_error (things s) o) as [[f0 p fo v| | | | |]|] eqn:N; try discriminate.
  destruct (inv_img _ _ _ _ _ _ _ _ V N) as (j & O & R). unfold img_img, obj. rewrite O. cbn [rbind]. destruct (load f); intros H; injection H as <- <- <-; eexists; (split; [reflexivity|]); try exact V.
  apply image_change; [exact V|exact O| | |reflexivity|]; cbn.
  - intros x E. injection E as <-. right. rewrite app_length. cbn. lia.
  - intros x E. injection E as <-. right. rewrite app_length. cbn. lia.
  - cbn in R. rewrite upd_same. cbn. destruct R as (J & VV & _ & _ & F). split; [exact J|]. split; [exact VV|]. unfold live.
    split; [exists (length (hp m)); split; [reflexivity|]; rewrite nth_error_app2, Nat.sub_diag by lia; reflexivity|].
    split; [exists (S (length (hp m))); split; [reflexivity|]; rewrite nth_error_app2 by lia; replace (S (length (hp m)) - length (hp m)) with 1 by lia; reflexivity|].
    apply (font_rel_keep m); [|reflexivity|reflexivity|exact F]. intros z k. apply live_app.
Qed.
Lemma step_visible load o b : good_step load (Visible o b).
Proof.
  intros m s md s' md' a V. cbn [act deed_step]. destruct (nth_error (things s) o) as [[f0 p fo v| | | | |]|] eqn:N; try discriminate.
  destruct (inv_img _ _ _ _ _ _ _ _ V N) as (j & O & R). unfold img_visible_set, obj. rewrite O. cbn [rbind]. intros H; injection H as <- <- <-. eexists. split; [reflexivity|].
  rewrite with_img_nil. apply image_change; [exact V|exact O| | |reflexivity|]; cbn; [now left|now left|]. cbn in R. rewrite upd_same, app_nil_r. cbn. destruct R as (J & VV & S & T & F). repeat split; assumption.
Qed.
Lemma step_write load o t : good_step load (WriteOn o t).
Proof.
  intros m s md s' md' a V. cbn [act deed_step]. destruct (nth_error (things s) o) as [[[f0|] p fo v| | | | |]|] eqn:N; try discriminate;
    destruct (inv_img _ _ _ _ _ _ _ _ V N) as (j & O & R); unfold img_text, obj; rewrite O; cbn [rbind]; cbn in R; destruct R as (J & VV & S & T & F).
  - destruct S as (x & SX & LX). rewrite SX. destruct fo as [[q y]|]; cbn in F.
    + destruct F as (z & FZ & LZ & FO). rewrite FZ, LX, LZ. intros H; injection H as <- <- <-. eexists. split; [reflexivity|]. apply image_change; [exact V|exact O| | |reflexivity|]; cbn.
      * intros u E. injection E as <-. right. rewrite app_length. cbn. lia.
      * intros u E. left. exact E || congruence.
      * rewrite upd_same. cbn. split; [exact J|]. split; [exact VV|]. split; [exists x; split; [reflexivity|now apply live_app]|].
        split; [exists (length (hp m)); split; [reflexivity|]; unfold live; rewrite nth_error_app2, Nat.sub_diag by lia; reflexivity|].
        exists z. split; [reflexivity|]. split; [now apply live_app|exact FO].
    + rewrite F. intros H; injection H as <- <- <-. now exists m.
  - rewrite S. intros H; injection H as <- <- <-. now exists m.
Qed.
Lemma step_use load o q : good_step load (UseFont o q).
Proof.
  intros m s md s' md' a V. cbn [act deed_step]. destruct (nth_error (things s) o) as [[f0 p fo v| | | | |]|] eqn:N; try discriminate. destruct (nth_error (things s) q) as [[|y| | | |]|] eqn:NQ; try discriminate.
  destruct (inv_img _ _ _ _ _ _ _ _ V N) as (j & O & R). destruct (inv_fnt _ _ _ _ _ V NQ) as (k & OQ & RQ). unfold img_font, obj. rewrite O, OQ. cbn [rbind]. intros H; injection H as <- <- <-. eexists. split; [reflexivity|].
  rewrite with_img_nil. apply image_change; [exact V|exact O| | |reflexivity|]; cbn; [now left|now left|]. cbn in R. rewrite upd_same, app_nil_r. cbn. destruct R as (J & VV & S & T & F). repeat split; try assumption.
  cbn in RQ. destruct RQ as (_ & RQ). destruct y as [y|]; [|exact RQ]. cbn in RQ. destruct RQ as (z & FZ & LZ). cbn. exists z. split; [exact FZ|]. split; [exact LZ|]. exists k. now split.
Qed.

(** ** A font gets another file *)
Lemma each_nth s f i y : nth_error (things (each s f)) i = Some y -> exists x, nth_error (things s) i = Some x /\ y = f x.
Proof. cbn. intros H. rewrite nth_error_map in H. destruct (nth_error (things s) i) as [x|]; [|discriminate H]. injection H as <-. now exists x. Qed.
Lemma font_change m s md o k r nf y : inv m s md -> nth_error (objs m) o = Some (OF k, false) ->
  (forall x, nf = Some x -> length (hp m) <= x < length (hp m ++ r)) -> holds (hp m ++ r) nf (option_map TFont y) ->
  inv (mkMedia (hp m ++ r) (imgs m) (icount m) (upd (fnts m) k nf) (fcount m) (auds m) (acount m) (objs m) (control m)) (each (put s o (Fnt y)) (detach o)) md.
Proof.
  intros V O NF H. assert (LB : length (hp m) <= length (hp m ++ r)) by (rewrite app_length; lia).
  assert (KU : forall q k', nth_error (objs m) q = Some (OF k', false) -> q <> o -> k' <> k).
  { intros q k' Q NE ->. apply NE. apply (pos_unique pf (objs m) q o _ _ k (nodup_f _ _ _ V) Q O); now left. }
  constructor; cbn.
  - rewrite map_length, replace_length. apply (v_len _ _ _ V).
  - intros i e x N1 N2. apply (each_nth (put s o (Fnt y))) in N2 as (x0 & N2 & ->). apply put_nth in N2 as [[-> ->]|[NE N2]].
    + rewrite O in N1. injection N1 as <-. cbn. rewrite upd_same. split; [exact (used_f _ _ _ _ _ _ V O)|exact H].
    + pose proof (v_rel _ _ _ V i e x0 N1 N2) as R. destruct e as [[j|j|j|j|] b]; destruct b, x0; cbn in R |- *; try (exfalso; exact R); try exact R.
      * destruct R as (J & VV & S & T & F). assert (HK : forall u w, holds (hp m) u w -> holds (hp m ++ r) u w) by (intros u w U; eapply holds_keep; [exact U|]; intros; now apply live_app).
        destruct font as [[[q|] g]|]; cbn in F |- *.
        -- destruct F as (z & FZ & LZ & k' & OK & FK). destruct (Nat.eqb_spec q o) as [->|NQ]; cbn; repeat split; try assumption; try (now apply HK).
           ++ exists z. split; [exact FZ|]. split; [now apply live_app|]. rewrite O in OK. injection OK as OK. subst k'. intros k2 E. unfold upd in E. destruct (Nat.eqb_spec k2 k) as [EK|NK].
              ** apply NF in E. apply live_some in LZ. lia.
              ** apply NK. exact (v_fs _ _ _ V k2 k z E FK).
           ++ exists z. split; [exact FZ|]. split; [now apply live_app|]. exists k'. split; [exact OK|]. rewrite upd_other; [exact FK|]. now apply (KU q).
        -- destruct F as (z & FZ & LZ & FN). repeat split; try assumption; try (now apply HK). exists z. split; [exact FZ|]. split; [now apply live_app|]. intros k2 E. unfold upd in E. destruct (k2 =? k); [|exact (FN k2 E)]. apply NF in E. apply live_some in LZ. lia.
        -- repeat split; try assumption; try (now apply HK).
      * destruct R as (J & R). split; [exact J|]. rewrite upd_other; [|now apply (KU i)]. eapply holds_keep; [exact R|]. intros; now apply live_app.
      * destruct R as (J & R). split; [exact J|]. eapply holds_keep; [exact R|]. intros; now apply live_app.
      * destruct R as (J & R). split; [exact J|]. eapply holds_keep; [exact R|]. intros; now apply live_app.
  - apply (v_i _ _ _ V).
  - apply (v_f _ _ _ V).
  - apply (v_a _ _ _ V).
  - apply (v_mi _ _ _ V).
  - apply (v_mf _ _ _ V).
  - apply (v_ma _ _ _ V).
  - apply (v_100 _ _ _ V).
  - apply (v_ts _ _ _ V).
  - apply (v_ss _ _ _ V).
  - intros a b x. cbn. unfold upd. destruct (Nat.eqb_spec a k), (Nat.eqb_spec b k); subst; try reflexivity.
    + intros E1 E2. apply NF in E1. pose proof (v_fb _ _ _ V b x E2). lia.
    + intros E2 E1. apply NF in E1. pose proof (v_fb _ _ _ V a x E2). lia.
    + apply (v_fs _ _ _ V).
  - apply (v_as _ _ _ V).
  - intros a x E. pose proof (v_tb _ _ _ V a x E). lia.
  - intros a x E. pose proof (v_sb _ _ _ V a x E). lia.
  - intros a x. cbn. unfold upd. destruct (a =? k); intros E; [apply NF in E; lia|]. pose proof (v_fb _ _ _ V a x E). lia.
  - intros a x E. pose proof (v_ab _ _ _ V a x E). lia.
  - apply (v_new _ _ _ V).
  - apply (v_pl _ _ _ V).
  - intros p P. destruct (v_pi _ _ _ V p P) as (f & q & fo & v & N). rewrite nth_error_map, replace_nth. destruct (Nat.eqb_spec p o) as [->|NE].
    + exfalso. pose proof (v_rel _ _ _ V o _ _ O N) as R. exact R.
    + rewrite N. cbn. destruct fo as [[[q0|] g]|]; try (destruct (q0 =? o)); eexists _, _, _, _; reflexivity.
Qed.
Lemma step_font_source load o f : good_step load (FontSource o f).
Proof.
  intros m s md s' md' a V. cbn [act deed_step]. destruct (nth_error (things s) o) as [[|y| | | |]|] eqn:N; try discriminate.
  destruct (inv_fnt _ _ _ _ _ V N) as (k & O & R). unfold font_font, obj. rewrite O. cbn [rbind]. destruct (load f); intros H; injection H as <- <- <-; eexists; (split; [reflexivity|]); [exact V| |].
  - rewrite <- (app_nil_r (hp m)) at 1. apply font_change; [exact V|exact O|discriminate|reflexivity].
  - apply font_change; [exact V|exact O| |].
    + intros x E. injection E as <-. rewrite app_length. cbn. lia.
    + exists (length (hp m)). split; [reflexivity|]. unfold live. now rewrite nth_error_app2, Nat.sub_diag by lia.
Qed.

(** ** Collecting *)
Lemma free_length h x : length (free h x) = length h.
Proof. apply replace_length. Qed.
Lemma gone_inv m s md o r h im s' : inv m s md -> nth_error (objs m) o = Some (r, false) -> length h = length (hp m) ->
  (forall j, tex (im j) = tex (imgs m j)) -> (forall j, surf (im j) = surf (imgs m j)) -> length (things s') = length (things s) -> player s' = player s ->
  (forall p, player s = Some p -> exists f q fo v, nth_error (things s') p = Some (Img f q fo v)) ->
  (forall i e x, nth_error (replace (objs m) o (r, true)) i = Some e -> nth_error (things s') i = Some x -> rel (gone m o r h im) e x) -> inv (gone m o r h im) s' md.
Proof.
  intros V O LH T S LT P PI R. constructor; cbn.
  - rewrite replace_length, LT. apply (v_len _ _ _ V).
  - exact R.
  - rewrite (replace_flat pi _ _ _ false) by (reflexivity || exact O). apply (v_i _ _ _ V).
  - rewrite (replace_flat pf _ _ _ false) by (reflexivity || exact O). apply (v_f _ _ _ V).
  - rewrite (replace_flat pa _ _ _ false) by (reflexivity || exact O). apply (v_a _ _ _ V).
  - apply (v_mi _ _ _ V).
  - apply (v_mf _ _ _ V).
  - apply (v_ma _ _ _ V).
  - apply (v_100 _ _ _ V).
  - intros a b x. cbn. rewrite !T. apply (v_ts _ _ _ V).
  - intros a b x. cbn. rewrite !S. apply (v_ss _ _ _ V).
  - apply (v_fs _ _ _ V).
  - apply (v_as _ _ _ V).
  - intros a x. cbn. rewrite T, LH. apply (v_tb _ _ _ V).
  - intros a x. cbn. rewrite S, LH. apply (v_sb _ _ _ V).
  - intros a x. rewrite LH. apply (v_fb _ _ _ V).
  - intros a x. rewrite LH. apply (v_ab _ _ _ V).
  - apply (v_new _ _ _ V).
  - rewrite P. apply (v_pl _ _ _ V).
  - intros p. rewrite P. apply PI.
Qed.
Lemma use_kind m e X y : rel m e X -> uses m e y ->
  (exists j b p, e = (OI j, b) /\ tex (imgs m j) = Some y /\ live (hp m) y = Some (Texture p)) \/
  (exists j b f, e = (OI j, b) /\ surf (imgs m j) = Some y /\ live (hp m) y = Some (Surface f)) \/
  (exists j b f, e = (OI j, b) /\ ifont (imgs m j) = Some y /\ live (hp m) y = Some (TFont f)) \/
  (exists k b f, e = (OF k, b) /\ fnts m k = Some y /\ live (hp m) y = Some (TFont f)) \/
  (exists j b f, e = (OS j, b) /\ auds m j = Some y /\ live (hp m) y = Some (Chunk f)) \/
  (exists j b f, e = (OM j, b) /\ auds m j = Some y /\ live (hp m) y = Some (SlotModel.Music f)).
Proof.
  intros R U. destruct e as [[j|j|j|j|] b]; destruct b, X; cbn in R, U; try (exfalso; exact R); try (exfalso; exact U).
  - destruct R as (_ & _ & S & T & F). destruct U as [U|[U|U]].
    + left. destruct shown as [p|]; cbn in T; [|congruence]. destruct T as (y' & E & LV). exists j, false, p. repeat split; congruence.
    + right; left. destruct file as [f|]; cbn in S; [|congruence]. destruct S as (y' & E & LV). exists j, false, f. repeat split; congruence.
    + right; right; left. destruct font as [[q g]|]; cbn in F; [|congruence]. destruct F as (y' & E & LV & _). exists j, false, g. repeat split; congruence.
  - do 3 right; left. destruct R as (_ & R). destruct file as [f|]; cbn in R; [|congruence]. destruct R as (y' & E & LV). exists j, false, f. repeat split; congruence.
  - do 4 right; left. destruct R as (_ & R). destruct file as [f|]; cbn in R; [|congruence]. destruct R as (y' & E & LV). exists j, false, f. repeat split; congruence.
  - do 5 right. destruct R as (_ & R). destruct file as [f|]; cbn in R; [|congruence]. destruct R as (y' & E & LV). exists j, false, f. repeat split; congruence.
Qed.
Lemma put_gone_nth (s : stage) o i x : nth_error (things (put s o Gone)) i = Some x -> i = o /\ x = Gone \/ i <> o /\ nth_error (things s) i = Some x.
Proof. apply put_nth. Qed.
Lemma gone_nth (m : media) o r i e : nth_error (replace (objs m) o (r, true)) i = Some e -> i = o /\ e = (r, true) \/ i <> o /\ nth_error (objs m) i = Some e.
Proof. rewrite replace_nth. destruct (Nat.eqb_spec i o) as [->|N]; [|now right]. destruct (nth_error (objs m) o); [|discriminate]. intros H. injection H as <-. now left. Qed.
Lemma player_stays m s md o (g : thing -> thing) : inv m s md -> player s <> Some o -> (forall f p fo v, exists f' p' fo' v', g (Img f p fo v) = Img f' p' fo' v') ->
  forall p, player s = Some p -> exists f q fo v, nth_error (map g (replace (things s) o Gone)) p = Some (Img f q fo v).
Proof.
  intros V NP G p P. destruct (v_pi _ _ _ V p P) as (f & q & fo & v & N). rewrite nth_error_map, replace_nth. destruct (Nat.eqb_spec p o) as [->|NE]; [congruence|]. rewrite N. cbn.
  destruct (G f q fo v) as (f' & q' & fo' & v' & ->). eexists _, _, _, _. reflexivity.
Qed.
(** What is freed belongs to the object alone, so the others stay as they are. *)
Lemma collected m s md o r h im : inv m s md -> nth_error (objs m) o = Some (r, false) -> player s <> Some o -> (forall k, r <> OF k) -> length h = length (hp m) ->
  (forall j, tex (im j) = tex (imgs m j)) -> (forall j, surf (im j) = surf (imgs m j)) -> (forall j, r <> OI j -> im j = imgs m j) -> (forall j i, r = OI j -> i <> j -> im i = imgs m i) ->
  (forall i e X y k, i <> o -> nth_error (objs m) i = Some e -> rel m e X -> uses m e y -> live (hp m) y = Some k -> live h y = Some k) ->
  rel (gone m o r h im) (r, true) Gone -> inv (gone m o r h im) (put s o Gone) md.
Proof.
  intros V O NP NF LH T S IM1 IM2 L R. apply (gone_inv m s md); try assumption; cbn.
  - apply replace_length.
  - reflexivity.
  - intros p P. pose proof (player_stays m s md o (fun x => x) V NP) as Q. rewrite map_id in Q. apply Q; [|exact P]. intros f q fo v. now exists f, q, fo, v.
  - intros i e x N1 N2. apply gone_nth in N1 as [[-> ->]|[NE N1]]; apply put_gone_nth in N2 as [[EO EX]|[NE2 N2]]; try congruence.
    pose proof (v_rel _ _ _ V i e x N1 N2) as RR. apply (rel_keep m); cbn; try lia; try exact RR.
    + destruct e as [[j|j|j|j|] b]; cbn; try reflexivity. destruct r as [j0| | | |]; try (apply IM1; discriminate). apply (IM2 j0); [reflexivity|]. intros ->. apply NE. apply (pos_unique pi (objs m) i o _ _ j0 (nodup_i _ _ _ V) N1 O); now left.
    + intros y U k LV. now apply (L i e x y k).
    + intros q k Q. split; [|reflexivity]. rewrite replace_nth. destruct (Nat.eqb_spec q o) as [->|]; [|exact Q]. rewrite O in Q. injection Q as ->. exfalso. now apply (NF k).
    + auto.
Qed.
Lemma drop_holds ok h x k : holds h x k -> (forall k', k = Some k' -> ok k' = true) -> drop ok x h = Ret (match x with Some y => free h y | None => h end).
Proof. intros H K. destruct k as [k|]; cbn in H; [|now rewrite H]. destruct H as (y & -> & LV). cbn. rewrite LV. now rewrite (K k eq_refl). Qed.
Lemma step_collect load o : good_step load (Collect o).
Proof.
  intros m s md s' md' a V. cbn [act deed_step]. destruct (match player s with Some p => p =? o | None => false end) eqn:PE; [discriminate|].
  assert (NP : player s <> Some o). { intros E. rewrite E, Nat.eqb_refl in PE. discriminate PE. }
  destruct (nth_error (things s) o) as [x|] eqn:N; [|discriminate]. unfold collect, obj.
  destruct (inv_obj _ _ _ _ _ V N) as ([r b] & O & R).
  destruct x as [f p fo v|y|f|f| |].
  - (* an image *)
    intros H. assert (HV : s' = put s o Gone /\ md' = md /\ a = Answered /\ (p = None \/ v = false)).
    { destruct p; [destruct v; [discriminate H|]|]; injection H as <- <- <-; auto. }
    clear H. destruct HV as (-> & -> & -> & HV). destruct r, b; cbn in R; try (exfalso; exact R). destruct R as (J & VV & S & T & F). rewrite O. cbn [rbind].
    rewrite (drop_holds _ _ _ _ T) by (intros k' E; destruct p; [injection E as <-; reflexivity|discriminate E]). cbn [rbind].
    set (h1 := match tex (imgs m j) with Some y => free (hp m) y | None => hp m end).
    assert (S1 : holds h1 (surf (imgs m j)) (option_map Surface f)).
    { eapply holds_keep; [exact S|]. intros y E k LV. unfold h1. destruct (tex (imgs m j)) as [x|] eqn:TX; [|exact LV]. apply live_free; [exact LV|]. intros ->.
      destruct f as [f|]; cbn in S; [|congruence]. destruct S as (y' & E' & LV'). destruct p as [p|]; cbn in T; [|congruence]. destruct T as (z & EZ & LZ). congruence. }
    rewrite (drop_holds _ _ _ _ S1) by (intros k' E; destruct f; [injection E as <-; reflexivity|discriminate E]). cbn [rbind].
    eexists. split; [reflexivity|]. set (h2 := match surf (imgs m j) with Some y => free h1 y | None => h1 end).
    assert (L1 : length h1 = length (hp m)) by (unfold h1; destruct (tex (imgs m j)); [apply free_length|reflexivity]).
    apply (collected m s md); try assumption; try discriminate.
    + unfold h2. destruct (surf (imgs m j)); [now rewrite free_length|exact L1].
    + intros i. unfold upd. destruct (Nat.eqb_spec i j) as [->|]; reflexivity.
    + intros i. unfold upd. destruct (Nat.eqb_spec i j) as [->|]; reflexivity.
    + intros i X. apply upd_other. congruence.
    + intros j0 i E NE. injection E as <-. now apply upd_other.
    + intros i e X y k NE NI RX U LV. pose proof (use_kind _ _ _ _ RX U) as UK.
      assert (OT : forall i' b, e = (OI i', b) -> i' <> j). { intros i' b -> ->. apply NE. apply (pos_unique pi (objs m) i o _ _ j (nodup_i _ _ _ V) NI O); now left. }
      assert (A1 : forall x, tex (imgs m j) = Some x -> y <> x).
      { intros x TX ->. destruct p as [p|]; cbn in T; [|congruence]. destruct T as (z & EZ & LZ). rewrite TX in EZ. injection EZ as <-.
        destruct UK as [(j' & b & q & E & A & B)|UK]; [apply (OT j' b E); exact (v_ts _ _ _ V _ _ _ A TX)|].
        repeat (destruct UK as [(j' & b & q & E & A & B)|UK]; [congruence|]). destruct UK as (j' & b & q & E & A & B). congruence. }
      assert (A2 : forall x, surf (imgs m j) = Some x -> y <> x).
      { intros x TX ->. destruct f as [f|]; cbn in S; [|congruence]. destruct S as (z & EZ & LZ). rewrite TX in EZ. injection EZ as <-.
        destruct UK as [(j' & b & q & E & A & B)|UK]; [congruence|]. destruct UK as [(j' & b & q & E & A & B)|UK]; [apply (OT j' b E); exact (v_ss _ _ _ V _ _ _ A TX)|].
        repeat (destruct UK as [(j' & b & q & E & A & B)|UK]; [congruence|]). destruct UK as (j' & b & q & E & A & B). congruence. }
      assert (LH1 : live h1 y = Some k). { unfold h1. destruct (tex (imgs m j)) as [x|]; [|exact LV]. apply live_free; [exact LV|]. now apply A1. }
      unfold h2. destruct (surf (imgs m j)) as [x|]; [|exact LH1]. apply live_free; [exact LH1|]. now apply A2.
    + cbn. rewrite upd_same. cbn. split; [exact J|]. split; [|reflexivity]. destruct HV as [-> | ->]; [right; exact T|left; exact VV].
  - (* a font *)
    intros H. injection H as <- <- <-. destruct r, b; cbn in R; try (exfalso; exact R). destruct R as (K & R). rewrite O. cbn [rbind].
    assert (UF : forall f p fo v, exists f' p' fo' v', unfont o (Img f p fo v) = Img f' p' fo' v').
    { intros f p fo v. cbn. destruct fo as [[[q|] g]|]; try (destruct (q =? o)); eexists _, _, _, _; reflexivity. }
    assert (GO : forall h im, length h = length (hp m) -> (forall j, tex (im j) = tex (imgs m j)) -> (forall j, surf (im j) = surf (imgs m j)) -> (forall j, vis (im j) = vis (imgs m j)) ->
      (forall y kk, live (hp m) y = Some kk -> fnts m k <> Some y -> live h y = Some kk) ->
      (forall j, j < icount m -> ifont (im j) = match ifont (imgs m j) with Some z => match fnts m k with Some z' => if z =? z' then None else Some z | None => Some z end | None => None end) ->
      inv (gone m o (OF k) h im) (each (put s o Gone) (unfont o)) md).
    { intros h im LH T S W L F. apply (gone_inv m s md); try assumption; cbn.
      - now rewrite map_length, replace_length.
      - reflexivity.
      - apply (player_stays m s md o (unfont o) V NP UF).
      - intros i e x N1 N2. apply (each_nth (put s o Gone)) in N2 as (x0 & N2 & ->). apply gone_nth in N1 as [[-> ->]|[NE N1]]; apply put_gone_nth in N2 as [[EO EX]|[NE2 N2]]; try congruence; [subst x0; exact K|].
        pose proof (v_rel _ _ _ V i e x0 N1 N2) as RX. destruct e as [[j|j|j|j|] b]; destruct b, x0 as [f p fo v|f|f|f| |]; cbn in RX |- *; try (exfalso; exact RX); try exact RX.
        + destruct RX as (J & VT & FN). rewrite W, T, F, FN by exact J. now repeat split.
        + destruct RX as (J & VV & SS & TT & FF).
          assert (H1 : holds h (surf (im j)) (option_map Surface f)).
          { rewrite S. eapply holds_keep; [exact SS|]. intros y0 E kk LV. apply L; [exact LV|]. intros FK. destruct f as [f|]; cbn in SS; [|congruence]. destruct SS as (y1 & E1 & L1). destruct y as [y|]; cbn in R; [|congruence]. destruct R as (z & E2 & L2). congruence. }
          assert (H2 : holds h (tex (im j)) (option_map Texture p)).
          { rewrite T. eapply holds_keep; [exact TT|]. intros y0 E kk LV. apply L; [exact LV|]. intros FK. destruct p as [p|]; cbn in TT; [|congruence]. destruct TT as (y1 & E1 & L1). destruct y as [y|]; cbn in R; [|congruence]. destruct R as (z & E2 & L2). congruence. }
          assert (H3 : vis (im j) = v) by (rewrite W; exact VV).
          destruct fo as [[[q|] g]|]; cbn in FF |- *.
          * destruct FF as (z & EZ & LZ & k' & OK & FK). destruct (Nat.eqb_spec q o) as [->|NQ]; cbn; repeat split; try assumption.
            -- rewrite F, EZ by exact J. rewrite O in OK. injection OK as OK. subst k'. rewrite FK, Nat.eqb_refl. reflexivity.
            -- assert (KN : fnts m k <> Some z). { intros E. apply NQ. pose proof (v_fs _ _ _ V _ _ _ E FK) as EK. subst k'. apply (pos_unique pf (objs m) q o _ _ k (nodup_f _ _ _ V) OK O); now left. }
               exists z. rewrite F, EZ by exact J. split; [destruct (fnts m k) as [z'|]; [destruct (Nat.eqb_spec z z'); [congruence|reflexivity]|reflexivity]|]. split; [now apply L|]. exists k'. split; [|exact FK].
               rewrite replace_nth. destruct (Nat.eqb_spec q o); [congruence|exact OK].
          * destruct FF as (z & EZ & LZ & FN). repeat split; try assumption. exists z. rewrite F, EZ by exact J. split; [destruct (fnts m k) as [z'|] eqn:FK; [destruct (Nat.eqb_spec z z'); [subst z'; exfalso; now apply (FN k)|reflexivity]|reflexivity]|]. split; [apply L; [exact LZ|apply FN]|exact FN].
          * repeat split; try assumption. now rewrite F, FF by exact J.
        + destruct RX as (J & RX). split; [exact J|]. eapply holds_keep; [exact RX|]. intros y0 E kk LV. apply L; [exact LV|]. intros FK. apply NE. pose proof (v_fs _ _ _ V _ _ _ E FK) as EJ. subst j. apply (pos_unique pf (objs m) i o _ _ k (nodup_f _ _ _ V) N1 O); now left.
        + destruct RX as (J & RX). split; [exact J|]. eapply holds_keep; [exact RX|]. intros y0 E kk LV. apply L; [exact LV|]. intros FK. destruct f as [f|]; cbn in RX; [|congruence]. destruct RX as (y1 & E1 & L1). destruct y as [y|]; cbn in R; [|congruence]. destruct R as (z & E2 & L2). congruence.
        + destruct RX as (J & RX). split; [exact J|]. eapply holds_keep; [exact RX|]. intros y0 E kk LV. apply L; [exact LV|]. intros FK. destruct f as [f|]; cbn in RX; [|congruence]. destruct RX as (y1 & E1 & L1). destruct y as [y|]; cbn in R; [|congruence]. destruct R as (z & E2 & L2). congruence. }
    destruct y as [y|]; cbn in R.
    + destruct R as (z & FK & LZ). rewrite FK. cbn [drop]. rewrite LZ. cbn [is_tfont rbind]. eexists. split; [reflexivity|]. apply GO.
      * apply free_length.
      * intros j. unfold forget. destruct (_ && _); reflexivity.
      * intros j. unfold forget. destruct (_ && _); reflexivity.
      * intros j. unfold forget. destruct (_ && _); reflexivity.
      * intros y0 kk LV NE. apply live_free; [exact LV|]. congruence.
      * intros j J. unfold forget. rewrite FK. pose proof (v_100 _ _ _ V). destruct (Nat.ltb_spec j 100); [|lia]. cbn [andb]. destruct (ifont (imgs m j)) as [z0|] eqn:EF; [|exact EF]. destruct (Nat.eqb_spec z0 z); [reflexivity|exact EF].
    + rewrite R. eexists. split; [reflexivity|]. apply GO; try reflexivity.
      * auto.
      * intros j J. rewrite R. destruct (ifont (imgs m j)); reflexivity.
  - (* a sound *)
    intros H. injection H as <- <- <-. destruct r, b; cbn in R; try (exfalso; exact R). destruct R as (J & R). rewrite O. cbn [rbind].
    rewrite (drop_holds _ _ _ _ R) by (intros k' E; destruct f; [injection E as <-; reflexivity|discriminate E]). cbn [rbind]. eexists. split; [reflexivity|].
    apply (collected m s md); try assumption; try discriminate; try reflexivity; [destruct (auds m j); [apply free_length|reflexivity]|].
    intros i e X y k NE NI RX U LV. destruct (auds m j) as [x|] eqn:AX; [|exact LV]. apply live_free; [exact LV|]. intros ->. pose proof (use_kind _ _ _ _ RX U) as UK.
    destruct f as [f|]; cbn in R; [|congruence]. destruct R as (z & EZ & LZ). injection EZ as <-.
    destruct UK as [(j' & b & q & E & A & B)|[(j' & b & q & E & A & B)|[(j' & b & q & E & A & B)|[(j' & b & q & E & A & B)|[(j' & b & q & E & A & B)|(j' & b & q & E & A & B)]]]]]; try congruence.
    apply NE. pose proof (v_as _ _ _ V _ _ _ A AX). subst j' e. apply (pos_unique pa (objs m) i o _ _ j (nodup_a _ _ _ V) NI O); now left.
  - (* music *)
    intros H. injection H as <- <- <-. destruct r, b; cbn in R; try (exfalso; exact R). destruct R as (J & R). rewrite O. cbn [rbind].
    rewrite (drop_holds _ _ _ _ R) by (intros k' E; destruct f; [injection E as <-; reflexivity|discriminate E]). cbn [rbind]. eexists. split; [reflexivity|].
    apply (collected m s md); try assumption; try discriminate; try reflexivity; [destruct (auds m j); [apply free_length|reflexivity]|].
    intros i e X y k NE NI RX U LV. destruct (auds m j) as [x|] eqn:AX; [|exact LV]. apply live_free; [exact LV|]. intros ->. pose proof (use_kind _ _ _ _ RX U) as UK.
    destruct f as [f|]; cbn in R; [|congruence]. destruct R as (z & EZ & LZ). injection EZ as <-.
    destruct UK as [(j' & b & q & E & A & B)|[(j' & b & q & E & A & B)|[(j' & b & q & E & A & B)|[(j' & b & q & E & A & B)|[(j' & b & q & E & A & B)|(j' & b & q & E & A & B)]]]]]; try congruence.
    apply NE. pose proof (v_as _ _ _ V _ _ _ A AX). subst j' e. apply (pos_unique pa (objs m) i o _ _ j (nodup_a _ _ _ V) NI O); now left.
  - (* Nil *)
    intros H. injection H as <- <- <-. destruct r, b; cbn in R; try (exfalso; exact R). rewrite O. cbn [rbind]. eexists. split; [reflexivity|].
    apply (collected m s md); try assumption; try discriminate; try reflexivity. auto.
  - discriminate.
Qed.

(** ** The rest *)
Lemma draw_ok m : forall l ts, length l = length ts -> (forall i e x, nth_error l i = Some e -> nth_error ts i = Some x -> rel m e x) -> draw_all m (flat_map pi l) = Ret (sights ts).
Proof.
  induction l as [|e l IH]; intros ts LN R; destruct ts as [|x ts]; try discriminate LN; [reflexivity|].
  assert (IHl : draw_all m (flat_map pi l) = Ret (sights ts)) by (apply IH; [now injection LN|]; intros i e' x' N1 N2; exact (R (S i) e' x' N1 N2)).
  pose proof (R 0 e x eq_refl eq_refl) as RX. destruct e as [[j|j|j|j|] b]; destruct b, x as [f p fo v|f|f|f| |]; cbn in RX; try (exfalso; exact RX); cbn [flat_map pi fst app]; try exact IHl; cbn [draw_all]; rewrite IHl.
  - destruct RX as (_ & [VF|TN] & _); [rewrite VF|rewrite TN]; cbn; [reflexivity|]. destruct (vis (imgs m j)); reflexivity.
  - destruct RX as (_ & -> & _ & T & _). unfold sights. cbn [flat_map]. destruct v; [|destruct p; reflexivity]. destruct p as [p|]; cbn in T; [|now rewrite T]. destruct T as (y & -> & ->). reflexivity.
Qed.
Lemma step_ok load d : good_step load d.
Proof.
  destruct d as [|o f|o b|o t| |o f|o q|f|f|o|o|o|].
  - intros m s md s' md' a V. cbn [act deed_step add]. destruct (Nat.ltb_spec (images md) 100) as [L|]; [|discriminate]. intros H. injection H as <- <- <-.
    destruct (img_new m) as [[m' a']| |] eqn:E; try (unfold img_new in E; rewrite <- (v_mi _ _ _ V) in E; destruct (Nat.leb_spec 100 (images md)); [lia|discriminate E]).
    destruct (new_image _ _ _ _ _ V L E) as (-> & V'). now exists m'.
  - apply step_source.
  - apply step_visible.
  - apply step_write.
  - intros m s md s' md' a V. cbn [act deed_step add]. destruct (Nat.ltb_spec (fonts md) 10) as [L|L]; intros H; injection H as <- <- <-.
    + destruct (font_new m) as [[m' a']| |] eqn:E; try (unfold font_new in E; destruct (10 <=? fcount m); discriminate E). rewrite (v_mf _ _ _ V) in L. destruct (new_font _ _ _ _ _ V L E) as (-> & V'). now exists m'.
    + unfold font_new. rewrite (v_mf _ _ _ V) in L. destruct (Nat.leb_spec 10 (fcount m)); [|lia]. eexists. split; [unfold birth; rewrite (v_len _ _ _ V); reflexivity|]. exact (new_nil m s md V).
  - apply step_font_source.
  - apply step_use.
  - intros m s md s' md' a V. cbn [act deed_step add]. destruct (Nat.ltb_spec (sounds md) 50) as [L|L]; intros H; injection H as <- <- <-; rewrite (v_ma _ _ _ V) in L.
    + destruct (audio_new load false f m) as [[m' a']| |] eqn:E; try (unfold audio_new in E; destruct (Nat.leb_spec 50 (acount m)); [lia|]; rewrite (v_new _ _ _ V (acount m)) in E by lia; cbn in E; destruct (load f); discriminate E).
      destruct (new_audio _ _ _ _ _ _ _ _ V L E) as (-> & V'). exists m'. split; [now destruct (load f)|exact V'].
    + unfold audio_new. destruct (Nat.leb_spec 50 (acount m)); [|lia]. eexists. split; [unfold birth; rewrite (v_len _ _ _ V); reflexivity|]. exact (new_nil m s md V).
  - intros m s md s' md' a V. cbn [act deed_step add]. destruct (Nat.ltb_spec (sounds md) 50) as [L|L]; [|discriminate]. intros H; injection H as <- <- <-; rewrite (v_ma _ _ _ V) in L.
    destruct (audio_new load true f m) as [[m' a']| |] eqn:E; try (unfold audio_new in E; destruct (Nat.leb_spec 50 (acount m)); [lia|]; rewrite (v_new _ _ _ V (acount m)) in E by lia; cbn in E; destruct (load f); discriminate E).
    destruct (new_audio _ _ _ _ _ _ _ _ V L E) as (-> & V'). exists m'. split; [now destruct (load f)|exact V'].
  - intros m s md s' md' a V. cbn [act deed_step]. destruct (nth_error (things s) o) as [[|y|[f|]|[f|]| |]|] eqn:N; try discriminate; intros H; injection H as <- <- <-; exists m; (split; [|exact V]); unfold play, obj.
    + destruct (inv_snd _ _ _ _ _ V N) as (k & -> & _ & y & AY & LY). cbn [rbind]. now rewrite AY, LY.
    + destruct (inv_snd _ _ _ _ _ V N) as (k & -> & _ & AY). cbn [rbind]. cbn in AY. now rewrite AY.
    + destruct (inv_mus _ _ _ _ _ V N) as (k & -> & _ & y & AY & LY). cbn [rbind]. now rewrite AY, LY.
    + destruct (inv_mus _ _ _ _ _ V N) as (k & -> & _ & AY). cbn [rbind]. cbn in AY. now rewrite AY.
  - intros m s md s' md' a V. cbn [act deed_step]. destruct (nth_error (things s) o) as [[f p fo v| | | | |]|] eqn:N; try discriminate. intros H; injection H as <- <- <-. destruct (inv_img _ _ _ _ _ _ _ _ V N) as (j & O & R).
    unfold img_controllable, obj. rewrite O. cbn [rbind]. eexists. split; [reflexivity|]. destruct V. constructor; cbn; try assumption; try reflexivity. intros o0 E. injection E as <-. now exists f, p, fo, v.
  - apply step_collect.
  - intros m s md s' md' a V. cbn [act deed_step]. intros H; injection H as <- <- <-. unfold frame. exists m. split; [|exact V]. rewrite <- (v_i _ _ _ V). rewrite (draw_ok m _ (things s)); [|apply (v_len _ _ _ V)|apply (v_rel _ _ _ V)].
    destruct (control m) as [o|] eqn:C; [|reflexivity]. rewrite (v_pl _ _ _ V) in C. destruct (v_pi _ _ _ V o C) as (f & p & fo & v & N). destruct (inv_img _ _ _ _ _ _ _ _ V N) as (j & O & _). unfold obj. now rewrite O.
Qed.
Lemma deeds_ok load : forall l m s md out, inv m s md -> wanted load l (s, md) = Some out -> exists m', deeds load l m = Ret (out, m').
Proof.
  induction l as [|d l IH]; intros m s md out V W; cbn [wanted deeds] in *; [injection W as <-; now exists m|].
  destruct (act load d (s, md)) as [[[s' md'] a]|] eqn:A; [|discriminate W]. destruct (step_ok load d m s md s' md' a V A) as (m' & E & V'). rewrite E. cbn [rbind].
  destruct a; try (destruct (wanted load l (s', md')) as [w|] eqn:WW; [|discriminate W]; injection W as <-; destruct (IH m' s' md' w V' WW) as (m2 & E2); rewrite E2; cbn [rbind fst snd]; now exists m2).
  injection W as <-. now exists m'.
Qed.
