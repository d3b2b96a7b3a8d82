(** Proofs about the camera over a screen. *)
From Coq Require Import Lia.
From Verif Require Import Common NumModel PhysSpec CtlSpec CtlModel CtlProofs ViewSpec ViewModel.
Import ListNotations.
Local Open Scope Z_scope.

Ltac okb H := match type of H with
  | obind ?o _ = Ok _ => let E := fresh "E" in destruct o eqn:E; cbn [obind] in H; [|discriminate H]
  end.
Lemma story_app a : forall s b s' o, story s (a ++ b) = Ok (s', o) ->
  exists s1 o1 o2, story s a = Ok (s1, o1) /\ story s1 b = Ok (s', o2) /\ o = o1 ++ o2.
Proof.
  induction a as [|e a IH]; intros s b s' o H; [exists s, [], o; auto|]. cbn [app story] in H |- *.
  destruct (happen s e) as [[s0 o0]|]; cbn [obind fst snd] in H |- *; [|discriminate]. destruct (story s0 (a ++ b)) as [[s2 o2]|] eqn:E; cbn [obind fst snd] in H; [|discriminate].
  apply ok_inj in H. injection H as <- <-. destruct (IH _ _ _ _ E) as (s1 & o1 & o3 & E1 & E2 & ->). exists s1, (o0 ++ o1), o3. rewrite E1. cbn [obind fst snd]. now rewrite app_assoc.
Qed.

Lemma look_ok s p s' : look s p = Ok s' ->
  exists c, s' = mkS (cw s) (ch s) (vx s) (vy s) (zoom s) c true (if negb (init s) && zoom s then Some (cw s, ch s) else logical s) (ww s) (wh s) (dims s) /\
    camera (cam s) (init s) (cw s) (ch s) (ww s) (wh s) (fst p) (snd p) = Ok c.
Proof. unfold look. intros H. okb H. apply ok_inj in H. subst. eauto. Qed.
Lemma happen_ok s e s' o : happen s e = Ok (s', o) ->
  match e with
  | Size a b => exists w h, c_int a = Ok w /\ c_int b = Ok h /\ o = [] /\
      s' = mkS w h (vx s) (vy s) (if (vx s =? 0) && (vy s =? 0) then true else zoom s) (cam s) (init s) (logical s) (ww s) (wh s) (dims s)
  | Corner a b => exists x y, c_int a = Ok x /\ c_int b = Ok y /\ o = [] /\ s' = mkS (cw s) (ch s) x y false (cam s) (init s) (logical s) (ww s) (wh s) (dims s)
  | Screen w h => s' = screen s w h /\ o = []
  | Back p => on s = true /\ (exists s1, look s p = Ok s1 /\ o = [Ground (mkR (fst (cam s1)) (snd (cam s1)) (cw s) (ch s)) (mkR (vx s) (vy s) (cw s) (ch s))] /\
        s' = mkS (cw s) (ch s) (vx s) (vy s) (zoom s) (cam s1) (init s1) (logical s1) (ww s) (wh s) (mkR (vx s) (vy s) (cw s) (ch s)))
      \/ on s = false /\ s' = s /\ o = [Ground (dims s) (dims s)]
  | Pic p fixed r => (on s && negb fixed = true /\ look s p = Ok s' /\ o = [Image (on_screen (cam s') (cw s) (ch s) (vx s) (vy s) r)]) \/ (on s && negb fixed = false /\ s' = s /\ o = [Image r])
  end.
Proof.
  destruct e; cbn [happen]; intros H.
  - unfold width_height in H. okb H. apply ok_inj in H. injection H as <- <-. okb E. okb E. apply ok_inj in E. subst. eauto 10.
  - unfold left_top in H. okb H. apply ok_inj in H. injection H as <- <-. okb E. okb E. apply ok_inj in E. subst. eauto 10.
  - apply ok_inj in H. injection H as <- <-. auto.
  - okb H. apply ok_inj in H. injection H as <- <-. unfold background in E. destruct (on s); [left|right].
    + split; [reflexivity|]. destruct (look s p) as [s0|] eqn:E0; cbn [obind] in E; [|discriminate E]. exists s0. apply ok_inj in E. subst. cbn [fst snd]. apply look_ok in E0 as L. destruct L as (c & -> & C). cbn [cam cw ch vx vy zoom init logical ww wh]. auto.
    + apply ok_inj in E. subst. auto.
  - okb H. apply ok_inj in H. injection H as <- <-. unfold picture in E. destruct (on s && negb fixed); [left|right].
    + split; [reflexivity|]. destruct (look s p) as [s0|] eqn:E0; cbn [obind] in E; [|discriminate E]. apply ok_inj in E. subst. cbn [fst snd]. apply look_ok in E0 as L. destruct L as (c & -> & C). cbn [cam cw ch vx vy]. auto.
    + apply ok_inj in E. subst. auto.
Qed.

(** * What was said last *)
Definition from (o : option (num * num)) (d : Z * Z) (x y : Z) : Prop := match o with Some (a, b) => c_int a = Ok x /\ c_int b = Ok y | None => x = fst d /\ y = snd d end.
Definition size_of (e : event) : option (num * num) := match e with Size a b => Some (a, b) | _ => None end.
Definition corner_of (e : event) : option (num * num) := match e with Corner a b => Some (a, b) | _ => None end.
Lemma happen_said s e s' o : happen s e = Ok (s', o) -> from (size_of e) (cw s, ch s) (cw s') (ch s') /\ from (corner_of e) (vx s, vy s) (vx s') (vy s').
Proof.
  intros H. apply happen_ok in H. destruct e; cbn [size_of corner_of from].
  - destruct H as (w & h & A & B & _ & ->). cbn. auto.
  - destruct H as (x & y & A & B & _ & ->). cbn. auto.
  - destruct H as (-> & _). cbn. auto.
  - destruct H as [(_ & s1 & _ & _ & ->)|(_ & -> & _)]; cbn; auto.
  - destruct H as [(_ & L & _)|(_ & -> & _)]; [|cbn; auto]. apply look_ok in L as (c & -> & _). cbn. auto.
Qed.
Lemma from_next o1 o2 d d' x y : from o1 d (fst d') (snd d') -> from o2 d' x y -> from (match o2 with Some z => Some z | None => o1 end) d x y.
Proof. destruct o2 as [[a b]|]; cbn [from]; [auto|]. intros H [-> ->]. exact H. Qed.
Lemma story_said es : forall s s' o, story s es = Ok (s', o) -> from (last_size es) (cw s, ch s) (cw s') (ch s') /\ from (last_corner es) (vx s, vy s) (vx s') (vy s').
Proof.
  induction es as [|e es IH]; cbn [story]; intros s s' o H; [apply ok_inj in H; injection H as <- <-; cbn; auto|].
  destruct (happen s e) as [[s0 o0]|] eqn:E; cbn [obind fst snd] in H; [|discriminate]. destruct (story s0 es) as [[s2 o2]|] eqn:E2; cbn [obind fst snd] in H; [|discriminate].
  apply ok_inj in H. injection H as <- <-. destruct (happen_said _ _ _ _ E) as [A B]. destruct (IH _ _ _ E2) as [A' B']. split; cbn [last_size last_corner].
  - exact (from_next (size_of e) _ (cw s, ch s) (cw s0, ch s0) _ _ A A').
  - exact (from_next (corner_of e) _ (vx s, vy s) (vx s0, vy s0) _ _ B B').
Qed.
Lemma from_said o w h x y : from o (0, 0) x y -> said o w h -> x = w /\ y = h.
Proof. destruct o as [[a b]|]; cbn [from said fst snd]; intros [A B] [C D]; [split; congruence|lia]. Qed.
Lemma start_said es s o w h x y : story start es = Ok (s, o) -> said (last_size es) w h -> said (last_corner es) x y -> cw s = w /\ ch s = h /\ vx s = x /\ vy s = y.
Proof. intros H A B. apply story_said in H as [C D]. cbn [cw ch vx vy start] in C, D. pose proof (from_said _ _ _ _ _ C A). pose proof (from_said _ _ _ _ _ D B). tauto. Qed.

Lemma shown_ok es p s o w h x y : story start (es ++ [Back p]) = Ok (s, o) -> said (last_size es) w h -> said (last_corner es) x y -> 0 < w -> 0 < h ->
  exists o', o = o' ++ [Ground (mkR (fst (cam s)) (snd (cam s)) w h) (mkR x y w h)].
Proof.
  intros H A B W Hh. apply story_app in H as (s1 & o1 & o2 & H1 & H2 & ->). destruct (start_said _ _ _ _ _ _ _ H1 A B) as (<- & <- & <- & <-).
  cbn [story] in H2. destruct (happen s1 _) as [[s2 o2']|] eqn:E in H2; cbn [obind fst snd] in H2; [|discriminate]. apply ok_inj in H2. injection H2 as <- <-. rewrite app_nil_r. apply happen_ok in E.
  destruct E as [(_ & s3 & _ & -> & ->)|(O & _)]; [cbn [cam]; eauto|]. unfold on in O. apply Z.ltb_lt in W, Hh. now rewrite W, Hh in O.
Qed.
(** Images: as seen from a camera of this size, or at their place. *)
Lemma image_ok es p r fixed s o w h x y : story start (es ++ [Pic p fixed r]) = Ok (s, o) -> said (last_size es) w h -> said (last_corner es) x y ->
  if (0 <? w) && (0 <? h) && negb fixed then exists o', o = o' ++ [Image (on_screen (cam s) w h x y r)] else exists o', o = o' ++ [Image r].
Proof.
  intros H A B. apply story_app in H as (s1 & o1 & o2 & H1 & H2 & ->). destruct (start_said _ _ _ _ _ _ _ H1 A B) as (<- & <- & <- & <-).
  cbn [story] in H2. destruct (happen s1 _) as [[s2 o2']|] eqn:E in H2; cbn [obind fst snd] in H2; [|discriminate]. apply ok_inj in H2. injection H2 as <- <-. rewrite app_nil_r. apply happen_ok in E.
  fold (on s1). destruct E as [(-> & _ & ->)|(-> & _ & ->)]; eauto.
Qed.

(** * The camera stays on the background *)
Definition good (W H : Z) (s : state) : Prop := ww s = W /\ wh s = H /\ (init s = false \/ 0 <= fst (cam s) <= Z.max 0 (W - cw s) /\ 0 <= snd (cam s) <= Z.max 0 (H - ch s)).
Lemma look_good W H s p s' : good W H s -> look s p = Ok s' -> good W H s' /\ init s' = true.
Proof.
  intros (A & B & G) L. apply look_ok in L as (c & -> & C). unfold good. cbn [ww wh init cam cw ch]. split; [|reflexivity]. split; [exact A|]. split; [exact B|]. right.
  destruct (init s) eqn:I.
  - destruct G as [G|[G1 G2]]; [discriminate|]. rewrite A, B in C. apply camera_bounds in C; [|exact G1|exact G2]. tauto.
  - unfold camera in C. okb C. okb C. okb C. apply ok_inj in C. subst c. cbn. lia.
Qed.
Definition ground_in (W H : Z) (d : drawn) : Prop := match d with Ground s _ => 0 <= rx s /\ rx s + rw s <= Z.max (rw s) W /\ 0 <= ry s /\ ry s + rh s <= Z.max (rh s) H | Image _ => True end.
Lemma inside_story W H es : forall s s' o, forallb no_size es = true -> forallb no_screen es = true -> good W H s -> on s = true -> story s es = Ok (s', o) ->
  Forall (ground_in W H) o.
Proof.
  induction es as [|e es IH]; cbn [story forallb]; intros s s' o N1 N2 G O Hs; [apply ok_inj in Hs; injection Hs as <- <-; constructor|].
  apply andb_prop in N1 as [N1 N1']. apply andb_prop in N2 as [N2 N2'].
  destruct (happen s e) as [[s0 o0]|] eqn:E; cbn [obind fst snd] in Hs; [|discriminate]. destruct (story s0 es) as [[s2 o2]|] eqn:E2; cbn [obind fst snd] in Hs; [|discriminate].
  apply ok_inj in Hs. injection Hs as <- <-. apply happen_ok in E. apply Forall_app.
  assert (X : Forall (ground_in W H) o0 /\ good W H s0 /\ on s0 = true); [|destruct X as (X & Y & Z); split; [exact X|exact (IH _ _ _ N1' N2' Y Z E2)]].
  destruct e; try discriminate.
  - destruct E as (x & y & _ & _ & -> & ->). split; [constructor|]. split; [exact G|exact O].
  - destruct E as [(_ & s1 & L & -> & ->)|(O2 & _)]; [|congruence]. destruct (look_good _ _ _ _ _ G L) as [G1 I1]. apply look_ok in L as (c & Es & _).
    split; [|split; [|exact O]].
    + constructor; [|constructor]. destruct G1 as (_ & _ & [G1|[G1 G2]]); [congruence|]. subst s1. cbn [cam cw ch ground_in rx ry rw rh] in *. lia.
    + subst s1. exact G1.
  - destruct E as [(_ & L & ->)|(_ & -> & ->)].
    + destruct (look_good _ _ _ _ _ G L) as [G1 I1]. split; [constructor; [exact I|constructor]|]. split; [exact G1|]. apply look_ok in L as (c & -> & _). exact O.
    + split; [constructor; [exact I|constructor]|]. split; [exact G|exact O].
Qed.
Lemma inside_ok es1 es2 W H w h s1 o1 s o : story start (es1 ++ [Screen W H]) = Ok (s1, o1) -> story s1 es2 = Ok (s, o) ->
  forallb no_size es2 = true -> forallb no_screen es2 = true -> said (last_size es1) w h -> 0 < w <= W -> 0 < h <= H ->
  forall src dst, In (Ground src dst) o -> 0 <= rx src /\ rx src + rw src <= W /\ 0 <= ry src /\ ry src + rh src <= H /\ rw src = w /\ rh src = h.
Proof.
  intros H1 H2 N1 N2 A Bw Bh src dst I. apply story_app in H1 as (s0 & o0 & o3 & H0 & H3 & _). cbn [story happen obind fst snd] in H3. apply ok_inj in H3. injection H3 as <- _.
  pose proof (story_said _ _ _ _ H0) as [C _]. cbn [cw ch start] in C. destruct (from_said _ _ _ _ _ C A) as [E1 E2].
  assert (O : on (screen s0 W H) = true). { unfold on, screen. cbn [cw ch]. rewrite E1, E2. apply andb_true_intro. split; apply Z.ltb_lt; lia. }
  assert (G : good W H (screen s0 W H)). { unfold good, screen. cbn. auto. }
  pose proof (inside_story W H es2 _ _ _ N1 N2 G O H2) as F. rewrite Forall_forall in F. specialize (F _ I). cbn [ground_in] in F.
  assert (Sz : rw src = w /\ rh src = h).
  { clear F G. revert H2 O N1 N2 I. assert (K : cw (screen s0 W H) = w /\ ch (screen s0 W H) = h) by (cbn; auto). revert K. generalize (screen s0 W H). clear - Bw Bh.
    revert s o. induction es2 as [|e es IH]; intros s' o s K Hs O N1 N2 I; cbn [story forallb] in *; [apply ok_inj in Hs; injection Hs as <- <-; destruct I|].
    apply andb_prop in N1 as [N1 N1']. apply andb_prop in N2 as [N2 N2'].
    destruct (happen s e) as [[s1 o1]|] eqn:E; cbn [obind fst snd] in Hs; [|discriminate]. destruct (story s1 es) as [[s2 o2]|] eqn:E2; cbn [obind fst snd] in Hs; [|discriminate].
    apply ok_inj in Hs. injection Hs as <- <-. pose proof (happen_said _ _ _ _ E) as [S1 _]. assert (S2 : size_of e = None) by (now destruct e). rewrite S2 in S1. cbn in S1.
    apply in_app_or in I as [I|I].
    - apply happen_ok in E. destruct e; try discriminate.
      + destruct E as (? & ? & _ & _ & -> & _). destruct I.
      + destruct E as [(_ & s3 & _ & -> & _)|(O2 & _)]; [|congruence]. destruct I as [[= <- <-]|[]]. cbn. exact K.
      + destruct E as [(_ & _ & ->)|(_ & _ & ->)]; destruct I as [|[]]; discriminate.
    - eapply IH; [|exact E2| |exact N1'|exact N2'|exact I]; [lia|]. unfold on in *. destruct S1 as [-> ->]. exact O. }
  lia.
Qed.

(** * No camera *)
Definition plain_shot (W H : Z) (d : drawn) : Prop := match d with Ground s t => s = mkR 0 0 W H /\ t = mkR 0 0 W H | Image _ => True end.
Lemma whole_story W H es : forall s s' o, forallb no_size es = true -> forallb no_screen es = true -> dims s = mkR 0 0 W H -> on s = false -> story s es = Ok (s', o) ->
  Forall (plain_shot W H) o.
Proof.
  induction es as [|e es IH]; cbn [story forallb]; intros s s' o N1 N2 G O Hs; [apply ok_inj in Hs; injection Hs as <- <-; constructor|].
  apply andb_prop in N1 as [N1 N1']. apply andb_prop in N2 as [N2 N2'].
  destruct (happen s e) as [[s0 o0]|] eqn:E; cbn [obind fst snd] in Hs; [|discriminate]. destruct (story s0 es) as [[s2 o2]|] eqn:E2; cbn [obind fst snd] in Hs; [|discriminate].
  apply ok_inj in Hs. injection Hs as <- <-. apply happen_ok in E. apply Forall_app.
  assert (X : Forall (plain_shot W H) o0 /\ dims s0 = mkR 0 0 W H /\ on s0 = false); [|destruct X as (X & Y & Z); split; [exact X|exact (IH _ _ _ N1' N2' Y Z E2)]].
  destruct e; try discriminate.
  - destruct E as (x & y & _ & _ & -> & ->). split; [constructor|]. split; [exact G|exact O].
  - destruct E as [(O2 & _)|(_ & -> & ->)]; [congruence|]. split; [|split; [exact G|exact O]]. constructor; [|constructor]. rewrite G. cbn. auto.
  - destruct E as [(O2 & _)|(_ & -> & ->)]; [rewrite O in O2; discriminate|]. split; [constructor; [exact I|constructor]|]. split; [exact G|exact O].
Qed.
Lemma whole_ok es1 es2 W H w h s1 o1 s o : story start (es1 ++ [Screen W H]) = Ok (s1, o1) -> story s1 es2 = Ok (s, o) ->
  forallb no_size es2 = true -> forallb no_screen es2 = true -> said (last_size es1) w h -> w <= 0 \/ h <= 0 ->
  forall src dst, In (Ground src dst) o -> src = mkR 0 0 W H /\ dst = mkR 0 0 W H.
Proof.
  intros H1 H2 N1 N2 A B src dst I. apply story_app in H1 as (s0 & o0 & o3 & H0 & H3 & _). cbn [story happen obind fst snd] in H3. apply ok_inj in H3. injection H3 as <- _.
  pose proof (story_said _ _ _ _ H0) as [C _]. cbn [cw ch start] in C. destruct (from_said _ _ _ _ _ C A) as [E1 E2].
  assert (O : on (screen s0 W H) = false). { unfold on, screen. cbn [cw ch]. rewrite E1, E2. apply andb_false_iff. destruct B; [left|right]; apply Z.ltb_ge; lia. }
  pose proof (whole_story W H es2 (screen s0 W H) s o N1 N2 eq_refl O H2) as F. rewrite Forall_forall in F. exact (F _ I).
Qed.

(** * How fast the camera is *)
Lemma follow_step c size b win p c' : follow c size b win p = Ok c' -> Z.abs (c' - c) <= 1.
Proof.
  unfold follow. intros H. okb H. okb H. okb H. apply ok_inj in H. subst c'. destruct ((_ <? _) && (c <? _)); destruct (_ && (0 <? _)); lia.
Qed.
Lemma look_pace s p s' : look s p = Ok s' -> init s = true -> init s' = true /\ Z.abs (fst (cam s') - fst (cam s)) <= 1 /\ Z.abs (snd (cam s') - snd (cam s)) <= 1.
Proof.
  intros L I. apply look_ok in L as (c & -> & C). cbn [init cam]. split; [reflexivity|]. rewrite I in C. unfold camera in C. okb C. okb C. okb C. apply ok_inj in C. subst c. cbn [fst snd].
  split; eapply follow_step; eassumption.
Qed.
Lemma pace_ok es : forall s s' o, init s = true -> forallb no_screen es = true -> story s es = Ok (s', o) ->
  Z.abs (fst (cam s') - fst (cam s)) <= looks es /\ Z.abs (snd (cam s') - snd (cam s)) <= looks es.
Proof.
  induction es as [|e es IH]; cbn [story forallb]; intros s s' o I N Hs; [apply ok_inj in Hs; injection Hs as <- <-; unfold looks; cbn; lia|].
  apply andb_prop in N as [N N'].
  destruct (happen s e) as [[s0 o0]|] eqn:E; cbn [obind fst snd] in Hs; [|discriminate]. destruct (story s0 es) as [[s2 o2]|] eqn:E2; cbn [obind fst snd] in Hs; [|discriminate].
  apply ok_inj in Hs. injection Hs as <- <-. apply happen_ok in E.
  assert (L0 : 0 <= looks es) by (unfold looks; lia).
  assert (X : init s0 = true /\ (cam s0 = cam s /\ looks es <= looks (e :: es) \/
     Z.abs (fst (cam s0) - fst (cam s)) <= 1 /\ Z.abs (snd (cam s0) - snd (cam s)) <= 1 /\ looks (e :: es) = 1 + looks es)).
  { unfold looks. cbn [filter]. destruct e; try discriminate.
    - destruct E as (w & h & _ & _ & -> & ->). cbn. split; [exact I|left; split; [reflexivity|lia]].
    - destruct E as (w & h & _ & _ & -> & ->). cbn. split; [exact I|left; split; [reflexivity|lia]].
    - destruct E as [(_ & s1 & L & -> & ->)|(_ & -> & ->)].
      + destruct (look_pace _ _ _ L I) as (I1 & P1 & P2). cbn [init cam length]. split; [exact I1|right]. lia.
      + split; [exact I|left]. split; [reflexivity|]. cbn [length]. lia.
    - destruct E as [(O & L & ->)|(O & -> & ->)].
      + destruct (look_pace _ _ _ L I) as (I1 & P1 & P2). apply andb_prop in O as [_ O]. rewrite O. cbn [length]. split; [exact I1|right]. lia.
      + split; [exact I|left]. split; [reflexivity|]. destruct (negb fixed); cbn [length]; lia. }
  destruct X as (I0 & X). destruct (IH _ _ _ I0 N' E2) as [P1 P2]. destruct X as [[X0 X]|(X1 & X2 & X)]; [rewrite X0 in P1, P2|]; lia.
Qed.

(** * Enlarging *)
Lemma zoom_story es : forall s s' o, story s es = Ok (s', o) -> last_corner es = None -> vx s = 0 -> vy s = 0 -> zoom s = true \/ last_size es <> None -> zoom s' = true.
Proof.
  induction es as [|e es IH]; cbn [story last_corner last_size]; intros s s' o H N X Y Z; [apply ok_inj in H; injection H as <- <-; destruct Z; congruence|].
  destruct (happen s e) as [[s0 o0]|] eqn:E; cbn [obind fst snd] in H; [|discriminate]. destruct (story s0 es) as [[s2 o2]|] eqn:E2; cbn [obind fst snd] in H; [|discriminate].
  apply ok_inj in H. injection H as <- <-. destruct (last_corner es) eqn:N2; [discriminate|]. pose proof (happen_said _ _ _ _ E) as [_ C].
  assert (N3 : corner_of e = None) by (now destruct e). rewrite N3 in C. cbn in C. rewrite X, Y in C. destruct C as [C1 C2].
  apply (IH _ _ _ E2 eq_refl C1 C2). destruct (last_size es) eqn:Ls; [right; discriminate|]. left. apply happen_ok in E. destruct e; try discriminate.
  - destruct E as (? & ? & _ & _ & _ & ->). cbn [zoom]. now rewrite X, Y.
  - destruct Z as [Z|Z]; [|congruence]. destruct E as (-> & _). exact Z.
  - destruct Z as [Z|Z]; [|congruence]. destruct E as [(_ & s1 & _ & _ & ->)|(_ & -> & _)]; exact Z.
  - destruct Z as [Z|Z]; [|congruence]. destruct E as [(_ & L & _)|(_ & -> & _)]; [|exact Z]. apply look_ok in L as (c & -> & _). exact Z.
Qed.
Lemma zoom_ok es W H p s o w h a b : story start (es ++ [Screen W H; Back p]) = Ok (s, o) -> last_corner es = None -> last_size es = Some (a, b) ->
  c_int a = Ok w -> c_int b = Ok h -> 0 < w -> 0 < h -> logical s = Some (w, h).
Proof.
  intros Hs N L A B Bw Bh. apply story_app in Hs as (s1 & o1 & o2 & H1 & H2 & _).
  pose proof (zoom_story _ _ _ _ H1 N eq_refl eq_refl ltac:(right; congruence)) as Z.
  pose proof (story_said _ _ _ _ H1) as [C _]. rewrite L in C. cbn [from] in C. destruct C as [C1 C2]. rewrite C1 in A. rewrite C2 in B. apply ok_inj in A. apply ok_inj in B. subst w h.
  cbn [story happen obind fst snd] in H2. unfold background in H2. assert (O : on (screen s1 W H) = true). { unfold on, screen. cbn [cw ch]. apply andb_true_intro. split; now apply Z.ltb_lt. }
  rewrite O in H2. destruct (look (screen s1 W H) p) as [s3|] eqn:E; cbn [obind fst snd] in H2; [|discriminate]. apply ok_inj in H2. injection H2 as <- _. cbn [logical].
  apply look_ok in E as (c & -> & _). cbn. rewrite Z. reflexivity.
Qed.
(** The size of the picture changes only when the first thing of a screen is seen through the camera. *)
Lemma logical_kept es : forall s s' o, init s = true -> forallb no_screen es = true -> story s es = Ok (s', o) -> logical s' = logical s.
Proof.
  induction es as [|e es IH]; cbn [story forallb]; intros s s' o I N Hs; [apply ok_inj in Hs; injection Hs as <- <-; reflexivity|].
  apply andb_prop in N as [N N'].
  destruct (happen s e) as [[s0 o0]|] eqn:E; cbn [obind fst snd] in Hs; [|discriminate]. destruct (story s0 es) as [[s2 o2]|] eqn:E2; cbn [obind fst snd] in Hs; [|discriminate].
  apply ok_inj in Hs. injection Hs as <- <-. apply happen_ok in E.
  assert (X : init s0 = true /\ logical s0 = logical s).
  { destruct e; try discriminate.
    - destruct E as (? & ? & _ & _ & _ & ->). auto.
    - destruct E as (? & ? & _ & _ & _ & ->). auto.
    - destruct E as [(_ & s1 & L & -> & ->)|(_ & -> & ->)]; [|auto]. apply look_ok in L as (c & -> & _). cbn. now rewrite I.
    - destruct E as [(_ & L & ->)|(_ & -> & ->)]; [|auto]. apply look_ok in L as (c & -> & _). cbn. now rewrite I. }
  destruct X as [X1 X2]. rewrite <- X2. eapply IH; eassumption.
Qed.

(** * The player is found *)
Lemma cameras_story p n : forall s c, on s = true -> init s = true -> cameras n (cam s) (cw s) (ch s) (ww s) (wh s) (fst p) (snd p) = Ok c ->
  exists s' o, story s (repeat (Back p) n) = Ok (s', o) /\ cam s' = c.
Proof.
  induction n as [|n IH]; intros s c O I H; cbn [cameras repeat story] in *; [apply ok_inj in H; subst; eauto|].
  destruct (camera _ _ _ _ _ _ _ _) as [c1|] eqn:E; cbn [obind] in H; [|discriminate]. cbn [happen]. unfold background. rewrite O. unfold look. rewrite I, E. cbn [obind fst snd cw ch vx vy zoom cam init logical ww wh].
  match goal with |- context [story ?t _] => destruct (IH t c) as (s' & o & -> & C) end; cbn [cw ch cam init ww wh]; [exact O|reflexivity|exact H|]. cbn [obind fst snd]. eauto.
Qed.
Lemma found_story s p : on s = true -> init s = true -> cw s <= ww s -> ch s <= wh s -> 3 * cw s <= 5 * ch s -> ww s <= 2147483647 -> wh s <= 2147483647 ->
  0 <= fst (cam s) <= ww s - cw s -> 0 <= snd (cam s) <= wh s - ch s ->
  exists b n c, 0 <= b /\ 3 * cw s - 10 <= 10 * b <= 3 * cw s /\
    (forall m, (n <= m)%nat -> exists s' o, story s (repeat (Back p) m) = Ok (s', o) /\ cam s' = c) /\
    (in_view (fst c) (cw s) b (fst p) \/ (fst p < fst c + b /\ fst c = 0) \/ (fst c + cw s - b < fst p /\ fst c = ww s - cw s)) /\
    (in_view (snd c) (ch s) b (snd p) \/ (snd p < snd c + b /\ snd c = 0) \/ (snd c + ch s - b < snd p /\ snd c = wh s - ch s)).
Proof.
  intros O I A B C D E F G. assert (P : 0 < cw s /\ 0 < ch s) by (unfold on in O; apply andb_prop in O as [P Q]; split; apply Z.ltb_lt; assumption).
  destruct (found_ok (cam s) (cw s) (ch s) (ww s) (wh s) (fst p) (snd p)) as (b & n & c & B0 & B1 & M & V1 & V2); try lia.
  exists b, n, c. split; [exact B0|]. split; [exact B1|]. split; [|split; [exact V1|exact V2]]. intros m Hm. apply cameras_story; auto.
Qed.
