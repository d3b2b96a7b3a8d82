(** Proofs about the text, the number and the week of a moment. *)
From Coq Require Import QArith Lia String.
From Verif Require Import Common Txt NumModel FloatSpec NumSpec NumProofs NumFacts TextModel TextSpec TextProofs JsonModel ClockModel ClockSpec ClockProofs.
From Verif Require Import DateDicts DateSpec DateModel.
Local Open Scope Z_scope.
Local Notation length := List.length.
Local Notation "'tx' s" := (lit s%string) (at level 8, s at level 0).

Lemma two_ok n : 0 <= n < 100 -> exists a b, two n = [a; b] /\ digit a /\ digit b /\ 10 * (Z.of_N a - 48) + (Z.of_N b - 48) = n.
Proof.
  intros H. destruct (dec_fix_spec 2 (Z.to_N n) []) as (ds & E & L & D & V); [change (10 ^ N.of_nat 2)%N with 100%N; lia|].
  destruct ds as [|a [|b [|]]]; try discriminate. exists a, b. unfold two. rewrite E. split; [reflexivity|].
  inversion D as [|? ? A D1]; subst. inversion D1 as [|? ? B D2]; subst. split; [exact A|]. split; [exact B|].
  unfold dvalue in V. cbn [fold_left] in V. lia.
Qed.

(** Formats whose conversions are known. *)
Definition known (c : N) : bool := existsb (N.eqb c) [109; 100; 72; 73; 77; 83]%N.
Fixpoint format_ok (fmt : text) : bool :=
  match fmt with
  | [] => true
  | c :: r => if (c =? 37)%N then match r with [] => false | k :: r' => (known k || (k =? 89)%N || (k =? 112)%N) && format_ok r' end else format_ok r
  end.
Fixpoint room (fmt : text) : nat :=
  match fmt with
  | [] => 0
  | c :: r => if (c =? 37)%N then match r with [] => 0 | k :: r' => (if (k =? 89)%N then 14 else 2) + room r' end else S (room r)
  end.
Lemma known_conv ypad f wd yd k : known k = true -> exists n, counted f k = Some n /\ conversion ypad f wd yd k = Some (two n).
Proof.
  unfold known. intros H. apply existsb_exists in H. destruct H as (x & I & E). apply N.eqb_eq in E. subst x.
  repeat (destruct I as [<-|I]; [unfold counted, conversion; cbn [N.eqb Pos.eqb]; eexists; split; [reflexivity|]; try reflexivity|]); [|destruct I].
  do 2 f_equal. destruct (Z.ltb_spec 12 (tm_hour f)); destruct (Z.eqb_spec (tm_hour f) 0); destruct (Z.leb_spec (tm_hour f) 12); try lia; try reflexivity;
    destruct (Z.eqb_spec (tm_hour f - 12) 0); try lia; reflexivity.
Qed.
Lemma counted_small f k n : valid f -> counted f k = Some n -> 0 <= n < 100.
Proof.
  intros ((M & M') & (D & D') & (H & H') & (I & I') & (S & S')) E. pose proof (days_pos (leap (tm_year f + 1900)) (tm_mon f) (conj M M')).
  unfold counted in E. repeat (match type of E with context [if ?b then _ else _] => destruct b eqn:? end; try (injection E as <-; lia)). discriminate.
Qed.
Lemma year_text_ok ypad y : ypad_ok ypad -> Z.abs y < 10 ^ 10 -> exists ds, year_text ypad y = sgn (y <? 0) ++ ds /\ ds <> [] /\ digits ds /\
  dvalue ds = Z.abs y /\ (hd 48%N ds <> 48%N \/ (length ds <= 4)%nat) /\ (length ds <= 13)%nat.
Proof.
  intros P B. exists (repeat 48%N (ypad y) ++ dec (Z.to_N (Z.abs y))). split; [reflexivity|].
  destruct (dec_spec (Z.to_N (Z.abs y))) as (NE & D & T & V).
  assert (DR : forall k, digits (repeat 48%N k)) by (induction k; constructor; [unfold digit; lia|auto]).
  split; [destruct (ypad y); [exact NE|discriminate]|]. split; [apply digits_app; auto|].
  split.
  { rewrite dvalue_concat, dvalue_zeros, V. rewrite Z2N.id by lia. lia. }
  destruct (P y) as [->|(L & B2)].
  - cbn [repeat app]. split; [|pose proof (dec_len (Z.to_N (Z.abs y)) 10 ltac:(lia) ltac:(rewrite Z2N.id by lia; exact B)); lia].
    destruct T as [T|T]; [right; rewrite T; cbn; lia|left; exact T].
  - pose proof (dec_len (Z.to_N (Z.abs y)) (4 - ypad y) ltac:(lia)) as LD. rewrite Z2N.id in LD by lia.
    rewrite Nat2Z.inj_sub in LD by lia. specialize (LD B2). rewrite app_length, repeat_length. split; [right|]; lia.
Qed.
Lemma expand_shows ypad f wd yd fmt : ypad_ok ypad -> valid f -> Z.abs (tm_year f + 1900) < 10 ^ 10 -> forall n, (length fmt <= n)%nat -> format_ok fmt = true ->
  exists s, expand ypad f wd yd fmt = Ok s /\ shows f fmt s /\ (length s <= room fmt)%nat.
Proof.
  intros P V B n. revert fmt. induction n as [|n IH]; intros fmt L OK.
  { destruct fmt; [|cbn in L; lia]. exists []. split; [reflexivity|]. split; [constructor|auto]. }
  destruct fmt as [|c r]; [exists []; split; [reflexivity|split; [constructor|auto]]|].
  cbn [format_ok expand room] in *. destruct (N.eqb_spec c 37) as [->|NC].
  - destruct r as [|k r]; [discriminate|]. apply andb_true_iff in OK. destruct OK as (K & OK).
    destruct (IH r) as (s & E & SH & LS); [cbn [length] in L; lia|exact OK|]. rewrite E.
    destruct (N.eqb_spec k 89) as [->|N1].
    + cbn [conversion N.eqb Pos.eqb]. destruct (year_text_ok ypad (tm_year f + 1900) P B) as (ds & EY & NE & D & DV & T & LD).
      rewrite EY. cbn [obind]. rewrite <- app_assoc. exists (sgn (tm_year f + 1900 <? 0) ++ ds ++ s). split; [reflexivity|].
      split; [constructor; auto|]. rewrite !app_length. assert ((length (sgn (tm_year f + 1900 <? 0)%Z) <= 1)%nat) by (destruct (tm_year f + 1900 <? 0)%Z; cbn; lia). lia.
    + destruct (N.eqb_spec k 112) as [->|N2].
      * cbn [conversion N.eqb Pos.eqb obind]. exists ((if tm_hour f <? 12 then [65%N; 77%N] else [80%N; 77%N]) ++ s).
        split; [do 2 f_equal; destruct (Z.ltb_spec 11 (tm_hour f)), (Z.ltb_spec (tm_hour f) 12); try lia; reflexivity|].
        split; [constructor; auto|]. rewrite app_length. destruct (tm_hour f <? 12); cbn; lia.
      * rewrite !orb_false_r in K. destruct (known_conv ypad f wd yd k K) as (m & CM & CV). rewrite CV. cbn [obind].
        destruct (two_ok m (counted_small f k m V CM)) as (a & b & T & DA & DB & VV). rewrite T. cbn [app].
        exists (a :: b :: s). split; [reflexivity|]. split; [econstructor; eauto|cbn [length]; lia].
  - destruct (IH r) as (s & E & SH & LS); [cbn [length] in L; lia|exact OK|]. rewrite E. cbn [obind].
    exists (c :: s). split; [reflexivity|]. split; [constructor; auto|cbn [length]; lia].
Qed.

(** * What is shown tells the parts *)
Definition ends (fmt : text) : bool := match fmt with [] => true | c :: _ => negb ((48 <=? c) && (c <=? 57) || (c =? 37))%N end.
(** A year is followed by something else than a digit. *)
Fixpoint readable (fmt : text) : bool :=
  match fmt with
  | [] => true
  | c :: r => if (c =? 37)%N then match r with [] => false | k :: r' => (if (k =? 89)%N then ends r' else known k || (k =? 112)%N) && readable r' end else readable r
  end.
Fixpoint mentions (k : N) (fmt : text) : bool :=
  match fmt with
  | [] => false
  | c :: r => if (c =? 37)%N then match r with [] => false | k' :: r' => (k' =? k)%N || mentions k r' end else mentions k r
  end.
Definition starts_other (s : text) : Prop := match s with [] => True | c :: _ => ~ digit c end.
Lemma shows_ends f fmt s : ends fmt = true -> shows f fmt s -> starts_other s.
Proof.
  intros E H. destruct H as [|c r s NC H|c n a b r s C A B V H|ds r s|r s H]; try exact I; cbn in *.
  - intros (L1 & L2). apply negb_true_iff, orb_false_iff in E. destruct E as (E & _). apply andb_false_iff in E.
    destruct E as [E|E]; apply N.leb_gt in E; lia.
  - discriminate.
  - discriminate.
  - discriminate.
Qed.
Lemma split_digits a : forall b s t, digits a -> digits b -> starts_other s -> starts_other t -> a ++ s = b ++ t -> a = b /\ s = t.
Proof.
  induction a as [|x a IH]; intros b s t A B S T E.
  - destruct b as [|y b]; [auto|]. cbn in E. subst s. inversion B; subst. exfalso. now apply S.
  - inversion A as [|? ? X A']; subst. destruct b as [|y b].
    + cbn in E. subst t. exfalso. now apply T.
    + cbn in E. injection E as <- E. inversion B; subst. destruct (IH b s t) as (-> & ->); auto.
Qed.
Lemma sign_split n1 n2 a b s t : a <> [] -> b <> [] -> digits a -> digits b -> sgn n1 ++ a ++ s = sgn n2 ++ b ++ t -> n1 = n2 /\ a ++ s = b ++ t.
Proof.
  intros A B DA DB E. destruct a as [|x a]; [congruence|]. destruct b as [|y b]; [congruence|]. inversion DA as [|? ? X _]; subst. inversion DB as [|? ? Y _]; subst.
  unfold digit in *. destruct n1, n2; cbn [app sgn] in *; try (split; [reflexivity|]; congruence); exfalso.
  - injection E as E _. subst y. lia.
  - injection E as E _. subst x. lia.
Qed.
Lemma shows_inj f g fmt : forall n s, (length fmt <= n)%nat -> readable fmt = true -> shows f fmt s -> shows g fmt s ->
  (mentions 89 fmt = true -> tm_year f = tm_year g) /\
  (forall k, mentions k fmt = true -> known k = true -> counted f k = counted g k) /\
  (mentions 112 fmt = true -> (tm_hour f <? 12) = (tm_hour g <? 12)).
Proof.
  intros n. revert fmt. induction n as [|n IH]; intros fmt s L R F G.
  { destruct fmt; [|cbn in L; lia]. repeat split; discriminate. }
  destruct F as [|c r s NC F|c m a b r s C A B V F|ds r s NE D DV T F|r s F].
  - repeat split; discriminate.
  - inversion G; subst; try congruence. cbn [readable mentions] in *. rewrite (proj2 (N.eqb_neq c 37) NC) in *. apply (IH r s); auto. cbn in L; lia.
  - cbn [readable mentions N.eqb Pos.eqb] in *. inversion G as [|? ? ? NC2|? m2 ? ? ? ? C2 A2 B2 V2 G2| |]; subst; try congruence.
    + apply andb_true_iff in R. destruct R as (K & R). destruct (IH r s) as (I1 & I2 & I3); auto; [cbn in L; lia|].
      assert (CN : c <> 89%N /\ c <> 112%N).
      { split; intros ->; cbn in C; discriminate. }
      destruct CN as (N1 & N2). rewrite (proj2 (N.eqb_neq c 89) N1), (proj2 (N.eqb_neq c 112) N2). cbn [orb].
      split; [exact I1|]. split; [|exact I3]. intros k M KK. apply orb_true_iff in M. destruct M as [M|M]; [|auto].
      apply N.eqb_eq in M. subst k. congruence.
    + cbn in C. discriminate.
    + cbn in C. discriminate.
  - cbn [readable mentions N.eqb Pos.eqb orb] in *. apply andb_true_iff in R. destruct R as (EN & R).
    inversion G as [|? ? ? NC2|? m2 ? ? ? ? C2|ds2 ? s2 NE2 D2 DV2 T2 G2|]; subst; try congruence; [cbn in C2; discriminate|].
    match goal with H : _ ++ _ = _ ++ _ |- _ => apply sign_split in H; auto; destruct H as (SG & E) end.
    apply split_digits in E; auto; [|eapply shows_ends; eauto|eapply shows_ends; eauto]. destruct E as (-> & ->).
    destruct (IH r s) as (I1 & I2 & I3); auto; [cbn in L; lia|]. split.
    + intros _. rewrite DV in DV2. destruct (Z.ltb_spec (tm_year f + 1900) 0), (Z.ltb_spec (tm_year g + 1900) 0); try discriminate; lia.
    + split; [intros k M KK|exact I3]. destruct (N.eqb_spec 89 k) as [<-|E]; [discriminate|].
      assert (M' : (89 =? k)%N || mentions k r = true) by exact M. rewrite (proj2 (N.eqb_neq 89 k) E) in M'. apply I2; auto.
  - cbn [readable mentions N.eqb Pos.eqb orb] in *. 
    inversion G as [|? ? ? NC2|? m2 ? ? ? ? C2| |? s2 G2]; subst; try congruence; [cbn in C2; discriminate|].
    assert (H12 : (tm_hour f <? 12) = (tm_hour g <? 12) /\ s = s2).
    { destruct (tm_hour f <? 12), (tm_hour g <? 12); cbn in *; try (split; [reflexivity|]; congruence); discriminate. }
    destruct H12 as (H12 & <-). destruct (IH r s) as (I1 & I2 & I3); auto; [cbn in L; lia|]. split; [exact I1|]. split; [|auto].
    intros k M KK. destruct (N.eqb_spec 112 k) as [<-|E]; [discriminate|].
    assert (M' : (112 =? k)%N || mentions k r = true) by exact M. rewrite (proj2 (N.eqb_neq 112 k) E) in M'. apply I2; auto.
Qed.

Definition complete (fmt : text) : bool :=
  format_ok fmt && readable fmt && mentions 89 fmt && mentions 109 fmt && mentions 100 fmt && (mentions 72 fmt || mentions 73 fmt && mentions 112 fmt) && mentions 77 fmt && mentions 83 fmt && (room fmt <? 40)%nat.
Lemma all_complete lang fmt w : In (lang, (fmt, w)) date_words -> complete fmt = true.
Proof.
  assert (H : forallb (fun p => complete (fst (snd p))) date_words = true) by (vm_compute; reflexivity).
  rewrite forallb_forall in H. intros I. exact (H _ I).
Qed.
Lemma complete_inj f g fmt s : valid f -> valid g -> complete fmt = true -> shows f fmt s -> shows g fmt s -> f = g.
Proof.
  intros VF VG C F G. unfold complete in C. do 8 (apply andb_true_iff in C; destruct C as (C & ?)).
  destruct (shows_inj f g fmt (length fmt) s) as (I1 & I2 & I3); auto.
  assert (Y := I1 ltac:(assumption)). assert (M := I2 109%N ltac:(assumption) eq_refl). assert (D := I2 100%N ltac:(assumption) eq_refl).
  assert (MI := I2 77%N ltac:(assumption) eq_refl). assert (SE := I2 83%N ltac:(assumption) eq_refl).
  unfold counted in M, D, MI, SE. cbn [N.eqb Pos.eqb] in *. injection M as M. injection D as D. injection MI as MI. injection SE as SE.
  assert (H' : tm_hour f = tm_hour g).
  { match goal with H : _ || _ = true |- _ => apply orb_true_iff in H; destruct H as [H|H] end.
    - assert (HH := I2 72%N ltac:(assumption) eq_refl). unfold counted in HH. cbn [N.eqb Pos.eqb] in HH. congruence.
    - match goal with H : _ && _ = true |- _ => apply andb_true_iff in H; destruct H as (HA & HB) end.
      assert (HH := I2 73%N HA eq_refl). specialize (I3 HB). unfold counted in HH. cbn [N.eqb Pos.eqb] in HH.
      destruct VF as (_ & _ & HF & _), VG as (_ & _ & HG & _). injection HH as HH. clear - HF HG HH I3.
      destruct (Z.eqb_spec (tm_hour f) 0), (Z.eqb_spec (tm_hour g) 0), (Z.leb_spec (tm_hour f) 12), (Z.leb_spec (tm_hour g) 12),
        (Z.ltb_spec (tm_hour f) 12), (Z.ltb_spec (tm_hour g) 12); try discriminate; lia. }
  destruct f, g. cbn in *. f_equal; try assumption. clear - M. lia.
Qed.

(** * The text of a moment *)
Lemma reach_year z t : zone_ok z -> in_reach t -> Z.abs (tm_year (fields (local z t)) + 1900) < 10 ^ 10.
Proof.
  intros Z R. pose proof (localtime_near z t Z R) as L. unfold localtime in L.
  destruct (in_int (tm_year (fields (local z t)))) eqn:E; [|discriminate]. apply in_int_iff in E. change (10 ^ 10) with 10000000000. lia.
Qed.
Lemma to_string_expand zones ypad fmt c t : ypad_ok ypad -> zone_ok (zones (cstring (c_zone c))) -> at_second c t -> in_reach t -> complete fmt = true ->
  exists s, clock_to_string zones ypad fmt c = Ok s /\ shows (fields (local (zones (cstring (c_zone c))) t)) fmt s.
Proof.
  intros P Z (F & A) R C. unfold clock_to_string. rewrite (c_int64_trunc _ t F A R). cbn [obind].
  rewrite localtime_near by auto. unfold strftime.
  pose proof C as C'. unfold complete in C'. do 8 (apply andb_true_iff in C'; destruct C' as (C' & ?)).
  destruct (expand_shows ypad (fields (local (zones (cstring (c_zone c))) t)) (wday (local (zones (cstring (c_zone c))) t)) (yday (local (zones (cstring (c_zone c))) t)) fmt)
    with (n := length fmt) as (s & E & SH & L); auto using fields_valid, reach_year.
  rewrite E. cbn [obind]. match goal with H : (room fmt <? 40)%nat = true |- _ => apply Nat.ltb_lt in H; pose proof (Nat.le_lt_trans _ _ _ L H) as LL end.
  rewrite (proj2 (Nat.ltb_lt (length s) 40) LL). eauto.
Qed.
Lemma to_string_ok zones ypad lang fmt w c t : In (lang, (fmt, w)) date_words -> ypad_ok ypad -> zone_ok (zones (cstring (c_zone c))) -> at_second c t -> in_reach t ->
  exists s, clock_to_string zones ypad fmt c = Ok s /\ shows (fields (local (zones (cstring (c_zone c))) t)) fmt s.
Proof. intros I. eauto using to_string_expand, all_complete. Qed.
Lemma to_string_inj zones ypad lang fmt w c1 c2 t1 t2 s1 s2 : In (lang, (fmt, w)) date_words -> ypad_ok ypad ->
  zone_ok (zones (cstring (c_zone c1))) -> zone_ok (zones (cstring (c_zone c2))) -> at_second c1 t1 -> at_second c2 t2 -> in_reach t1 -> in_reach t2 ->
  clock_to_string zones ypad fmt c1 = Ok s1 -> clock_to_string zones ypad fmt c2 = Ok s2 ->
  (s1 = s2 <-> local (zones (cstring (c_zone c1))) t1 = local (zones (cstring (c_zone c2))) t2).
Proof.
  intros I P Z1 Z2 A1 A2 R1 R2 E1 E2. pose proof (all_complete _ _ _ I) as C. split.
  - intros <-. destruct (to_string_expand zones ypad fmt c1 t1) as (u1 & F1 & S1); auto. destruct (to_string_expand zones ypad fmt c2 t2) as (u2 & F2 & S2); auto.
    assert (u1 = s1) by congruence. assert (u2 = s1) by congruence. subst u1 u2.
    rewrite <- (secs_fields (local (zones (cstring (c_zone c1))) t1)), <- (secs_fields (local (zones (cstring (c_zone c2))) t2)).
    f_equal. eapply complete_inj; eauto using fields_valid.
  - intros E. revert E1 E2. unfold clock_to_string. destruct A1 as (F1 & A1), A2 as (F2 & A2).
    rewrite (c_int64_trunc _ t1 F1 A1 R1), (c_int64_trunc _ t2 F2 A2 R2). cbn [obind]. rewrite !localtime_near by auto. rewrite E. congruence.
Qed.

(** * Order *)
Definition ymd : text := tx "%Y-%m-%d %H:%M:%S".
Definition stamp (f : tm) : text :=
  dec (Z.to_N (tm_year f + 1900)) ++ [45%N] ++ two (tm_mon f + 1) ++ [45%N] ++ two (tm_mday f) ++ [32%N] ++ two (tm_hour f) ++ [58%N] ++ two (tm_min f) ++ [58%N] ++ two (tm_sec f).
Lemma ymd_stamp ypad f wd yd : (forall y, 1000 <= y <= 9999 -> ypad y = 0%nat) -> 1000 <= tm_year f + 1900 <= 9999 -> expand ypad f wd yd ymd = Ok (stamp f).
Proof.
  intros P Y. change ymd with [37; 89; 45; 37; 109; 45; 37; 100; 32; 37; 72; 58; 37; 77; 58; 37; 83]%N.
  unfold stamp. cbn [expand N.eqb Pos.eqb]. unfold conversion. cbn [N.eqb Pos.eqb obind]. unfold year_text. rewrite P by lia.
  rewrite (proj2 (Z.ltb_ge (tm_year f + 1900) 0)) by lia. cbn [sgn repeat app]. rewrite Z.abs_eq by lia. rewrite app_nil_r. reflexivity.
Qed.
Lemma lex_same p : forall a b, lex (p ++ a) (p ++ b) = lex a b.
Proof. induction p as [|x p IH]; intros a b; [reflexivity|]. cbn. rewrite N.compare_refl. apply IH. Qed.
Lemma lex_front a : forall b s t, length a = length b -> lex a b = Lt -> lex (a ++ s) (b ++ t) = Lt.
Proof.
  induction a as [|x a IH]; intros [|y b] s t L E; try discriminate. cbn in *. destruct (N.compare x y); auto; discriminate.
Qed.
Lemma lex_trans a : forall b c, lex a b = Lt -> lex b c = Lt -> lex a c = Lt.
Proof.
  induction a as [|x a IH]; intros [|y b] [|z c] E F; try discriminate; auto. cbn in *.
  destruct (N.compare_spec x y) as [->|X|X]; try discriminate.
  - destruct (N.compare y z); eauto; discriminate.
  - destruct (N.compare_spec y z) as [->|Y|Y]; try discriminate; rewrite (proj2 (N.compare_lt_iff x _)) by lia; reflexivity.
Qed.
Lemma lex_refl a : lex a a = Eq.
Proof. induction a as [|x a IH]; [reflexivity|]. cbn. now rewrite N.compare_refl. Qed.
Lemma lex_swap a : forall b, lex a b = Lt -> lex b a = Gt.
Proof.
  induction a as [|x a IH]; intros [|y b] E; try discriminate; auto. cbn in *.
  rewrite N.compare_antisym. destruct (N.compare x y); cbn; auto; discriminate.
Qed.
Lemma digits_lex a : forall b, length a = length b -> digits a -> digits b -> dvalue a < dvalue b -> lex a b = Lt.
Proof.
  induction a as [|x a IH]; intros [|y b] L A B V; try discriminate.
  change (x :: a) with ([x] ++ a) in V. change (y :: b) with ([y] ++ b) in V. rewrite !dvalue_concat in V.
  inversion A as [|? ? X A']; subst. inversion B as [|? ? Y B']; subst. cbn in L. injection L as L. rewrite L in V.
  pose proof (dvalue_bound a A'). pose proof (dvalue_bound b B'). rewrite L in *. unfold dvalue in V at 1 3. cbn [fold_left] in V.
  cbn [lex]. destruct (N.compare_spec x y) as [->|Q|Q]; [apply IH; auto; lia|reflexivity|exfalso]. unfold digit in *.
  assert (Z.of_N y + 1 <= Z.of_N x) by lia. nia.
Qed.
Lemma two_digits n : 0 <= n < 100 -> length (two n) = 2%nat /\ digits (two n) /\ dvalue (two n) = n.
Proof.
  intros H. destruct (two_ok n H) as (a & b & E & A & B & V). rewrite E. split; [reflexivity|]. split; [constructor; [exact A|constructor; [exact B|constructor]]|].
  change (10 * (10 * 0 + (Z.of_N a - 48)) + (Z.of_N b - 48) = n). clear - V. lia.
Qed.
Lemma two_lex m n : 0 <= m < n -> n < 100 -> lex (two m) (two n) = Lt.
Proof.
  intros H L. destruct (two_digits m) as (L1 & D1 & V1); [lia|]. destruct (two_digits n) as (L2 & D2 & V2); [lia|].
  apply digits_lex; [congruence|exact D1|exact D2|lia].
Qed.
Lemma two_same m n : 0 <= m < 100 -> 0 <= n < 100 -> length (two m) = length (two n).
Proof. intros A B. rewrite (proj1 (two_digits m A)), (proj1 (two_digits n B)). reflexivity. Qed.
Lemma year4 y : 1000 <= y <= 9999 -> length (dec (Z.to_N y)) = 4%nat /\ digits (dec (Z.to_N y)) /\ dvalue (dec (Z.to_N y)) = y.
Proof.
  intros H. destruct (dec_spec (Z.to_N y)) as (NE & D & T & V). rewrite Z2N.id in V by lia. split; [|auto].
  pose proof (dec_len (Z.to_N y) 4 ltac:(lia) ltac:(rewrite Z2N.id by lia; change (10 ^ Z.of_nat 4) with 10000; lia)) as U.
  pose proof (dvalue_bound _ D) as B. rewrite V in B.
  destruct (length (dec (Z.to_N y))) as [|[|[|[|[|]]]]]; try lia; cbn in B; lia.
Qed.
Lemma year_lex y z : 1000 <= y < z -> z <= 9999 -> lex (dec (Z.to_N y)) (dec (Z.to_N z)) = Lt.
Proof.
  intros H L. destruct (year4 y) as (L1 & D1 & V1); [lia|]. destruct (year4 z) as (L2 & D2 & V2); [lia|]. apply digits_lex; [congruence|exact D1|exact D2|lia].
Qed.
Lemma stamp_next f : valid f -> 1000 <= tm_year f + 1900 -> tm_year (next_second f) + 1900 <= 9999 -> lex (stamp f) (stamp (next_second f)) = Lt.
Proof.
  intros ((M & M') & (D & D') & (H & H') & (I & I') & (S & S')) Y Y'. pose proof (days_pos (leap (tm_year f + 1900)) (tm_mon f) (conj M M')) as DP.
  destruct f as [y mo d h mi s]. cbn [tm_year tm_mon tm_mday tm_hour tm_min tm_sec] in *.
  unfold next_second in *. unfold stamp.
  destruct (Z.ltb_spec s 59); [|destruct (Z.ltb_spec mi 59); [|destruct (Z.ltb_spec h 23); [|destruct (Z.ltb_spec d (month_days (leap (y + 1900)) mo)); [|destruct (Z.ltb_spec mo 11)]]]];
    cbn [tm_year tm_mon tm_mday tm_hour tm_min tm_sec] in *; rewrite ?lex_same.
  - apply two_lex; lia.
  - apply lex_front; [apply two_same; lia|apply two_lex; lia].
  - apply lex_front; [apply two_same; lia|apply two_lex; lia].
  - apply lex_front; [apply two_same; lia|apply two_lex; lia].
  - apply lex_front; [apply two_same; lia|apply two_lex; lia].
  - apply lex_front; [|apply year_lex; lia]. rewrite (proj1 (year4 (y + 1900) ltac:(lia))), (proj1 (year4 (y + 1 + 1900) ltac:(lia))). reflexivity.
Qed.
Lemma year_next f : tm_year f <= tm_year (next_second f).
Proof. destruct f. unfold next_second. repeat (destruct (_ <? _); [cbn; lia|]). cbn. lia. Qed.
Lemma year_mono s k : tm_year (fields s) <= tm_year (fields (s + Z.of_nat k)).
Proof.
  induction k as [|k IH]; [rewrite Z.add_0_r; lia|]. replace (s + Z.of_nat (S k)) with (s + Z.of_nat k + 1) by lia.
  rewrite calendar_next. pose proof (year_next (fields (s + Z.of_nat k))). lia.
Qed.
Lemma stamp_mono s k : 1000 <= tm_year (fields s) + 1900 -> tm_year (fields (s + 1 + Z.of_nat k)) + 1900 <= 9999 ->
  lex (stamp (fields s)) (stamp (fields (s + 1 + Z.of_nat k))) = Lt.
Proof.
  intros L. induction k as [|k IH]; intros U.
  - rewrite Z.add_0_r in *. rewrite calendar_next in *. apply stamp_next; auto using fields_valid.
  - replace (s + 1 + Z.of_nat (S k)) with (s + 1 + Z.of_nat k + 1) in * by lia. rewrite calendar_next in *.
    pose proof (year_next (fields (s + 1 + Z.of_nat k))). pose proof (year_mono s (S k)) as Q.
    replace (s + Z.of_nat (S k)) with (s + 1 + Z.of_nat k) in Q by lia.
    eapply lex_trans; [apply IH; lia|]. apply stamp_next; auto using fields_valid; lia.
Qed.
Lemma stamp_order a b : 1000 <= tm_year (fields a) + 1900 <= 9999 -> 1000 <= tm_year (fields b) + 1900 <= 9999 -> lex (stamp (fields a)) (stamp (fields b)) = Z.compare a b.
Proof.
  intros A B. destruct (Z.compare_spec a b) as [->|L|L].
  - apply lex_refl.
  - pose proof (stamp_mono a (Z.to_nat (b - a - 1))) as M. replace (a + 1 + Z.of_nat (Z.to_nat (b - a - 1))) with b in M by lia. apply M; lia.
  - apply lex_swap. pose proof (stamp_mono b (Z.to_nat (a - b - 1))) as M. replace (b + 1 + Z.of_nat (Z.to_nat (a - b - 1))) with a in M by lia. apply M; lia.
Qed.
Lemma stamp_plain f : valid f -> 1000 <= tm_year f + 1900 <= 9999 -> no_nul (stamp f) /\ length (stamp f) = 19%nat.
Proof.
  intros V Y. destruct (year4 _ Y) as (LY & DY & _).
  assert (T : forall n, 0 <= n < 100 -> no_nul (two n) /\ length (two n) = 2%nat).
  { intros n H. destruct (two_digits n H) as (L & D & _). split; [|exact L]. eapply Forall_impl; [|exact D]. unfold digit. intros; lia. }
  destruct V as ((M & M') & (D & D') & (H & H') & (I & I') & (S & S')). pose proof (days_pos (leap (tm_year f + 1900)) (tm_mon f) (conj M M')) as DP.
  unfold stamp. destruct (T (tm_mon f + 1)) as (N1 & L1); [lia|]. destruct (T (tm_mday f)) as (N2 & L2); [lia|]. destruct (T (tm_hour f)) as (N3 & L3); [lia|].
  destruct (T (tm_min f)) as (N4 & L4); [lia|]. destruct (T (tm_sec f)) as (N5 & L5); [lia|].
  split; [|rewrite !app_length, LY, L1, L2, L3, L4, L5; reflexivity].
  unfold no_nul in *. rewrite !Forall_app. repeat split; auto; try (repeat constructor; discriminate).
  eapply Forall_impl; [|exact DY]. unfold digit. intros; lia.
Qed.
Lemma order_ok zones ypad c1 c2 t1 t2 : (forall y, 1000 <= y <= 9999 -> ypad y = 0%nat) ->
  zone_ok (zones (cstring (c_zone c1))) -> zone_ok (zones (cstring (c_zone c2))) -> at_second c1 t1 -> at_second c2 t2 -> in_reach t1 -> in_reach t2 ->
  let l1 := local (zones (cstring (c_zone c1))) t1 in let l2 := local (zones (cstring (c_zone c2))) t2 in
  1000 <= tm_year (fields l1) + 1900 <= 9999 -> 1000 <= tm_year (fields l2) + 1900 <= 9999 ->
  exists s1 s2, clock_to_string zones ypad ymd c1 = Ok s1 /\ clock_to_string zones ypad ymd c2 = Ok s2 /\
    string_before (build_string s1) (build_string s2) = Ok (l1 <? l2) /\ string_after (build_string s1) (build_string s2) = Ok (l2 <? l1).
Proof.
  intros P Z1 Z2 (F1 & A1) (F2 & A2) R1 R2 l1 l2 Y1 Y2. exists (stamp (fields l1)), (stamp (fields l2)). unfold clock_to_string.
  rewrite (c_int64_trunc _ t1 F1 A1 R1), (c_int64_trunc _ t2 F2 A2 R2). cbn [obind]. rewrite !localtime_near by auto. unfold strftime.
  fold l1 l2. rewrite !ymd_stamp by auto. cbn [obind].
  destruct (stamp_plain (fields l1) (fields_valid l1) Y1) as (N1 & L1). destruct (stamp_plain (fields l2) (fields_valid l2) Y2) as (N2 & L2).
  rewrite L1, L2. split; [reflexivity|]. split; [reflexivity|].
  destruct (compare_derived (build_string (stamp (fields l1))) (build_string (stamp (fields l2)))) as (r & E & B & A & _). rewrite B, A.
  destruct (compare_same_length (build_string (stamp (fields l1))) (build_string (stamp (fields l2)))) as (r' & E' & S); [exact N1|cbn [tval build_string]; congruence|].
  assert (r' = r) by congruence. subst r'. cbn [tval build_string] in S. rewrite stamp_order in S by auto.
  destruct (Z.compare_spec l1 l2) as [Q|Q|Q]; cbn in S; split; f_equal; destruct (Z.ltb_spec r 0), (Z.ltb_spec 0 r), (Z.ltb_spec l1 l2), (Z.ltb_spec l2 l1); try reflexivity; try lia.
Qed.

(** * Weeks *)
Lemma count_multiples a : forall n, Z.of_nat (length (filter (fun k => (a - Z.of_nat k) mod 7 =? 0) (seq 0 n))) = (Z.of_nat n + 6 - a mod 7) / 7.
Proof.
  induction n as [|n IH].
  - cbn [seq filter length]. symmetry. apply Z.div_small. pose proof (Z.mod_pos_bound a 7 ltac:(lia)). lia.
  - rewrite seq_S, filter_app, app_length, Nat2Z.inj_add, IH. cbn [Nat.add filter].
    destruct (Z.eqb_spec ((a - Z.of_nat n) mod 7) 0) as [E|E]; cbn [length]; Z.to_euclidean_division_equations; lia.
Qed.
Lemma mondays_ok s : mondays s = (yday s - (wday s - 1 + 7) mod 7 + 7) / 7.
Proof.
  unfold mondays.
  assert (Y : 0 <= yday s). { unfold yday. destruct (year_of (s / 86400)) eqn:E. apply year_of_ok in E. cbn. lia. }
  rewrite (filter_ext _ (fun k => (s / 86400 + 3 - Z.of_nat k) mod 7 =? 0)).
  - rewrite count_multiples. unfold wday. f_equal. rewrite Nat2Z.inj_succ, Z2Nat.id by lia. Z.to_euclidean_division_equations; lia.
  - intros k. unfold wday. replace (s - 86400 * Z.of_nat k) with (s + (- Z.of_nat k) * 86400) by lia. rewrite Z.div_add by lia.
    destruct (Z.eqb_spec ((s / 86400 + - Z.of_nat k + 4) mod 7) 1) as [E|E], (Z.eqb_spec ((s / 86400 + 3 - Z.of_nat k) mod 7) 0) as [F|F]; try reflexivity; exfalso; Z.to_euclidean_division_equations; lia.
Qed.
Lemma week_ok ypad tz d t c x : sep_ok [d] -> sep_ok [t] -> d <> t -> zone_ok tz -> at_second c x -> in_reach x ->
  clock_week ypad tz [d] [t] c = Ok (Some (of_Z (mondays (local tz x)))) /\ 0 <= mondays (local tz x) <= 53.
Proof.
  intros SD ST NE Z (F & A) R.
  assert (B : 0 <= mondays (local tz x) <= 53).
  { rewrite mondays_ok. unfold yday, wday. destruct (year_of (local tz x / 86400)) eqn:E. apply year_of_ok in E. cbn [snd].
    assert (year_days z <= 366) by (unfold year_days; destruct (leap z); lia). Z.to_euclidean_division_equations; lia. }
  split; [|exact B]. unfold clock_week. rewrite (c_int64_trunc _ x F A R). cbn [obind]. rewrite localtime_near by auto.
  change (tx "%W") with [37; 87]%N. unfold strftime. cbn [expand N.eqb Pos.eqb]. unfold conversion. cbn [N.eqb Pos.eqb obind].
  rewrite <- mondays_ok. destruct (two_digits (mondays (local tz x))) as (L & D & V); [lia|]. rewrite app_nil_r, L. cbn [Nat.ltb Nat.leb obind].

  assert (ND : two (mondays (local tz x)) <> []) by (intros EQ; rewrite EQ in L; discriminate).
  rewrite (read_localized [d] [t] false (two (mondays (local tz x))) [] _); auto.
  - rewrite <- (whole_read (mondays (local tz x)) (two (mondays (local tz x)))); auto; try lia; [|split; [exact ND|split; [exact D|constructor]]].
    rewrite (proj2 (Z.ltb_ge (mondays (local tz x)) 0)) by lia. reflexivity.
  - split; [exact ND|split; [exact D|constructor]].
  - congruence.
  - exists (two (mondays (local tz x))). split; [constructor; [exact ND|lia]|]. cbn. rewrite ?app_nil_r. reflexivity.
  - lia.
Qed.
(** Seven days later in the same year it is one week later. *)
Lemma next_week s : fst (year_of (s / 86400)) = fst (year_of ((s + 604800) / 86400)) -> mondays (s + 604800) = mondays s + 1.
Proof.
  intros H. rewrite !mondays_ok. unfold yday, wday. replace (s + 604800) with (s + 7 * 86400) in * by lia. rewrite Z.div_add in * by lia.
  destruct (year_of (s / 86400)) as (y & a) eqn:E1, (year_of (s / 86400 + 7)) as (y' & b) eqn:E2. cbn in *. subst y'.
  apply year_of_ok in E1, E2. assert (b = a + 7) by lia. subst b. Z.to_euclidean_division_equations; lia.
Qed.
Lemma number_ok lang fmt w c t : In (lang, (fmt, w)) date_words -> at_second c t -> in_reach t ->
  (w = tx "time" -> moment_as_number w c = Ok (of_Z t, false)) /\ (w <> tx "time" -> moment_as_number w c = Ok (of_Z 0, true)).
Proof.
  intros I A R. unfold moment_as_number, clock_to_number. split; intros E.
  - rewrite E. change (text_eqb (tx "time") (tx "time")) with true. cbn [obind]. rewrite (clock_time_near c t A R). reflexivity.
  - destruct (text_eqb w (tx "time")) eqn:T; [apply text_eqb_eq in T; congruence|reflexivity].
Qed.
