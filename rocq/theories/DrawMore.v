(** Histories of images, what is written, and the cursor. *)
From Verif Require Import Common Fuel TransMain EditSpec EditModel EditProofs DrawSpec DrawModel DrawProofs.
Local Open Scope nat_scope.

Definition pictures (s : shown) : option (list placed) := match s with Shown l _ => Some l | _ => None end.
Definition held (last : option look) (c : cache) : Prop := match last with Some k => coherent k c | None => forall k, coherent k c end.
Lemma set_look ms ks i (m : picture_of) x : (forall j, i_look (ms j) = ks j /\ i_hasfont (ms j) = true) -> i_look m = x -> i_hasfont m = true ->
  forall j, i_look (set ms i m j) = set ks i x j /\ i_hasfont (set ms i m j) = true.
Proof. intros H L F j. unfold set. destruct (j =? i); [now split|apply H]. Qed.
Lemma through (R : res (list shown)) (P : list shown -> Prop) : (exists out, R = Ret out /\ P out) -> exists out, rbind R (fun rest => Ret rest) = Ret out /\ P out.
Proof. intros (out & -> & H). now exists out. Qed.
Lemma run_ok width g : (forall i, offset (g i) mod 200 + most (g i) < 400) -> forall l ms ks b e c last,
  (forall j, i_look (ms j) = ks j /\ i_hasfont (ms j) = true) -> b <= e -> held last c -> steady ks last l -> Forall proper l ->
  exists out, acts_run width g l (ms, (b, e), c) = Ret out /\ map pictures out = map Some (seen width g ks (b, e) l).
Proof.
  intros G. induction l as [|a l IH]; intros ms ks b e c last M BE H S P; [exists []; split; reflexivity|].
  apply Forall_cons_iff in P as (PA & P). destruct a as [i x|i x|i f|b' e'|i ls]; cbn [acts_run act_step img_color img_background img_font rbind steady seen looks_after] in *.
  - apply through. eapply IH; [|exact BE| |exact S|exact P]; [|intros k; apply coherent_clear]. destruct (M i) as (L & F). apply set_look; [exact M|cbn; now rewrite L|exact F].
  - apply through. eapply IH; [|exact BE|exact H|exact S|exact P]. destruct (M i) as (L & F). apply set_look; [exact M|cbn; now rewrite L|exact F].
  - apply through. eapply IH; [|exact BE|exact H|exact S|exact P]. destruct (M i) as (L & F). apply set_look; [exact M|cbn; now rewrite L|reflexivity].
  - apply through. eapply IH; [exact M|exact PA|exact H|exact S|exact P].
  - destruct S as (LA & S). destruct PA as (NE & N13). destruct (M i) as (L & F). rewrite L, F. cbn [fst snd].
    assert (C : coherent (ks i) c) by (destruct LA as [-> | ->]; [apply H|exact H]).
    destruct (render_ok (mkArea (joined ls ++ [0%N]) (length (joined ls)) b e) (ks i) width (g i)) with (ls := ls) (rest := [0%N]) (c := c) as (c' & C' & R); cbn; try assumption; try reflexivity; [rewrite app_length; cbn; lia|apply G|].
    cbn in R. rewrite R. cbn [rbind]. destruct (IH ms ks b e c' (Some (ks i)) M BE C' S P) as (out & RO & MO). rewrite RO. cbn [rbind]. eexists. split; [reflexivity|]. cbn [map pictures]. now rewrite MO.
Qed.

(** ** What is written *)
Lemma normal_line l r : one_line l -> lines_normal (l ++ r) = no_tabs l ++ lines_normal r.
Proof.
  intros (_ & N10 & N13). induction l as [|c l IH]; [reflexivity|]. cbn [app no_tabs map].
  assert (c <> 10%N) by (intros ->; apply N10; now left). assert (c <> 13%N) by (intros ->; apply N13; now left).
  destruct (N.eqb_spec c 9) as [->|].
  - cbn [lines_normal]. f_equal. apply IH; intros X; [apply N10|apply N13]; now right.
  - rewrite normal_other by assumption. f_equal. apply IH; intros X; [apply N10|apply N13]; now right.
Qed.
Lemma no_tabs_in l c : c <> 32%N -> In c (no_tabs l) -> In c l.
Proof. intros NS H. apply in_map_iff in H as (x & E & I). destruct (N.eqb_spec x 9); [congruence|now subst]. Qed.
Lemma normal_lines ls : Forall one_line ls -> lines_normal (newlines ls) = joined (map no_tabs ls).
Proof.
  induction ls as [|l ls IH]; intros F; [reflexivity|]. apply Forall_cons_iff in F as (O & F). destruct ls as [|m ls].
  - cbn [newlines map joined]. rewrite <- (app_nil_r l) at 1. rewrite normal_line by exact O. now rewrite app_nil_r.
  - change (newlines (l :: m :: ls)) with (l ++ 10%N :: newlines (m :: ls)). rewrite normal_line by exact O. cbn [map]. rewrite joined_cons. f_equal.
    change (lines_normal (10%N :: newlines (m :: ls))) with (13%N :: 10%N :: lines_normal (newlines (m :: ls))). rewrite IH by exact F. reflexivity.
Qed.
Lemma without_zero_same t : ~ In 0%N t -> without_zero t = t.
Proof.
  induction t as [|c t IH]; intros H; [reflexivity|]. unfold without_zero. cbn [filter]. destruct (N.eqb_spec c 0); [exfalso; apply H; now left|]. cbn [negb]. f_equal. apply IH. intros X. apply H. now right.
Qed.
Lemma newlines_zero ls : Forall one_line ls -> ~ In 0%N (newlines ls).
Proof.
  induction ls as [|l ls IH]; intros F; [now intros []|]. apply Forall_cons_iff in F as ((Z & _) & F). destruct ls as [|m ls]; [exact Z|].
  change (newlines (l :: m :: ls)) with (l ++ 10%N :: newlines (m :: ls)). intros X. apply in_app_or in X as [X|[X|X]]; [now apply Z|discriminate X|now apply IH in X].
Qed.
Lemma written_ok M ls : good M -> ls <> [] -> Forall one_line ls ->
  exists m z, write M (newlines ls) = Ok m /\ tx m = Some (joined (map no_tabs ls) ++ 0%N :: z) /\ ln m = Z.of_nat (length (joined (map no_tabs ls))).
Proof.
  intros G NE F. destruct (write_ok M (newlines ls) G) as (m & z & W & _ & T & _ & L & _). exists m, z. rewrite without_zero_same in * by (now apply newlines_zero). rewrite normal_lines in * by exact F. now repeat split.
Qed.
Lemma write_draw M ls k width g b e c : good M -> ls <> [] -> Forall one_line ls -> b <= e -> offset g mod 200 + most g < 400 -> coherent k c ->
  exists m block c', write M (newlines ls) = Ok m /\ tx m = Some block /\ coherent k c' /\
    render_text true true k width g (mkArea block (Z.to_nat (ln m)) b e) c = Ret (Shown (drawn k width g b e 0 0 (map no_tabs ls)) c').
Proof.
  intros G NE F BE GQ C. destruct (written_ok M ls G NE F) as (m & z & W & T & L). exists m. rewrite L, Nat2Z.id.
  set (block := joined (map no_tabs ls) ++ 0%N :: z) in *.
  destruct (render_ok (mkArea block (length (joined (map no_tabs ls))) b e) k width g) with (ls := map no_tabs ls) (rest := 0%N :: z) (c := c) as (c' & C' & R); cbn [a_text a_len a_begin a_end]; try assumption; try reflexivity.
  - unfold block. rewrite app_length. cbn. lia.
  - destruct ls; [congruence|discriminate].
  - apply Forall_map. eapply Forall_impl; [|exact F]. intros l (_ & _ & N13) X. apply N13. now apply no_tabs_in in X.
  - exists block, c'. repeat split; assumption.
Qed.

(** ** The cursor *)
Lemma scan_plain l r i y b : ~ In 10%N l -> ~ In 13%N l -> cursor_scan (l ++ r) i y b = cursor_scan r (i + length l) y b.
Proof.
  revert i. induction l as [|c l IH]; intros i N10 N13; [now rewrite Nat.add_0_r|]. cbn [app cursor_scan length].
  destruct (N.eqb_spec c 13); [exfalso; apply N13; now left|]. destruct (N.eqb_spec c 10); [exfalso; apply N10; now left|].
  rewrite IH; [|intros X; apply N10; now right|intros X; apply N13; now right].
  f_equal. lia.
Qed.
Lemma scan_lines : forall ls i y b, ls <> [] -> Forall (fun l => ~ In 10%N l /\ ~ In 13%N l) ls ->
  cursor_scan (joined ls) i y b = (y + (length ls - 1), if length ls =? 1 then b else i + length (joined ls) - length (last_line ls) - 1).
Proof.
  induction ls as [|l ls IH]; intros i y b NE F; [congruence|]. apply Forall_cons_iff in F as ((N10 & N13) & F). destruct ls as [|m ls].
  - cbn [joined length]. rewrite <- (app_nil_r l). rewrite scan_plain by assumption. cbn. f_equal. lia.
  - rewrite joined_cons. rewrite scan_plain by assumption. change ([13; 10]%N ++ joined (m :: ls)) with (13%N :: 10%N :: joined (m :: ls)). cbn [cursor_scan N.eqb Pos.eqb].
    rewrite IH by (discriminate || exact F). cbn [length]. f_equal; [lia|]. change (last_line (l :: m :: ls)) with (last_line (m :: ls)). rewrite app_length. cbn [length].
    destruct ls as [|n ls]; cbn [length Nat.eqb]; [cbn [joined last_line]; lia|]. lia.
Qed.
Lemma last_end : forall ls, ls <> [] -> exists p, joined ls = p ++ last_line ls.
Proof.
  induction ls as [|l ls IH]; intros NE; [congruence|]. destruct ls as [|m ls]; [now exists []|]. destruct IH as (p & E); [discriminate|]. rewrite joined_cons, E.
  exists (l ++ [13; 10]%N ++ p). now rewrite <- !app_assoc.
Qed.
Lemma last_long l m ls : 2 + length (last_line (l :: m :: ls)) <= length (joined (l :: m :: ls)).
Proof. rewrite joined_cons, !app_length. destruct (last_end (m :: ls)) as (p & E); [discriminate|]. rewrite E, app_length. change (last_line (l :: m :: ls)) with (last_line (m :: ls)). cbn [length]. lia. Qed.
Lemma skip_last ls : ls <> [] -> skipn (length (joined ls) - length (last_line ls)) (joined ls) = last_line ls.
Proof. intros NE. destruct (last_end ls NE) as (p & ->). rewrite app_length. replace (length p + length (last_line ls) - length (last_line ls)) with (length p) by lia. rewrite skipn_app, skipn_all, Nat.sub_diag. reflexivity. Qed.
Definition follow (y off most : nat) : nat := let o := if off + most <=? y then S off else off in if (y <? o) && (0 <? o) then o - 1 else o.
Lemma cursor_ok ls off most : ls <> [] -> Forall (fun l => ~ In 10%N l /\ ~ In 13%N l) ls ->
  render_cursor (joined ls) off most = (last_line ls, (Z.of_nat (length ls - 1) - Z.of_nat (follow (length ls - 1) off most))%Z, follow (length ls - 1) off most).
Proof.
  intros NE F. unfold render_cursor. rewrite scan_lines by assumption. cbn [Nat.add]. f_equal. f_equal. destruct ls as [|l [|m ls]]; [congruence|reflexivity|].
  pose proof (last_long l m ls). cbn [length Nat.eqb Nat.sub Nat.ltb Nat.leb]. rewrite <- (skip_last (l :: m :: ls)) at 2 by discriminate. f_equal. lia.
Qed.
Lemma frames_follow ls most : ls <> [] -> Forall (fun l => ~ In 10%N l /\ ~ In 13%N l) ls -> 1 <= most ->
  forall n off, (off - (length ls - 1)) + (length ls - (off + most)) <= n -> frames n (joined ls) off most <= length ls - 1 < frames n (joined ls) off most + most.
Proof.
  intros NE F M. assert (1 <= length ls) by (destruct ls; [congruence|cbn; lia]). induction n as [|n IH]; intros off B; cbn [frames]; [lia|].
  rewrite cursor_ok by assumption. cbn [snd]. apply IH. unfold follow. destruct (Nat.leb_spec (off + most) (length ls - 1)).
  - destruct (Nat.ltb_spec (length ls - 1) (S off)); cbn [andb]; [lia|]. lia.
  - destruct (Nat.ltb_spec (length ls - 1) off); cbn [andb]; [|lia]. destruct (Nat.ltb_spec 0 off); lia.
Qed.
Lemma frames_still ls most off : ls <> [] -> Forall (fun l => ~ In 10%N l /\ ~ In 13%N l) ls -> off <= length ls - 1 < off + most -> forall n, frames n (joined ls) off most = off.
Proof.
  intros NE F H. assert (FO : follow (length ls - 1) off most = off).
  { unfold follow. destruct (Nat.leb_spec (off + most) (length ls - 1)); [lia|]. destruct (Nat.ltb_spec (length ls - 1) off); [lia|reflexivity]. }
  induction n as [|n IH]; cbn [frames]; [reflexivity|]. rewrite cursor_ok by assumption. cbn [snd]. now rewrite FO.
Qed.

(** ** The pieces of a line *)
Definition marks (b e s : nat) (l : text) : list (bool * N) := combine (map (fun i => (b <=? i) && (i <? e)) (seq s (length l))) l.
Definition marked (ps : list (bool * text)) : list (bool * N) := flat_map (fun p => map (fun c => (fst p, c)) (snd p)) ps.
Lemma marked_filter ps : marked (filter nonempty ps) = marked ps.
Proof. induction ps as [|[f t] ps IH]; [reflexivity|]. cbn [filter]. unfold nonempty at 1. cbn [snd]. destruct t; cbn [length Nat.eqb negb]; unfold marked in *; cbn [flat_map map fst snd app]; now rewrite IH. Qed.
Lemma marks_const b e s l f : (forall i, s <= i < s + length l -> (b <=? i) && (i <? e) = f) -> marks b e s l = map (fun c => (f, c)) l.
Proof.
  revert s. induction l as [|c l IH]; intros s H; [reflexivity|]. unfold marks in *. cbn [length seq map combine]. f_equal; [f_equal; apply H; cbn [length]; lia|]. apply IH. intros i I. apply H. cbn [length]. lia.
Qed.
Lemma marks_app b e s l r : marks b e s (l ++ r) = marks b e s l ++ marks b e (s + length l) r.
Proof.
  revert s. induction l as [|c l IH]; intros s; [now rewrite Nat.add_0_r|]. unfold marks in *. cbn [app length seq map combine]. f_equal. rewrite IH. do 2 f_equal. f_equal. f_equal. cbn [length]. lia.
Qed.
Lemma pieces_ok b e s l : b <= e -> marked (pieces b e s l) = marks b e s l.
Proof.
  intros BE. unfold pieces. rewrite marked_filter. destruct (Nat.eqb_spec b e) as [->|NE].
  - unfold marked. cbn [flat_map fst snd]. rewrite app_nil_r. symmetry. apply marks_const. intros i _. destruct (Nat.leb_spec e i), (Nat.ltb_spec i e); try reflexivity; lia.
  - unfold marked. cbn [flat_map fst snd]. rewrite app_nil_r.
    replace (marks b e s l) with (marks b e s (firstn (b - s) l ++ skipn (b - s) (firstn (e - s) l) ++ skipn (e - s) l)).
    + rewrite !marks_app. f_equal; [|f_equal].
      * symmetry. apply marks_const. intros i I. rewrite firstn_length in I. destruct (Nat.leb_spec b i); [lia|reflexivity].
      * symmetry. apply marks_const. intros i I. rewrite skipn_length, !firstn_length in I. destruct (Nat.leb_spec b i), (Nat.ltb_spec i e); try reflexivity; lia.
      * symmetry. apply marks_const. intros i I. rewrite !skipn_length, !firstn_length in I. destruct (Nat.ltb_spec i e); [lia|]. apply andb_false_r.
    + f_equal. rewrite app_assoc. replace (firstn (b - s) l) with (firstn (b - s) (firstn (e - s) l)) by (rewrite firstn_firstn; f_equal; lia). rewrite firstn_skipn. apply firstn_skipn.
Qed.
