(** Proofs about drawing texts. *)
From Verif Require Import Common Fuel DrawSpec DrawModel TransMain.
Local Open Scope nat_scope.

(** ** The cache *)
Definition cell_ok (k : look) (c : cell) : Prop := forall s, c_surface c = Some s -> exists t, t <> [] /\ c_text c = Some t /\ s = show k (c_state c) t.
Definition coherent (k : look) (c : cache) : Prop := forall q, cell_ok k (c q).
Lemma coherent_clear k : coherent k clear_edcache.
Proof. intros q s H. discriminate H. Qed.
Definition picture_for (k : look) (st : bool) (t : text) : option picture := match t with [] => None | _ => Some (show k st t) end.
Lemma render_show k st t : render_utf8 k st t = picture_for k st t.
Proof. destruct t; reflexivity. Qed.
Lemma put_ok k c q st t : coherent k c -> coherent k (put c q (mkCell (picture_for k st t) (Some t) st)).
Proof. intros C i. unfold put. destruct (i =? q); [|apply C]. intros s S. cbn in S |- *. exists t. destruct t; [discriminate S|]. injection S as <-. repeat split. discriminate. Qed.
Definition put_out (k : look) (st : bool) (x y : Z) (t : text) : list placed := match t with [] => [] | _ => [(show k st t, x, y)] end.
Lemma piece_ok k width g buff p : coherent k (ed p) -> offset g mod 200 + (line p - offset g) < 400 ->
  exists ed', coherent k ed' /\ draw_piece k width g buff p =
    Ret (mkPen (at_ p) (state p) (line p) (px p + width (l_font k) buff) (py p) ed' (out p ++ put_out k (state p) (px p) (py p) buff)).
Proof.
  intros C Q. unfold draw_piece. destruct (Nat.leb_spec 400 (offset g mod 200 + (line p - offset g))); [lia|]. set (q := offset g mod 200 + (line p - offset g)) in *.
  rewrite render_show. pose proof (put_ok k (ed p) q (state p) buff C) as C'. pose proof (C q) as CQ. unfold put_out.
  destruct (c_surface (ed p q)) as [s|] eqn:S; cbn [rbind].
  - destruct (CQ s S) as (t & NE & T & E). rewrite T. destruct (Bool.eqb (c_state (ed p q)) (state p)) eqn:ES; cbn [rbind].
    + destruct ((length t =? length buff) && text_eqb t buff) eqn:ET; cbn [rbind].
      * apply andb_true_iff in ET as [_ ET]. apply text_eqb_true in ET as ->. apply Bool.eqb_prop in ES. rewrite ES in E. subst s. destruct buff as [|c buff]; [congruence|].
        exists (ed p). split; [exact C|reflexivity].
      * eexists. split; [exact C'|]. destruct buff; reflexivity.
    + eexists. split; [exact C'|]. destruct buff; reflexivity.
  - eexists. split; [exact C'|]. destruct buff; reflexivity.
Qed.

(** ** One segment *)
Section Area.
Variables (a : area) (E : nat).
Definition flag (i : nat) : bool := (a_begin a <=? i) && (i <? a_end a).
(** Where the segment that begins at [i] on a line up to [E] ends *)
Definition stop (i : nat) : nat := if has_len a then if i <? a_begin a then min (a_begin a) E else if i <? a_end a then min (a_end a) E else E else E.
Hypothesis LE : E <= a_len a.
Hypothesis LT : a_len a < length (a_text a).
Hypothesis BE : a_begin a <= a_end a.
Definition line_at (s : nat) : Prop := (forall i, s <= i < E -> nth_error (a_text a) i <> Some 13%N) /\ (E = a_len a \/ nth_error (a_text a) E = Some 13%N).
Lemma scan_steps s : line_at s -> forall n i fuel, s <= i -> i + n <= E -> n < fuel ->
  (forall j, i <= j < i + n -> has_len a = false \/ (j = a_begin a -> flag i = true) /\ (j = a_end a -> flag i = false)) ->
  scan_to fuel a (flag i) i = scan_to (fuel - n) a (flag i) (i + n).
Proof.
  intros (N13 & _) n i. revert n. assert (G : forall n j fuel, s <= j -> j + n <= E -> n < fuel -> (forall x, j <= x < j + n -> has_len a = false \/ (x = a_begin a -> flag i = true) /\ (x = a_end a -> flag i = false)) ->
    scan_to fuel a (flag i) j = scan_to (fuel - n) a (flag i) (j + n)).
  { induction n as [|n IH]; intros j fuel SJ JE F H; [now rewrite Nat.sub_0_r, Nat.add_0_r|]. destruct fuel as [|fuel]; [lia|]. cbn [scan_to].
    destruct (nth_error (a_text a) j) as [c|] eqn:NC; [|apply nth_error_None in NC; lia].
    destruct (N.eqb_spec c 13) as [->|]; [exfalso; apply (N13 j); [lia|exact NC]|]. destruct (Nat.ltb_spec j (a_len a)); [|lia]. cbn [negb andb].
    replace (negb (has_len a) || (negb (j =? a_begin a) || flag i) && (negb (j =? a_end a) || negb (flag i))) with true.
    - replace (S fuel - S n) with (fuel - n) by lia. replace (j + S n) with (S j + n) by lia. apply IH; [lia|lia|lia|]. intros x X. apply H. lia.
    - symmetry. destruct (H j ltac:(lia)) as [->|(H1 & H2)]; [reflexivity|]. apply orb_true_iff. right.
      destruct (Nat.eqb_spec j (a_begin a)) as [EB|]; destruct (Nat.eqb_spec j (a_end a)) as [EE|]; cbn [negb orb andb]; try reflexivity.
      + specialize (H1 EB). specialize (H2 EE). congruence.
      + now rewrite (H1 EB).
      + now rewrite (H2 EE). }
  intros n fuel. apply G.
Qed.
Lemma stop_bounds i : i <= E -> i <= stop i <= E.
Proof. intros H. unfold stop. destruct (has_len a); [|lia]. destruct (Nat.ltb_spec i (a_begin a)); [lia|]. destruct (Nat.ltb_spec i (a_end a)); lia. Qed.
Lemma no_len : has_len a = false -> a_begin a = a_end a.
Proof. unfold has_len. intros H. apply negb_false_iff in H. now apply Nat.eqb_eq. Qed.
Lemma some_len : has_len a = true -> a_begin a < a_end a.
Proof. unfold has_len. intros H. apply negb_true_iff in H. apply Nat.eqb_neq in H. lia. Qed.
Lemma flag_none i : has_len a = false -> flag i = false.
Proof. intros H. apply no_len in H. unfold flag. destruct (Nat.leb_spec (a_begin a) i), (Nat.ltb_spec i (a_end a)); try reflexivity; lia. Qed.
Lemma flag_in i : a_begin a <= i < a_end a -> flag i = true.
Proof. intros H. unfold flag. destruct (Nat.leb_spec (a_begin a) i), (Nat.ltb_spec i (a_end a)); try reflexivity; lia. Qed.
Lemma flag_out i : i < a_begin a \/ a_end a <= i -> flag i = false.
Proof. intros H. unfold flag. destruct (Nat.leb_spec (a_begin a) i), (Nat.ltb_spec i (a_end a)); try reflexivity; lia. Qed.
Lemma scan_ok s i fuel : line_at s -> s <= i -> i <= E -> E - i < fuel -> scan_to fuel a (flag i) i = Ret (stop i).
Proof.
  intros L SI IE F. pose proof (stop_bounds i IE) as B. pose proof (scan_steps s L (stop i - i) i fuel SI ltac:(lia) ltac:(lia)) as H.
  rewrite H.
  - replace (i + (stop i - i)) with (stop i) by lia. destruct (fuel - (stop i - i)) as [|f] eqn:EF; [lia|]. cbn [scan_to].
    destruct (nth_error (a_text a) (stop i)) as [c|] eqn:NC; [|apply nth_error_None in NC; lia].
    destruct (N.eqb_spec c 13) as [->|N13]; [reflexivity|]. destruct (Nat.ltb_spec (stop i) (a_len a)) as [LL|]; [|reflexivity]. cbn [negb andb].
    replace (negb (has_len a) || _) with false; [reflexivity|]. symmetry.
    assert (NE : stop i <> E). { destruct L as (_ & [EA|EB]); [lia|]. intros X. rewrite X in NC. congruence. }
    unfold stop in *. destruct (has_len a) eqn:HL; [|congruence]. pose proof (some_len HL) as SL. cbn [negb orb].
    destruct (Nat.ltb_spec i (a_begin a)).
    + rewrite (flag_out i) by (now left). replace (min (a_begin a) E) with (a_begin a) by lia. rewrite Nat.eqb_refl. reflexivity.
    + destruct (Nat.ltb_spec i (a_end a)); [|congruence]. rewrite (flag_in i) by lia. replace (min (a_end a) E) with (a_end a) by lia. rewrite Nat.eqb_refl. cbn. now rewrite andb_false_r.
  - intros j J. destruct (has_len a) eqn:HL; [|now left]. right. pose proof (some_len HL) as SL. unfold stop in J. rewrite HL in J.
    destruct (Nat.ltb_spec i (a_begin a)).
    + split; intros ->; [lia|]. apply flag_out. now left.
    + destruct (Nat.ltb_spec i (a_end a)); [split; intros ->; [apply flag_in; lia|lia]|]. split; intros ->; [lia|apply flag_out; now right].
Qed.
Lemma state_flag i st : (i < a_begin a -> st = false) -> (if a_end a <=? i then false else if a_begin a <=? i then true else st) = flag i.
Proof. intros H. unfold flag. destruct (Nat.leb_spec (a_end a) i), (Nat.leb_spec (a_begin a) i), (Nat.ltb_spec i (a_end a)); cbn; try reflexivity; try lia; apply H; lia. Qed.

(** ** One line *)
Definition rest_of (i : nat) : text := firstn (E - i) (skipn i (a_text a)).
Lemma rest_length i : length (rest_of i) = E - i.
Proof. unfold rest_of. rewrite firstn_length, skipn_length. lia. Qed.
Lemma rest_skip i j : i <= j -> skipn (j - i) (rest_of i) = rest_of j.
Proof.
  intros H. unfold rest_of. rewrite skipn_firstn_comm. replace (E - i - (j - i)) with (E - j) by lia. f_equal.
  assert (G : forall (n m : nat) (l : text), skipn n (skipn m l) = skipn (n + m) l).
  { intros n m. revert n. induction m as [|m IH]; intros n l; [now rewrite Nat.add_0_r|]. destruct l as [|x l]; [now rewrite !skipn_nil|]. rewrite <- plus_n_Sm. cbn. apply IH. }
  rewrite G. f_equal. lia.
Qed.
Lemma seg_of i : i <= E -> firstn (stop i - i) (skipn i (a_text a)) = firstn (stop i - i) (rest_of i).
Proof. intros H. unfold rest_of. rewrite firstn_firstn. f_equal. pose proof (stop_bounds i H). lia. Qed.
Lemma pieces_nil b e i : pieces b e i [] = [].
Proof. unfold pieces. destruct (b =? e); [reflexivity|]. rewrite !firstn_nil, !skipn_nil. reflexivity. Qed.
Lemma nonempty_true f t : t <> [] -> nonempty (f, t) = true.
Proof. intros H. destruct t; [congruence|reflexivity]. Qed.
Lemma keep f t r : t <> [] -> filter nonempty ((f, t) :: r) = (f, t) :: filter nonempty r.
Proof. intros H. cbn [filter]. now rewrite nonempty_true. Qed.
Lemma drop f r : filter nonempty ((f, []) :: r) = filter nonempty r.
Proof. reflexivity. Qed.
Lemma not_nil (t : text) : 0 < length t -> t <> [].
Proof. destruct t; [cbn; lia|discriminate]. Qed.
Lemma pieces_step i : i < E ->
  pieces (a_begin a) (a_end a) i (rest_of i) =
  (flag i, firstn (stop i - i) (rest_of i)) :: (if stop i <? E then pieces (a_begin a) (a_end a) (stop i) (rest_of (stop i)) else []).
Proof.
  intros IE. pose proof (rest_length i) as RL. unfold stop, has_len. unfold pieces at 1. destruct (Nat.eqb_spec (a_begin a) (a_end a)) as [NL|SL]; cbn [negb].
  - rewrite Nat.ltb_irrefl. rewrite keep by (apply not_nil; lia). rewrite firstn_all2 by lia. rewrite flag_none; [reflexivity|]. unfold has_len. rewrite NL, Nat.eqb_refl. reflexivity.
  - destruct (Nat.ltb_spec i (a_begin a)) as [IB|IB].
    + rewrite keep by (apply not_nil; rewrite firstn_length; lia). rewrite flag_out by (now left). destruct (Nat.ltb_spec (min (a_begin a) E) E) as [LT2|GE].
      * replace (min (a_begin a) E) with (a_begin a) by lia. f_equal. unfold pieces. destruct (Nat.eqb_spec (a_begin a) (a_end a)); [lia|].
        rewrite Nat.sub_diag. cbn [firstn skipn]. rewrite drop. rewrite skipn_firstn_comm. rewrite rest_skip by lia. replace (a_end a - i - (a_begin a - i)) with (a_end a - a_begin a) by lia.
        rewrite !rest_skip by lia. reflexivity.
      * replace (min (a_begin a) E) with E by lia. rewrite !firstn_all2 by lia. rewrite !skipn_all2 by lia. reflexivity.
    + replace (a_begin a - i) with 0 by lia. cbn [firstn skipn]. rewrite drop. destruct (Nat.ltb_spec i (a_end a)) as [IN|OUT].
      * rewrite keep by (apply not_nil; rewrite firstn_length; lia). rewrite flag_in by lia. destruct (Nat.ltb_spec (min (a_end a) E) E) as [LT2|GE].
        -- replace (min (a_end a) E) with (a_end a) by lia. f_equal. unfold pieces. destruct (Nat.eqb_spec (a_begin a) (a_end a)); [lia|].
           rewrite Nat.sub_diag. replace (a_begin a - a_end a) with 0 by lia. cbn [firstn skipn]. rewrite !drop. rewrite rest_skip by lia. reflexivity.
        -- replace (min (a_end a) E) with E by lia. rewrite !firstn_all2 by lia. rewrite skipn_all2 by lia. reflexivity.
      * replace (a_end a - i) with 0 by lia. cbn [firstn skipn]. rewrite drop. rewrite Nat.ltb_irrefl. rewrite keep by (apply not_nil; lia). rewrite firstn_all2 by lia. rewrite flag_out by (now right). reflexivity.
Qed.
Variables (k : look) (width : nat -> text -> Z) (g : page).
Hypothesis GQ : offset g mod 200 + most g < 400.
Lemma view_same n : negb (offset g + most g <? n) && negb (n <? offset g) = in_view g n.
Proof. unfold in_view. rewrite !Nat.ltb_antisym, !negb_involutive. apply andb_comm. Qed.
Definition after (p p' : pen) (i : nat) : Prop :=
  coherent k (ed p') /\ (at_ p' < a_begin a -> state p' = false) /\
  out p' = out p ++ (if in_view g (line p) then place k width (px p) (py p) (pieces (a_begin a) (a_end a) i (rest_of i)) else []) /\
  (E = a_len a /\ a_len a <= at_ p' \/ at_ p' = E + 2 /\ line p' = S (line p) /\ px p' = padx g /\ py p' = (py p + if in_view g (line p) then height g else 0)%Z).
Lemma line_ok s : line_at s -> forall n i p fuel, E - i < n -> s <= i <= E -> at_ p = i -> i < a_len a -> (i < a_begin a -> state p = false) -> coherent k (ed p) ->
  a_len a - i < fuel -> exists p' fuel', text_loop fuel k width g a p = text_loop fuel' k width g a p' /\ after p p' i /\ a_len a - at_ p' < fuel'.
Proof.
  intros L. induction n as [|n IH]; intros i p fuel NN SI AT IL ST C F; [lia|]. destruct fuel as [|fuel]; [lia|]. cbn [text_loop].
  rewrite AT. destruct (Nat.leb_spec (a_len a) i); [lia|]. rewrite state_flag by exact ST. rewrite (scan_ok s i) by (assumption || lia). cbn [rbind].
  rewrite view_same. pose proof (stop_bounds i ltac:(lia)) as B. rewrite seg_of by lia. set (seg := firstn (stop i - i) (rest_of i)) in *.
  assert (PR : exists p1, (if in_view g (line p) then draw_piece k width g seg (mkPen (stop i) (flag i) (line p) (px p) (py p) (ed p) (out p)) else Ret (mkPen (stop i) (flag i) (line p) (px p) (py p) (ed p) (out p))) = Ret p1
    /\ at_ p1 = stop i /\ state p1 = flag i /\ line p1 = line p /\ py p1 = py p /\ coherent k (ed p1)
    /\ px p1 = (if in_view g (line p) then px p + width (l_font k) seg else px p)%Z
    /\ out p1 = out p ++ (if in_view g (line p) then put_out k (flag i) (px p) (py p) seg else [])).
  { destruct (in_view g (line p)) eqn:IV.
    - unfold in_view in IV. apply andb_true_iff in IV as [V1 V2]. apply Nat.leb_le in V1, V2.
      destruct (piece_ok k width g seg (mkPen (stop i) (flag i) (line p) (px p) (py p) (ed p) (out p)) C) as (ed' & C' & DP); [cbn [line]; lia|].
      eexists. split; [exact DP|]. cbn. repeat split; assumption.
    - eexists. split; [reflexivity|]. cbn. rewrite app_nil_r. repeat split; assumption. }
  destruct PR as (p1 & -> & A1 & S1 & L1 & Y1 & C1 & X1 & O1). cbn [rbind].
  destruct (nth_error (a_text a) (stop i)) as [c|] eqn:NC; [|apply nth_error_None in NC; lia].
  assert (FL : forall j, i <= j -> j < a_begin a -> flag i = false) by (intros j J1 J2; apply flag_out; left; lia).
  destruct (Nat.eq_dec (stop i) E) as [SE|SN].
  - assert (OUT : out p1 = out p ++ (if in_view g (line p) then place k width (px p) (py p) (pieces (a_begin a) (a_end a) i (rest_of i)) else [])).
    { rewrite O1. f_equal. destruct (in_view g (line p)); [|reflexivity]. destruct (Nat.eq_dec i E) as [->|IN].
      - unfold seg. rewrite SE, Nat.sub_diag. cbn [firstn put_out]. replace (rest_of E) with (@nil N); [now rewrite pieces_nil|]. symmetry. apply length_zero_iff_nil. rewrite rest_length. lia.
      - rewrite pieces_step by lia. rewrite SE, Nat.ltb_irrefl. cbn [place]. unfold seg, put_out. rewrite SE. destruct (firstn (E - i) (rest_of i)) eqn:FN; [|reflexivity].
        exfalso. apply (f_equal (@length N)) in FN. rewrite firstn_length, rest_length in FN. cbn in FN. lia. }
    destruct (N.eqb_spec c 13) as [->|N13].
    + eexists _, fuel. split; [reflexivity|]. split; [|cbn; lia]. unfold after. cbn. split; [exact C1|]. split; [intros J; apply (FL (stop i + 2)); lia|]. split; [exact OUT|]. right.
      split; [lia|]. split; [now rewrite L1|]. split; [reflexivity|]. now rewrite Y1.
    + assert (EA : E = a_len a). { destruct L as (_ & [EA|EB]); [exact EA|]. rewrite SE in NC. congruence. }
      assert (G : after p p1 i /\ a_len a - at_ p1 < fuel).
      { split; [|lia]. unfold after. split; [exact C1|]. split; [rewrite A1, S1; intros J; apply (FL (stop i)); lia|]. split; [exact OUT|]. left. lia. }
      destruct (has_len a && negb (flag i) && (stop i =? a_begin a)); [eexists _, fuel; split; [reflexivity|exact G]|].
      destruct (has_len a && flag i && (stop i =? a_end a)); [eexists _, fuel; split; [reflexivity|exact G]|].
      eexists _, fuel. split; [reflexivity|]. split; [|cbn; lia]. destruct G as (G & _). unfold after in G |- *. cbn. split; [apply G|]. split; [intros J; apply (FL (S (stop i))); lia|]. split; [apply G|]. left. lia.
  - assert (IE : i < E) by lia.
    destruct (N.eqb_spec c 13) as [->|N13]; [exfalso; apply (proj1 L (stop i)); [lia|exact NC]|].
    assert (HL : has_len a = true). { destruct (has_len a) eqn:HL; [reflexivity|]. unfold stop in SN. rewrite HL in SN. congruence. }
    assert (BR : forall (T : Type) (x y : T), (if has_len a && negb (flag i) && (stop i =? a_begin a) then x else if has_len a && flag i && (stop i =? a_end a) then x else y) = x).
    { intros T x y. rewrite HL. cbn [andb]. unfold stop in *. rewrite HL in *. destruct (Nat.ltb_spec i (a_begin a)).
      - rewrite flag_out by (now left). replace (min (a_begin a) E) with (a_begin a) by lia. now rewrite Nat.eqb_refl.
      - destruct (Nat.ltb_spec i (a_end a)); [|congruence]. rewrite flag_in by lia. replace (min (a_end a) E) with (a_end a) by lia. rewrite Nat.eqb_refl. reflexivity. }
    rewrite BR.
    assert (SG : i < stop i). { unfold stop in *. rewrite HL in *. destruct (Nat.ltb_spec i (a_begin a)); [lia|]. destruct (Nat.ltb_spec i (a_end a)); lia. }
    destruct (IH (stop i) p1 fuel) as (p' & fuel' & T & (AC & AS & AO & AE) & FF); [lia|lia|exact A1|lia|rewrite S1; intros J; apply (FL (stop i)); lia|exact C1|lia|].
    exists p', fuel'. split; [exact T|]. split; [|exact FF]. unfold after. split; [exact AC|]. split; [exact AS|]. rewrite L1, Y1 in *. split; [|exact AE].
    rewrite AO, O1, <- app_assoc. f_equal. rewrite X1. destruct (in_view g (line p)); [|reflexivity]. rewrite (pieces_step i) by exact IE.
    destruct (Nat.ltb_spec (stop i) E); [|lia]. cbn [place]. unfold put_out. fold seg. destruct seg as [|x r] eqn:SQ; [|reflexivity].
    exfalso. unfold seg in SQ. apply (f_equal (@length N)) in SQ. rewrite firstn_length, rest_length in SQ. cbn in SQ. lia.
Qed.
End Area.

(** ** All lines *)
Section Lines.
Variables (a : area) (k : look) (width : nat -> text -> Z) (g : page).
Hypothesis LT : a_len a < length (a_text a).
Hypothesis BE : a_begin a <= a_end a.
Hypothesis GQ : offset g mod 200 + most g < 400.
Lemma at_end fuel p : a_len a <= at_ p -> 0 < fuel -> text_loop fuel k width g a p = Ret p.
Proof. intros H F. destruct fuel; [lia|]. cbn [text_loop]. destruct (Nat.leb_spec (a_len a) (at_ p)); [reflexivity|lia]. Qed.
(** Below the last line in view the height no longer matters; above the first it is that of the first. *)
Definition level' (n : nat) (y : Z) : Prop := (n <= offset g -> y = pady g) /\ (offset g <= n <= S (offset g + most g) -> y = (pady g + height g * Z.of_nat (n - offset g))%Z).
Lemma level_next n y : level' n y -> level' (S n) (y + if in_view g n then height g else 0)%Z.
Proof.
  intros (H1 & H2). unfold level', in_view. split; intros N.
  - destruct (Nat.leb_spec (offset g) n); [lia|]. cbn. rewrite H1 by lia. lia.
  - destruct (Nat.leb_spec (offset g) n); cbn [andb].
    + destruct (Nat.leb_spec n (offset g + most g)); [|lia]. rewrite H2 by lia. replace (S n - offset g) with (S (n - offset g)) by lia. lia.
    + rewrite H1 by lia. replace (S n - offset g) with 0 by lia. lia.
Qed.
Lemma joined_cons l m r : joined (l :: m :: r) = l ++ [13; 10]%N ++ joined (m :: r).
Proof. reflexivity. Qed.
Lemma skipn_more (n m : nat) (l x y : text) : skipn n l = x ++ y -> m = length x -> skipn (n + m) l = y.
Proof.
  intros H ->. revert l H. induction n as [|n IH]; intros l H; cbn [skipn Nat.add] in *; [subst l; rewrite skipn_app, skipn_all, Nat.sub_diag; reflexivity|].
  destruct l as [|c l]; [|now apply IH]. symmetry in H. apply app_eq_nil in H as [-> ->]. reflexivity.
Qed.
Lemma skipn_nth (n j : nat) (l x : text) : skipn n l = x -> nth_error l (n + j) = nth_error x j.
Proof. intros <-. revert l. induction n as [|n IH]; intros l; [reflexivity|]. destruct l; [now destruct j|]. apply IH. Qed.
Lemma lines_ok : forall ls n s p fuel rest, ls <> [] -> Forall (fun l => ~ In 13%N l) ls -> skipn s (a_text a) = joined ls ++ rest -> s + length (joined ls) = a_len a ->
  at_ p = s -> line p = n -> px p = padx g -> level' n (py p) -> (s < a_begin a -> state p = false) -> coherent k (ed p) -> a_len a - s < fuel ->
  exists p', text_loop fuel k width g a p = Ret p' /\ coherent k (ed p') /\ out p' = out p ++ drawn k width g (a_begin a) (a_end a) n s ls.
Proof.
  induction ls as [|l ls IH]; intros n s p fuel rest NE F SK LN AT LI PX LV ST C FU; [congruence|]. clear NE. apply Forall_cons_iff in F as (N13 & F).
  destruct (Nat.eq_dec s (a_len a)) as [SA|SA].
  - rewrite at_end by lia. exists p. split; [reflexivity|]. split; [exact C|]. destruct ls as [|m ls]; [|rewrite joined_cons, !app_length in LN; cbn in LN; lia].
    cbn [joined] in LN. destruct l as [|x l]; [|cbn in LN; lia]. cbn [drawn]. unfold pieces. destruct (a_begin a =? a_end a); [|rewrite !firstn_nil, !skipn_nil]; cbn; destruct (in_view g n); now rewrite app_nil_r.
  - set (E := s + length l).
    assert (SL : s <= a_len a /\ E <= a_len a). { unfold E. destruct ls as [|m ls]; [cbn [joined] in LN; lia|]. rewrite joined_cons, app_length in LN. lia. }
    assert (RO : rest_of a E s = l).
    { unfold rest_of, E. rewrite SK. replace (s + length l - s) with (length l) by lia. destruct ls as [|m ls]; [cbn [joined]|rewrite joined_cons, <- app_assoc]; now rewrite firstn_app, firstn_all, Nat.sub_diag, firstn_O, app_nil_r. }
    assert (NL : forall j, j < length l -> nth_error (a_text a) (s + j) = nth_error l j).
    { intros j J. rewrite (skipn_nth _ _ _ _ SK). destruct ls as [|m ls]; [cbn [joined]|rewrite joined_cons, <- app_assoc]; now rewrite nth_error_app1. }
    assert (LA : line_at a E s).
    { split.
      - intros i I. unfold E in I. replace i with (s + (i - s)) by lia. rewrite NL by lia. intros X. apply N13. now apply nth_error_In in X.
      - destruct ls as [|m ls]; [left; cbn [joined] in LN; exact LN|]. right. unfold E. rewrite (skipn_nth _ _ _ _ SK), joined_cons, <- app_assoc. rewrite nth_error_app2 by lia. now rewrite Nat.sub_diag. }
    destruct (line_ok a E ltac:(lia) LT BE k width g GQ s LA (S (E - s)) s p fuel) as (p' & fuel' & T & (AC & AS & AO & AE) & FF); [lia|unfold E; lia|exact AT|lia|exact ST|exact C|exact FU|].
    rewrite T. rewrite RO, LI, PX in AO.
    assert (OUT : out p' = out p ++ (if in_view g n then place k width (padx g) (pady g + height g * Z.of_nat (n - offset g)) (pieces (a_begin a) (a_end a) s l) else [])).
    { rewrite AO. f_equal. destruct (in_view g n) eqn:IV; [|reflexivity]. destruct LV as (_ & LV). unfold in_view in IV. apply andb_true_iff in IV as [V1 V2]. apply Nat.leb_le in V1, V2. rewrite LV by lia. reflexivity. }
    cbn [drawn]. destruct ls as [|m ls].
    + assert (a_len a <= at_ p') by (cbn [joined] in LN; destruct AE as [AE|AE]; unfold E in *; lia). rewrite at_end by lia. exists p'. split; [reflexivity|]. split; [exact AC|]. cbn [drawn]. now rewrite app_nil_r.
    + rewrite joined_cons, !app_length in LN. cbn [length] in LN.
      destruct AE as [(AE & _)|(A1 & A2 & A3 & A4)]; [exfalso; unfold E in AE; lia|].
      destruct (IH (S n) (s + length l + 2) p' fuel' rest) as (p2 & T2 & C2 & O2).
      * discriminate.
      * exact F.
      * apply (skipn_more (s + length l) 2 _ [13; 10]%N); [|reflexivity]. apply (skipn_more s (length l) _ l); [|reflexivity]. rewrite SK, joined_cons, <- !app_assoc. reflexivity.
      * lia.
      * unfold E in A1. exact A1.
      * now rewrite A2, LI.
      * exact A3.
      * rewrite A4, LI. now apply level_next.
      * intros J. apply AS. unfold E in A1. lia.
      * exact AC.
      * unfold E in A1. rewrite A1 in FF. exact FF.
      * exists p2. split; [exact T2|]. split; [exact C2|]. rewrite O2, OUT. now rewrite app_assoc.
Qed.
Theorem render_ok ls rest c : ls <> [] -> Forall (fun l => ~ In 13%N l) ls -> a_text a = joined ls ++ rest -> a_len a = length (joined ls) -> coherent k c ->
  exists c', coherent k c' /\ render_text true true k width g a c = Ret (Shown (drawn k width g (a_begin a) (a_end a) 0 0 ls) c').
Proof.
  intros NE F TX LN C. unfold render_text. cbn [negb].
  destruct (lines_ok ls 0 0 (mkPen 0 false 0 (padx g) (pady g) c []) (2 * a_len a + 2) rest) as (p' & T & C' & O); try assumption; try reflexivity; cbn.
  - lia.
  - split; intros; lia.
  - lia.
  - cbn in T. rewrite T. cbn [rbind]. exists (ed p'). split; [exact C'|]. cbn in O. now rewrite O.
Qed.
End Lines.
