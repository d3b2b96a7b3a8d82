(** The loop over the tokens of a well-formed program. *)
From Verif Require Import Common TextModel NumModel LexModel LexSpec LexProofs TransModel TransSpec TransLex TransScan TransFind TransNotes TransMain.
From Coq Require Import Lia.
Open Scope nat_scope.

Lemma last_app (a m : text) : m <> [] -> last (a ++ m) 0%N = last m 0%N.
Proof.
  intros H. induction a as [|x a IH]; [reflexivity|]. cbn [app]. destruct (a ++ m) eqn:E; [destruct a, m; discriminate || congruence|]. exact IH.
Qed.
Lemma last_In (m : text) : m <> [] -> In (last m 0%N) m.
Proof. intros H. destruct (exists_last H) as (a & x & ->). rewrite last_last. apply in_app_iff. cbn. auto. Qed.
Lemma nth_last (pre r : text) : pre <> [] -> nth (length pre - 1) (pre ++ r) 0%N = last pre 0%N.
Proof.
  intros H. destruct (exists_last H) as (a & x & ->). rewrite last_last, app_length, Nat.add_sub, <- app_assoc. cbn [app].
  now rewrite nth_middle.
Qed.
Lemma sub_exact (a b c prg : text) p e : prg = a ++ b ++ c -> p = length a -> e = length (a ++ b) -> sub prg p e = b.
Proof. intros -> -> ->. unfold sub. rewrite skipn_exact by reflexivity. rewrite firstn_exact; [reflexivity|]. rewrite app_length. lia. Qed.

Section Loop.
Variables d d' : dict.
Variable T : tdict.
Hypothesis L : lang d.
Hypothesis D : dict_ok d d' T = true.
Hypothesis U : unambiguous (t_entries T) = true.
Notation wf := (well_formed d d' T).
Notation P := (d_prefix d).
Notation P' := (d_prefix d').

(** One round of the loop, after the token has been read. *)
Definition act (prg : text) (f e p : nat) (t : token) (v : text) (b : list note) : lres text :=
  let mark w sp := lx a <- translate_mark d T w; lx o <- program_loop d T prg f e e b; LOk (sp ++ a ++ o) in
  match t with
  | TFIN => LOk (sub prg p e)
  | TRET => mark (d_return d) [32%N]
  | TQUOTE => lx (e', a) <- translate_string d T prg p e; lx o <- program_loop d T prg f e' e' b; LOk (a ++ o)
  | TREF => lx (p', b', a) <- translate_ref d T prg p e v b; lx o <- program_loop d T prg f e p' b'; LOk (a ++ o)
  | TDOT => mark (d_eol d) []
  | TASSIGN => mark (d_assign d) [32%N]
  | TCHAIN => mark (d_chain d) []
  | TCOLON =>
      if (p =? 0) || negb (nth (p - 1) prg 0 =? d_prefix d)%N then mark [d_prefix d] [32%N]
      else program_loop d T prg f e p b
  | TNUMBER => lx o <- program_loop d T prg f e e b; LOk (translate_number T (e - p) (sub prg p e) ++ o)
  | _ => lx o <- program_loop d T prg f e e b; LOk (sub prg p e ++ o)
  end.
Lemma run_tok prg pre ws m R f p t v b : prg = pre ++ ws ++ m ++ R -> blank false ws = true -> tok d (m ++ R) = LOk (t, v, R) ->
  program_loop d T prg (S f) (length pre) p b = act prg f (length (pre ++ ws ++ m)) p t v b.
Proof.
  intros Hp Hw Ht. cbn [program_loop]. rewrite Hp at 1. rewrite skipn_exact by reflexivity. rewrite tok_space, Ht by exact Hw. cbn [lbind].
  replace (length prg - length R) with (length (pre ++ ws ++ m)) by (rewrite Hp, !app_length; lia). reflexivity.
Qed.

(** ** Numbers *)
Lemma seps_T : e_word (t_dec T) = d_dec d /\ e_trans (t_dec T) = d_dec d' /\ e_word (t_tho T) = d_tho d /\ e_trans (t_tho T) = d_tho d'.
Proof.
  unfold dict_ok in D. apply andb_true_iff in D as (H & _). do 4 (apply andb_true_iff in H as (H & ?)).
  repeat split; now apply text_eqb_true.
Qed.
Lemma number_bytes t : forall f, length t <= f -> translate_number T f t = flat_map (translate_byte d d') t.
Proof.
  destruct seps_T as (E1 & E2 & E3 & E4). destruct (la_seps d L) as (x & y & Hx & Hy & _).
  induction t as [|c t IH]; intros f Hf; [destruct f; reflexivity|]. destruct f; [cbn in Hf; lia|]. cbn [length] in Hf.
  assert (Eb : translate_byte d d' c = if (x =? c)%N then d_dec d' else if (y =? c)%N then d_tho d' else [c])
    by (unfold translate_byte; rewrite Hx, Hy; cbn [starts]; rewrite !andb_true_r; reflexivity).
  cbn [translate_number flat_map]. rewrite Eb, E1, E2, E3, E4, Hx, Hy. cbn [starts length skipn].
  rewrite !andb_true_r. destruct (x =? c)%N; [rewrite IH by lia; reflexivity|]. destruct (y =? c)%N; [rewrite IH by lia; reflexivity|].
  rewrite IH by lia. reflexivity.
Qed.
Lemma flat_map_same f (t : text) : (forall c, In c t -> f c = [c]) -> flat_map f t = t.
Proof. induction t as [|c t IH]; intros H; [reflexivity|]. cbn [flat_map]. rewrite H, IH by (cbn; auto; intros; apply H; cbn; auto). reflexivity. Qed.

(** ** Words *)
Lemma starts_single c t : starts [c] t = begins c t.
Proof. destruct t; [reflexivity|]. cbn. now rewrite andb_true_r, N.eqb_sym. Qed.
Lemma ref_word prg pre ws w w' R b : prg = pre ++ ws ++ w ++ R -> word_ok d w R = true -> begins P R = false -> known T ty_t w w' = true ->
  no_prefix d' w' = true -> notebook_search b (length (pre ++ ws ++ w)) = None ->
  translate_ref d T prg (length pre) (length (pre ++ ws ++ w)) w b = LOk (length (pre ++ ws ++ w), b, ws ++ w').
Proof.
  intros Hp Hw Hb Hk Hn Hs. unfold translate_ref.
  assert (El : length (pre ++ ws ++ w) - length w = length (pre ++ ws)) by (rewrite !app_length; lia). rewrite El.
  assert (Eq : (length (pre ++ ws) <? length pre) = false) by (apply Nat.ltb_ge; rewrite app_length; lia). rewrite Eq.
  rewrite (sub_exact pre ws (w ++ R) prg _ _ Hp eq_refl eq_refl).
  assert (Ek : (peek (skipn (length (pre ++ ws ++ w)) prg) 0 =? P)%N && (length (pre ++ ws ++ w) <? length prg) = false).
  { assert (Hr : skipn (length (pre ++ ws ++ w)) prg = R) by (rewrite Hp, !app_assoc; apply skipn_exact; rewrite ?app_assoc; reflexivity). rewrite Hr.
    destruct R as [|c R].
    - apply andb_false_iff. right. apply Nat.ltb_ge. rewrite Hp, app_nil_r. lia.
    - unfold peek. cbn [nth]. cbn [begins] in Hb. now rewrite Hb. }
  rewrite Ek. cbn [lbind]. rewrite Hs. rewrite (translate_plain d d' T D U w w' true Hk).
  - cbn [lbind]. rewrite Nat.add_0_r. reflexivity.
  - intros I. apply (word_bytes d w R P Hw); [|reflexivity]. destruct w; [destruct I|right; exact I].
  - unfold no_prefix in Hn. now apply among_false, negb_true_iff.
Qed.

(** ** Messages *)
Lemma ref_key prg pre ws k k' l trail st st' b : prg = pre ++ ws ++ k ++ P :: render d l ++ trail ->
  piece_ok d d' T st ws (Key k k') l (render d l ++ trail) = true -> next st (Key k k') = Some st' -> wf st' l trail = true ->
  inv d d' b (length pre) st ((ws, Key k k') :: l) ->
  exists b', translate_ref d T prg (length pre) (length (pre ++ ws ++ k)) k b = LOk (length (pre ++ ws ++ k) + 1, b', ws ++ k' ++ [P']) /\
    inv d d' b' (length (pre ++ ws ++ k ++ [P])) st' l.
Proof.
  intros Hp Hk Hn Hw Hi. destruct (key_parts d d' T _ _ _ _ _ _ Hk) as (K1 & _ & _ & K4 & K5 & K6 & K7 & K8).
  assert (Hpr : proper ((ws, Key k k') :: l)).
  { pose proof (wf_proper d d' T l _ _ Hw) as Q. intros ws0 k0 k0' [[= <- _ _]|I]; [exact K4|]. apply (Q _ _ _ I). }
  destruct st as [|[b0 fl] st]; [discriminate|]. cbn [next] in Hn. injection Hn as <-.
  assert (Hkn : k <> []) by (intros ->; discriminate K1).
  unfold translate_ref.
  assert (El : length (pre ++ ws ++ k) - length k = length (pre ++ ws)) by (rewrite !app_length; lia). rewrite El.
  assert (Eq : (length (pre ++ ws) <? length pre) = false) by (apply Nat.ltb_ge; rewrite app_length; lia). rewrite Eq.
  rewrite (sub_exact pre ws (k ++ P :: render d l ++ trail) prg _ _ Hp eq_refl eq_refl).
  rewrite (sub_exact (pre ++ ws) k (P :: render d l ++ trail) prg) by (try reflexivity; rewrite ?Hp, <- ?app_assoc; reflexivity).
  assert (Hr : skipn (length (pre ++ ws ++ k)) prg = P :: render d l ++ trail) by (rewrite Hp, !app_assoc, <- app_assoc; apply skipn_exact; rewrite ?app_assoc; reflexivity).
  assert (Ek : (peek (skipn (length (pre ++ ws ++ k)) prg) 0 =? P)%N && (length (pre ++ ws ++ k) <? length prg) = true).
  { rewrite Hr. unfold peek. cbn [nth]. rewrite N.eqb_refl. cbn [andb]. apply Nat.ltb_lt. rewrite Hp, !app_length. cbn [length]. lia. }
  rewrite Ek. cbn [map fst] in K7. rewrite whole_length in K7.
  assert (Em : (max_word <? length k + 1) = false) by (apply Nat.ltb_ge; unfold max_word; lia). rewrite Em.
  rewrite (parts_ok d d' T L (S (length prg)) l (pre ++ ws ++ k ++ [P]) trail b0 st);
    [|rewrite Hp, <- !app_assoc; reflexivity|rewrite !app_length; cbn [length]; lia|exact Hw|rewrite Hp, !app_length; cbn [length]; rewrite !app_length; lia
     |rewrite app_length; cbn [length]; lia|rewrite app_length; cbn [length]; lia].
  cbn [lbind]. rewrite Nat.add_0_l.
  assert (Eo : length (pre ++ ws ++ k ++ [P]) = length pre + length ws + length (k ++ [P])) by (rewrite !app_length; lia).
  assert (Ee : length (pre ++ ws ++ k) = length pre + length ws + length k) by (rewrite !app_length; lia).
  rewrite Eo. destruct fl.
  - destruct (inv_later d d' b b0 st (length pre) ws k k' l Hpr Hi) as (I1 & n & I2 & I3).
    eexists. split; [|exact I1]. rewrite Ee, I2, I3. reflexivity.
  - destruct (inv_first d d' b b0 st (length pre) ws k k' l Hpr Hi) as (I1 & I2).
    rewrite Ee, I2. destruct K8 as [K8|(K8 & K9)]; [discriminate|].
    assert (Ew : (k ++ [P]) ++ whole P (map fst (later 0 l)) = whole P (map fst ((k, k') :: later 0 l))) by reflexivity. rewrite Ew.
    rewrite (translate_message d d' T D U (later 0 l) k k' K8 K9 Hkn K5); [|intros q [<-|I]].
    + cbn [lbind]. rewrite (prefix_same d d' T D). set (o' := length pre + length ws + length (k ++ [P])) in *.
      assert (Ec : (if 0 <? length (later 0 l)
                    then note_collect P' (clear_marks b ++ new_notes 0 (laterp d 0 o' l)) 0 [] (whole P' (map snd (later 0 l)))
                    else LOk (clear_marks b ++ new_notes 0 (laterp d 0 o' l))) = LOk (clear_marks b ++ done_notes d' (laterp d 0 o' l))).
      { rewrite <- (later_laterp d l 0 o'), map_length, map_map. destruct (laterp d 0 o' l) as [|x ps] eqn:Eps; [reflexivity|]. cbn [length Nat.ltb Nat.leb].
        rewrite <- Eps. apply collect_ok.
        - apply Forall_forall. intros n I. unfold clear_marks in I. apply in_map_iff in I as (m & <- & _). reflexivity.
        - intros y I. apply (later_keys d d' T l _ _ (snd y) 0 Hw). rewrite <- (later_laterp d l 0 o'). now apply in_map. }
      rewrite Ec. cbn [lbind]. eexists. split; [reflexivity|exact I1].
    + cbn [fst snd]. split; [|exact K6]. intros I. now apply (word_bytes d k _ P K1) in I as (_ & I).
    + apply (later_keys d d' T l _ _ q 0 Hw I).
Qed.

(** ** Texts *)
Lemma string_ok prg pre ws s s' R l st : prg = pre ++ ws ++ d_qo d ++ s ++ d_qc d ++ R -> piece_ok d d' T st ws (Text s s') l R = true ->
  translate_string d T prg (length pre) (length (pre ++ ws ++ d_qo d)) = LOk (length (pre ++ ws ++ d_qo d ++ s ++ d_qc d), ws ++ d_qo d' ++ s' ++ d_qc d').
Proof.
  intros Hp Hk. cbn [piece_ok] in Hk. apply andb_true_iff in Hk as (K1 & K2). unfold translate_string.
  assert (Hr : skipn (length (pre ++ ws ++ d_qo d)) prg = s ++ d_qc d ++ R) by (rewrite Hp; replace (pre ++ ws ++ d_qo d ++ s ++ d_qc d ++ R) with ((pre ++ ws ++ d_qo d) ++ s ++ d_qc d ++ R) by (rewrite <- !app_assoc; reflexivity); now apply skipn_exact).
  rewrite Hr, (readstr_text d L s R K1). cbn [lbind].
  rewrite (mark_plain d d' T D U (d_qo d) (d_qo d')) by (cbn; tauto). cbn [lbind].
  rewrite (mark_plain d d' T D U (d_qc d) (d_qc d')) by (cbn; tauto).
  assert (Eb : (if 100 <? length s then LOk s else lx r <- translate d T s ty_s false; LOk match r with Some (a, _) => a | None => s end) = LOk s').
  { destruct (100 <? length s).
    - now apply text_eqb_true in K2 as ->.
    - unfold translate. apply orb_true_iff in K2 as [K2|K2].
      + apply (known_find T U) in K2 as (e & -> & _ & <-). reflexivity.
      + apply andb_true_iff in K2 as (K2 & K3). apply text_eqb_true in K2 as ->.
        assert (E : find_entry (t_entries T) ty_s s = None).
        { revert K3. clear. induction (t_entries T) as [|e es IH]; intros H; [reflexivity|]. cbn [forallb find_entry] in *. apply andb_true_iff in H as (H1 & H2).
          rewrite andb_comm. apply negb_true_iff in H1. rewrite H1. auto. }
        rewrite E. reflexivity. }
  rewrite Eb. cbn [lbind]. rewrite (sub_exact pre ws (d_qo d ++ s ++ d_qc d ++ R)); [|exact Hp|reflexivity|rewrite !app_length; lia].
  do 2 f_equal. rewrite Hp, !app_length. lia.
Qed.

(** ** The loop *)
Definition guard (pre : text) (st : levels) : Prop := pre = [] \/ last pre 0%N <> P \/ in_message st = true.
Lemma guard_last pre ws m st : m <> [] -> last m 0%N <> P -> guard (pre ++ ws ++ m) st.
Proof. intros H1 H2. right. left. now rewrite app_assoc, last_app. Qed.
Lemma plain_nil m : plain (hd 0%N m) = true -> m <> [].
Proof. intros H ->. discriminate. Qed.
Lemma bracket_last pre ws c st : plain c = false -> guard (pre ++ ws ++ [c]) st.
Proof. intros H. apply guard_last; [discriminate|]. cbn [last]. intros ->. rewrite (la_prefix d L) in H. discriminate. Qed.
Lemma word_last w R : word_ok d w R = true -> w <> [] /\ last w 0%N <> P.
Proof.
  intros H. assert (Hn : w <> []) by (intros ->; discriminate). split; [exact Hn|]. apply (word_bytes d w R _ H). now apply last_In.
Qed.
Lemma num_last n R : num_ok d n R = true -> n <> [] /\ last n 0%N <> P.
Proof.
  intros H. destruct (la_seps d L) as (x & y & Hx & Hy & _ & Hs). unfold num_ok in H. rewrite Hx, Hy in H. do 4 (apply andb_true_iff in H as (H & ?)).
  assert (Hn : n <> []) by (intros ->; discriminate). split; [exact Hn|].
  assert (F : forall c, In c n -> c = 45%N \/ numeric x y c = true).
  { match goal with H : whole_ok x y _ = true |- _ => apply whole_numeric in H; rewrite forallb_forall in H; rename H into F end.
    intros c I. destruct n as [|c0 n]; [destruct I|]. unfold unsigned in F. destruct (c0 =? 45)%N eqn:E.
    - destruct I as [<-|I]; [left; now apply N.eqb_eq|right; now apply F].
    - right. now apply F. }
  intros E. destruct (plain_spec P (la_prefix d L)) as (Q1 & Q2). destruct (F _ (last_In n Hn)) as [G|G]; rewrite E in G.
  - apply Q1. rewrite G. cbn. tauto.
  - unfold numeric in G. rewrite Q2 in G. cbn [orb] in G. apply orb_true_iff in G as [G|G]; [apply orb_true_iff in G as [G|G]|]; apply N.eqb_eq in G.
    + destruct (Hs P) as (_ & _ & _ & Q & _); [now left|congruence].
    + destruct (Hs P) as (_ & _ & _ & Q & _); [now right|congruence].
    + apply Q1. rewrite G. cbn. tauto.
Qed.
Lemma skip_all trail : blank false (trail ++ [10%N]) = true -> tok d trail = LOk (TFIN, [], []).
Proof. intros H. unfold tok. now rewrite skip_end. Qed.
Lemma tok_bracket c t R : In (c, t) [(40%N, TPAROPEN); (41%N, TPARCLOSE); (123%N, TBLOCKOPEN); (125%N, TBLOCKCLOSE)] -> tok d ([c] ++ R) = LOk (t, [], R).
Proof. cbn [In]. intros [H|[H|[H|[H|[]]]]]; injection H as <- <-; reflexivity. Qed.

Lemma loop_ok l : forall fuel pre trail st b prg, prg = pre ++ render d l ++ trail -> wf st l trail = true -> inv d d' b (length pre) st l -> guard pre st ->
  length (render d l ++ trail) < fuel ->
  program_loop d T prg fuel (length pre) (length pre) b = LOk (render d' (mirror (tidy l)) ++ trail).
Proof.
  induction l as [|[ws p] l IH]; intros fuel pre trail st b prg Hp Hw Hi Hg Hf.
  - destruct fuel; [lia|]. cbn [well_formed] in Hw. apply andb_true_iff in Hw as (Hw & _). apply andb_true_iff in Hw as (_ & Hw). cbn [render app mirror tidy map] in *.
    cbn [program_loop]. rewrite Hp at 1. rewrite skipn_exact, skip_all by (reflexivity || exact Hw). cbn [lbind length]. rewrite Nat.sub_0_r.
    f_equal. apply (sub_exact pre trail []); rewrite ?app_nil_r; auto. now rewrite Hp.
  - apply wf_cons in Hw as (Hws & Hk & st' & Hn & Hw).
    set (R := render d l ++ trail) in *. cbn [render] in Hp, Hf. rewrite <- !app_assoc in Hp, Hf. fold R in Hp, Hf. rewrite !app_length in Hf.
    pose proof (wf_proper d d' T l _ _ Hw) as Hpr.
    assert (Eo : forall m, length (pre ++ ws ++ m) = length pre + length ws + length m) by (intros m; rewrite !app_length; lia).
    (* the rest of the program, for pieces of one token that leave the notebook alone *)
    assert (Rest : forall f, is_key p = false -> guard (pre ++ ws ++ render_piece d p) st' -> length R < f ->
      program_loop d T prg f (length (pre ++ ws ++ render_piece d p)) (length (pre ++ ws ++ render_piece d p)) b = LOk (render d' (mirror (tidy l)) ++ trail)).
    { intros f K G F. apply (IH f _ trail st' b prg); [rewrite Hp, <- !app_assoc; reflexivity|exact Hw| |exact G|exact F].
      rewrite Eo. apply (inv_step d d' b st _ ws p l st' K Hn Hi). }
    assert (Sub : sub prg (length pre) (length (pre ++ ws ++ render_piece d p)) = ws ++ render_piece d p).
    { apply (sub_exact pre (ws ++ render_piece d p) R); [rewrite Hp, <- !app_assoc; reflexivity|reflexivity|reflexivity]. }
    (* one mark *)
    assert (Mark : forall f m m' t sp, render_piece d p = m -> render_piece d' (mirror_piece p) = m' -> is_key p = false -> tidy_space p ws = sp -> m <> [] -> last m 0%N <> P ->
      tok d (m ++ R) = LOk (t, [], R) -> In (m, m') (combine (marks d) (marks d')) -> length R < f ->
      (forall q, act prg f (length (pre ++ ws ++ m)) (length pre) t [] b = q ->
                 q = lx a <- translate_mark d T m; lx o <- program_loop d T prg f (length (pre ++ ws ++ m)) (length (pre ++ ws ++ m)) b; LOk (sp ++ a ++ o)) ->
      program_loop d T prg (S f) (length pre) (length pre) b = LOk (render d' (mirror (tidy ((ws, p) :: l))) ++ trail)).
    { intros f m m' t sp <- <- K <- M1 M2 Ht I F A. rewrite (run_tok prg pre ws _ R f _ _ _ b Hp Hws Ht). rewrite (A _ eq_refl), (mark_plain d d' T D U _ _ I). cbn [lbind].
      rewrite Rest; [|exact K|now apply guard_last|exact F]. cbn [lbind tidy mirror map render]. now rewrite <- !app_assoc. }
    (* one bracket *)
    assert (Brk : forall f c t, render_piece d p = [c] -> render_piece d' (mirror_piece p) = [c] -> tidy_space p ws = ws -> is_key p = false -> plain c = false ->
      In (c, t) [(40%N, TPAROPEN); (41%N, TPARCLOSE); (123%N, TBLOCKOPEN); (125%N, TBLOCKCLOSE)] -> length R < f ->
      program_loop d T prg (S f) (length pre) (length pre) b = LOk (render d' (mirror (tidy ((ws, p) :: l))) ++ trail)).
    { intros f c t Ep Ep' Et K Hc I F. rewrite Ep in *. rewrite (run_tok prg pre ws [c] R f _ t [] b Hp Hws (tok_bracket c t R I)).
      unfold tidy, mirror. cbn [map render]. rewrite Ep', Et. fold (tidy l). fold (mirror (tidy l)).
      cbn [In] in I. destruct I as [I|[I|[I|[I|[]]]]]; injection I as <- <-; cbn [act];
        (rewrite Rest; [|exact K|apply bracket_last, Hc|exact F]); cbn [lbind]; rewrite Sub, <- !app_assoc; reflexivity. }
    destruct fuel; [lia|]. destruct p as [w w'|k k'|w w'|s s'|n n'| | | | | | | |].
    + (* Word *)
      cbn [render_piece piece_ok] in *. do 3 (apply andb_true_iff in Hk as (Hk & ?)).
      destruct (word_last w R Hk) as (W1 & W2). assert (length w <> 0) by (now destruct w).
      rewrite (run_tok prg pre ws w R fuel _ TREF w b Hp Hws (tok_word d L w R Hk)). cbn [act].
      rewrite (ref_word prg pre ws w w' R b); [|exact Hp|exact Hk|now apply negb_true_iff|assumption|assumption|].
      * cbn [lbind]. rewrite Rest; [|reflexivity|now apply guard_last|lia]. cbn [lbind tidy mirror map render tidy_space mirror_piece render_piece]. now rewrite <- !app_assoc.
      * apply (inv_none d d' b st' (length (pre ++ ws ++ w)) l); [exact Hpr| |lia|].
        -- rewrite Eo. apply (inv_step d d' b st _ ws (Word w w') l st' eq_refl Hn Hi).
        -- intros a I. apply cov_fst in I; [lia|exact Hpr].
    + (* Key *)
      clear Rest Mark Brk Sub. cbn [render_piece] in *. rewrite app_length in Hf. cbn [length] in Hf. rewrite <- app_assoc in Hp. cbn [app] in Hp.
      destruct (key_parts d d' T _ _ _ _ _ _ Hk) as (K1 & K2 & K3 & _).
      destruct (ref_key prg pre ws k k' l trail st st' b Hp Hk Hn Hw Hi) as (b' & E & Hi').
      rewrite (run_tok prg pre ws k (P :: R) fuel _ TREF k b Hp Hws (tok_word d L k _ K1)). cbn [act]. rewrite E. cbn [lbind].
      destruct (word_last k _ K1) as (W1 & W2). assert (length k <> 0) by (now destruct k). destruct fuel; [lia|].
      assert (Hp2 : prg = (pre ++ ws ++ k) ++ [] ++ [P] ++ R) by (rewrite Hp, <- !app_assoc; reflexivity).
      rewrite (run_tok prg (pre ++ ws ++ k) [] [P] R fuel _ TCOLON [] b' Hp2 eq_refl (tok_colon d L R K2 K3)). cbn [act].
      assert (Ep : (length (pre ++ ws ++ k) + 1 =? 0) || negb (nth (length (pre ++ ws ++ k) + 1 - 1) prg 0 =? P)%N = false).
      { rewrite Nat.add_sub, Hp2. cbn [app]. rewrite nth_middle, N.eqb_refl. rewrite Nat.add_1_r. reflexivity. }
      rewrite Ep. cbn [app]. replace (length (pre ++ ws ++ k) + 1) with (length ((pre ++ ws ++ k) ++ [P])) by (rewrite (app_length _ [P]); reflexivity).
      assert (Ea : (pre ++ ws ++ k) ++ [P] = pre ++ ws ++ k ++ [P]) by (rewrite <- !app_assoc; reflexivity).
      rewrite Ea. rewrite (IH fuel (pre ++ ws ++ k ++ [P]) trail st' b' prg); [| |exact Hw|exact Hi'| |].
      * cbn [lbind tidy mirror map render tidy_space mirror_piece render_piece]. now rewrite <- !app_assoc.
      * rewrite Hp, <- !app_assoc. reflexivity.
      * right. right. destruct st as [|[b0 f0] st]; [discriminate|]. cbn [next] in Hn. injection Hn as <-. reflexivity.
      * fold R. lia.
    + (* Param *)
      clear Mark Brk Sub. cbn [render_piece piece_ok] in *. do 5 (apply andb_true_iff in Hk as (Hk & ?)). cbn [length app] in *.
      destruct (word_last w R Hk) as (W1 & W2). assert (length w <> 0) by (now destruct w).
      assert (Hp1 : prg = pre ++ ws ++ [P] ++ w ++ R) by exact Hp.
      rewrite (run_tok prg pre ws [P] (w ++ R) fuel _ TCOLON [] b Hp1 Hws); [|apply (tok_colon d L); now apply negb_true_iff]. cbn [act].
      assert (Eg : (length pre =? 0) || negb (nth (length pre - 1) prg 0 =? P)%N = true).
      { destruct Hg as [->|[Hg|Hg]]; [reflexivity| |].
        - destruct pre as [|c pre]; [reflexivity|]. rewrite Hp, nth_last by discriminate. apply orb_true_iff. right. apply negb_true_iff. now apply N.eqb_neq.
        - destruct st as [|[b0 f0] st]; [discriminate|]. cbn [in_message] in Hg. subst f0. cbn [next] in Hn. destruct b0; discriminate. }
      rewrite Eg, (mark_plain d d' T D U [P] [P']) by (cbn; tauto). cbn [lbind].
      destruct fuel; [lia|].
      assert (Hp2 : prg = (pre ++ ws ++ [P]) ++ [] ++ w ++ R) by (rewrite Hp1, <- !app_assoc; reflexivity).
      rewrite (run_tok prg (pre ++ ws ++ [P]) [] w R fuel _ TREF w b Hp2 eq_refl (tok_word d L w R Hk)). cbn [act].
      assert (Ea : (pre ++ ws ++ [P]) ++ [] ++ w = pre ++ ws ++ P :: w) by (rewrite <- !app_assoc; reflexivity).
      rewrite (ref_word prg (pre ++ ws ++ [P]) [] w w' R b); [|exact Hp2|exact Hk|now apply negb_true_iff|assumption|assumption|].
      * cbn [lbind]. rewrite Ea, Rest; [|reflexivity| |lia].
        -- cbn [lbind tidy mirror map render tidy_space mirror_piece render_piece app]. rewrite <- !app_assoc. reflexivity.
        -- apply guard_last; [discriminate|]. change (P :: w) with ([P] ++ w). now rewrite last_app.
      * rewrite Ea. apply (inv_none d d' b st' (length (pre ++ ws ++ P :: w)) l); [exact Hpr| |lia|].
        -- rewrite Eo. apply (inv_step d d' b st _ ws (Param w w') l st' eq_refl Hn Hi).
        -- intros a I. apply cov_fst in I; [lia|exact Hpr].
    + (* Text *)
      cbn [render_piece] in *. rewrite <- !app_assoc in Hp. rewrite !app_length in Hf.
      rewrite (run_tok prg pre ws (d_qo d) (s ++ d_qc d ++ R) fuel _ TQUOTE [] b Hp Hws (tok_qo d L _)). cbn [act].
      rewrite (string_ok prg pre ws s s' R l st Hp Hk). cbn [lbind]. pose proof (la_qo_len d L). pose proof (la_qc_len d L). pose proof (la_last d L).
      assert (Qn : d_qc d <> []) by (intros E; rewrite E in *; cbn [length] in *; lia).
      rewrite Rest; [|reflexivity| |lia].
      * cbn [lbind tidy mirror map render tidy_space mirror_piece render_piece]. now rewrite <- !app_assoc.
      * apply guard_last.
        -- intros E. apply app_eq_nil in E as (_ & E). apply app_eq_nil in E as (_ & E). congruence.
        -- rewrite app_assoc, last_app by exact Qn. tauto.
    + (* Num *)
      cbn [render_piece piece_ok] in *. apply andb_true_iff in Hk as (Hk & _). apply andb_true_iff in Hk as (Hk & Hsep). apply andb_true_iff in Hk as (Hk & Hn'). destruct (tok_num d L n R Hk) as (v & Ht).
      destruct (num_last n R Hk) as (W1 & W2). assert (length n <> 0) by (now destruct n).
      rewrite (run_tok prg pre ws n R fuel _ TNUMBER v b Hp Hws Ht). cbn [act]. rewrite Rest; [|reflexivity|now apply guard_last|lia]. cbn [lbind].
      rewrite Sub. rewrite number_bytes by (rewrite !app_length; lia). rewrite flat_map_app.
      apply text_eqb_true in Hn'. rewrite <- Hn'.
      rewrite flat_map_same.
      * cbn [lbind tidy mirror map render tidy_space mirror_piece render_piece]. now rewrite <- !app_assoc.
      * intros c I. rewrite forallb_forall in Hsep. specialize (Hsep c I). apply andb_true_iff in Hsep as (Q1 & Q2).
        apply negb_true_iff in Q1, Q2. unfold translate_byte. now rewrite Q1, Q2.
    + apply (Brk fuel 40%N TPAROPEN); try reflexivity; [cbn; tauto|]. cbn [render_piece length] in Hf. lia.
    + apply (Brk fuel 41%N TPARCLOSE); try reflexivity; [cbn; tauto|]. cbn [render_piece length] in Hf. lia.
    + apply (Brk fuel 123%N TBLOCKOPEN); try reflexivity; [cbn; tauto|]. cbn [render_piece length] in Hf. lia.
    + apply (Brk fuel 125%N TBLOCKCLOSE); try reflexivity; [cbn; tauto|]. cbn [render_piece length] in Hf. lia.
    + pose proof (plain_nil _ (la_eol d L)) as N1. assert (length (d_eol d) <> 0) by (now destruct (d_eol d)). cbn [render_piece] in Hf. pose proof (la_last d L).
      eapply (Mark fuel (d_eol d) (d_eol d') TDOT []); try reflexivity; [exact N1|tauto|apply (tok_dot d L)|cbn; tauto|lia|]. intros q <-. reflexivity.
    + pose proof (plain_nil _ (la_chain d L)) as N1. assert (length (d_chain d) <> 0) by (now destruct (d_chain d)). cbn [render_piece] in Hf. pose proof (la_last d L).
      eapply (Mark fuel (d_chain d) (d_chain d') TCHAIN []); try reflexivity; [exact N1|tauto|apply (tok_chain d L)|cbn; tauto|lia|]. intros q <-. reflexivity.
    + pose proof (plain_nil _ (la_assign d L)) as N1. assert (length (d_assign d) <> 0) by (now destruct (d_assign d)). cbn [render_piece] in Hf. pose proof (la_last d L).
      eapply (Mark fuel (d_assign d) (d_assign d') TASSIGN [32%N]); try reflexivity; [exact N1|tauto|apply (tok_assign d L)|cbn; tauto|lia|]. intros q <-. reflexivity.
    + pose proof (plain_nil _ (la_return d L)) as N1. assert (length (d_return d) <> 0) by (now destruct (d_return d)). cbn [render_piece] in Hf. pose proof (la_last d L).
      eapply (Mark fuel (d_return d) (d_return d') TRET [32%N]); try reflexivity; [exact N1|tauto|now apply (tok_return d L)|cbn; tauto|lia|]. intros q <-. reflexivity.
Qed.
Lemma cov_none l : forall st o, forallb (fun x => negb (snd x)) st = true -> cov d st o l = [].
Proof.
  induction l as [|[ws p] l IH]; intros st o H; [reflexivity|]. cbn [cov]. destruct p; try (apply IH; exact H); try (apply IH; cbn; exact H).
  - destruct st as [|[b0 f0] st]; cbn [in_message app]; [apply IH; reflexivity|]. cbn [forallb snd] in H. apply andb_true_iff in H as (H1 & H2). destruct f0; [discriminate|].
    cbn [app]. apply IH. cbn. exact H2.
  - apply IH. destruct st; [reflexivity|]. now apply andb_true_iff in H as (_ & H).
  - apply IH. destruct st; [reflexivity|]. now apply andb_true_iff in H as (_ & H).
  - apply IH. destruct st as [|[b0 f0] st]; [reflexivity|]. now apply andb_true_iff in H as (_ & H).
  - apply IH. destruct st as [|[b0 f0] st]; [reflexivity|]. now apply andb_true_iff in H as (_ & H).
Qed.
Lemma program_ok l trail : wf [(false, false)] l trail = true ->
  translate_program d T (render d l ++ trail) = LOk (render d' (mirror (tidy l)) ++ trail).
Proof.
  intros H. unfold translate_program. apply (loop_ok l _ [] trail [(false, false)] []); auto.
  - split; [|intros n a []]. rewrite cov_none by reflexivity. intros a t [].
  - now left.
Qed.
End Loop.
