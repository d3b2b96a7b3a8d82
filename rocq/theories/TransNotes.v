(** The notebook of the translator. *)
From Verif Require Import Common TextModel NumModel LexModel LexSpec LexProofs TransModel TransSpec TransLex TransScan TransFind.
From Coq Require Import Lia.
Open Scope nat_scope.

Section Notes.
Variables d d' : dict.
Variable T : tdict.
Hypothesis L : lang d.
Notation fs := (forward_scan d).
Notation wf := (well_formed d d' T).
Notation P := (d_prefix d).

Fixpoint new_notes (c : nat) (ps : list (nat * (text * text))) : list note :=
  match ps with [] => [] | (pos, _) :: ps' => mkNote (Some pos) [] (Some c) :: new_notes (S c) ps' end.

Lemma backward_ok (A : text) c0 k R : In c0 [32; 9; 10]%N -> (forall c, In c k -> ~ In c [10; 9; 32; 41; 125]%N) -> length k < 179 ->
  plain P = true ->
  backward_scan (A ++ c0 :: k ++ P :: R) (length A + 1 + length k) 0 max_word = Some (S (length k)).
Proof.
  intros H0 Hk Hl HP. set (prg := A ++ c0 :: k ++ P :: R).
  assert (G : forall m q limit, q + m = S (length k) -> m < limit -> backward_scan prg (length A + 1 + length k) q limit = Some (S (length k))).
  2:{ apply (G (S (length k)) 0 max_word); unfold max_word; lia. }
  induction m as [|m IH]; intros q limit Hq Hm; (destruct limit as [|limit]; [lia|]); cbn [backward_scan].
  - assert (E : (length A + 1 + length k <? q) = false) by (apply Nat.ltb_ge; lia). rewrite E.
    assert (E2 : nth (length A + 1 + length k - q) prg 0%N = c0).
    { unfold prg. rewrite app_nth2 by lia. replace (length A + 1 + length k - q - length A) with 0 by lia. reflexivity. }
    rewrite E2. replace q with (S (length k)) by lia. cbn in H0. destruct H0 as [<-|[<-|[<-|[]]]]; reflexivity.
  - assert (E : (length A + 1 + length k <? q) = false) by (apply Nat.ltb_ge; lia). rewrite E.
    set (c := nth (length A + 1 + length k - q) prg 0%N).
    assert (Hc : ~ In c [10; 9; 32; 41; 125]%N).
    { unfold c, prg. rewrite app_nth2 by lia. replace (length A + 1 + length k - q - length A) with (S (length k - q)) by lia. cbn [nth].
      destruct (Nat.eq_dec q 0) as [->|Nq].
      - rewrite app_nth2 by lia. replace (length k - 0 - length k) with 0 by lia. cbn [nth]. apply plain_spec in HP as (HP & _). intros I. apply HP. cbn in I |- *. intuition.
      - rewrite app_nth1 by lia. apply Hk, nth_In. lia. }
    assert (E2 : ((c =? 10) || (c =? 9) || (c =? 32) || (c =? 41) || (c =? 125))%N = false).
    { rewrite !orb_false_iff, !N.eqb_neq. cbn in Hc. intuition. }
    rewrite E2. apply IH; lia.
Qed.
Lemma word_bytes k rest c : word_ok d k rest = true -> In c k -> ~ In c [10; 9; 32; 41; 125]%N /\ c <> P.
Proof.
  intros H I. apply word_parts in H as (_ & Hc & Hb & _). rewrite forallb_forall in Hb. apply Hb in I as B. apply negb_true_iff in B.
  unfold among in B. cbn [existsb] in B. rewrite !orb_false_iff, !N.eqb_neq in B. apply In_nth with (d := 0%N) in I as (i & Hi & E). pose proof (Hc i Hi) as C.
  rewrite (skipn_nth_cons i k rest Hi), E in C. unfold clear, sign in C. apply negb_true_iff in C. cbn [hd] in C. unfold among in C. cbn [existsb] in C.
  rewrite !orb_false_iff, !N.eqb_neq in C. cbn. intuition.
Qed.
Lemma whole_length c k ks : length (whole c (k :: ks)) = S (length k) + length (whole c ks).
Proof. unfold whole. cbn [map concat]. rewrite !app_length. cbn. lia. Qed.
Lemma last_split (ws : text) : ws <> [] -> exists A, ws = A ++ [last ws 0%N].
Proof. intros H. exists (removelast ws). now apply app_removelast_last. Qed.
Lemma firstn_exact {A} (a b : list A) n : n = length a -> firstn n (a ++ b) = a.
Proof. intros ->. rewrite firstn_app, firstn_all, Nat.sub_diag. cbn. apply app_nil_r. Qed.
Lemma skipn_exact {A} (a b : list A) n : n = length a -> skipn n (a ++ b) = b.
Proof. intros ->. now rewrite skipn_app, skipn_all, Nat.sub_diag. Qed.
Lemma among_In c l : among c l = true -> In c l.
Proof. unfold among. intros H. apply existsb_exists in H as (x & I & E). apply N.eqb_eq in E. now subst. Qed.
Lemma fs_silent m n b nu : silent d m = true -> fs m n b false nu = None.
Proof. intros H. destruct (pass_silent d m [] n b H nu) as (nu' & E). rewrite app_nil_r in E. now rewrite E. Qed.

Lemma parts_ok fuel : forall l pre trail b0 st0 i b count msg e prg,
  prg = pre ++ render d l ++ trail -> e + i = length pre -> wf ((b0, true) :: st0) l trail = true -> length (render d l ++ trail) < fuel ->
  1 <= length msg -> length msg + length (whole P (map fst (later 0 l))) <= 180 ->
  parts d prg e fuel i b count msg =
    LOk (b ++ new_notes count (laterp d 0 (length pre) l), count + length (later 0 l), msg ++ whole P (map fst (later 0 l))).
Proof.
  induction fuel as [|fuel IH]; intros l pre trail b0 st0 i b count msg e prg Hp He Hw Hf H1m Hm; [lia|]. cbn [parts].
  assert (E : skipn (e + i) prg = render d l ++ trail) by (rewrite Hp; now apply skipn_exact). rewrite E.
  pose proof (scan_spec d d' T L l trail [] b0 st0 false Hw) as F. change (parens []) with 0 in F. change (TransFind.blocks []) with 0 in F. change (length (@nil (bool * bool))) with 0 in F.
  rewrite <- (later_laterp d l 0 (length pre)) in Hm |- *.
  inversion F as [HL Eo | l1 ws p l2 El Hin HL Eo | l1 ws k k' l2 bb sst El HL Hwf Eo]; clear F.
  - rewrite HL. cbn. rewrite !app_nil_r, Nat.add_0_r. reflexivity.
  - rewrite HL in *. cbn [map fst new_notes length] in *. unfold whole. cbn [map concat]. rewrite !app_nil_r, Nat.add_0_r.
    set (K := length (render d l1) + length ws) in *.
    assert (Ec : skipn (e + (i + K)) prg = render_piece d p ++ render d l2 ++ trail).
    { rewrite Hp, El, render_app. cbn [render]. rewrite <- !app_assoc. rewrite (app_assoc pre), (app_assoc (pre ++ render d l1)). apply skipn_exact.
      rewrite !app_length. unfold K. lia. }
    rewrite Ec. cbn in Hin. destruct Hin as [<-|[<-|[<-|[]]]]; cbn [render_piece].
    + destruct (length (d_eol d) <? length (d_eol d ++ render d l2 ++ trail)) eqn:El2; [rewrite starts_app; reflexivity|].
      assert (Z : render d l2 ++ trail = []).
      { apply Nat.ltb_ge in El2. rewrite app_length in El2. apply length_zero_iff_nil. lia. }
      rewrite Z, app_nil_r. cbn [andb orb].
      pose proof (distinct_sym _ _ (la_chain_d d L)) as D. apply distinct_starts with (t := []) in D. rewrite app_nil_r in D. rewrite D, andb_false_r. cbn [orb].
      destruct (plain_hd _ (la_eol d L)) as (c & r & Ee & Pc). rewrite Ee. unfold peek. cbn [nth].
      pose proof (plain_bracket c Pc) as B. apply bracket_false in B as (_ & -> & _).
      destruct (la_hd d L) as (Hh & _). rewrite Ee in Hh. cbn [hd] in Hh. apply N.eqb_neq in Hh. rewrite Hh.
      destruct fuel as [|fuel].
      { exfalso. rewrite El, render_app in Hf. cbn [render render_piece] in Hf. rewrite Ee in Hf. repeat (rewrite app_length in Hf; cbn [length] in Hf). lia. }
      cbn [parts]. replace (skipn (e + S (i + K)) prg) with r.
      * rewrite fs_silent; [reflexivity|]. pose proof (la_eol_tail d L) as Tl. now rewrite Ee in Tl.
      * cbn [render_piece] in Ec. rewrite Z, app_nil_r, Ee in Ec. replace (e + S (i + K)) with (S (e + (i + K))) by lia.
        clear - Ec. revert Ec. generalize (e + (i + K)). intros n. revert prg. induction n; intros prg H; [cbn in H; now subst|]. destruct prg; [discriminate|]. cbn [skipn] in H |- *. now apply IHn.
    + pose proof (la_chain_d d L) as D. apply distinct_starts with (t := render d l2 ++ trail) in D. rewrite D, andb_false_r. cbn [orb].
      destruct (length (d_chain d) <? length (d_chain d ++ render d l2 ++ trail)) eqn:El2; [rewrite starts_app; reflexivity|].
      assert (Z : render d l2 ++ trail = []).
      { apply Nat.ltb_ge in El2. rewrite app_length in El2. apply length_zero_iff_nil. lia. }
      rewrite Z, app_nil_r. cbn [andb orb].
      destruct (plain_hd _ (la_chain d L)) as (c & r & Ee & Pc). rewrite Ee. unfold peek. cbn [nth].
      pose proof (plain_bracket c Pc) as B. apply bracket_false in B as (_ & -> & _).
      destruct (la_hd d L) as (_ & Hh & _). rewrite Ee in Hh. cbn [hd] in Hh. apply N.eqb_neq in Hh. rewrite Hh.
      destruct fuel as [|fuel].
      { exfalso. rewrite El, render_app in Hf. cbn [render render_piece] in Hf. rewrite Ee in Hf. repeat (rewrite app_length in Hf; cbn [length] in Hf). lia. }
      cbn [parts]. replace (skipn (e + S (i + K)) prg) with r.
      * rewrite fs_silent; [reflexivity|]. pose proof (la_chain_tail d L) as Tl. now rewrite Ee in Tl.
      * cbn [render_piece] in Ec. rewrite Z, app_nil_r, Ee in Ec. replace (e + S (i + K)) with (S (e + (i + K))) by lia.
        clear - Ec. revert Ec. generalize (e + (i + K)). intros n. revert prg. induction n; intros prg H; [cbn in H; now subst|]. destruct prg; [discriminate|]. cbn [skipn] in H |- *. now apply IHn.
    + unfold peek. cbn [app nth N.eqb Pos.eqb]. rewrite !orb_true_r. reflexivity.
  - set (K := length (render d l1) + length ws + length k) in *. rewrite HL in *.
    pose proof Hwf as Hwf0. cbn [well_formed] in Hwf0. apply andb_true_iff in Hwf0 as (Hwf0 & Hw2). apply andb_true_iff in Hwf0 as (Hws & Hpk).
    cbn [piece_ok] in Hpk.
    repeat match goal with H : (_ && _)%bool = true |- _ => apply andb_true_iff in H as (? & ?) end.
    match goal with H : among (last ws 0%N) _ = true |- _ => rename H into Hlast end. match goal with H : word_ok _ _ _ = true |- _ => rename H into Hword end.
    cbn [next] in Hw2.
    assert (Ec : skipn (e + (i + K)) prg = P :: render d l2 ++ trail).
    { rewrite Hp, El, render_app. cbn [render render_piece]. rewrite <- !app_assoc. rewrite (app_assoc pre), (app_assoc (pre ++ render d l1)), (app_assoc _ k). cbn [app].
      apply skipn_exact. rewrite !app_length. unfold K. lia. }
    rewrite Ec. destruct (la_hd d L) as (N1 & N2 & _). rewrite !plain_not by (apply L || congruence). rewrite !andb_false_r. unfold peek. cbn [nth orb].
    pose proof (plain_bracket P (la_prefix d L)) as B. apply bracket_false in B as (_ & -> & _). rewrite N.eqb_refl.
    apply among_In in Hlast. assert (Nws : ws <> []).
    { intros ->. cbn in Hlast. intuition discriminate. }
    destruct (last_split ws Nws) as (A & EA). set (c0 := last ws 0%N) in *.
    cbn [map snd fst] in Hm. rewrite whole_length in Hm.
    assert (Eprg : prg = (pre ++ render d l1 ++ A) ++ c0 :: k ++ P :: render d l2 ++ trail).
    { rewrite Hp, El, render_app. cbn [render render_piece]. rewrite EA. repeat (rewrite <- ?app_assoc; cbn [app]). reflexivity. }
    assert (Epos : e + (i + K) = length (pre ++ render d l1 ++ A) + 1 + length k).
    { rewrite Nat.add_assoc, He. unfold K. rewrite EA. rewrite !app_length. cbn. lia. }
    assert (Hk : length k < 179).
    { lia. }
    rewrite Epos, Eprg, backward_ok; [|exact Hlast|intros c Hc; now apply (word_bytes k _ c Hword)|exact Hk|apply L]. rewrite <- Epos.
    assert (Elen : (max_word <? length msg + S (length k)) = false) by (apply Nat.ltb_ge; unfold max_word; lia). rewrite Elen.
    assert (Epart : firstn (S (length k)) (skipn (e + (i + K) - S (length k) + 1) ((pre ++ render d l1 ++ A) ++ c0 :: k ++ P :: render d l2 ++ trail)) = k ++ [P]).
    { replace ((pre ++ render d l1 ++ A) ++ c0 :: k ++ P :: render d l2 ++ trail) with (((pre ++ render d l1 ++ A) ++ [c0]) ++ (k ++ [P]) ++ render d l2 ++ trail).
      - rewrite skipn_exact; [apply firstn_exact; rewrite app_length; cbn; lia|]. rewrite (app_length _ [c0]). cbn [length]. lia.
      - repeat (rewrite <- ?app_assoc; cbn [app]). reflexivity. }
    rewrite Epart.
    rewrite (IH l2 (pre ++ render d l1 ++ ws ++ k ++ [P]) trail bb sst).
    + rewrite <- (later_laterp d l2 0 (length (pre ++ render d l1 ++ ws ++ k ++ [P]))).
      replace (length (pre ++ render d l1 ++ ws ++ k ++ [P])) with (length pre + K + 1) by (unfold K; rewrite !app_length; cbn; lia).
      cbn [map snd fst length new_notes]. unfold whole. cbn [map concat]. f_equal. rewrite <- !app_assoc. cbn [app].
      replace (e + (i + K)) with (length pre + K) by lia. f_equal. f_equal. lia.
    + rewrite EA. repeat (rewrite <- ?app_assoc; cbn [app]). reflexivity.
    + rewrite !app_length. cbn [length]. unfold K. lia.
    + exact Hw2.
    + rewrite El, render_app in Hf. cbn [render render_piece] in Hf. repeat (rewrite app_length in Hf; cbn [length] in Hf). rewrite app_length. lia.
    + rewrite !app_length. cbn [length]. lia.
    + rewrite !app_length. cbn [length]. rewrite later_laterp in Hm. lia.
Qed.
End Notes.
