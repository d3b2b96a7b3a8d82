(** The parts of a message that the translator finds are the ones that follow at the same level. *)
From Verif Require Import Common TextModel NumModel LexModel LexSpec LexProofs TransModel TransSpec TransLex TransScan.
From Coq Require Import Lia.
Open Scope nat_scope.

Section Find.
Variables d d' : dict.
Variable T : tdict.
Hypothesis L : lang d.
Notation fs := (forward_scan d).
Notation wf := (well_formed d d' T).

Definition kinds (loc : levels) : list bool := map fst loc.
Definition parens (loc : levels) : nat := count_occ Bool.bool_dec (kinds loc) true.
Definition blocks (loc : levels) : nat := count_occ Bool.bool_dec (kinds loc) false.
Lemma nested (loc : levels) : loc <> [] -> parens loc <> 0 \/ blocks loc <> 0.
Proof. destruct loc as [|[[] f] loc]; [congruence| |]; intros _; unfold parens, blocks; cbn; [left|right]; lia. Qed.

Lemma stop_here code nu : digit (hd 0%N code) = false -> bracket (hd 0%N code) = false \/ hd 0%N code = 41%N ->
  starts (d_qo d) code = false -> calm d code = true -> code <> [] -> ending d code = true -> fs code 0 0 false nu = Some 0.
Proof.
  destruct (la_seps d L) as (x & y & Hx & Hy & _). destruct code as [|c r]; [congruence|]. intros Hd Hb Hq Hc _ He. cbn [hd] in *.
  cbn [forward_scan]. set (nu1 := nu && _). assert (E : nu1 = false).
  { subst nu1. apply andb_false_iff. right. rewrite isdigit_digit, Hd. cbn [orb]. rewrite Hx, Hy. unfold calm in Hc. rewrite Hx, Hy in Hc.
    apply negb_true_iff in Hc. cbn [existsb] in Hc. rewrite orb_false_r in Hc. unfold peek. cbn [length Nat.add] in *. rewrite !isdigit_digit.
    change (2 <? S (length r)) with (2 <? length (c :: r)). cbn [length] in *.
    destruct (2 <? S (length r)); [|reflexivity]. cbn [andb]. rewrite andb_true_r in Hc.
    destruct (digit (nth 2 (c :: r) 0%N)); [|now rewrite !andb_false_r]. rewrite !andb_true_r in *. exact Hc. }
  clearbody nu1. subst nu1. rewrite Hq. rewrite isdigit_digit, Hd. cbn [negb andb Nat.eqb].
  assert (B : (c =? 40)%N = false /\ (c =? 123)%N = false).
  { destruct Hb as [Hb| ->]; [apply bracket_false in Hb; intuition|split; reflexivity]. }
  destruct B as (-> & ->). unfold ending in He. cbn [hd] in He. rewrite He. reflexivity.
Qed.

Lemma calm_first c r : (forall x, In x (d_dec d) \/ In x (d_tho d) -> c <> x) -> calm d (c :: r) = true.
Proof.
  destruct (la_seps d L) as (x & y & Hx & Hy & _). intros H. rewrite Hx, Hy in H. unfold calm. rewrite Hx, Hy. cbn [existsb starts].
  destruct (N.eqb_spec x c) as [->|]; [exfalso; apply (H c); cbn; auto|]. destruct (N.eqb_spec y c) as [->|]; [exfalso; apply (H c); cbn; auto|]. reflexivity.
Qed.
Lemma sep_not x : In x (d_dec d) \/ In x (d_tho d) -> x <> 41%N /\ x <> d_prefix d.
Proof.
  destruct (la_seps d L) as (a & b & Ha & Hb & _ & Hs). rewrite Ha, Hb. cbn. intros H.
  destruct (Hs x) as (H1 & _ & _ & H4 & _); [intuition|]. split; [|exact H4]. intros ->. discriminate.
Qed.

(** The parts that follow, with the positions of their colons; [l] is at [o]. *)
Fixpoint laterp (n o : nat) (l : program) : list (nat * (text * text)) :=
  match l with
  | [] => []
  | (ws, p) :: l' =>
      let o' := o + length ws + length (render_piece d p) in
      match p with
      | Key k k' => if n =? 0 then (o + length ws + length k, (k, k')) :: laterp n o' l' else laterp n o' l'
      | Dot | Chain => if n =? 0 then [] else laterp n o' l'
      | Close | BClose => if n =? 0 then [] else laterp (n - 1) o' l'
      | Open | BOpen => laterp (S n) o' l'
      | _ => laterp n o' l'
      end
  end.
Lemma later_laterp l : forall n o, map snd (laterp n o l) = later n l.
Proof.
  induction l as [|[ws p] l IH]; intros n o; [reflexivity|]. cbn [laterp later]. destruct p; auto; destruct (n =? 0); cbn [map]; auto. cbn [snd]. now rewrite IH.
Qed.
(** The result of the scan at the pieces [l], [depth] levels above those of the message. *)
Inductive found (l : program) (trail : text) (depth : nat) : option nat -> Prop :=
| F_none : (forall o, laterp depth o l = []) -> found l trail depth None
| F_end l1 ws p l2 : l = l1 ++ (ws, p) :: l2 -> In p [Dot; Chain; Close] -> (forall o, laterp depth o l = []) ->
    found l trail depth (Some (length (render d l1) + length ws))
| F_part l1 ws k k' l2 b0 st0 : l = l1 ++ (ws, Key k k') :: l2 -> 
    (forall o, laterp depth o l = (o + (length (render d l1) + length ws + length k), (k, k')) :: laterp 0 (o + (length (render d l1) + length ws + length k) + 1) l2) ->
    wf ((b0, true) :: st0) ((ws, Key k k') :: l2) trail = true ->
    found l trail depth (Some (length (render d l1) + length ws + length k)).
Lemma render_app l1 l2 : render d (l1 ++ l2) = render d l1 ++ render d l2.
Proof. induction l1 as [|[ws p] l1 IH]; cbn; [reflexivity|]. now rewrite IH, !app_assoc. Qed.
Lemma found_cons ws p l trail depth depth' r : (forall o, laterp depth o ((ws, p) :: l) = laterp depth' (o + length ws + length (render_piece d p)) l) ->
  found l trail depth' r -> found ((ws, p) :: l) trail depth (option_map (Nat.add (length (ws ++ render_piece d p))) r).
Proof.
  intros E H. rewrite app_length. inversion H; subst; cbn [option_map].
  - apply F_none. intros o. now rewrite E.
  - replace (_ + _) with (length (render d ((ws, p) :: l1)) + length ws0) by (cbn [render]; rewrite !app_length; lia).
    eapply F_end with (l2 := l2); [reflexivity|eassumption|]. intros o. now rewrite E.
  - replace (_ + _) with (length (render d ((ws, p) :: l1)) + length ws0 + length k) by (cbn [render]; rewrite !app_length; lia).
    eapply F_part with (l2 := l2); [reflexivity| |eassumption]. intros o. rewrite E, H1. cbn [render]. rewrite !app_length. f_equal; [f_equal; lia|f_equal; lia].
Qed.

Lemma pass_space ws rest loc b0 st0 : unnoticed d (loc ++ (b0, true) :: st0) ws = true ->
  passes d ws rest (parens loc) (blocks loc) (parens loc) (blocks loc).
Proof.
  unfold unnoticed. rewrite existsb_app. cbn [existsb snd]. rewrite !orb_true_r. cbn [negb orb]. intros H. apply andb_true_iff in H as (H1 & H2).
  apply pass_discreet; [exact H1|]. destruct loc as [|x loc]; [right; right; exact H2|]. destruct (nested (x :: loc)); [discriminate|now left|now (right; left)].
Qed.
Lemma fs_space ws loc b0 st0 nu : unnoticed d (loc ++ (b0, true) :: st0) ws = true -> fs ws (parens loc) (blocks loc) false nu = None.
Proof.
  intros H. destruct (pass_space ws [] loc b0 st0 H nu) as (nu' & E). rewrite app_nil_r in E. rewrite E. reflexivity.
Qed.
Lemma word_pass_colon w rest n b : word_ok d w rest = true -> n <> 0 \/ b <> 0 -> passes d (d_prefix d :: w) rest n b n b.
Proof.
  intros H Hn. change (d_prefix d :: w) with ([d_prefix d] ++ w). eapply passes_app; [|apply pass_word; assumption].
  apply pass_byte; [apply plain_bracket, L|apply plain_not; [apply L|]|intuition]. destruct (la_hd d L) as (_ & _ & H3 & _). congruence.
Qed.
Lemma key_pass k rest n b : word_ok d k (d_prefix d :: rest) = true -> n <> 0 \/ b <> 0 -> passes d (k ++ [d_prefix d]) rest n b n b.
Proof.
  intros H Hn. eapply passes_app; [apply pass_word; assumption|].
  apply pass_byte; [apply plain_bracket, L|apply plain_not; [apply L|]|intuition]. destruct (la_hd d L) as (_ & _ & H3 & _). congruence.
Qed.
(** Brackets. *)
Lemma pass_open rest n b : passes d [40%N] rest n b (S n) b.
Proof.
  intros nu. cbn [app forward_scan]. set (nu1 := nu && _). exists nu1. cbn [N.eqb Pos.eqb negb andb]. cbn [length]. now destruct (fs rest (S n) b false nu1).
Qed.
Lemma pass_close rest n b : passes d [41%N] rest (S n) b n b.
Proof.
  intros nu. cbn [app forward_scan]. set (nu1 := nu && _). exists nu1. cbn [N.eqb Pos.eqb negb andb Nat.eqb]. rewrite Nat.sub_succ, Nat.sub_0_r. cbn [length]. now destruct (fs rest n b false nu1).
Qed.
Lemma pass_bopen rest n b : passes d [123%N] rest n b n (S b).
Proof.
  intros nu. cbn [app forward_scan]. set (nu1 := nu && _). exists nu1. cbn [N.eqb Pos.eqb negb andb]. rewrite !andb_false_r. cbn [length]. now destruct (fs rest n (S b) false nu1).
Qed.
Lemma pass_bclose rest n b : passes d [125%N] rest n (S b) n b.
Proof.
  intros nu. cbn [app forward_scan]. set (nu1 := nu && _). exists nu1. cbn [N.eqb Pos.eqb negb andb Nat.eqb]. rewrite !andb_false_r, Nat.sub_succ, Nat.sub_0_r. cbn [length]. now destruct (fs rest n b false nu1).
Qed.

Lemma scan_spec l : forall trail loc b0 st0 nu, wf (loc ++ (b0, true) :: st0) l trail = true ->
  found l trail (length loc) (fs (render d l ++ trail) (parens loc) (blocks loc) false nu).
Proof.
  induction l as [|[ws p] l IH]; intros trail loc b0 st0 nu H.
  - cbn [well_formed render app] in *. apply andb_true_iff in H as (_ & H). rewrite (fs_space trail loc b0 st0) by exact H. now apply F_none.
  - cbn [well_formed] in H. apply andb_true_iff in H as (H & Hn). apply andb_true_iff in H as (Hws & Hp). apply andb_true_iff in Hws as (Hbl & Hws).
    destruct (next (loc ++ (b0, true) :: st0) p) as [st'|] eqn:En; [|discriminate].
    cbn [render]. set (R := render d l ++ trail) in *.
    replace ((ws ++ render_piece d p ++ render d l) ++ trail) with ((ws ++ render_piece d p) ++ R) by (unfold R; now rewrite <- !app_assoc).
    (* the pieces that are passed *)
    assert (Pass : forall loc', (forall o, laterp (length loc) o ((ws, p) :: l) = laterp (length loc') (o + length ws + length (render_piece d p)) l) -> st' = loc' ++ (b0, true) :: st0 ->
              passes d (render_piece d p) R (parens loc) (blocks loc) (parens loc') (blocks loc') ->
              found ((ws, p) :: l) trail (length loc) (fs ((ws ++ render_piece d p) ++ R) (parens loc) (blocks loc) false nu)).
    { intros loc' El Es Pp. destruct (passes_app d ws (render_piece d p) R _ _ _ _ _ _ (pass_space ws _ loc b0 st0 Hws) Pp nu) as (nu' & ->).
      apply found_cons with (length loc'); [exact El|]. apply IH with b0 st0. now rewrite <- Es. }
    (* the pieces that end the scan *)
    assert (Stop : forall o, loc = [] -> fs (render_piece d p ++ R) 0 0 false nu = fs (render_piece d p ++ R) 0 0 false nu ->
              (forall nu, fs (render_piece d p ++ R) 0 0 false nu = Some o) ->
              fs ((ws ++ render_piece d p) ++ R) (parens loc) (blocks loc) false nu = Some (length ws + o)).
    { intros o -> _ Hs. destruct (pass_space ws (render_piece d p ++ R) [] b0 st0 Hws nu) as (nu' & E). rewrite <- app_assoc, E, Hs. reflexivity. }
    destruct loc as [|[lk lf] loc].
    + (* the level of the message *)
      clear Stop. cbn [app length] in *. unfold parens, blocks in *. cbn [kinds map count_occ] in *.
      assert (Stop : forall o nu, (forall nu, fs (render_piece d p ++ R) 0 0 false nu = Some o) -> fs ((ws ++ render_piece d p) ++ R) 0 0 false nu = Some (length ws + o)).
      { intros o nu0 Hs. destruct (pass_space ws (render_piece d p ++ R) [] b0 st0 Hws nu0) as (nu' & E). unfold parens, blocks in E. cbn [kinds map count_occ] in E. rewrite <- app_assoc, E, Hs. reflexivity. }
      destruct p; cbn [next in_message] in *; try discriminate En; cbn [piece_ok] in Hp.
      * injection En as <-. do 3 apply andb_true_iff in Hp as (Hp & _). apply (Pass []); [reflexivity|reflexivity|]. now apply pass_word.
      * (* a part *)
        cbn [render_piece] in *. repeat match goal with H : (_ && _)%bool = true |- _ => apply andb_true_iff in H as (? & ?) end.
        rewrite (Stop (length k)).
        -- pose proof (F_part ((ws, Key k k') :: l) trail 0 [] ws k k' l b0 st0) as F. cbn [render length Nat.add] in F. apply F; [reflexivity| |].
           { intros o. cbn [laterp Nat.eqb render_piece]. rewrite app_length. cbn [length]. f_equal; [f_equal; lia|f_equal; lia]. }
           cbn [well_formed piece_ok in_message]. fold R. rewrite Hbl, Hws. cbn [andb next]. injection En as <-. rewrite Hn.
           repeat match goal with H : ?x = true |- context [?x] => rewrite H end. reflexivity.
        -- intros nu0. destruct (pass_word d k (d_prefix d :: R) 0 0 ltac:(eassumption) nu0) as (nu' & E). rewrite <- app_assoc. cbn [app]. rewrite E.
           rewrite stop_here; [cbn; f_equal; lia|..]; cbn [hd].
           ++ apply plain_digit, L.
           ++ left. apply plain_bracket, L.
           ++ apply plain_not; [apply L|]. destruct (la_hd d L) as (_ & _ & ? & _). congruence.
           ++ apply calm_first. intros x Hx. apply sep_not in Hx as (_ & Hx). congruence.
           ++ discriminate.
           ++ unfold ending. cbn [hd]. rewrite N.eqb_refl. now rewrite orb_true_r.
      * injection En as <-. apply andb_true_iff in Hp as (Hp & _). apply (Pass []); [reflexivity|reflexivity|]. now apply pass_text.
      * injection En as <-. apply andb_true_iff in Hp as (Hp & Hw). apply andb_true_iff in Hp as (Hp & _). apply andb_true_iff in Hp as (Hp & _).
        apply (Pass []); [reflexivity|reflexivity|]. apply pass_num; [exact L|exact Hp|]. right. cbn in Hw. auto.
      * injection En as <-. apply (Pass [(true, false)]); [reflexivity|reflexivity|]. apply pass_open.
      * (* a closing parenthesis *)
        rewrite (Stop 0).
        -- pose proof (F_end ((ws, Close) :: l) trail 0 [] ws Close l eq_refl) as F. cbn [render length Nat.add] in F. rewrite Nat.add_0_r. apply F; [cbn; auto|reflexivity].
        -- intros nu0. apply stop_here; cbn; auto; try discriminate.
           ++ apply odd_not; [apply L|reflexivity].
           ++ apply calm_first. intros x Hx. apply sep_not in Hx as (Hx & _). congruence.
           ++ unfold ending. cbn. now rewrite orb_true_r.
      * injection En as <-. apply (Pass [(false, false)]); [reflexivity|reflexivity|]. apply pass_bopen.
      * destruct b0; discriminate.
      * rewrite (Stop 0).
        -- pose proof (F_end ((ws, Dot) :: l) trail 0 [] ws Dot l eq_refl) as F. cbn [render length Nat.add] in F. rewrite Nat.add_0_r. apply F; [cbn; auto|reflexivity].
        -- intros nu0. cbn [render_piece]. destruct (plain_hd _ (la_eol d L)) as (c & r & E & P).
           destruct (la_qo_d d L) as (Q & _). apply distinct_sym in Q. pose proof (distinct_starts _ _ R Q) as S1.
           apply stop_here; [rewrite E; now apply plain_digit|rewrite E; left; now apply plain_bracket|exact S1|exact Hp|rewrite E; discriminate|].
           unfold ending. rewrite starts_app. now rewrite orb_true_r.
      * rewrite (Stop 0).
        -- pose proof (F_end ((ws, Chain) :: l) trail 0 [] ws Chain l eq_refl) as F. cbn [render length Nat.add] in F. rewrite Nat.add_0_r. apply F; [cbn; auto|reflexivity].
        -- intros nu0. cbn [render_piece]. destruct (plain_hd _ (la_chain d L)) as (c & r & E & P).
           destruct (la_qo_d d L) as (_ & Q & _). apply distinct_sym in Q. pose proof (distinct_starts _ _ R Q) as S1.
           apply stop_here; [rewrite E; now apply plain_digit|rewrite E; left; now apply plain_bracket|exact S1|exact Hp|rewrite E; discriminate|].
           unfold ending. now rewrite starts_app.
    + (* above it *)
      clear Stop. pose proof (nested ((lk, lf) :: loc) ltac:(discriminate)) as Hne. cbn [app] in En. destruct (la_inert d L) as (I1 & I2 & I3 & I4).
      destruct p; cbn [next] in *; cbn [piece_ok] in Hp.
      * injection En as <-. do 3 apply andb_true_iff in Hp as (Hp & _). apply (Pass ((lk, lf) :: loc)); [reflexivity|reflexivity|]. now apply pass_word.
      * injection En as <-. do 7 apply andb_true_iff in Hp as (Hp & _). apply (Pass ((lk, true) :: loc)); [reflexivity|reflexivity|]. now apply key_pass.
      * destruct lf; [discriminate|]. injection En as <-. do 5 apply andb_true_iff in Hp as (Hp & _). apply (Pass ((lk, false) :: loc)); [reflexivity|reflexivity|]. now apply word_pass_colon.
      * injection En as <-. apply andb_true_iff in Hp as (Hp & _). apply (Pass ((lk, lf) :: loc)); [reflexivity|reflexivity|]. now apply pass_text.
      * injection En as <-. apply andb_true_iff in Hp as (Hp & Hw). apply andb_true_iff in Hp as (Hp & _). apply andb_true_iff in Hp as (Hp & _).
        apply (Pass ((lk, lf) :: loc)); [reflexivity|reflexivity|]. apply pass_num; [exact L|exact Hp|]. now left.
      * injection En as <-. apply (Pass ((true, false) :: (lk, lf) :: loc)); [reflexivity|reflexivity|]. apply pass_open.
      * destruct lk; [|discriminate]. destruct loc as [|x loc].
        -- cbn [app] in En. injection En as <-. apply (Pass []); [reflexivity|reflexivity|]. apply pass_close.
        -- cbn [app] in En. injection En as <-. apply (Pass (x :: loc)); [reflexivity|reflexivity|]. unfold parens, blocks. cbn [kinds map fst count_occ Bool.bool_dec]. apply pass_close.
      * injection En as <-. apply (Pass ((false, false) :: (lk, lf) :: loc)); [reflexivity|reflexivity|]. apply pass_bopen.
      * destruct lk, lf; try discriminate. destruct loc as [|x loc].
        -- cbn [app] in En. injection En as <-. apply (Pass []); [reflexivity|reflexivity|]. apply pass_bclose.
        -- cbn [app] in En. injection En as <-. apply (Pass (x :: loc)); [reflexivity|reflexivity|]. unfold parens, blocks. cbn [kinds map fst count_occ Bool.bool_dec]. apply pass_bclose.
      * injection En as <-. apply (Pass ((lk, false) :: loc)); [reflexivity|reflexivity|]. now apply pass_inert.
      * injection En as <-. apply (Pass ((lk, false) :: loc)); [reflexivity|reflexivity|]. now apply pass_inert.
      * destruct lf; [discriminate|]. injection En as <-. apply (Pass ((lk, false) :: loc)); [reflexivity|reflexivity|]. now apply pass_inert.
      * destruct lf; [discriminate|]. injection En as <-. apply (Pass ((lk, false) :: loc)); [reflexivity|reflexivity|]. now apply pass_inert.
Qed.
End Find.
