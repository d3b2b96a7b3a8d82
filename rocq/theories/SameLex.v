(** A well-formed program is read as its tokens. *)
From Verif Require Import Common TextSpec TextModel NumModel LexModel LexSpec LexProofs ParseModel ParseSpec ParseProofs TransModel TransSpec TransLex SameSpec.
From Coq Require Import Lia.
Open Scope nat_scope.

Section One.
Variable d : dict.
Hypothesis L : lang d.
Lemma frac_value x y g : d_dec d = [x] -> d_tho d = [y] -> digit x = false -> digit y = false ->
  forall rest out, fraction_ok g = true -> begins_digit rest = false -> length out + length g <= 255 ->
  num_frac (g ++ rest) out = LOk (out ++ value d g, rest).
Proof.
  intros Hx Hy Dx Dy. induction g as [|c g IH]; intros rest out H Hr Hl; cbn [app num_frac fraction_ok length] in *.
  - cbn. rewrite app_nil_r. destruct rest as [|c r]; [reflexivity|]. cbn in Hr |- *. rewrite isdigit_digit, Hr. reflexivity.
  - apply andb_true_iff in H as (H1 & H2). rewrite isdigit_digit, H1, put_room by lia. cbn [lbind]. rewrite IH; [|exact H2|exact Hr|].
    + unfold value. cbn [flat_map]. rewrite Hx, Hy. cbn [starts].
      destruct (N.eqb_spec x c); [congruence|]. destruct (N.eqb_spec y c); [congruence|]. now rewrite <- app_assoc.
    + rewrite app_length. cbn. lia.
Qed.
Lemma whole_value x y : d_dec d = [x] -> d_tho d = [y] -> x <> y -> digit x = false -> digit y = false ->
  forall rest, begins_digit rest = false -> (begins x rest || begins y rest) && begins_digit (tl rest) = false ->
  forall n u fuel out, length u <= n -> length (u ++ rest) <= fuel -> whole_ok x y u = true -> begins_digit u = true -> length out + length u <= 255 ->
  exists o f, num_whole d fuel (u ++ rest) out = LOk (o, f ++ rest) /\ length o + length f <= 255 /\ out ++ value d u = o ++ value d f /\
    (f = [] \/ exists g, f = x :: g /\ begins_digit g = true /\ fraction_ok g = true).
Proof.
  intros Hx Hy Nxy Dx Dy rest Hr Hb.
  assert (VD : forall c r, digit c = true -> value d (c :: r) = c :: value d r).
  { intros c r D. unfold value. cbn [flat_map]. rewrite Hx, Hy. cbn [starts].
    destruct (N.eqb_spec x c); [congruence|]. destruct (N.eqb_spec y c); [congruence|]. reflexivity. }
  assert (VY : forall r, value d (y :: r) = value d r).
  { intros r. unfold value. cbn [flat_map]. rewrite Hx, Hy. cbn [starts]. rewrite N.eqb_refl. destruct (N.eqb_spec x y); [congruence|]. reflexivity. }
  induction n as [|n IH]; intros u fuel out Hn Hf Hw Hu Hl.
  { destruct u; [discriminate|cbn in Hn; lia]. }
  destruct u as [|c r]; [discriminate|]. cbn [begins_digit whole_ok] in *. rewrite Hu in Hw. rewrite VD by exact Hu.
  destruct fuel as [|fuel]; [cbn in Hf; lia|]. cbn [app length] in *. cbn [num_whole]. rewrite isdigit_digit, Hu, put_room by lia. cbn [lbind].
  rewrite Hy. cbn [length]. destruct r as [|c2 r2].
  - cbn [app]. replace (starts [y] rest && (1 + 1 <=? length rest) && isdigit (peek rest 1)) with false.
    + exists (out ++ [c]), []. cbn [app]. split; [|rewrite app_length in *; cbn in *; rewrite ?app_nil_r; split; [lia|split; [reflexivity|now left]]].
      destruct fuel; [reflexivity|]. destruct rest as [|c2 r2]; [reflexivity|]. cbn in Hr |- *. rewrite isdigit_digit, Hr. reflexivity.
    + symmetry. destruct rest as [|c1 [|c2 r2]]; [reflexivity|apply andb_false_iff; left; apply andb_false_r|].
      cbn [starts peek nth begins tl begins_digit] in *. rewrite isdigit_digit. unfold peek. cbn [nth].
      rewrite (N.eqb_sym y c1). destruct (c1 =? y)%N; [|reflexivity]. rewrite orb_true_r in Hb. cbn in Hb. rewrite Hb. apply andb_false_r.
  - cbn [app whole_ok] in *. destruct (digit c2) eqn:D2.
    + replace (starts [y] (c2 :: r2 ++ rest)) with false.
      2:{ symmetry. cbn [starts]. destruct (N.eqb_spec y c2); [congruence|reflexivity]. }
      cbn [andb]. destruct (IH (c2 :: r2) fuel (out ++ [c])) as (o & f & A & B & C & D); cbn [length whole_ok begins_digit app] in *; try rewrite D2; auto; try lia.
      { rewrite app_length. cbn. lia. }
      exists o, f. split; [exact A|]. split; [exact B|]. split; [|exact D]. now rewrite <- C, <- app_assoc.
    + destruct (N.eqb_spec c2 y) as [->|Ny].
      * apply andb_true_iff in Hw as (Hw1 & Hw2). cbn [starts]. rewrite N.eqb_refl. destruct r2 as [|c3 r3]; [discriminate|].
        cbn [app length peek nth] in *. unfold peek. cbn [nth]. rewrite isdigit_digit. cbn [begins_digit] in Hw1. rewrite Hw1. cbn [andb Nat.add Nat.leb].
        cbn [skipn]. destruct (IH (c3 :: r3) fuel (out ++ [c])) as (o & f & A & B & C & D); cbn [length app] in *; auto; try lia.
        { rewrite app_length. cbn. lia. }
        exists o, f. split; [exact A|]. split; [exact B|]. split; [|exact D]. now rewrite <- C, <- app_assoc, VY.
      * apply andb_true_iff in Hw as (Hw & Hw3). apply andb_true_iff in Hw as (Hw1 & Hw2). apply N.eqb_eq in Hw1 as ->.
        replace (starts [y] (x :: r2 ++ rest)) with false.
        2:{ symmetry. cbn [starts]. destruct (N.eqb_spec y x); [congruence|reflexivity]. }
        cbn [andb]. exists (out ++ [c]), (x :: r2). cbn [app].
        split; [|split; [rewrite app_length; cbn [length] in *; lia|split; [now rewrite <- app_assoc|right; now exists r2]]].
        destruct fuel; [reflexivity|]. cbn [num_whole]. now rewrite isdigit_digit, Dx.
Qed.
Lemma number_value x y u rest out : d_dec d = [x] -> d_tho d = [y] -> x <> y -> digit x = false -> digit y = false ->
  begins_digit rest = false -> (begins x rest || begins y rest) && begins_digit (tl rest) = false ->
  whole_ok x y u = true -> begins_digit u = true -> length out + length u <= 255 ->
  (lx (out, code) <- num_whole d (length (u ++ rest)) (u ++ rest) out;
             if starts (d_eol d) code && (length (d_eol d) <=? length code) && negb (isdigit (peek code (length (d_eol d))))
             then LOk (out, code)
             else lx (out, code) <- (if (length (d_dec d) + 1 <=? length code) && isdigit (peek code (length (d_dec d))) && starts (d_dec d) code
                       then lx o <- put out 46%N; LOk (o, skipn 1 code) else LOk (out, code));
                  num_frac code out) = LOk (out ++ value d u, rest).
Proof.
  intros Hx Hy Nxy Dx Dy Hr Hb Hw Hu Hl.
  assert (VX : forall r, value d (x :: r) = 46%N :: value d r).
  { intros r. unfold value. cbn [flat_map]. rewrite Hx. cbn [starts]. now rewrite N.eqb_refl. }
  destruct (whole_value x y Hx Hy Nxy Dx Dy rest Hr Hb _ u _ out (le_n _) (le_n _) Hw Hu Hl) as (o & f & -> & Hof & -> & Hf). cbn [lbind].
  destruct Hf as [->|(g & -> & Hg1 & Hg2)]; cbn [app].
  - cbn [value flat_map]. rewrite app_nil_r. match goal with |- context [if ?b then LOk (o, rest) else _] => destruct b; [reflexivity|] end.
    rewrite Hx. cbn [length].
    replace ((1 + 1 <=? length rest) && isdigit (peek rest 1) && starts [x] rest) with false.
    + cbn [lbind]. rewrite (frac_value x y [] Hx Hy Dx Dy rest o eq_refl Hr ltac:(cbn; lia) : num_frac rest o = _). cbn. now rewrite app_nil_r.
    + symmetry. destruct rest as [|c1 [|c2 r2]]; [reflexivity|reflexivity|].
      cbn [starts begins tl begins_digit] in *. rewrite isdigit_digit. unfold peek. cbn [nth]. rewrite (N.eqb_sym x c1).
      destruct (c1 =? x)%N; [cbn in Hb; rewrite Hb; now rewrite andb_false_r|]. cbn [andb]. now rewrite andb_false_r.
  - destruct g as [|c2 g]; [discriminate|]. cbn [begins_digit length] in Hg1, Hof.
    replace (starts (d_eol d) (x :: (c2 :: g) ++ rest) && (length (d_eol d) <=? length (x :: (c2 :: g) ++ rest)) && negb (isdigit (peek (x :: (c2 :: g) ++ rest) (length (d_eol d))))) with false.
    + rewrite Hx. cbn [length app starts]. unfold peek. cbn [nth]. rewrite isdigit_digit, Hg1, N.eqb_refl. cbn [andb Nat.add Nat.leb].
      rewrite put_room by lia. cbn [lbind skipn]. change (c2 :: g ++ rest) with ((c2 :: g) ++ rest).
      rewrite (frac_value x y (c2 :: g) Hx Hy Dx Dy); [|exact Hg2|exact Hr|rewrite app_length; cbn; lia].
      rewrite <- app_assoc, VX. reflexivity.
    + symmetry. destruct (plain_hd _ (TransLex.la_eol d L)) as (e & r & E & P). destruct (la_inert d L) as (I & _). rewrite E in *. cbn [starts app].
      destruct (e =? x)%N; [|reflexivity]. cbn [andb]. destruct r as [|e2 r].
      * cbn [length starts]. unfold peek. cbn [nth]. rewrite isdigit_digit, Hg1. apply andb_false_r.
      * cbn [starts]. destruct (N.eqb_spec e2 c2) as [->|]; [|reflexivity].
        rewrite (inert_digits d _ c2 I ltac:(cbn; auto)) in Hg1. discriminate.
Qed.
Lemma tok_value n rest : num_ok d n rest = true -> tok d (n ++ rest) = LOk (TNUMBER, value d n, rest).
Proof.
  intros H0. destruct (tok_num d L n rest H0) as (v & Ev). revert H0 Ev.
  destruct (la_seps d L) as (x & y & Hx & Hy & Nxy & Hs). destruct (Hs x (or_introl eq_refl)) as (Bx & Dx & Mx & _). destruct (Hs y (or_intror eq_refl)) as (By & Dy & My & _).
  unfold num_ok. rewrite Hx, Hy. intros H Ev.
  repeat match goal with H : (_ && _)%bool = true |- _ => apply andb_true_iff in H as (? & ?) end.
  repeat match goal with H : negb _ = true |- _ => apply negb_true_iff in H end.
  rename H into Hl. apply Nat.leb_le in Hl. rename H3 into Hu. rename H2 into Hw. rename H1 into Hr. rename H0 into Hb.
  assert (Odd : forall c t m, (c =? 45)%N || digit c = true -> plain (hd 0%N m) = true -> starts m (c :: t) = false).
  { intros c t m Hc P. apply odd_not; [exact P|]. unfold plain. apply orb_true_iff in Hc as [Hc|Hc].
    - unfold among. cbn [existsb]. rewrite Hc. now rewrite !orb_true_r.
    - rewrite Hc. now rewrite orb_true_r. }
  destruct n as [|c n]; [discriminate|].
  assert (Hc : (c =? 45)%N || digit c = true).
  { cbn [unsigned] in Hu. destruct (c =? 45)%N; [reflexivity|]. cbn [begins_digit] in Hu. now rewrite Hu. }
  assert (HP : plain c = false).
  { unfold plain. apply orb_true_iff in Hc as [Hc|Hc].
    - unfold among. cbn [existsb]. rewrite Hc. now rewrite !orb_true_r.
    - rewrite Hc. now rewrite orb_true_r. }
  assert (E : tok d ((c :: n) ++ rest) = lx (v, rest) <- lex_number d ((c :: n) ++ rest); LOk (TNUMBER, v, rest)).
  { clear Ev. unfold tok. cbn [app skip].
    assert (E : forall k, In k [32; 9; 13; 10; 35; 40; 41; 123; 125]%N -> (c =? k)%N = false).
    { intros k Hk. apply N.eqb_neq. intros ->. cbn in Hk. decompose [or] Hk; subst; try discriminate; contradiction. }
    unfold isspace. rewrite (E 32%N), (E 9%N), (E 13%N), (E 10%N) by (cbn; auto 10). cbn [orb].
    rewrite (E 35%N), (E 40%N), (E 41%N), (E 123%N), (E 125%N) by (cbn; auto 10).
    rewrite !(Odd c _ (d_eol d)), !(Odd c _ (d_chain d)), !(Odd c _ (d_assign d)), !(Odd c _ (d_return d)), !(Odd c _ (d_qo d)), (Odd c _ [58; 61]%N) by (exact Hc || apply L || reflexivity).
    cbn [andb]. replace (c =? d_prefix d)%N with false.
    2:{ symmetry. apply N.eqb_neq. intros ->. pose proof (TransLex.la_prefix d L). congruence. }
    replace ((c =? 45)%N && (2 <=? length (c :: n ++ rest)) && isdigit (peek (c :: n ++ rest) 1) || isdigit c) with true; [reflexivity|].
    symmetry. rewrite (isdigit_digit c). cbn [unsigned] in Hu. destruct (c =? 45)%N.
    - destruct n as [|c2 n]; [discriminate|]. cbn [begins_digit] in Hu. unfold peek. cbn [nth app length Nat.leb andb]. now rewrite isdigit_digit, Hu.
    - cbn [begins_digit] in Hu. rewrite Hu. apply orb_true_r. }
  rewrite E. clear E Ev Odd HP. unfold lex_number. cbn [app].
  cbn [unsigned] in *. destruct (c =? 45)%N eqn:Ec.
  - rewrite put_room by (cbn; lia). cbn [lbind app].
    rewrite (number_value x y n rest [c] Hx Hy Nxy Dx Dy Hr Hb Hw Hu ltac:(cbn in *; lia)). cbn [lbind].
    apply N.eqb_eq in Ec as ->. unfold value. cbn [flat_map]. rewrite Hx, Hy. cbn [starts].
    destruct (N.eqb_spec x 45); [congruence|]. destruct (N.eqb_spec y 45); [congruence|]. reflexivity.
  - cbn [lbind]. change (c :: n ++ rest) with ((c :: n) ++ rest).
    rewrite (number_value x y (c :: n) rest [] Hx Hy Nxy Dx Dy Hr Hb Hw Hu ltac:(cbn in *; lia)). reflexivity.
Qed.

Lemma str_quiet s : forall rest fuel out block, length (s ++ d_qc d ++ rest) <= fuel -> length out + 10 < block ->
  ~ In 92%N s -> (forall i, i < length s -> starts (d_qo d) (skipn i s ++ d_qc d ++ rest) = false /\ starts (d_qc d) (skipn i s ++ d_qc d ++ rest) = false /\
     starts newline_sign (skipn i s ++ d_qc d ++ rest) = false /\ starts tab_sign (skipn i s ++ d_qc d ++ rest) = false) ->
  str_loop d false fuel (s ++ d_qc d ++ rest) out block 0 false = LOk (out ++ s, d_qc d ++ rest).
Proof.
  pose proof (la_qc_len d L) as Q. induction s as [|c s IH]; intros rest fuel out block Hf Hb H9 Hs.
  - rewrite app_nil_r. cbn [app]. destruct fuel as [|fuel]; [reflexivity|]. destruct (d_qc d ++ rest) as [|c r] eqn:E.
    + apply (f_equal (@length N)) in E. rewrite app_length in E. cbn in E. lia.
    + cbn [str_loop]. destruct (length (c :: r) <=? length (d_qc d)); [reflexivity|]. rewrite <- E, starts_app. reflexivity.
  - cbn [app length] in *. destruct fuel as [|fuel]; [lia|]. cbn [str_loop]. destruct (Hs 0 ltac:(lia)) as (S1 & S2 & S3 & S4). cbn [skipn app] in S1, S2, S3, S4.
    assert (E : (length (c :: s ++ d_qc d ++ rest) <=? length (d_qc d)) = false).
    { apply Nat.leb_gt. cbn [length]. rewrite !app_length. lia. }
    rewrite E, S2. cbn [andb]. assert (E2 : (c =? 92)%N = false) by (apply N.eqb_neq; intros ->; apply H9; cbn; auto).
    rewrite E2. cbn [andb negb]. rewrite S1, S3, S4. rewrite emit_ok by (cbn; lia). cbn [lbind].
    rewrite IH; [now rewrite <- app_assoc|lia|apply grow_ok; cbn; lia|intros I; apply H9; cbn; auto|].
    intros i Hi. apply (Hs (S i)). lia.
Qed.
Lemma readstr_quiet s rest : text_ok d s rest = true -> quiet d s = true -> readstr d false (s ++ d_qc d ++ rest) = LOk (s, rest).
Proof.
  unfold text_ok, quiet. intros H HQ. apply andb_true_iff in H as (H & H3). apply andb_true_iff in H as (H1 & H2).
  unfold readstr. rewrite str_quiet; [|lia|cbn; lia| |].
  - cbn [lbind app]. assert (E : (length (d_qc d) <=? length (d_qc d ++ rest)) = true) by (apply Nat.leb_le; rewrite app_length; lia).
    rewrite E. now rewrite skipn_length_app.
  - intros I. apply negb_true_iff in H1. unfold among in H1. enough (existsb (N.eqb 92) s = true) by congruence.
    apply existsb_exists. exists 92%N. split; [exact I|reflexivity].
  - intros i Hi. pose proof (forallb_seq _ _ H2 i Hi) as E. cbn in E. apply andb_true_iff in E as (A & B).
    pose proof (forallb_seq _ _ HQ i Hi) as E. cbv beta in E. apply andb_true_iff in E as (C & D).
    repeat split; try (now apply negb_true_iff); rewrite app_assoc; now apply distinct_starts.
Qed.

Lemma lang_words : words_ok d.
Proof.
  assert (E : forall m, plain (hd 0%N m) = true -> m <> []) by (intros m H; destruct (plain_hd m H) as (? & ? & -> & _); discriminate).
  constructor; try (apply E, L). apply (la_two d L).
Qed.
Lemma rd_one c t v c1 ts rest : t <> TQUOTE -> tok d c = LOk (t, v, c1) -> reads d c1 ts rest -> reads d c ((t, v) :: ts) rest.
Proof. apply rd_tok. Qed.
Lemma tok_bracket c t rest : In (c, t) [(40%N, TPAROPEN); (41%N, TPARCLOSE); (123%N, TBLOCKOPEN); (125%N, TBLOCKCLOSE)] -> tok d (c :: rest) = LOk (t, [], rest).
Proof. intros H. cbn in H. decompose [or] H; try contradiction; match goal with H : (_, _) = _ |- _ => injection H as <- <- end; reflexivity. Qed.
Definition quiet_piece (p : piece) : Prop := match p with Text s _ => quiet d s = true | _ => True end.
Lemma program_reads d' T l trail : forall st, well_formed d d' T st l trail = true -> Forall (fun '(_, p) => quiet_piece p) l ->
  exists rest, reads d (render d l ++ trail) (tokens d l) rest /\ kind d rest TFIN.
Proof.
  induction l as [|(ws & p) l IH]; intros st H Q; cbn [well_formed] in H.
  - apply andb_true_iff in H as (H & _). apply andb_true_iff in H as (_ & H). exists trail. split; [constructor|].
    exists [], []. unfold tok. rewrite (skip_end trail false H). reflexivity.
  - apply andb_true_iff in H as (H & HN). apply andb_true_iff in H as (H & HP). apply andb_true_iff in H as (HB & _).
    inversion Q as [|? ? QP QL]; subst. destruct (next st p) as [st'|]; [|discriminate]. destruct (IH st' HN QL) as (rest & R & K). exists rest. split; [|exact K]. clear IH HN.
    cbn [render]. rewrite <- !app_assoc. cbn [tokens flat_map]. fold (tokens d l).
    assert (SP : forall t v c1 ts x, t <> TQUOTE -> tok d x = LOk (t, v, c1) -> reads d c1 ts rest -> reads d (ws ++ x) ((t, v) :: ts) rest).
    { intros t v c1 ts x N E RR. apply rd_tok with c1; [exact N| |exact RR]. now rewrite tok_space. }
    destruct p; cbn [piece_ok render_piece piece_tokens app] in *;
      repeat match goal with H : (_ && _)%bool = true |- _ => apply andb_true_iff in H as (? & ?) end;
      repeat match goal with H : negb _ = true |- _ => apply negb_true_iff in H end.
    + eapply SP; [discriminate|apply tok_word; eassumption|exact R].
    + rewrite <- app_assoc. cbn [app]. eapply SP; [discriminate|apply tok_word; eassumption|]. apply rd_tok with (render d l ++ trail); [discriminate| |exact R]. now apply tok_colon.
    + eapply SP; [discriminate|apply tok_colon; eassumption|]. apply rd_tok with (render d l ++ trail); [discriminate| |exact R]. now apply tok_word.
    + rewrite <- !app_assoc. eapply rd_quote; [rewrite tok_space by exact HB; apply tok_qo; exact L|apply readstr_quiet; eassumption|exact R].
    + eapply SP; [discriminate|apply tok_value; eassumption|exact R].
    + eapply SP; [discriminate|apply tok_bracket; cbn; auto|exact R].
    + eapply SP; [discriminate|apply tok_bracket; cbn; auto|exact R].
    + eapply SP; [discriminate|apply tok_bracket; cbn; auto|exact R].
    + eapply SP; [discriminate|apply tok_bracket; cbn; auto|exact R].
    + eapply SP; [discriminate|apply tok_dot; exact L|exact R].
    + eapply SP; [discriminate|apply tok_chain; exact L|exact R].
    + eapply SP; [discriminate|apply tok_assign; exact L|exact R].
    + eapply SP; [discriminate|apply tok_return; [exact L|exact HP]|exact R].
Qed.
End One.
