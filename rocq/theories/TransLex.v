(** The pieces of a well-formed program are read as tokens. *)
From Verif Require Import Common TextModel NumModel LexModel LexSpec LexProofs TransModel TransSpec.
From Coq Require Import Lia.
Open Scope nat_scope.

Ltac dand H := repeat rewrite andb_true_iff in H; decompose [and] H; clear H.
Lemma distinct_starts a : forall b t, distinct a b = true -> starts b (a ++ t) = false.
Proof.
  induction a as [|x a IH]; intros [|y b] t H; try discriminate. cbn in H |- *.
  rewrite N.eqb_sym. destruct (x =? y)%N; [now apply IH|reflexivity].
Qed.
Lemma isdigit_digit c : isdigit c = digit c.
Proof. reflexivity. Qed.
Lemma skip_space ws code : forall note, blank note ws = true -> skip note (ws ++ code) = skip false code.
Proof.
  induction ws as [|c ws IH]; intros note H; [now destruct note|]. cbn [blank] in H. cbn [app skip]. destruct note.
  - destruct (c =? 10)%N; apply IH, H.
  - destruct (N.eqb_spec c 35) as [->|_]; [apply IH, H|]. apply andb_true_iff in H as (H1 & H2). enough (isspace c = true) as -> by auto.
    unfold space, among in H1. cbn in H1. unfold isspace. now rewrite orb_false_r, !orb_assoc in H1.
Qed.
Lemma skip_end t : forall note, blank note (t ++ [10%N]) = true -> skip note t = [].
Proof.
  induction t as [|c t IH]; intros note H; [reflexivity|]. cbn [app blank] in H. cbn [skip]. destruct note.
  - destruct (c =? 10)%N; apply IH, H.
  - destruct (N.eqb_spec c 35) as [->|_]; [apply IH, H|]. apply andb_true_iff in H as (H1 & H2). enough (isspace c = true) as -> by auto.
    unfold space, among in H1. cbn in H1. unfold isspace. now rewrite orb_false_r, !orb_assoc in H1.
Qed.
Lemma tok_space d ws code : blank false ws = true -> tok d (ws ++ code) = tok d code.
Proof. intros H. unfold tok. now rewrite skip_space. Qed.

Record lang (d : dict) : Prop := {
  la_eol : plain (hd 0%N (d_eol d)) = true; la_chain : plain (hd 0%N (d_chain d)) = true;
  la_assign : plain (hd 0%N (d_assign d)) = true; la_return : plain (hd 0%N (d_return d)) = true;
  la_qo : plain (hd 0%N (d_qo d)) = true; la_prefix : plain (d_prefix d) = true;
  la_two : 2 <= length (d_assign d);
  la_qo_len : 1 <= length (d_qo d) <= 10; la_qc_len : 1 <= length (d_qc d) <= 10;
  la_hd : hd 0%N (d_eol d) <> d_prefix d /\ hd 0%N (d_chain d) <> d_prefix d /\ hd 0%N (d_qo d) <> d_prefix d /\ hd 0%N (d_return d) <> d_prefix d;
  la_chain_d : distinct (d_chain d) (d_eol d) = true;
  la_assign_d : distinct (d_assign d) (d_eol d) = true /\ distinct (d_assign d) (d_chain d) = true;
  la_return_d : distinct (d_return d) (d_eol d) = true /\ distinct (d_return d) (d_chain d) = true /\
                distinct (d_return d) (d_assign d) = true /\ distinct (d_return d) [58; 61]%N = true;
  la_qo_d : distinct (d_qo d) (d_eol d) = true /\ distinct (d_qo d) (d_chain d) = true /\
            distinct (d_qo d) (d_assign d) = true /\ distinct (d_qo d) [58; 61]%N = true /\ distinct (d_qo d) (d_return d) = true;
  la_inert : inert d (d_eol d) = true /\ inert d (d_chain d) = true /\ inert d (d_assign d) = true /\ inert d (d_return d) = true;
  la_qc_tail : silent d (tl (d_qc d)) = true; la_eol_tail : silent d (tl (d_eol d)) = true; la_chain_tail : silent d (tl (d_chain d)) = true;
  la_last : last (d_eol d) 0%N <> d_prefix d /\ last (d_chain d) 0%N <> d_prefix d /\ last (d_assign d) 0%N <> d_prefix d /\
            last (d_return d) 0%N <> d_prefix d /\ last (d_qc d) 0%N <> d_prefix d;
  la_seps : exists x y, d_dec d = [x] /\ d_tho d = [y] /\ x <> y /\
    (forall c, c = x \/ c = y -> bracket c = false /\ digit c = false /\ c <> 45%N /\ c <> d_prefix d /\ c <> hd 0%N (d_qo d)) }.
Lemma lang_intro d : lang_ok d = true -> lang d.
Proof.
  unfold lang_ok. intros H. dand H. cbn [forallb] in *.
  repeat match goal with
         | H : (_ && _)%bool = true |- _ => apply andb_true_iff in H as (? & ?)
         | H : (_ <=? _) = true |- _ => apply Nat.leb_le in H
         | H : negb _ = true |- _ => apply negb_true_iff in H
         | H : (_ =? _)%N = false |- _ => apply N.eqb_neq in H
         end.
  constructor; auto 10.
  destruct (d_dec d) as [|x [|]]; try discriminate. destruct (d_tho d) as [|y [|]]; try discriminate.
  cbn [forallb] in *.
  repeat match goal with
         | H : (_ && _)%bool = true |- _ => apply andb_true_iff in H as (? & ?)
         | H : negb _ = true |- _ => apply negb_true_iff in H
         | H : (_ =? _)%N = false |- _ => apply N.eqb_neq in H
         end.
  exists x, y. split; [reflexivity|]. split; [reflexivity|]. split; [assumption|]. intros c [-> | ->]; repeat split; auto.
Qed.

Lemma plain_spec c : plain c = true ->
  ~ In c [32; 9; 13; 10; 35; 45; 92; 0; 40; 41; 123; 125]%N /\ digit c = false.
Proof.
  unfold plain, bracket, among. intros H. apply negb_true_iff, orb_false_iff in H as (H & Hd). apply orb_false_iff in H as (H1 & H2).
  split; [|exact Hd]. cbn [existsb In] in H1, H2 |- *. repeat rewrite orb_false_iff in H1. repeat rewrite orb_false_iff in H2. repeat rewrite N.eqb_neq in H1. repeat rewrite N.eqb_neq in H2.
  intros I. repeat (destruct I as [I|I]; [intuition congruence|]). exact I.
Qed.
Lemma plain_hd m : plain (hd 0%N m) = true -> exists c r, m = c :: r /\ plain c = true.
Proof. destruct m as [|c r]; [discriminate|]. intros H. now exists c, r. Qed.
Lemma plain_not m c t : plain (hd 0%N m) = true -> c <> hd 0%N m -> starts m (c :: t) = false.
Proof. intros H Hc. destruct (plain_hd m H) as (x & r & -> & _). cbn [hd starts] in *. destruct (N.eqb_spec x c); [congruence|reflexivity]. Qed.
(** A byte that is not plain begins no sign. *)
Lemma odd_not m c t : plain (hd 0%N m) = true -> plain c = false -> starts m (c :: t) = false.
Proof. intros H Hc. apply plain_not; [exact H|]. intros E. congruence. Qed.

Definition opening (c : N) : bool := among c [40; 41; 123; 125]%N.
(** What [tok] does at a plain byte. *)
Lemma tok_plain d c r : plain c = true ->
  tok d (c :: r) =
    let code := c :: r in
    if starts (d_eol d) code then LOk (TDOT, [], skipn (length (d_eol d)) code)
    else if starts (d_chain d) code then LOk (TCHAIN, [], skipn (length (d_chain d)) code)
    else if starts (d_assign d) code then LOk (TASSIGN, [], skipn (length (d_assign d)) code)
    else if starts [58%N; 61%N] code then LOk (TASSIGN, [], skipn 2 code)
    else if (c =? d_prefix d)%N then LOk (TCOLON, [], r)
    else if starts (d_return d) code && (peek code (length (d_return d)) =? 32)%N
    then LOk (TRET, [], skipn (length (d_return d)) code)
    else if starts (d_qo d) code then LOk (TQUOTE, [], skipn (length (d_qo d)) code)
    else lx (v, rest) <- lex_ref d code []; LOk (TREF, v, rest).
Proof.
  intros H. apply plain_spec in H as (H & Hd). unfold tok. cbn [skip].
  assert (E : isspace c = false).
  { unfold isspace. destruct (N.eqb_spec c 32), (N.eqb_spec c 9), (N.eqb_spec c 13), (N.eqb_spec c 10); subst; try reflexivity; exfalso; apply H; cbn; auto 20. }
  rewrite E. clear E.
  assert (E : forall k, In k [35; 45; 40; 41; 123; 125]%N -> (c =? k)%N = false).
  { intros k Hk. apply N.eqb_neq. intros ->. apply H. cbn in Hk |- *. intuition. }
  rewrite (E 35%N), (E 40%N), (E 41%N), (E 123%N), (E 125%N), (E 45%N) by (cbn; auto 10). rewrite (isdigit_digit c), Hd. reflexivity.
Qed.
Lemma skipn_length_app (a b : text) : skipn (length a) (a ++ b) = b.
Proof. now rewrite skipn_app, skipn_all, Nat.sub_diag. Qed.
Lemma peek_app a (b : text) : peek (a ++ b) (length a) = hd 0%N b.
Proof. unfold peek. rewrite app_nth2, Nat.sub_diag by lia. now destruct b. Qed.

Section Tok.
Variable d : dict.
Hypothesis L : lang d.
Lemma tok_dot rest : tok d (d_eol d ++ rest) = LOk (TDOT, [], rest).
Proof.
  destruct (plain_hd _ (la_eol d L)) as (c & r & E & P). pose proof (starts_app (d_eol d) rest) as S1.
  pose proof (skipn_length_app (d_eol d) rest) as S2. rewrite E in *. cbn [app] in *. rewrite tok_plain by exact P. cbn zeta. rewrite E, S1, S2. reflexivity.
Qed.
Lemma tok_chain rest : tok d (d_chain d ++ rest) = LOk (TCHAIN, [], rest).
Proof.
  destruct (plain_hd _ (la_chain d L)) as (c & r & E & P). pose proof (starts_app (d_chain d) rest) as S1.
  pose proof (skipn_length_app (d_chain d) rest) as S2. pose proof (distinct_starts _ _ rest (la_chain_d d L)) as S3.
  rewrite E in *. cbn [app] in *. rewrite tok_plain by exact P. cbn zeta. rewrite E, S3, S1, S2. reflexivity.
Qed.
Lemma tok_assign rest : tok d (d_assign d ++ rest) = LOk (TASSIGN, [], rest).
Proof.
  destruct (plain_hd _ (la_assign d L)) as (c & r & E & P). pose proof (starts_app (d_assign d) rest) as S1.
  pose proof (skipn_length_app (d_assign d) rest) as S2. destruct (la_assign_d d L) as (D1 & D2).
  pose proof (distinct_starts _ _ rest D1) as S3. pose proof (distinct_starts _ _ rest D2) as S4.
  rewrite E in *. cbn [app] in *. rewrite tok_plain by exact P. cbn zeta. rewrite E, S3, S4, S1, S2. reflexivity.
Qed.
Lemma tok_colon rest : starts (d_assign d) (d_prefix d :: rest) = false -> starts [58; 61]%N (d_prefix d :: rest) = false ->
  tok d (d_prefix d :: rest) = LOk (TCOLON, [], rest).
Proof.
  intros H1 H2. rewrite tok_plain by apply L. cbn zeta. destruct (la_hd d L) as (A & B & _).
  rewrite !plain_not by (apply L || congruence). rewrite H1, H2, N.eqb_refl. reflexivity.
Qed.
Lemma tok_return rest : begins 32 rest = true -> tok d (d_return d ++ rest) = LOk (TRET, [], rest).
Proof.
  intros H. destruct (plain_hd _ (la_return d L)) as (c & r & E & P). pose proof (starts_app (d_return d) rest) as S1.
  pose proof (skipn_length_app (d_return d) rest) as S2. pose proof (peek_app (d_return d) rest) as S7.
  destruct (la_return_d d L) as (D1 & D2 & D3 & D4).
  pose proof (distinct_starts _ _ rest D1) as S3. pose proof (distinct_starts _ _ rest D2) as S4.
  pose proof (distinct_starts _ _ rest D3) as S5. pose proof (distinct_starts _ _ rest D4) as S6.
  destruct (la_hd d L) as (_ & _ & _ & N1).
  rewrite E in *. cbn [app hd] in *. rewrite tok_plain by exact P. cbn zeta. rewrite E, S3, S4, S5, S6, S7, S1, S2.
  apply N.eqb_neq in N1. rewrite N1. destruct rest as [|y rest]; [discriminate|]. cbn in H |- *. now rewrite H.
Qed.
Lemma tok_qo rest : tok d (d_qo d ++ rest) = LOk (TQUOTE, [], rest).
Proof.
  destruct (plain_hd _ (la_qo d L)) as (c & r & E & P). pose proof (starts_app (d_qo d) rest) as S1.
  pose proof (skipn_length_app (d_qo d) rest) as S2.
  destruct (la_qo_d d L) as (D1 & D2 & D3 & D4 & D5).
  pose proof (distinct_starts _ _ rest D1) as S3. pose proof (distinct_starts _ _ rest D2) as S4.
  pose proof (distinct_starts _ _ rest D3) as S5. pose proof (distinct_starts _ _ rest D4) as S6. pose proof (distinct_starts _ _ rest D5) as S7.
  destruct (la_hd d L) as (_ & _ & N1 & _).
  rewrite E in *. cbn [app hd] in *. rewrite tok_plain by exact P. cbn zeta. rewrite E, S3, S4, S5, S6, S7, S1, S2.
  apply N.eqb_neq in N1. now rewrite N1.
Qed.

Lemma sign_delimiter code : code <> [] -> sign d code = true -> is_delimiter d code = true.
Proof.
  intros H. unfold is_delimiter, sign. destruct code as [|c r]; [congruence|]. clear H. set (C := c :: r). cbn [existsb hd]. unfold among. cbn [existsb].
  change (peek C 0) with c. intros H. rewrite !orb_true_iff in H. rewrite !orb_true_iff. intuition discriminate.
Qed.
Lemma clear_delimiter code : code <> [] -> clear d code = true -> is_delimiter d code = false.
Proof.
  intros H. unfold is_delimiter, clear, sign. destruct code as [|c r]; [congruence|]. clear H. set (C := c :: r). cbn [existsb hd]. unfold among. cbn [existsb].
  change (peek C 0) with c. intros H. apply negb_true_iff in H. rewrite !orb_false_iff in H.
  assert (E : colon_eq (length (d_assign d)) C = false).
  { destruct H as (_ & H). pose proof (la_two d L). unfold colon_eq. destruct (length (d_assign d)) as [|[|[|n]]]; try lia; [exact H|]. now rewrite H. }
  rewrite !orb_false_iff. intuition.
Qed.
Lemma lex_word w : forall rest out, length out + length w <= 255 ->
  (forall i, i < length w -> clear d (skipn i w ++ rest) = true) -> forallb (fun c => negb (among c [35; 123; 125]%N)) w = true ->
  (rest = [] \/ sign d rest = true) -> lex_ref d (w ++ rest) out = LOk (out ++ w, rest).
Proof.
  induction w as [|c w IH]; intros rest out Hl Hc Hb Hr.
  - rewrite app_nil_r. cbn [app]. destruct rest as [|x r]; [reflexivity|]. cbn [lex_ref].
    destruct Hr as [|Hr]; [discriminate|]. rewrite sign_delimiter; [reflexivity|discriminate|exact Hr].
  - cbn [app lex_ref length] in *. rewrite clear_delimiter; [|discriminate|exact (Hc 0 ltac:(lia))].
    cbn [forallb] in Hb. apply andb_true_iff in Hb as (Hb1 & Hb2).
    unfold put. assert (E : (length out <? bflmt) = true) by (apply Nat.ltb_lt; unfold bflmt; lia). rewrite E. cbn [lbind].
    assert (E2 : (c =? 35)%N = false).
    { apply negb_true_iff in Hb1. unfold among in Hb1. cbn [existsb] in Hb1. now apply orb_false_iff in Hb1 as (? & _). }
    rewrite E2. cbn [andb]. assert (E3 : (bflmt <? length (out ++ [c])) = false).
    { apply Nat.ltb_ge. rewrite app_length. unfold bflmt. cbn. lia. }
    rewrite E3. rewrite IH; [now rewrite <- app_assoc| |intros i Hi; apply (Hc (S i)); lia|exact Hb2|exact Hr].
    rewrite app_length. cbn. lia.
Qed.
Lemma forallb_seq f n : forallb f (seq 0 n) = true -> forall i, i < n -> f i = true.
Proof. intros H i Hi. rewrite forallb_forall in H. apply H, in_seq. lia. Qed.
Lemma word_parts w rest : word_ok d w rest = true ->
  1 <= length w <= 255 /\ (forall i, i < length w -> clear d (skipn i w ++ rest) = true) /\
  forallb (fun c => negb (among c [35; 123; 125]%N)) w = true /\ digit (hd 0%N w) = false /\
  ((hd 0 w =? 45)%N && digit (hd 0%N (tl (w ++ rest))))%bool = false /\
  (starts (d_return d) (w ++ rest) && (hd 0 (skipn (length (d_return d)) (w ++ rest)) =? 32)%N)%bool = false /\
  (rest = [] \/ sign d rest = true).
Proof.
  unfold word_ok. intros H.
  repeat match goal with H : (_ && _)%bool = true |- _ => apply andb_true_iff in H as (? & ?) end.
  repeat match goal with
         | H : (_ <=? _) = true |- _ => apply Nat.leb_le in H
         | H : negb _ = true |- _ => apply negb_true_iff in H
         end.
  repeat split; auto. { now apply forallb_seq. }
  apply orb_true_iff in H0 as [E|E]; [left|now right]. destruct rest; [reflexivity|discriminate].
Qed.
Lemma hd_skipn n (t : text) : hd 0%N (skipn n t) = peek t n.
Proof. unfold peek. revert t. induction n; intros [|c t]; cbn; auto. Qed.
Lemma tok_word w rest : word_ok d w rest = true -> tok d (w ++ rest) = LOk (TREF, w, rest).
Proof.
  intros H. apply word_parts in H as (Hl & Hc & Hb & Hd & Hm & Hr & Hs).
  pose proof (lex_word w rest [] ltac:(cbn; lia) Hc Hb Hs) as E. cbn [app] in E.
  destruct w as [|c w]; [cbn in Hl; lia|]. pose proof (Hc 0 ltac:(lia)) as C0. cbn [skipn app] in C0.
  unfold clear, sign in C0. apply negb_true_iff in C0. cbn [existsb hd] in C0. unfold among in C0. cbn [existsb] in C0.
  rewrite !orb_false_iff in C0. cbn [forallb] in Hb. apply andb_true_iff in Hb as (Hb & _). apply negb_true_iff in Hb. unfold among in Hb. cbn [existsb] in Hb.
  rewrite !orb_false_iff in Hb. cbn [app hd tl] in *. rewrite hd_skipn in Hr. unfold tok.
  assert (E1 : isspace c = false).
  { unfold isspace. rewrite !orb_false_iff. intuition. }
  cbn [skip]. rewrite E1.
  repeat match goal with H : _ /\ _ |- _ => destruct H end.
  repeat match goal with H : ?x = false |- _ => match goal with |- context [x] => rewrite H end end.
  rewrite (isdigit_digit c), Hd.
  replace ((c =? 45)%N && (2 <=? length (c :: w ++ rest)) && isdigit (peek (c :: w ++ rest) 1))%bool with false.
  - cbn [orb]. rewrite E. reflexivity.
  - symmetry. unfold peek. cbn [nth]. destruct (c =? 45)%N; [|reflexivity]. cbn [andb] in *.
    replace (nth 0 (w ++ rest) 0%N) with (hd 0%N (w ++ rest)) by (now destruct (w ++ rest)).
    rewrite isdigit_digit, Hm. apply andb_false_r.
Qed.

(** ** Numbers *)
Lemma put_room out c : length out < 255 -> put out c = LOk (out ++ [c]).
Proof. intros H. unfold put. assert ((length out <? bflmt) = true) as -> by (apply Nat.ltb_lt; exact H). reflexivity. Qed.
Lemma frac_run g : forall rest out, fraction_ok g = true -> begins_digit rest = false -> length out + length g <= 255 ->
  exists o, num_frac (g ++ rest) out = LOk (o, rest).
Proof.
  induction g as [|c g IH]; intros rest out H Hr Hl; cbn [app num_frac fraction_ok length] in *.
  - exists out. destruct rest as [|c r]; [reflexivity|]. cbn in Hr |- *. rewrite isdigit_digit, Hr. reflexivity.
  - apply andb_true_iff in H as (H1 & H2). rewrite isdigit_digit, H1, put_room by lia. cbn [lbind]. apply IH; [exact H2|exact Hr|].
    rewrite app_length. cbn. lia.
Qed.
Lemma whole_run x y : d_dec d = [x] -> d_tho d = [y] -> x <> y -> digit x = false -> digit y = false ->
  forall rest, begins_digit rest = false -> (begins x rest || begins y rest) && begins_digit (tl rest) = false ->
  forall n u fuel out, length u <= n -> length (u ++ rest) <= fuel -> whole_ok x y u = true -> begins_digit u = true -> length out + length u <= 255 ->
  exists o f, num_whole d fuel (u ++ rest) out = LOk (o, f ++ rest) /\ length o + length f <= 255 /\
    (f = [] \/ exists g, f = x :: g /\ begins_digit g = true /\ fraction_ok g = true).
Proof.
  intros Hx Hy Nxy Dx Dy rest Hr Hb. induction n as [|n IH]; intros u fuel out Hn Hf Hw Hu Hl.
  { destruct u; [discriminate|cbn in Hn; lia]. }
  destruct u as [|c r]; [discriminate|]. cbn [begins_digit whole_ok] in *. rewrite Hu in Hw.
  destruct fuel as [|fuel]; [cbn in Hf; lia|]. cbn [app length] in *. cbn [num_whole]. rewrite isdigit_digit, Hu, put_room by lia. cbn [lbind].
  rewrite Hy. cbn [length]. destruct r as [|c2 r2].
  - cbn [app]. replace (starts [y] rest && (1 + 1 <=? length rest) && isdigit (peek rest 1)) with false.
    + exists (out ++ [c]), []. cbn [app]. split; [|rewrite app_length in *; cbn in *; split; [lia|now left]].
      destruct fuel; [reflexivity|]. destruct rest as [|c2 r2]; [reflexivity|]. cbn in Hr |- *. rewrite isdigit_digit, Hr. reflexivity.
    + symmetry. destruct rest as [|c1 [|c2 r2]]; [reflexivity|apply andb_false_iff; left; apply andb_false_r|].
      cbn [starts peek nth begins tl begins_digit] in *. rewrite isdigit_digit. unfold peek. cbn [nth].
      rewrite (N.eqb_sym y c1). destruct (c1 =? y)%N; [|reflexivity]. rewrite orb_true_r in Hb. cbn in Hb. rewrite Hb. apply andb_false_r.
  - cbn [app whole_ok] in *. destruct (digit c2) eqn:D2.
    + replace (starts [y] (c2 :: r2 ++ rest)) with false.
      2:{ symmetry. cbn [starts]. destruct (N.eqb_spec y c2); [congruence|reflexivity]. }
      cbn [andb]. apply (IH (c2 :: r2)); cbn [length whole_ok begins_digit app] in *; try rewrite D2; auto; try lia. rewrite app_length. cbn. lia.
    + destruct (N.eqb_spec c2 y) as [->|Ny].
      * apply andb_true_iff in Hw as (Hw1 & Hw2). cbn [starts]. rewrite N.eqb_refl. destruct r2 as [|c3 r3]; [discriminate|].
        cbn [app length peek nth] in *. unfold peek. cbn [nth]. rewrite isdigit_digit. cbn [begins_digit] in Hw1. rewrite Hw1. cbn [andb Nat.add Nat.leb].
        cbn [skipn]. apply (IH (c3 :: r3)); cbn [length app] in *; auto; try lia. rewrite app_length. cbn. lia.
      * apply andb_true_iff in Hw as (Hw & Hw3). apply andb_true_iff in Hw as (Hw1 & Hw2). apply N.eqb_eq in Hw1 as ->.
        replace (starts [y] (x :: r2 ++ rest)) with false.
        2:{ symmetry. cbn [starts]. destruct (N.eqb_spec y x); [congruence|reflexivity]. }
        cbn [andb]. exists (out ++ [c]), (x :: r2). cbn [app].
        split; [|split; [rewrite app_length; cbn [length] in *; lia|right; now exists r2]].
        destruct fuel; [reflexivity|]. cbn [num_whole]. now rewrite isdigit_digit, Dx.
Qed.
Lemma inert_digits m c : inert d m = true -> In c m -> digit c = false.
Proof.
  unfold inert. induction m as [|x m IH]; intros H I; [destruct I|]. cbn [tails forallb hd] in H.
  apply andb_true_iff in H as (H1 & H2). destruct I as [->|I]; [|now apply IH].
  apply andb_true_iff in H1 as (H1 & _). apply andb_true_iff in H1 as (_ & H1). now apply negb_true_iff in H1.
Qed.
Lemma number_run x y u rest out : d_dec d = [x] -> d_tho d = [y] -> x <> y -> digit x = false -> digit y = false ->
  begins_digit rest = false -> (begins x rest || begins y rest) && begins_digit (tl rest) = false ->
  whole_ok x y u = true -> begins_digit u = true -> length out + length u <= 255 ->
  exists v, (lx (out, code) <- num_whole d (length (u ++ rest)) (u ++ rest) out;
             if starts (d_eol d) code && (length (d_eol d) <=? length code) && negb (isdigit (peek code (length (d_eol d))))
             then LOk (out, code)
             else lx (out, code) <- (if (length (d_dec d) + 1 <=? length code) && isdigit (peek code (length (d_dec d))) && starts (d_dec d) code
                       then lx o <- put out 46%N; LOk (o, skipn 1 code) else LOk (out, code));
                  num_frac code out) = LOk (v, rest).
Proof.
  intros Hx Hy Nxy Dx Dy Hr Hb Hw Hu Hl.
  destruct (whole_run x y Hx Hy Nxy Dx Dy rest Hr Hb _ u _ out (le_n _) (le_n _) Hw Hu Hl) as (o & f & -> & Hof & Hf). cbn [lbind].
  destruct Hf as [->|(g & -> & Hg1 & Hg2)]; cbn [app].
  - match goal with |- context [if ?b then LOk (o, rest) else _] => destruct b; [now exists o|] end.
    rewrite Hx. cbn [length].
    replace ((1 + 1 <=? length rest) && isdigit (peek rest 1) && starts [x] rest) with false.
    + cbn [lbind]. exact (frac_run [] rest o eq_refl Hr ltac:(lia)).
    + symmetry. destruct rest as [|c1 [|c2 r2]]; [reflexivity|reflexivity|].
      cbn [starts begins tl begins_digit] in *. rewrite isdigit_digit. unfold peek. cbn [nth]. rewrite (N.eqb_sym x c1).
      destruct (c1 =? x)%N; [cbn in Hb; rewrite Hb; now rewrite andb_false_r|]. cbn [andb]. now rewrite andb_false_r.
  - destruct g as [|c2 g]; [discriminate|]. cbn [begins_digit length] in Hg1, Hof.
    replace (starts (d_eol d) (x :: (c2 :: g) ++ rest) && (length (d_eol d) <=? length (x :: (c2 :: g) ++ rest)) && negb (isdigit (peek (x :: (c2 :: g) ++ rest) (length (d_eol d))))) with false.
    + rewrite Hx. cbn [length app starts]. unfold peek. cbn [nth]. rewrite isdigit_digit, Hg1, N.eqb_refl. cbn [andb Nat.add Nat.leb].
      rewrite put_room by lia. cbn [lbind skipn]. apply (frac_run (c2 :: g)); [exact Hg2|exact Hr|rewrite app_length; cbn; lia].
    + symmetry. destruct (plain_hd _ (la_eol d L)) as (e & r & E & P). destruct (la_inert d L) as (I & _). rewrite E in *. cbn [starts app].
      destruct (e =? x)%N; [|reflexivity]. cbn [andb]. destruct r as [|e2 r].
      * cbn [length starts]. unfold peek. cbn [nth]. rewrite isdigit_digit, Hg1. apply andb_false_r.
      * cbn [starts]. destruct (N.eqb_spec e2 c2) as [->|]; [|reflexivity].
        rewrite (inert_digits _ c2 I ltac:(cbn; auto)) in Hg1. discriminate.
Qed.
Lemma digit_not c m : digit c = true -> plain (hd 0%N m) = true -> forall t, starts m (c :: t) = false.
Proof. intros H P t. apply odd_not; [exact P|]. unfold plain. rewrite H. now rewrite orb_true_r. Qed.
Lemma tok_num n rest : num_ok d n rest = true -> exists v, tok d (n ++ rest) = LOk (TNUMBER, v, rest).
Proof.
  destruct (la_seps d L) as (x & y & Hx & Hy & Nxy & Hs). destruct (Hs x (or_introl eq_refl)) as (Bx & Dx & _). destruct (Hs y (or_intror eq_refl)) as (By & Dy & _).
  unfold num_ok. rewrite Hx, Hy. intros H.
  repeat match goal with H : (_ && _)%bool = true |- _ => apply andb_true_iff in H as (? & ?) end.
  repeat match goal with H : negb _ = true |- _ => apply negb_true_iff in H end.
  rename H into Hl. apply Nat.leb_le in Hl. rename H3 into Hu. rename H2 into Hw. rename H1 into Hr. rename H0 into Hb.
  assert (Odd : forall c t m, (c =? 45)%N || digit c = true -> plain (hd 0%N m) = true -> starts m (c :: t) = false).
  { intros c t m Hc P. apply odd_not; [exact P|]. unfold plain. apply orb_true_iff in Hc as [Hc|Hc].
    - unfold among. cbn [existsb]. rewrite Hc. now rewrite !orb_true_r.
    - rewrite Hc. now rewrite orb_true_r. }
  destruct n as [|c n]; [discriminate|].
  assert (Hc : (c =? 45)%N || digit c = true).
  { cbn [unsigned] in Hu. destruct (c =? 45)%N; [reflexivity|]. cbn [begins_digit] in Hu. now rewrite Hu. }
  assert (HP : plain c = false).
  { unfold plain. apply orb_true_iff in Hc as [Hc|Hc].
    - unfold among. cbn [existsb]. rewrite Hc. now rewrite !orb_true_r.
    - rewrite Hc. now rewrite orb_true_r. }
  assert (E : tok d ((c :: n) ++ rest) = lx (v, rest) <- lex_number d ((c :: n) ++ rest); LOk (TNUMBER, v, rest)).
  { unfold tok. cbn [app skip].
    assert (E : forall k, In k [32; 9; 13; 10; 35; 40; 41; 123; 125]%N -> (c =? k)%N = false).
    { intros k Hk. apply N.eqb_neq. intros ->. cbn in Hk. decompose [or] Hk; subst; try discriminate; contradiction. }
    unfold isspace. rewrite (E 32%N), (E 9%N), (E 13%N), (E 10%N) by (cbn; auto 10). cbn [orb].
    rewrite (E 35%N), (E 40%N), (E 41%N), (E 123%N), (E 125%N) by (cbn; auto 10).
    rewrite !(Odd c _ (d_eol d)), !(Odd c _ (d_chain d)), !(Odd c _ (d_assign d)), !(Odd c _ (d_return d)), !(Odd c _ (d_qo d)), (Odd c _ [58; 61]%N) by (exact Hc || apply L || reflexivity).
    cbn [andb]. replace (c =? d_prefix d)%N with false.
    2:{ symmetry. apply N.eqb_neq. intros ->. pose proof (la_prefix d L). congruence. }
    replace ((c =? 45)%N && (2 <=? length (c :: n ++ rest)) && isdigit (peek (c :: n ++ rest) 1) || isdigit c) with true; [reflexivity|].
    symmetry. rewrite (isdigit_digit c). cbn [unsigned] in Hu. destruct (c =? 45)%N.
    - destruct n as [|c2 n]; [discriminate|]. cbn [begins_digit] in Hu. unfold peek. cbn [nth app length Nat.leb andb]. now rewrite isdigit_digit, Hu.
    - cbn [begins_digit] in Hu. rewrite Hu. apply orb_true_r. }
  rewrite E. clear E Odd HP. unfold lex_number. cbn [app].
  cbn [unsigned] in *. destruct (c =? 45)%N.
  - rewrite put_room by (cbn; lia). cbn [lbind app].
    destruct (number_run x y n rest [c] Hx Hy Nxy Dx Dy Hr Hb Hw Hu ltac:(cbn in *; lia)) as (v & E). rewrite E. now exists v.
  - cbn [lbind]. destruct (number_run x y (c :: n) rest [] Hx Hy Nxy Dx Dy Hr Hb Hw Hu ltac:(cbn in *; lia)) as (v & E). cbn [app] in E. rewrite E. now exists v.
Qed.

(** ** Texts *)
Lemma str_run s : forall rest fuel out block, length (s ++ d_qc d ++ rest) <= fuel -> length out + 10 < block ->
  ~ In 92%N s -> (forall i, i < length s -> starts (d_qo d) (skipn i s ++ d_qc d ++ rest) = false /\ starts (d_qc d) (skipn i s ++ d_qc d ++ rest) = false) ->
  str_loop d true fuel (s ++ d_qc d ++ rest) out block 0 false = LOk (out ++ s, d_qc d ++ rest).
Proof.
  pose proof (la_qc_len d L) as Q. induction s as [|c s IH]; intros rest fuel out block Hf Hb H9 Hs.
  - rewrite app_nil_r. cbn [app]. destruct fuel as [|fuel]; [reflexivity|]. destruct (d_qc d ++ rest) as [|c r] eqn:E.
    + apply (f_equal (@length N)) in E. rewrite app_length in E. cbn in E. lia.
    + cbn [str_loop]. destruct (length (c :: r) <=? length (d_qc d)); [reflexivity|]. rewrite <- E, starts_app. reflexivity.
  - cbn [app length] in *. destruct fuel as [|fuel]; [lia|]. cbn [str_loop]. destruct (Hs 0 ltac:(lia)) as (S1 & S2). cbn [skipn app] in S1, S2.
    assert (E : (length (c :: s ++ d_qc d ++ rest) <=? length (d_qc d)) = false).
    { apply Nat.leb_gt. cbn [length]. rewrite !app_length. lia. }
    rewrite E, S2. cbn [andb]. assert (E2 : (c =? 92)%N = false) by (apply N.eqb_neq; intros ->; apply H9; cbn; auto).
    rewrite E2. cbn [andb negb]. rewrite S1. rewrite emit_ok by (cbn; lia). cbn [lbind].
    rewrite IH; [now rewrite <- app_assoc|lia|apply grow_ok; cbn; lia|intros I; apply H9; cbn; auto|].
    intros i Hi. apply (Hs (S i)). lia.
Qed.
Lemma readstr_text s rest : text_ok d s rest = true -> readstr d true (s ++ d_qc d ++ rest) = LOk (s, rest).
Proof.
  unfold text_ok. intros H. apply andb_true_iff in H as (H & H3). apply andb_true_iff in H as (H1 & H2).
  unfold readstr. rewrite str_run; [|lia|cbn; lia| |].
  - cbn [lbind app]. assert (E : (length (d_qc d) <=? length (d_qc d ++ rest)) = true) by (apply Nat.leb_le; rewrite app_length; lia).
    rewrite E. now rewrite skipn_length_app.
  - intros I. apply negb_true_iff in H1. unfold among in H1. enough (existsb (N.eqb 92) s = true) by congruence.
    apply existsb_exists. exists 92%N. split; [exact I|reflexivity].
  - intros i Hi. pose proof (forallb_seq _ _ H2 i Hi) as E. cbn in E. apply andb_true_iff in E as (A & B).
    split; now apply negb_true_iff.
Qed.
End Tok.
