(** Proofs about the text editor. *)
From Verif Require Import Common TextSpec SipModel EditSpec EditModel.
Local Open Scope Z_scope.

Notation zl s := (Z.of_nat (length s)).

(** * Bytes *)
Lemma byte_cases (p : N -> bool) : forallb p (map N.of_nat (seq 0 256)) = true -> forall c, (c < 256)%N -> p c = true.
Proof.
  intros H c Hc. rewrite forallb_forall in H. apply H. apply in_map_iff. exists (N.to_nat c).
  split; [apply N2Nat.id|]. apply in_seq. lia.
Qed.
Lemma contb_range : forall c, (c < 256)%N -> contb c = ((128 <=? c) && (c <? 192))%N.
Proof. intros c H. apply eqb_prop. apply (byte_cases (fun c => eqb (contb c) ((128 <=? c) && (c <? 192))%N)); [vm_compute; reflexivity|exact H]. Qed.
Lemma leadb_cont : forall c, leadb c = negb (contb c).
Proof. intros c. unfold leadb, contb. destruct (N.land c 128 =? 0)%N, (N.land c 192 =? 192)%N; reflexivity. Qed.
Lemma trails_contb : forall c, trails c -> contb c = true.
Proof. intros c [H1 H2]. rewrite contb_range by lia. apply andb_true_iff. split; [apply N.leb_le|apply N.ltb_lt]; lia. Qed.
Lemma leads_contb : forall c, leads c -> contb c = false.
Proof.
  intros c H. assert (c < 256)%N by (destruct H; lia). rewrite contb_range by assumption.
  apply andb_false_iff. destruct H as [[H _]|H]; [left; apply N.leb_gt; lia|right; apply N.ltb_ge; lia].
Qed.
Lemma leads_not : forall c, leads c -> c <> 10%N /\ c <> 13%N /\ c <> 0%N.
Proof. intros c H. destruct H; lia. Qed.
Lemma trails_not : forall c, trails c -> c <> 10%N /\ c <> 13%N /\ c <> 0%N.
Proof. intros c H. destruct H; lia. Qed.

(** * Blocks *)
Lemma rdz_at : forall P c R, rdz (P ++ c :: R) (zl P) = Ok c.
Proof.
  intros. unfold rdz, rd. replace (zl P <? 0) with false by (symmetry; apply Z.ltb_ge; lia).
  rewrite Nat2Z.id, nth_error_app2, Nat.sub_diag by lia. reflexivity.
Qed.
Lemma rdz_eq : forall b i P c R, b = P ++ c :: R -> i = zl P -> rdz b i = Ok c.
Proof. intros; subst. apply rdz_at. Qed.
Lemma put_at : forall X Y Z S, length S = length Y -> put (X ++ Y ++ Z) (zl X) S = Ok (X ++ S ++ Z).
Proof.
  intros. unfold put, fits. rewrite !app_length.
  replace ((0 <=? zl X) && (0 <=? zl S) && (zl X + zl S <=? Z.of_nat (length X + (length Y + length Z))))%Z with true
    by (symmetry; rewrite !andb_true_iff, !Z.leb_le; lia).
  rewrite Nat2Z.id, firstn_app, Nat.sub_diag, firstn_all, firstn_O, app_nil_r.
  rewrite H, skipn_app, skipn_all2 by lia. replace (length X + length Y - length X)%nat with (length Y) by lia.
  rewrite skipn_app, skipn_all, Nat.sub_diag. reflexivity.
Qed.
Lemma put_eq : forall b i X Y Z S, b = X ++ Y ++ Z -> i = zl X -> length S = length Y -> put b i S = Ok (X ++ S ++ Z).
Proof. intros; subst. apply put_at; assumption. Qed.
Lemma memcpy_eq : forall M b dst src n A B C, b = A ++ B ++ C -> src = zl A -> n = zl B ->
  (laps M = true \/ n = 0 \/ n <= Z.abs (dst - src)) -> memcpy M b dst src n = put b dst B.
Proof.
  intros M b dst src n A B C -> -> -> L. unfold memcpy, fits. rewrite !app_length.
  replace ((0 <=? zl A) && (0 <=? zl B) && (zl A + zl B <=? Z.of_nat (length A + (length B + length C))))%Z with true
    by (symmetry; rewrite !andb_true_iff, !Z.leb_le; lia).
  replace (laps M || (zl B =? 0) || (zl B <=? Z.abs (dst - zl A)))%Z with true
    by (symmetry; rewrite !orb_true_iff, Z.eqb_eq, Z.leb_le; tauto).
  cbn [andb]. f_equal. rewrite !Nat2Z.id, skipn_app, skipn_all, Nat.sub_diag. cbn [app skipn].
  rewrite firstn_app, Nat.sub_diag, firstn_all, firstn_O, app_nil_r. reflexivity.
Qed.

(** * Units *)
Lemma unit_head : forall u, unit_ u -> exists x r, u = x :: r /\ contb x = false /\ x <> 10%N /\ x <> 0%N /\
  (x = 13%N <-> u = eol).
Proof.
  intros u H. destruct H as [c cs H1 H2|].
  - exists c, cs. destruct (leads_not _ H1) as (A & B & C). repeat split; auto using leads_contb; try tauto.
    unfold eol. congruence.
  - exists 13%N, [10%N]. repeat split; try discriminate.
Qed.
Lemma unit_nonempty : forall u, unit_ u -> (0 < length u)%nat.
Proof. intros u H. destruct (unit_head _ H) as (x & r & -> & _). cbn. lia. Qed.
Lemma ordinary_iff : forall u, ordinary u = true <-> u <> eol.
Proof.
  assert (E : forall a b, text_eqb a b = true <-> a = b).
  { induction a as [|x a IH]; destruct b as [|y b]; cbn; try (split; congruence).
    rewrite andb_true_iff, N.eqb_eq, IH. split; [intros [-> ->]; reflexivity|intros [= -> ->]; auto]. }
  intros u. unfold ordinary. rewrite negb_true_iff. rewrite <- not_true_iff_false, E. tauto.
Qed.
Lemma ordinary_char : forall u, unit_ u -> ordinary u = true -> exists c cs, u = c :: cs /\ leads c /\ Forall trails cs.
Proof. intros u H O. destruct H as [c cs H1 H2|]; [eauto|]. apply ordinary_iff in O. congruence. Qed.
Lemma not_ordinary : forall u, ordinary u = false -> u = eol.
Proof.
  intros u H. destruct (list_eq_dec N.eq_dec u eol) as [E|E]; [exact E|]. apply ordinary_iff in E. congruence.
Qed.
(** what follows the cursor: a byte that begins a unit, or the end of the text *)
Lemma next_byte : forall a t, units a -> exists x r, concat a ++ 0%N :: t = x :: r /\ contb x = false /\ x <> 10%N.
Proof.
  intros a t H. destruct H as [|u a Hu Ha].
  - exists 0%N, t. repeat split; discriminate.
  - destruct (unit_head _ Hu) as (x & r & -> & C & T & _). exists x, (r ++ concat a ++ 0%N :: t).
    cbn. rewrite <- !app_assoc. auto.
Qed.

(** * Loops over continuation bytes *)
Lemma skip_right_ok : forall cs f P R len, Forall trails cs -> (length cs < f)%nat ->
  (zl P + zl cs = len \/ (zl P + zl cs < len /\ exists c R', R = c :: R' /\ contb c = false)) ->
  skip_right f (P ++ cs ++ R) len (zl P) = Ok (zl P + zl cs).
Proof.
  induction cs as [|c cs IH]; intros f P R len T F H; (destruct f as [|f]; [cbn in F; lia|]).
  - cbn [skip_right app]. change (zl []) with 0 in *. rewrite Z.add_0_r in *. unfold ltu.
    destruct H as [->|(H & c & R' & -> & C)].
    + rewrite Z.ltb_irrefl, andb_false_r. reflexivity.
    + replace ((0 <=? zl P) && (zl P <? len)) with true by (symmetry; rewrite andb_true_iff, Z.leb_le, Z.ltb_lt; lia).
      rewrite rdz_at. cbn [obind]. rewrite C. reflexivity.
  - cbn [skip_right]. unfold ltu.
    assert (zl P < len). { cbn [length] in H. destruct H as [H|[H _]]; lia. }
    replace ((0 <=? zl P) && (zl P <? len)) with true by (symmetry; rewrite andb_true_iff, Z.leb_le, Z.ltb_lt; lia).
    cbn [app]. rewrite rdz_at. cbn [obind]. inversion T; subst. rewrite (trails_contb c) by assumption.
    replace (P ++ c :: cs ++ R) with ((P ++ [c]) ++ cs ++ R) by (rewrite <- app_assoc; reflexivity).
    replace (zl P + 1) with (zl (P ++ [c])) by (rewrite app_length; cbn [length]; lia).
    rewrite IH; [f_equal; rewrite app_length; cbn [length]; lia|assumption|cbn [length] in F; lia|].
    rewrite app_length. cbn [length] in *. destruct H as [H|[H H']]; [left; lia|right; split; [lia|exact H']].
Qed.
Lemma skip_left_ok : forall cs f P c R, Forall trails cs -> contb c = false -> (length cs < f)%nat ->
  skip_left f (P ++ c :: cs ++ R) (zl P + zl cs) = Ok (zl P).
Proof.
  induction cs as [|x cs IH] using rev_ind; intros f P c R T C F; (destruct f as [|f]; [lia|]).
  - cbn [skip_left app]. change (zl []) with 0. rewrite Z.add_0_r. destruct (0 <? zl P); [|reflexivity].
    rewrite rdz_at. cbn [obind]. rewrite C. reflexivity.
  - rewrite app_length in *. cbn [length] in *. apply Forall_app in T. destruct T as [T1 T2]. inversion T2; subst.
    cbn [skip_left].
    replace (0 <? zl P + Z.of_nat (length cs + 1)) with true by (symmetry; apply Z.ltb_lt; lia).
    rewrite (rdz_eq _ _ (P ++ c :: cs) x R); [|rewrite <- !app_assoc; reflexivity|rewrite app_length; cbn [length]; lia].
    cbn [obind]. rewrite trails_contb by assumption. rewrite <- app_assoc. cbn [app].
    replace (zl P + Z.of_nat (length cs + 1) - 1) with (zl P + zl cs) by lia. apply IH; auto; lia.
Qed.

(** * Moving right and left *)
Lemma zl_app : forall (a b : text), zl (a ++ b) = zl a + zl b.
Proof. intros. rewrite app_length. lia. Qed.
Lemma rounds_gt : forall P Q, (length Q < rounds (P ++ Q))%nat.
Proof. intros. unfold rounds. rewrite app_length. lia. Qed.

Lemma right_unit : forall k jump P u a t len, unit_ u -> units a -> len = zl P + zl u + zl (concat a) ->
  move_right (S k) jump (P ++ u ++ concat a ++ 0%N :: t) len (zl P) =
  if ordinary u then move_right k jump (P ++ u ++ concat a ++ 0%N :: t) len (zl P + zl u)
  else Ok (if jump then zl P + zl u else zl P).
Proof.
  intros k jump P u a t len Hu Ha ->. set (b := P ++ u ++ concat a ++ 0%N :: t).
  cbn [move_right]. pose proof (unit_nonempty _ Hu) as NE.
  replace (zl P =? zl P + zl u + zl (concat a)) with false by (symmetry; apply Z.eqb_neq; lia).
  destruct (next_byte a t Ha) as (x & r & E & C & T).
  destruct Hu as [c cs Hc Hcs|].
  - assert (O : ordinary (c :: cs) = true). { apply ordinary_iff. unfold eol. intros [= -> _]. destruct (leads_not _ Hc); tauto. }
    rewrite O.
    assert (S : skip_right (rounds b) b (zl P + zl (c :: cs) + zl (concat a)) (zl P + 1) = Ok (zl P + zl (c :: cs))).
    { replace b with ((P ++ [c]) ++ cs ++ concat a ++ 0%N :: t) by (unfold b; rewrite <- app_assoc; reflexivity).
      replace (zl P + 1) with (zl (P ++ [c])) by (rewrite zl_app; reflexivity).
      rewrite skip_right_ok; [f_equal; rewrite zl_app; cbn [length]; lia|exact Hcs| |].
      - rewrite !app_assoc. rewrite <- app_assoc. unfold rounds. rewrite !app_length. lia.
      - rewrite zl_app. cbn [length]. destruct a as [|v a'].
        + left. cbn. lia.
        + right. assert (0 < length (concat (v :: a')))%nat.
          { inversion Ha; subst. cbn. rewrite app_length. pose proof (unit_nonempty v ltac:(assumption)). lia. }
          split; [lia|]. exists x, r. auto. }
    rewrite S. cbn [obind].
    rewrite (rdz_eq b _ (P ++ c :: cs) x r); [|unfold b; rewrite E, <- app_assoc; reflexivity|rewrite zl_app; lia].
    cbn [obind]. apply N.eqb_neq in T. rewrite T. reflexivity.
  - change (ordinary eol) with false. cbn match.
    assert (S : skip_right (rounds b) b (zl P + zl eol + zl (concat a)) (zl P + 1) = Ok (zl P + 1)).
    { replace b with ((P ++ [13%N]) ++ [] ++ 10%N :: concat a ++ 0%N :: t) by (unfold b; rewrite <- app_assoc; reflexivity).
      replace (zl P + 1) with (zl (P ++ [13%N])) by (rewrite zl_app; reflexivity).
      rewrite skip_right_ok; [f_equal; cbn [length]; lia|constructor|unfold rounds; cbn [length]; lia|].
      right. rewrite zl_app. cbn [length eol]. split; [lia|]. eexists _, _. split; [reflexivity|reflexivity]. }
    rewrite S. cbn [obind].
    rewrite (rdz_eq b _ (P ++ [13%N]) 10%N (concat a ++ 0%N :: t)); [|unfold b; rewrite <- app_assoc; reflexivity|rewrite zl_app; reflexivity].
    cbn [obind N.eqb Pos.eqb]. f_equal. change (zl eol) with 2. destruct jump; lia.
Qed.

Lemma left_unit : forall P u R, unit_ u ->
  move_left 1 true (P ++ u ++ R) (zl P + zl u) = Ok (zl P).
Proof.
  intros P u R Hu. pose proof (unit_nonempty _ Hu) as NE. unfold move_left.
  replace (zl P + zl u =? 0) with false by (symmetry; apply Z.eqb_neq; lia).
  cbn [left_rounds]. destruct Hu as [c cs Hc Hcs|].
  - replace (zl P + zl (c :: cs) - 1) with (zl P + zl cs) by (cbn [length]; lia).
    cbn [app]. rewrite skip_left_ok; [|exact Hcs|apply leads_contb; exact Hc|unfold rounds; rewrite app_length; cbn [length]; rewrite app_length; lia].
    cbn [obind]. rewrite rdz_at. cbn [obind]. destruct (leads_not _ Hc) as (T & _). apply N.eqb_neq in T. rewrite T. reflexivity.
  - replace (P ++ eol ++ R) with ((P ++ [13%N]) ++ 10%N :: [] ++ R) by (rewrite <- app_assoc; reflexivity).
    replace (zl P + zl eol - 1) with (zl (P ++ [13%N]) + zl (@nil N)) by (rewrite zl_app; change (zl eol) with 2; cbn [length]; lia).
    rewrite skip_left_ok; [|constructor|reflexivity|unfold rounds; cbn [length]; lia].
    cbn [obind]. rewrite rdz_at. cbn [obind N.eqb Pos.eqb]. f_equal. rewrite zl_app. cbn [length]. lia.
Qed.
(** within a line, going left without jumping is the same *)
Lemma left_unit_line : forall P u R, unit_ u -> ordinary u = true ->
  move_left 1 false (P ++ u ++ R) (zl P + zl u) = Ok (zl P).
Proof.
  intros P u R Hu O. destruct (ordinary_char _ Hu O) as (c & cs & -> & Hc & Hcs). unfold move_left.
  replace (zl P + zl (c :: cs) =? 0) with false by (symmetry; apply Z.eqb_neq; cbn [length]; lia).
  cbn [left_rounds].
  replace (zl P + zl (c :: cs) - 1) with (zl P + zl cs) by (cbn [length]; lia).
  cbn [app]. rewrite skip_left_ok; [|exact Hcs|apply leads_contb; exact Hc|unfold rounds; rewrite app_length; cbn [length]; rewrite app_length; lia].
  cbn [obind]. rewrite rdz_at. cbn [obind]. destruct (leads_not _ Hc) as (T & _). apply N.eqb_neq in T. rewrite T. reflexivity.
Qed.

(** * The document in its block *)
Definition pos (d : doc) : Z := zl (before d).
Definition lies (b : text) (len : Z) (d : doc) : Prop :=
  units (fst d) /\ units (snd d) /\ (exists t, b = content d ++ 0%N :: t) /\ len = zl (content d).

Lemma before_cons : forall u rb a, before (u :: rb, a) = before (rb, a) ++ u.
Proof. intros. unfold before. cbn [fst rev]. rewrite concat_app. cbn. rewrite app_nil_r. reflexivity. Qed.
Lemma content_shift : forall u rb a, content (u :: rb, a) = content (rb, u :: a).
Proof. intros. unfold content. rewrite before_cons. unfold after. cbn. rewrite <- app_assoc. reflexivity. Qed.
Lemma content_app : forall l rb a, content (l ++ rb, a) = content (rb, rev l ++ a).
Proof.
  induction l as [|u l IH]; intros; [reflexivity|]. cbn [app rev]. rewrite content_shift, IH, <- app_assoc. reflexivity.
Qed.
Lemma before_app : forall l rb a a', before (l ++ rb, a) = before (rb, a') ++ concat (rev l).
Proof.
  intros. unfold before. cbn [fst]. rewrite rev_app_distr, concat_app. reflexivity.
Qed.
Lemma units_rev : forall l, units l -> units (rev l).
Proof. intros. apply Forall_rev. assumption. Qed.
Lemma units_app : forall l m, units (l ++ m) <-> units l /\ units m.
Proof. intros. apply Forall_app. Qed.

Lemma lies_shift : forall b len u rb a, lies b len (u :: rb, a) <-> lies b len (rb, u :: a).
Proof.
  intros. unfold lies. rewrite content_shift. cbn [fst snd]. unfold units. rewrite !Forall_cons_iff. tauto.
Qed.
Lemma lies_app : forall b len l rb a, lies b len (l ++ rb, a) <-> lies b len (rb, rev l ++ a).
Proof.
  induction l as [|u l IH]; intros; [reflexivity|]. cbn [app rev]. rewrite lies_shift, IH, <- app_assoc. reflexivity.
Qed.

Lemma move_right_end : forall k j b len d, lies b len d -> snd d = [] -> move_right k j b len (pos d) = Ok (pos d).
Proof.
  intros k j b len [rb a] (_ & _ & _ & ->) E. cbn in E. subst a. unfold content, after, pos. cbn [snd concat].
  rewrite app_nil_r. destruct k; [reflexivity|]. cbn [move_right]. rewrite Z.eqb_refl. reflexivity.
Qed.
Lemma move_right_unit : forall k j b len rb u a, lies b len (rb, u :: a) ->
  move_right (S k) j b len (pos (rb, u :: a)) =
  if ordinary u then move_right k j b len (pos (u :: rb, a)) else Ok (if j then pos (u :: rb, a) else pos (rb, u :: a)).
Proof.
  intros k j b len rb u a (H1 & H2 & (t & ->) & ->). unfold pos. rewrite before_cons. unfold content, after. cbn [snd concat fst] in *.
  change (before (rb, u :: a)) with (before (rb, a)). inversion H2; subst.
  rewrite <- !app_assoc. rewrite !zl_app. rewrite right_unit; auto; try lia.
Qed.
Lemma right_ok : forall b len d, lies b len d -> move_right 1 true b len (pos d) = Ok (pos (right d)).
Proof.
  intros b len [rb [|u a]] H; [apply (move_right_end 1 true b len (rb, [])); auto|].
  rewrite move_right_unit by assumption. cbn [right move_right]. destruct (ordinary u); reflexivity.
Qed.
Lemma left_ok : forall b len d, lies b len d -> move_left 1 true b (pos d) = Ok (pos (left d)).
Proof.
  intros b len [[|u rb] a] (H1 & H2 & (t & ->) & ->); [reflexivity|].
  unfold pos. cbn [left]. rewrite before_cons. unfold content. rewrite before_cons, <- !app_assoc, zl_app.
  inversion H1; subst. rewrite left_unit by assumption. reflexivity.
Qed.
Lemma along_ok : forall k b len d, lies b len d -> move_right k false b len (pos d) = Ok (pos (along k d)).
Proof.
  induction k as [|k IH]; intros b len [rb a] H.
  - destruct a; reflexivity.
  - destruct a as [|u a]; [cbn [along]; apply (move_right_end (S k) false b len (rb, [])); auto|].
    rewrite move_right_unit by assumption. cbn [along]. destruct (ordinary u); [|reflexivity].
    apply IH. apply lies_shift. assumption.
Qed.

(** lines *)
Lemma span_spec : forall (l : list text) s t, span ordinary l = (s, t) ->
  l = s ++ t /\ Forall (fun u => ordinary u = true) s /\ (t = [] \/ exists t', t = eol :: t').
Proof.
  induction l as [|x l IH]; intros s t H; cbn in H.
  - injection H as <- <-. auto.
  - destruct (ordinary x) eqn:O.
    + destruct (span ordinary l) as [s' t'] eqn:E. injection H as <- <-. destruct (IH _ _ eq_refl) as (-> & A & B).
      auto.
    + injection H as <- <-. apply not_ordinary in O. subst. eauto.
Qed.
Lemma span_app : forall s t, Forall (fun u => ordinary u = true) s -> (t = [] \/ exists t', t = eol :: t') ->
  span ordinary (s ++ t) = (s, t).
Proof.
  induction s as [|x s IH]; intros t H1 H2; cbn.
  - destruct H2 as [->|(t' & ->)]; reflexivity.
  - inversion H1; subst. rewrite H3, IH by assumption. reflexivity.
Qed.
Definition plain (l : text) : Prop := Forall (fun c => c <> 10%N /\ c <> 13%N) l.
Lemma ordinary_plain : forall us, units us -> Forall (fun u => ordinary u = true) us -> plain (concat us).
Proof.
  induction us as [|u us IH]; intros H1 H2; [constructor|]. inversion H1; inversion H2; subst. cbn. apply Forall_app.
  split; [|apply IH; assumption].
  destruct (ordinary_char _ H3 H7) as (c & cs & -> & Hc & Hcs). constructor.
  - destruct (leads_not _ Hc) as (? & ? & _); auto.
  - eapply Forall_impl; [|exact Hcs]. intros x Hx. destruct (trails_not _ Hx) as (? & ? & _); auto.
Qed.

Lemma to_cr_ok : forall l f P R len found, plain l -> (length l < f)%nat -> zl P + zl l <= len ->
  (if found : bool then exists R', R = 13%N :: R' else zl P + zl l = len /\ exists R', R = 0%N :: R') ->
  to_cr f (P ++ l ++ R) len (zl P) = Ok (zl P + zl l, found).
Proof.
  induction l as [|c l IH]; intros f P R len found T F L H; (destruct f as [|f]; [cbn in F; lia|]); cbn [to_cr].
  - cbn [app length] in *. change (Z.of_nat 0) with 0 in *. rewrite Z.add_0_r in *. destruct found.
    + destruct H as (R' & ->). rewrite rdz_at. reflexivity.
    + destruct H as (<- & R' & ->). rewrite rdz_at. cbn [obind N.eqb]. rewrite Z.eqb_refl. reflexivity.
  - cbn [app length] in *. rewrite rdz_at. cbn [obind]. inversion T; subst. destruct H2 as [_ H2]. apply N.eqb_neq in H2. rewrite H2.
    replace (zl P =? len) with false by (symmetry; apply Z.eqb_neq; lia).
    replace (P ++ c :: l ++ R) with ((P ++ [c]) ++ l ++ R) by (rewrite <- app_assoc; reflexivity).
    replace (zl P + 1) with (zl (P ++ [c])) by (rewrite zl_app; reflexivity).
    rewrite (IH f (P ++ [c]) R len found); [f_equal; f_equal; rewrite zl_app; cbn [length]; lia|assumption|lia| |].
    + rewrite zl_app. cbn [length]. lia.
    + destruct found; [exact H|]. destruct H as [H H']. split; [rewrite zl_app; cbn [length]; lia|exact H'].
Qed.
Lemma to_cr_doc : forall b len d, lies b len d ->
  to_cr (rounds b) b len (pos d) = Ok (pos (ending d), match snd (ending d) with [] => false | _ => true end).
Proof.
  intros b len [rb a] (H1 & H2 & (t & ->) & ->). cbn [fst snd] in *. unfold ending. cbn [fst snd].
  destruct (span ordinary a) as [l a'] eqn:E. destruct (span_spec _ _ _ E) as (-> & O & D). cbn [snd].
  apply units_app in H2. destruct H2 as [H2 H3].
  unfold pos, content, after. cbn [snd]. rewrite (before_app (rev l) rb a' (l ++ a')), rev_involutive.
  rewrite concat_app, <- !app_assoc, !zl_app.
  apply to_cr_ok.
  - apply ordinary_plain; assumption.
  - unfold rounds. rewrite !app_length. lia.
  - lia.
  - destruct D as [->|(a'' & ->)].
    + cbn. split; [lia|]. eauto.
    + cbn. eauto.
Qed.
Lemma ending_ok : forall b len d, lies b len d -> to_end b len (pos d) = Ok (pos (ending d)).
Proof. intros. unfold to_end. rewrite to_cr_doc by assumption. reflexivity. Qed.
Lemma lies_ending : forall b len d, lies b len d -> lies b len (ending d).
Proof.
  intros b len [rb a] H. unfold ending. cbn [fst snd]. destruct (span ordinary a) as [l a'] eqn:E.
  destruct (span_spec _ _ _ E) as (-> & _). apply lies_app. rewrite rev_involutive. exact H.
Qed.
Lemma lies_home : forall b len d, lies b len d -> lies b len (home d).
Proof.
  intros b len [rb a] H. unfold home. cbn [fst snd]. destruct (span ordinary rb) as [l rb'] eqn:E.
  destruct (span_spec _ _ _ E) as (-> & _). apply lies_app. exact H.
Qed.
Lemma lies_left : forall b len d, lies b len d -> lies b len (left d).
Proof. intros b len [[|u rb] a] H; [exact H|]. cbn [left]. apply lies_shift. exact H. Qed.
Lemma lies_right : forall b len d, lies b len d -> lies b len (right d).
Proof. intros b len [rb [|u a]] H; [exact H|]. cbn [right]. apply lies_shift. exact H. Qed.
Lemma lies_along : forall k b len d, lies b len d -> lies b len (along k d).
Proof.
  induction k as [|k IH]; intros b len [rb a] H; [destruct a; exact H|]. destruct a as [|u a]; [exact H|].
  cbn [along]. destruct (ordinary u); [|exact H]. apply IH. apply lies_shift. exact H.
Qed.
Lemma lies_up : forall b len d, lies b len d -> lies b len (up d).
Proof. intros b len d H. unfold up. destruct (fst (home d)); [exact H|]. apply lies_along, lies_home, lies_left, lies_home, H. Qed.
Lemma lies_down : forall b len d, lies b len d -> lies b len (down d).
Proof. intros b len d H. unfold down. destruct (snd (ending d)); [apply lies_ending, H|]. apply lies_along, lies_right, lies_ending, H. Qed.
Lemma lies_repeatedly : forall f b len, (forall d, lies b len d -> lies b len (f d)) -> forall n d, lies b len d -> lies b len (repeatedly n f d).
Proof. intros f b len H. induction n as [|n IH]; intros d Hd; [exact Hd|]. cbn [repeatedly]. apply IH, H, Hd. Qed.
Lemma lies_moved : forall mv b len d, lies b len d -> lies b len (moved mv d).
Proof.
  intros [] b len d H; cbn [moved]; auto using lies_left, lies_right, lies_up, lies_down, lies_home, lies_ending;
    apply lies_repeatedly; auto using lies_up, lies_down.
Qed.

(** back to the begin of the line *)
Lemma to_first_ok : forall l f P x R, Forall (fun c => c <> 10%N) l -> x <> 10%N -> (length l + 1 < f)%nat ->
  (P = [] \/ exists P', P = P' ++ [10%N]) -> to_first_loop f (P ++ l ++ x :: R) (zl P + zl l) = Ok (zl P).
Proof.
  induction l as [|y l IH] using rev_ind; intros f P x R T X F D; (destruct f as [|f]; [lia|]); cbn [to_first_loop].
  - cbn [app length] in *. rewrite Z.add_0_r, rdz_at. cbn [obind]. apply N.eqb_neq in X. rewrite X.
    destruct D as [->|(P' & ->)]; [reflexivity|].
    replace (zl (P' ++ [10%N]) =? 0) with false by (symmetry; apply Z.eqb_neq; rewrite zl_app; cbn [length]; lia).
    destruct f as [|f]; [lia|]. cbn [to_first_loop]. rewrite zl_app. cbn [length].
    rewrite (rdz_eq _ _ P' 10%N (x :: R)); [|rewrite <- app_assoc; reflexivity|lia].
    cbn [obind N.eqb Pos.eqb]. f_equal. lia.
  - apply Forall_app in T. destruct T as [T1 T2]. inversion T2; subst. rewrite app_length in *. cbn [length] in *.
    rewrite (rdz_eq _ _ (P ++ l ++ [y]) x R); [|rewrite <- !app_assoc; reflexivity|rewrite !zl_app; cbn [length]; lia].
    cbn [obind]. apply N.eqb_neq in X. rewrite X.
    replace (zl P + Z.of_nat (length l + 1) =? 0) with false by (symmetry; apply Z.eqb_neq; lia).
    replace (zl P + Z.of_nat (length l + 1) - 1) with (zl P + zl l) by lia.
    rewrite <- app_assoc. cbn [app]. apply IH; auto; lia.
Qed.
Lemma plain_no_lf : forall l, plain l -> Forall (fun c => c <> 10%N) l.
Proof. intros l H. eapply Forall_impl; [|exact H]. cbn. tauto. Qed.
Lemma line_begin : forall rb a, (rb = [] \/ exists t', rb = eol :: t') ->
  before (rb, a) = [] \/ exists P', before (rb, a) = P' ++ [10%N].
Proof.
  intros rb a [->|(t' & ->)]; [left; reflexivity|right]. rewrite before_cons. exists (before (t', a) ++ [13%N]).
  unfold eol. rewrite <- app_assoc. reflexivity.
Qed.
Lemma home_ok : forall b len d, lies b len d -> to_first b (pos d) = Ok (pos (home d)).
Proof.
  intros b len [rb a] (H1 & H2 & (t & ->) & ->). cbn [fst snd] in *. unfold home. cbn [fst snd].
  destruct (span ordinary rb) as [l rb'] eqn:E. destruct (span_spec _ _ _ E) as (-> & O & D).
  apply units_app in H1. destruct H1 as [H1 H3]. destruct (next_byte a t H2) as (x & r & E2 & _ & X).
  unfold pos, content, after. cbn [snd]. rewrite <- app_assoc, E2, (before_app l rb' a (rev l ++ a)), <- !app_assoc, zl_app.
  unfold to_first. apply to_first_ok; auto.
  - apply plain_no_lf, ordinary_plain; [apply units_rev; assumption|apply Forall_rev; assumption].
  - unfold rounds. rewrite !app_length. cbn [length]. lia.
  - apply line_begin. assumption.
Qed.

(** number of the character in the line *)
Definition leadn (l : text) : Z := Z.of_nat (length (filter leadb l)).
Lemma leadn_app : forall a b, leadn (a ++ b) = leadn a + leadn b.
Proof. intros. unfold leadn. rewrite filter_app, app_length. lia. Qed.
Lemma leadn_one : forall x, leadn [x] = if leadb x then 1 else 0.
Proof. intros x; unfold leadn; cbn; destruct (leadb x); reflexivity. Qed.
Lemma char_line_later : forall l f P x R n, Forall (fun c => c <> 10%N) l -> x <> 10%N -> (length l + 1 < f)%nat ->
  char_line_loop f ((P ++ eol) ++ l ++ x :: R) (zl (P ++ eol) + zl l) n = Ok (n + leadn (l ++ [x]) - 1).
Proof.
  induction l as [|y l IH] using rev_ind; intros f P x R n T X F; (destruct f as [|f]; [lia|]); cbn [char_line_loop].
  - cbn [app length] in *. rewrite Z.add_0_r, rdz_at. cbn [obind]. apply N.eqb_neq in X. rewrite X.
    rewrite zl_app. change (zl eol) with 2.
    replace (0 <? zl P + 2) with true by (symmetry; apply Z.ltb_lt; lia). cbn [negb andb].
    destruct f as [|f]; [lia|]. cbn [char_line_loop].
    rewrite (rdz_eq _ _ (P ++ [13%N]) 10%N (x :: R)); [|unfold eol; rewrite <- !app_assoc; reflexivity|rewrite zl_app; cbn [length]; lia].
    cbn [obind N.eqb Pos.eqb negb andb]. rewrite leadn_one.
    replace (0 <? zl P + 2 - 1) with true by (symmetry; apply Z.ltb_lt; lia).
    destruct (leadb x); f_equal; lia.
  - apply Forall_app in T. destruct T as [T1 T2]. inversion T2; subst. rewrite !app_length in *. cbn [length] in *.
    rewrite (rdz_eq _ _ ((P ++ eol) ++ l ++ [y]) x R); [|rewrite <- !app_assoc; reflexivity|rewrite !zl_app; cbn [length]; lia].
    cbn [obind]. apply N.eqb_neq in X. rewrite X. cbn [negb andb].
    replace (0 <? Z.of_nat (length P + length eol) + Z.of_nat (length l + 1)) with true by (symmetry; apply Z.ltb_lt; lia).
    replace (Z.of_nat (length P + length eol) + Z.of_nat (length l + 1) - 1) with (zl (P ++ eol) + zl l) by (rewrite zl_app; lia).
    rewrite <- (app_assoc l [y]). cbn [app]. rewrite IH by (auto; lia). rewrite !leadn_app, !leadn_one.
    destruct (leadb x), (leadb y); f_equal; lia.
Qed.
Lemma char_line_first : forall l f x R n, Forall (fun c => c <> 10%N) l -> x <> 10%N -> (length l + 1 < f)%nat ->
  char_line_loop f (l ++ x :: R) (zl l) n = Ok (n + leadn (tl (l ++ [x]))).
Proof.
  induction l as [|y l IH] using rev_ind; intros f x R n T X F; (destruct f as [|f]; [lia|]); cbn [char_line_loop].
  - rewrite rdz_at. cbn [obind app length]. change (Z.of_nat 0) with 0.
    rewrite Z.ltb_irrefl, andb_false_r. cbn. f_equal. unfold leadn. cbn. lia.
  - apply Forall_app in T. destruct T as [T1 T2]. inversion T2; subst. rewrite !app_length in *. cbn [length] in *.
    rewrite (rdz_eq _ _ (l ++ [y]) x R); [|reflexivity|rewrite !zl_app; cbn [length]; lia].
    cbn [obind]. apply N.eqb_neq in X. rewrite X. cbn [negb andb].
    replace (0 <? Z.of_nat (length l + 1)) with true by (symmetry; apply Z.ltb_lt; lia).
    replace (Z.of_nat (length l + 1) - 1) with (zl l) by lia.
    rewrite <- (app_assoc l [y]). cbn [app]. rewrite IH by (auto; lia).
    replace (tl ((l ++ [y]) ++ [x])) with (tl (l ++ [y]) ++ [x]).
    + rewrite leadn_app, leadn_one. destruct (leadb x); f_equal; lia.
    + destruct l; reflexivity.
Qed.
Lemma leadn_trails : forall cs, Forall trails cs -> leadn cs = 0.
Proof.
  induction cs as [|c cs IH]; intros H; [reflexivity|]. inversion H; subst. unfold leadn in *. cbn [filter].
  rewrite leadb_cont, trails_contb by assumption. cbn. auto.
Qed.
Lemma leadn_units : forall us, units us -> Forall (fun u => ordinary u = true) us -> leadn (concat us) = zl us.
Proof.
  induction us as [|u us IH]; intros H1 H2; [reflexivity|]. inversion H1; inversion H2; subst.
  cbn [concat]. rewrite leadn_app, IH by assumption.
  destruct (ordinary_char _ H3 H7) as (c & cs & -> & Hc & Hcs).
  change (c :: cs) with ([c] ++ cs). rewrite leadn_app, leadn_one, leadn_trails, leadb_cont, leads_contb by assumption.
  cbn [negb length]. lia.
Qed.
Lemma column_ok : forall b len d, lies b len d -> char_line b (pos d) = Ok (Z.of_nat (column d)).
Proof.
  intros b len [rb a] (H1 & H2 & (t & ->) & ->). cbn [fst snd] in *. unfold column. cbn [fst snd].
  destruct (span ordinary rb) as [l rb'] eqn:E. destruct (span_spec _ _ _ E) as (-> & O & D). cbn [fst].
  apply units_app in H1. destruct H1 as [H1 H3]. destruct (next_byte a t H2) as (x & r & E2 & C & X).
  unfold pos, content, after. cbn [snd]. rewrite <- app_assoc, E2, (before_app l rb' a (rev l ++ a)).
  assert (O' : Forall (fun u => ordinary u = true) (rev l)) by (apply Forall_rev; assumption).
  assert (U' : units (rev l)) by (apply units_rev; assumption).
  assert (PL : Forall (fun c => c <> 10%N) (concat (rev l))) by (apply plain_no_lf, ordinary_plain; assumption).
  assert (LX : leadn [x] = 1) by (rewrite leadn_one, leadb_cont, C; reflexivity).
  pose proof (leadn_units _ U' O') as LN. rewrite rev_length in LN.
  unfold char_line. destruct D as [->|(rb'' & ->)].
  - change (before ([], rev l ++ a)) with (@nil N). cbn [app]. rewrite char_line_first; auto.
    + destruct (rev l) as [|u us] eqn:RL.
      * cbn in *. f_equal. unfold leadn in *. cbn in *. lia.
      * inversion U'; inversion O'; subst. destruct (ordinary_char _ H4 H8) as (c & cs & -> & Hc & Hcs).
        cbn [concat app tl] in *. f_equal. rewrite leadn_app, LX. rewrite <- LN.
        change (c :: cs ++ concat us) with ([c] ++ (cs ++ concat us)). rewrite (leadn_app [c]), leadn_one, leadb_cont, leads_contb by assumption.
        cbn [negb]. lia.
    + unfold rounds. rewrite !app_length. cbn [length]. lia.
  - rewrite before_cons. rewrite <- (app_assoc _ (concat (rev l))), (zl_app _ (concat (rev l))).
    rewrite char_line_later; auto.
    + f_equal. rewrite leadn_app, LX, LN. lia.
    + unfold rounds. rewrite !app_length. cbn [length]. lia.
Qed.

(** up and down *)
Lemma steps_of_nat : forall b n, steps_of b (Z.of_nat n) = n.
Proof. intros. unfold steps_of. replace (Z.of_nat n <? 0) with false by (symmetry; apply Z.ltb_ge; lia). apply Nat2Z.id. Qed.
Lemma along_column : forall d, along (column d) (home d) = d.
Proof.
  intros [rb a]. unfold column, home. cbn [fst snd]. destruct (span ordinary rb) as [l rb'] eqn:E.
  destruct (span_spec _ _ _ E) as (-> & O & D). cbn [fst]. clear E D.
  rewrite <- (rev_length l). rewrite <- (rev_involutive l) at 3. apply Forall_rev in O. generalize dependent rb'.
  induction (rev l) as [|u us IH]; intros rb'.
  - destruct a; reflexivity.
  - inversion O; subst. cbn [length along app]. rewrite H1. rewrite IH by assumption. cbn [rev]. rewrite <- app_assoc. reflexivity.
Qed.
(** what up relies on: not on the second line below an empty first line *)
Definition up_fine (d : doc) : Prop := fst (home d) <> [eol].
Lemma snoc_bytes : forall (l : text), l <> [] -> exists q y, l = q ++ [y].
Proof. intros l H. destruct (exists_last H) as (q & y & E). eauto. Qed.
Lemma to_first_prev_ok : forall b len d, lies b len d -> up_fine d ->
  to_first_prev b (pos d) = Ok (pos (match fst (home d) with [] => home d | _ => home (left (home d)) end)).
Proof.
  intros b len d H F. unfold to_first_prev, to_last_prev. rewrite (home_ok b len d H). cbn [obind].
  pose proof (lies_home _ _ _ H) as HH. unfold up_fine in F. destruct (home d) as [rb a] eqn:EH. cbn [fst] in *.
  assert (D : rb = [] \/ exists t', rb = eol :: t').
  { unfold home in EH. destruct d as [rb0 a0]. cbn [fst snd] in EH. destruct (span ordinary rb0) as [l rb'] eqn:E.
    destruct (span_spec _ _ _ E) as (_ & _ & D). injection EH as <- _. exact D. }
  destruct D as [->|(t' & ->)].
  - change (pos ([], a)) with 0. cbn [Z.eqb obind]. change 0 with (pos ([], a)). rewrite (home_ok b len ([], a) HH). reflexivity.
  - cbn [left]. destruct t' as [|u t']; [congruence|].
    pose proof (lies_left _ _ _ HH) as HL. cbn [left] in HL.
    assert (P2 : pos (eol :: u :: t', a) = pos (u :: t', eol :: a) + 2).
    { unfold pos. rewrite before_cons, zl_app. change (zl eol) with 2. reflexivity. }
    assert (P1 : 0 < pos (u :: t', eol :: a)).
    { unfold pos. rewrite before_cons, zl_app. destruct HL as (HU & _). inversion HU; subst. pose proof (unit_nonempty _ H2). lia. }
    replace (pos (eol :: u :: t', a) =? 0) with false by (symmetry; apply Z.eqb_neq; lia).
    cbn [obind]. replace (pos (eol :: u :: t', a) - 3) with (pos (u :: t', eol :: a) - 1) by lia.
    destruct HL as (HU & HA & (t & ->) & ->). cbn [fst snd] in *.
    unfold home. cbn [fst snd]. destruct (span ordinary (u :: t')) as [l rb'] eqn:E.
    destruct (span_spec _ _ _ E) as (E1 & O & D). rewrite E1 in *. clear E1 E u t' F H HH P2 EH.
    apply units_app in HU. destruct HU as [HU1 HU2].
    unfold pos, content, after in *. cbn [snd] in *.
    rewrite (before_app l rb' (eol :: a) (rev l ++ eol :: a)) in *.
    set (Q := before (rb', rev l ++ eol :: a)) in *. set (L := concat (rev l)) in *.
    assert (PL : Forall (fun c => c <> 10%N) L).
    { apply plain_no_lf, ordinary_plain; [apply units_rev; assumption|apply Forall_rev; assumption]. }
    assert (DQ : Q = [] \/ exists P', Q = P' ++ [10%N]) by (apply line_begin; assumption).
    rewrite <- !app_assoc in *. destruct (list_eq_dec N.eq_dec L []) as [EL|NL].
    + rewrite EL in *. cbn [app] in *. rewrite app_nil_r in *. destruct DQ as [->|(P' & EQ)]; [cbn in P1; lia|].
      rewrite EQ. unfold to_first, rounds. rewrite app_length at 1. rewrite Nat.add_comm. cbn [Nat.add to_first_loop].
      rewrite (rdz_eq _ _ P' 10%N (concat (eol :: a) ++ 0%N :: t)); [|rewrite <- app_assoc; reflexivity|rewrite zl_app; cbn [length]; lia].
      cbn [obind N.eqb Pos.eqb]. f_equal. lia.
    + destruct (snoc_bytes L NL) as (L' & y & EL). rewrite EL in *. apply Forall_app in PL. destruct PL as [PL1 PL2].
      inversion PL2; subst. rewrite <- !app_assoc. cbn [app]. rewrite !zl_app in *. cbn [length] in *.
      replace (zl Q + (zl L' + Z.of_nat 1) - 1) with (zl Q + zl L') by lia.
      apply to_first_ok; auto. unfold rounds. rewrite !app_length. cbn [length]. lia.
Qed.
Lemma up_ok : forall b len d, lies b len d -> up_fine d -> cursormove1 b len 0 (-1) (pos d) = Ok (pos (up d)).
Proof.
  intros b len d H F. unfold cursormove1. cbn [Z.eqb Pos.eqb]. rewrite (column_ok b len d H). cbn [obind].
  rewrite (to_first_prev_ok b len d H F). cbn [obind]. rewrite steps_of_nat.
  unfold up. destruct (fst (home d)) eqn:E.
  - rewrite (along_ok _ b len) by (apply lies_home; assumption). cbn [obind]. rewrite along_column. reflexivity.
  - rewrite (along_ok _ b len) by (apply lies_home, lies_left, lies_home; assumption). reflexivity.
Qed.
Lemma to_first_next_ok : forall b len d, lies b len d ->
  to_first_next b len (pos d) = Ok (pos (match snd (ending d) with [] => ending d | _ => right (ending d) end)).
Proof.
  intros b len d H. unfold to_first_next, to_last. rewrite (to_cr_doc b len d H). cbn [obind].
  pose proof (lies_ending _ _ _ H) as HE.
  assert (D : snd (ending d) = [] \/ exists t', snd (ending d) = eol :: t').
  { unfold ending. destruct d as [rb0 a0]. cbn [fst snd]. destruct (span ordinary a0) as [l a'] eqn:E.
    destruct (span_spec _ _ _ E) as (_ & _ & D). exact D. }
  destruct (ending d) as [rb a] eqn:EE. cbn [snd] in *.
  destruct HE as (HU & HA & (t & ->) & ->). cbn [snd fst] in *.
  destruct D as [->|(t' & ->)].
  - cbn [obind]. unfold pos, content, after. cbn [snd concat]. rewrite app_nil_r, Z.eqb_refl. reflexivity.
  - cbn [obind]. unfold content, after. cbn [snd concat right]. unfold pos. rewrite before_cons, !zl_app. change (zl eol) with 2.
    change (before (rb, t')) with (before (rb, eol :: t')).
    replace (zl (before (rb, eol :: t')) - 1 =? _) with false by (symmetry; apply Z.eqb_neq; lia).
    f_equal. lia.
Qed.
Lemma down_ok : forall b len d, lies b len d -> cursormove1 b len 0 1 (pos d) = Ok (pos (down d)).
Proof.
  intros b len d H. unfold cursormove1. cbn [Z.eqb Pos.eqb obind]. rewrite (column_ok b len d H). cbn [obind].
  rewrite (to_first_next_ok b len d H). cbn [obind]. rewrite steps_of_nat. unfold down.
  destruct (snd (ending d)) eqn:E.
  - rewrite (move_right_end _ false b len (ending d)); [reflexivity|apply lies_ending; assumption|assumption].
  - rewrite (along_ok _ b len) by (apply lies_right, lies_ending; assumption). reflexivity.
Qed.

(** all keys that move the cursor *)
Fixpoint page_fine (n : nat) (d : doc) : Prop := match n with O => True | S k => up_fine d /\ page_fine k (up d) end.
Definition move_fine (mv : move) (d : doc) : Prop :=
  match mv with MUp => up_fine d | MPageUp => page_fine 10 d | _ => True end.
Definition mx (mv : move) : Z := match mv with MLeft => -1 | MRight => 1 | MHome => -2 | MEnd => 2 | _ => 0 end.
Definition my (mv : move) : Z := match mv with MUp => -1 | MDown => 1 | MPageUp => -2 | MPageDown => 2 | _ => 0 end.
Lemma times_up : forall n b len d, lies b len d -> page_fine n d ->
  times n (cursormove1 b len 0 (-1)) (pos d) = Ok (pos (repeatedly n up d)).
Proof.
  induction n as [|n IH]; intros b len d H F; [reflexivity|]. destruct F as [F1 F2]. cbn [times repeatedly].
  rewrite up_ok by assumption. cbn [obind]. apply IH; [apply lies_up; assumption|assumption].
Qed.
Lemma times_down : forall n b len d, lies b len d ->
  times n (cursormove1 b len 0 1) (pos d) = Ok (pos (repeatedly n down d)).
Proof.
  induction n as [|n IH]; intros b len d H; [reflexivity|]. cbn [times repeatedly].
  rewrite down_ok by assumption. cbn [obind]. apply IH, lies_down, H.
Qed.
Lemma cursormove_ok : forall m b mv d, tx m = Some b -> lies b (ln m) d -> move_fine mv d ->
  cursormove m (mx mv) (my mv) (pos d) = Ok (pos (moved mv d)).
Proof.
  intros m b mv d E H F. unfold cursormove. rewrite E. destruct mv; cbn [mx my move_fine moved] in *.
  - unfold cursormove1. cbn [Z.eqb Pos.eqb obind]. rewrite (left_ok _ _ _ H). reflexivity.
  - unfold cursormove1. cbn [Z.eqb Pos.eqb obind]. rewrite (right_ok _ _ _ H). reflexivity.
  - rewrite (up_ok _ _ _ H F). reflexivity.
  - rewrite (down_ok _ _ _ H). reflexivity.
  - unfold cursormove1. cbn [Z.eqb Pos.eqb obind]. rewrite (home_ok _ _ _ H). reflexivity.
  - unfold cursormove1. cbn [Z.eqb Pos.eqb obind]. rewrite (ending_ok _ _ _ H). reflexivity.
  - replace (cursormove1 b (ln m) 0 (-2) (pos d)) with (Ok (pos d)) by reflexivity. cbn [obind Z.eqb Pos.eqb].
    apply times_up; assumption.
  - replace (cursormove1 b (ln m) 0 2 (pos d)) with (Ok (pos d)) by reflexivity. cbn [obind Z.eqb Pos.eqb].
    rewrite times_down by assumption. reflexivity.
Qed.

(** * Editing *)
Definition zero_tail (t : text) : Prop := Forall (fun c => c = 0%N) t.
Definition good (M : mach) : Prop :=
  laps M = true /\ forall n, (n <= length (alloc M n))%nat /\ zero_tail (alloc M n).

(** An image that holds a document; [clean]: its block is filled up with zeros. *)
Definition shows (clean : bool) (m : img) (d : doc) : Prop :=
  units (fst d) /\ units (snd d) /\ ln m = zl (content d) /\ ln m <= cp m /\
  exists t, tx m = Some (content d ++ 0%N :: t) /\ cp m + 1 <= zl (content d ++ 0%N :: t) /\ (clean = true -> zero_tail t).

Lemma shows_lies : forall k m d, shows k m d -> exists b, tx m = Some b /\ lies b (ln m) d.
Proof. intros k m d (H1 & H2 & H3 & H4 & t & H5 & H6 & H7). eexists. split; [exact H5|]. unfold lies. eauto. Qed.
Lemma shows_moved : forall k m d mv, shows k m d -> shows k m (moved mv d).
Proof.
  intros k m d mv H. destruct (shows_lies _ _ _ H) as (b & E & L). pose proof (lies_moved mv _ _ _ L) as L'.
  destruct H as (H1 & H2 & H3 & H4 & t & H5 & H6 & H7). destruct L' as (L1 & L2 & (t' & L3) & L4).
  rewrite H5 in E. injection E as <-.
  assert (EC : content (moved mv d) = content d /\ t' = t).
  { assert (LEN : length (content (moved mv d)) = length (content d)) by lia.
    assert (F : firstn (length (content d)) (content d ++ 0%N :: t) = firstn (length (content d)) (content (moved mv d) ++ 0%N :: t')) by (rewrite L3; reflexivity).
    rewrite <- LEN in F at 2. rewrite !firstn_app, !Nat.sub_diag, !firstn_all, !firstn_O, !app_nil_r in F.
    split; [auto|]. rewrite <- F in L3. apply app_inv_head in L3. congruence. }
  destruct EC as [EC ->]. unfold shows. rewrite EC. repeat split; auto. exists t. auto.
Qed.
Lemma zeros_zero : forall n, zero_tail (repeat 0%N n).
Proof. intros n. apply Forall_forall. intros c H. apply repeat_spec in H. exact H. Qed.
Lemma zero_skipn : forall n t, zero_tail t -> zero_tail (skipn n t).
Proof. induction n as [|n IH]; intros t H; [exact H|]. destruct H; [constructor|]. cbn. apply IH. assumption. Qed.
Lemma zero_cons : forall t, zero_tail t -> t <> [] -> exists t', t = 0%N :: t' /\ zero_tail t'.
Proof. intros t H N. destruct H; [congruence|]. subst. eauto. Qed.
Lemma content_split : forall d, content d = before d ++ after d.
Proof. reflexivity. Qed.
Lemma text_eqb_eq : forall a b, text_eqb a b = true <-> a = b.
Proof.
  induction a as [|x a IH]; destruct b as [|y b]; cbn; try (split; congruence).
  rewrite andb_true_iff, N.eqb_eq, IH. split; [intros [-> ->]; reflexivity|intros [= -> ->]; auto].
Qed.

(** bytes [X ++ Y ++ Z] become [X ++ Z]; what is left behind is overwritten *)
Lemma squeeze : forall M X Y Z T, laps M = true ->
  memcpy M (X ++ Y ++ Z ++ T) (zl X) (zl X + zl Y) (zl Z) = Ok (X ++ Z ++ skipn (length Z) (Y ++ Z) ++ T).
Proof.
  intros M X Y Z T L.
  rewrite (memcpy_eq M _ _ _ _ (X ++ Y) Z T); [|rewrite <- !app_assoc; reflexivity|rewrite zl_app; reflexivity|reflexivity|auto].
  apply (put_eq _ _ X (firstn (length Z) (Y ++ Z)) (skipn (length Z) (Y ++ Z) ++ T)).
  - f_equal. rewrite (app_assoc (firstn _ _)), firstn_skipn, <- app_assoc. reflexivity.
  - reflexivity.
  - rewrite firstn_length, app_length. lia.
Qed.
Lemma squeeze_rest : forall (Y Z : text), length (skipn (length Z) (Y ++ Z)) = length Y.
Proof. intros. rewrite skipn_length, app_length. lia. Qed.

Lemma backspace_ok : forall k M m d g, laps M = true -> shows k m d -> ix g = pos d ->
  exists m', textinsert M m g [8%N] = Ok (m', with_ix (reset_selection g) (pos (backspace d))) /\ shows k m' (backspace d).
Proof.
  intros k M m [rb a] g L H G. destruct (shows_lies _ _ _ H) as (b & E & HL). pose proof (left_ok _ _ _ HL) as ML.
  destruct H as (H1 & H2 & H3 & H4 & t & H5 & H6 & H7). rewrite H5 in E. injection E as <-.
  unfold textinsert. rewrite H5. cbn [text_eqb N.eqb Pos.eqb andb]. change (ix (reset_selection g)) with (ix g). rewrite G.
  destruct rb as [|u rb].
  - change (pos ([], a)) with 0. cbn [Z.eqb backspace]. exists m. split.
    + f_equal. f_equal. unfold with_ix. change (pos ([], a)) with 0 in *. rewrite <- G. destruct g; reflexivity.
    + unfold shows. repeat split; auto. exists t. auto.
  - cbn [fst snd] in *. assert (Hu : unit_ u) by (inversion H1; assumption). pose proof (unit_nonempty _ Hu).
    assert (PP : pos (u :: rb, a) = pos (rb, a) + zl u) by (unfold pos; rewrite before_cons, zl_app; reflexivity).
    replace (pos (u :: rb, a) =? 0) with false by (symmetry; apply Z.eqb_neq; unfold pos in *; lia).
    rewrite ML. cbn [left obind backspace]. change (pos (rb, u :: a)) with (pos (rb, a)) in *.
    assert (EB : content (u :: rb, a) ++ 0%N :: t = before (rb, a) ++ u ++ concat a ++ 0%N :: t).
    { unfold content, after. rewrite before_cons, <- !app_assoc. reflexivity. }
    assert (EL : zl (content (u :: rb, a)) = pos (rb, a) + zl u + zl (concat a)).
    { unfold content, after, pos. rewrite before_cons, !zl_app. reflexivity. }
    rewrite H3, PP, EL, EB. replace (pos (rb, a) + zl u + zl (concat a) - (pos (rb, a) + zl u)) with (zl (concat a)) by lia.
    unfold pos at 1 2. rewrite squeeze by assumption. cbn [obind].
    replace (pos (rb, a) + zl u + zl (concat a) - (pos (rb, a) + zl u - pos (rb, a))) with (pos (rb, a) + zl (concat a)) by lia.
    replace (pos (rb, a) + zl u - pos (rb, a)) with (zl u) by lia.
    unfold memset0. replace (zl u <? 0) with false by (symmetry; apply Z.ltb_ge; lia).
    rewrite (put_eq _ _ (before (rb, a) ++ concat a) (skipn (length (concat a)) (u ++ concat a)) (0%N :: t) (zeros (zl u))).
    + cbn [obind]. eexists. split; [reflexivity|]. unfold shows. cbn [fst snd ln cp tx].
      inversion H1; subst. split; [assumption|]. split; [assumption|].
      assert (EC : before (rb, a) ++ concat a = content (rb, a)) by reflexivity. rewrite EC.
      split; [unfold content; rewrite zl_app; unfold pos, after; cbn [snd]; lia|].
      split; [lia|].
      unfold zeros. rewrite Nat2Z.id. destruct (length u) as [|lu] eqn:LU; [lia|]. cbn [repeat app].
      exists (repeat 0%N lu ++ 0%N :: t). split; [reflexivity|]. split.
      * rewrite zl_app in *. cbn [length] in *. rewrite app_length, repeat_length. cbn [length].
        assert (zl (content (rb, a)) = pos (rb, a) + zl (concat a)) by (unfold content, pos, after; rewrite zl_app; reflexivity). lia.
      * intros K. apply Forall_app. split; [apply zeros_zero|constructor; [reflexivity|apply H7, K]].
    + rewrite <- !app_assoc. reflexivity.
    + rewrite zl_app. reflexivity.
    + unfold zeros. rewrite repeat_length, Nat2Z.id, squeeze_rest. reflexivity.
Qed.

(** the character after the cursor is one byte, or there is none *)
Definition next_single (d : doc) : bool := match snd d with [] => true | u :: _ => Nat.eqb (length u) 1 end.
Lemma delete_ok : forall k M m d g, laps M = true -> shows k m d -> ix g = pos d ->
  exists m', textinsert M m g [127%N] = Ok (m', reset_selection g) /\ shows (k && next_single d) m' (delete d).
Proof.
  intros k M m [rb a] g L H G. destruct (shows_lies _ _ _ H) as (b & E & HL). pose proof (right_ok _ _ _ HL) as ML.
  destruct H as (H1 & H2 & H3 & H4 & t & H5 & H6 & H7). rewrite H5 in E. injection E as <-.
  unfold textinsert. rewrite H5. cbn [text_eqb N.eqb Pos.eqb andb]. change (ix (reset_selection g)) with (ix g). rewrite G.
  destruct a as [|u a].
  - assert (EL : pos (rb, []) = ln m). { rewrite H3. unfold pos, content, after. cbn [snd concat]. rewrite app_nil_r. reflexivity. }
    rewrite EL, Z.eqb_refl. exists m. split; [reflexivity|]. cbn [delete next_single snd]. rewrite andb_true_r.
    unfold shows. repeat split; auto. exists t. auto.
  - cbn [fst snd] in *. assert (Hu : unit_ u) by (inversion H2; assumption). pose proof (unit_nonempty _ Hu).
    assert (PP : pos (u :: rb, a) = pos (rb, a) + zl u) by (unfold pos; rewrite before_cons, zl_app; reflexivity).
    assert (EB : content (rb, u :: a) ++ 0%N :: t = before (rb, a) ++ u ++ concat a ++ 0%N :: t).
    { unfold content, after. cbn [snd concat]. rewrite <- !app_assoc. reflexivity. }
    assert (EL : zl (content (rb, u :: a)) = pos (rb, a) + zl u + zl (concat a)).
    { unfold content, after, pos. cbn [snd concat]. rewrite !zl_app. change (before (rb, u :: a)) with (before (rb, a)). lia. }
    change (pos (rb, u :: a)) with (pos (rb, a)) in *.
    replace (pos (rb, a) =? ln m) with false by (symmetry; apply Z.eqb_neq; lia).
    rewrite ML. cbn [right obind delete]. rewrite H3, PP, EL, EB.
    replace (pos (rb, a) + zl u + zl (concat a) - (pos (rb, a) + zl u)) with (zl (concat a)) by lia.
    unfold pos at 1 2. rewrite squeeze by assumption. cbn [obind].
    replace (pos (rb, a) + zl u + zl (concat a) - (pos (rb, a) + zl u - pos (rb, a))) with (pos (rb, a) + zl (concat a)) by lia.
    assert (ER : exists x r, skipn (length (concat a)) (u ++ concat a) = x :: r /\ length u = S (length r)).
    { pose proof (squeeze_rest u (concat a)) as SR. destruct (skipn (length (concat a)) (u ++ concat a)) as [|x r]; cbn in SR; [lia|]. eauto. }
    destruct ER as (x & r & ER & LR). rewrite ER.
    rewrite (put_eq _ _ (before (rb, a) ++ concat a) [x] (r ++ 0%N :: t) [0%N]).
    + cbn [obind]. eexists. split; [reflexivity|]. unfold shows. cbn [fst snd ln cp tx].
      inversion H2; subst. split; [assumption|]. split; [assumption|].
      assert (EC : before (rb, a) ++ concat a = content (rb, a)) by reflexivity. rewrite EC.
      assert (CL : zl (content (rb, a)) = pos (rb, a) + zl (concat a)) by (unfold content, pos, after; rewrite zl_app; reflexivity).
      split; [lia|]. split; [lia|]. cbn [app].
      exists (r ++ 0%N :: t). split; [reflexivity|]. split.
      * rewrite zl_app in *. cbn [length] in *. rewrite app_length. cbn [length]. lia.
      * intros K. cbn [next_single snd] in K. apply andb_true_iff in K. destruct K as [K1 K2]. apply Nat.eqb_eq in K2.
        destruct r; [|cbn in LR; lia]. constructor; [reflexivity|apply H7, K1].
    + rewrite <- !app_assoc. reflexivity.
    + rewrite zl_app. reflexivity.
    + reflexivity.
Qed.

Lemma realloc_block : forall M c t n, good M -> zero_tail t -> exists t', realloc M (c ++ t) n = c ++ t' /\ zero_tail t' /\
  (n <= length (c ++ t'))%nat /\ (length t <= length t')%nat.
Proof.
  intros M c t n (_ & G) Z. destruct (G n) as [G1 G2]. unfold realloc.
  destruct (Nat.leb_spec (length (alloc M n)) (length (c ++ t))).
  - exists t. repeat split; auto; lia.
  - exists (t ++ skipn (length (c ++ t)) (alloc M n)). rewrite app_assoc. split; [reflexivity|]. split.
    + apply Forall_app. split; [exact Z|]. apply zero_skipn. exact G2.
    + rewrite app_length in H. rewrite !app_length, skipn_length. lia.
Qed.
Lemma insert_block : forall M c1 c2 t s, laps M = true -> zero_tail t -> (length s + 1 < length t)%nat ->
  (do b1 <- memcpy M (c1 ++ c2 ++ t) (zl c1 + zl s) (zl c1) (zl c2);
   do b2 <- put b1 (zl c1) s;
   put b2 (zl c1 + zl c2 + zl s + 1) [0%N]) = Ok (c1 ++ s ++ c2 ++ skipn (length s) t).
Proof.
  intros M c1 c2 t s L Z LT.
  rewrite (memcpy_eq M _ _ _ _ c1 c2 t); [|reflexivity|reflexivity|reflexivity|auto].
  assert (ES : length (firstn (length s) (c2 ++ t)) = length s) by (rewrite firstn_length, app_length; lia).
  assert (EM : c2 ++ t = firstn (length s) (c2 ++ t) ++ firstn (length c2) (skipn (length s) (c2 ++ t)) ++ skipn (length s) t).
  { rewrite <- (firstn_skipn (length s) (c2 ++ t)) at 1. f_equal.
    rewrite <- (firstn_skipn (length c2) (skipn (length s) (c2 ++ t))) at 1. f_equal.
    assert (SS : forall (a b : nat) (l : text), skipn a (skipn b l) = skipn (b + a) l).
    { intros x y. revert x. induction y as [|y IH]; intros x l; [reflexivity|]. destruct l; [cbn; apply skipn_nil|]. cbn. apply IH. }
    rewrite SS, Nat.add_comm, skipn_app, skipn_all2 by lia. cbn [app]. f_equal. lia. }
  rewrite (put_eq _ _ (c1 ++ firstn (length s) (c2 ++ t)) (firstn (length c2) (skipn (length s) (c2 ++ t))) (skipn (length s) t) c2).
  - cbn [obind]. rewrite <- app_assoc.
    rewrite (put_eq _ _ c1 (firstn (length s) (c2 ++ t)) (c2 ++ skipn (length s) t) s); [|reflexivity|reflexivity|auto].
    cbn [obind]. assert (ET : exists r, skipn (length s) t = 0%N :: 0%N :: r).
    { pose proof (zero_skipn (length s) t Z) as ZZ. pose proof (skipn_length (length s) t) as SL.
      destruct (skipn (length s) t) as [|x [|y r]]; cbn in SL; try lia. inversion ZZ; subst. inversion H2; subst. eauto. }
    destruct ET as (r & ->).
    rewrite (put_eq _ _ (c1 ++ s ++ c2 ++ [0%N]) [0%N] r [0%N]); [|rewrite <- !app_assoc; reflexivity|rewrite !zl_app; cbn [length]; lia|reflexivity].
    rewrite <- !app_assoc. reflexivity.
  - rewrite <- app_assoc. f_equal. exact EM.
  - rewrite zl_app, ES. reflexivity.
  - rewrite firstn_length, skipn_length, app_length. lia.
Qed.

Definition typeable (us : list text) : Prop := units us /\ concat us <> [8%N] /\ concat us <> [127%N].
Lemma content_insert : forall us d, content (insert us d) = before d ++ concat us ++ after d.
Proof.
  intros us [rb a]. unfold insert. cbn [fst snd]. unfold content. rewrite (before_app (rev us) rb a a), rev_involutive, <- app_assoc. reflexivity.
Qed.
Lemma insert_ok : forall M m d g us, good M -> shows true m d -> ix g = pos d -> typeable us ->
  exists m', textinsert M m g (concat us) = Ok (m', with_ix (reset_selection g) (pos (insert us d))) /\ shows true m' (insert us d).
Proof.
  intros M m d g us GM H G (U & N1 & N2). pose proof GM as (L & _).
  destruct H as (H1 & H2 & H3 & H4 & t & H5 & H6 & H7). specialize (H7 eq_refl).
  unfold textinsert. rewrite H5. change (ix (reset_selection g)) with (ix g). rewrite G.
  destruct (text_eqb (concat us) [8%N]) eqn:E8; [apply text_eqb_eq in E8; congruence|].
  destruct (text_eqb (concat us) [127%N]) eqn:E127; [apply text_eqb_eq in E127; congruence|]. clear E8 E127 N1 N2.
  set (s := concat us) in *. cbv zeta.
  assert (PI : pos (insert us d) = pos d + zl s).
  { unfold pos, insert. destruct d as [rb a]. cbn [fst snd]. rewrite (before_app (rev us) rb a a), rev_involutive, zl_app. reflexivity. }
  assert (CL : zl (content d) = pos d + zl (after d)) by (unfold content, pos; rewrite zl_app; reflexivity).
  assert (W : forall t' cap, zero_tail t' -> (length s + 1 < length t')%nat -> ln m + zl s + 1 <= cap -> cap + 1 <= zl (content d ++ t') ->
    (do b1 <- memcpy M (content d ++ t') (pos d + zl s) (pos d) (ln m + zl s - pos d - zl s);
     do b2 <- put b1 (pos d) s; do b3 <- put b2 (ln m + zl s + 1) [0%N];
     Ok ({| tx := Some b3; ln := ln m + zl s; cp := cap |}, with_ix (reset_selection g) (pos d + zl s))) =
    Ok ({| tx := Some (content (insert us d) ++ skipn (length s) t'); ln := ln m + zl s; cp := cap |}, with_ix (reset_selection g) (pos d + zl s)) /\
    shows true {| tx := Some (content (insert us d) ++ skipn (length s) t'); ln := ln m + zl s; cp := cap |} (insert us d)).
  { intros t' cap Z LT C1 C2. split.
    - rewrite content_split, <- app_assoc. replace (ln m + zl s - pos d - zl s) with (zl (after d)) by lia.
      pose proof (insert_block M (before d) (after d) t' s L Z LT) as IB.
      change (zl (before d)) with (pos d) in IB. replace (pos d + zl (after d) + zl s + 1) with (ln m + zl s + 1) in IB by lia.
      destruct (memcpy M (before d ++ after d ++ t') (pos d + zl s) (pos d) (zl (after d))) as [b1|]; [|discriminate].
      cbn [obind] in *. destruct (put b1 (pos d) s) as [b2|]; [|discriminate]. cbn [obind] in *. rewrite IB. cbn [obind].
      rewrite content_insert, <- !app_assoc. reflexivity.
    - unfold shows. cbn [ln cp tx]. unfold insert at 1 2. cbn [fst snd].
      split; [apply units_app; split; [apply units_rev; assumption|assumption]|]. split; [assumption|].
      assert (CI : zl (content (insert us d)) = zl (content d) + zl s) by (rewrite content_insert, content_split, !zl_app; fold s; lia).
      split; [lia|]. split; [lia|].
      destruct (zero_cons (skipn (length s) t')) as (r & ER & ZR).
      { apply zero_skipn. exact Z. }
      { intros E. apply (f_equal (@length N)) in E. rewrite skipn_length in E. cbn in E. lia. }
      exists r. rewrite <- ER. split; [reflexivity|]. split; [|auto].
      rewrite zl_app, skipn_length. rewrite zl_app in C2. lia. }
  destruct (cp m <? ln m + zl s + 1) eqn:EC.
  - destruct (realloc_block M (content d) (0%N :: t) (Z.to_nat (ln m + zl s + 500 + 1)) GM) as (t' & ER & ZT & LN & LT); [constructor; auto|].
    rewrite ER. eexists. rewrite PI. apply W; auto.
    + rewrite app_length in LN. lia.
    + lia.
    + lia.
  - apply Z.ltb_ge in EC. eexists. rewrite PI. apply W; auto.
    + constructor; auto.
    + rewrite zl_app in H6. cbn [length] in *. lia.
Qed.

(** cut *)
Lemma before_firstn : forall d, before d = concat (firstn (length (fst d)) (all d)).
Proof.
  intros [rb a]. unfold before, all. cbn [fst snd]. rewrite <- (rev_length rb), firstn_app, Nat.sub_diag, firstn_all, firstn_O, app_nil_r. reflexivity.
Qed.
Lemma content_all : forall d, content d = concat (all d).
Proof. intros [rb a]. unfold content, before, after, all. cbn [fst snd]. rewrite concat_app. reflexivity. Qed.
Lemma content_erase : forall us m n, content (erase us m n) = concat (firstn (min m n) us) ++ concat (skipn (max m n) us).
Proof. intros. unfold erase, content, before, after. cbn [fst snd]. rewrite rev_involutive. reflexivity. Qed.
Lemma cut_ok : forall k M m d g p q, laps M = true -> shows k m d -> (p <= length (all d))%nat -> (q <= length (all d))%nat ->
  (sb g = zl (concat (firstn p (all d))) /\ se g = zl (concat (firstn q (all d)))) ->
  exists m' e, cut M m g = Ok (m', {| ix := pos (erase (all d) p q); sb := e; se := e; sh := sh g |}) /\ shows k m' (erase (all d) p q).
Proof.
  intros k M m d g p q L H Hp Hq (S1 & S2). unfold cut.
  destruct H as (H1 & H2 & H3 & H4 & t & H5 & H6 & H7).
  assert (UA : units (all d)) by (unfold all; apply units_app; split; [apply units_rev|]; assumption).
  assert (MONO : forall i j, (i <= j)%nat -> concat (firstn j (all d)) = concat (firstn i (all d)) ++ concat (firstn (j - i) (skipn i (all d)))).
  { intros i j LE. rewrite <- concat_app. f_equal.
    rewrite <- (firstn_skipn i (firstn j (all d))). rewrite firstn_firstn, skipn_firstn_comm, Nat.min_l by lia. reflexivity. }
  assert (GS : get_selection g = (zl (concat (firstn (min p q) (all d))), zl (concat (firstn (max p q) (all d))))).
  { unfold get_selection. rewrite S1, S2. destruct (le_lt_dec p q).
    - rewrite Nat.min_l, Nat.max_r by lia. rewrite (MONO p q) by lia. rewrite zl_app.
      replace (_ <? _) with false by (symmetry; apply Z.ltb_ge; lia). reflexivity.
    - rewrite Nat.min_r, Nat.max_l by lia. rewrite (MONO q p) by lia. rewrite zl_app.
      destruct (_ <? _) eqn:E; [reflexivity|]. apply Z.ltb_ge in E. f_equal; lia. }
  rewrite GS. set (i := min p q) in *. set (j := max p q) in *. assert (IJ : (i <= j)%nat) by lia. assert (J : (j <= length (all d))%nat) by lia.
  set (X := concat (firstn i (all d))) in *. set (Y := concat (firstn (j - i) (skipn i (all d)))).
  set (W := concat (skipn j (all d))).
  assert (EJ : concat (firstn j (all d)) = X ++ Y) by (apply MONO; assumption).
  assert (EC : content d = X ++ Y ++ W).
  { rewrite content_all. rewrite <- (firstn_skipn j (all d)) at 1. rewrite concat_app, EJ, <- app_assoc. reflexivity. }
  assert (EE : content (erase (all d) p q) = X ++ W) by (rewrite content_erase; reflexivity).
  assert (PE : pos (erase (all d) p q) = zl X) by (unfold pos, before, erase; cbn [fst]; rewrite rev_involutive; reflexivity).
  assert (UE : units (fst (erase (all d) p q)) /\ units (snd (erase (all d) p q))).
  { unfold erase. cbn [fst snd]. split; [apply units_rev|]; unfold units in *.
    - rewrite <- (firstn_skipn (min p q) (all d)) in UA. apply Forall_app in UA. apply UA.
    - rewrite <- (firstn_skipn (max p q) (all d)) in UA. apply Forall_app in UA. apply UA. }
  rewrite EJ, zl_app. replace (zl X + zl Y - zl X) with (zl Y) by lia.
  destruct (zl Y =? 0) eqn:EY.
  - apply Z.eqb_eq in EY. assert (YN : Y = []) by (destruct Y; [reflexivity|cbn in EY; lia]).
    cbn [obind]. exists m, (se g). split; [rewrite PE; reflexivity|].
    unfold shows. rewrite EE. rewrite EC, YN in *. cbn [app] in *. repeat split; try tauto. exists t. auto.
  - apply Z.eqb_neq in EY. rewrite H5, H3, EC, !zl_app. replace (zl X + (zl Y + zl W) - (zl X + zl Y)) with (zl W) by lia.
    rewrite <- !app_assoc. rewrite squeeze by assumption. cbn [obind].
    replace (zl X + (zl Y + zl W) - zl Y) with (zl X + zl W) by lia.
    unfold memset0. replace (zl Y <? 0) with false by (symmetry; apply Z.ltb_ge; lia).
    rewrite (put_eq _ _ (X ++ W) (skipn (length W) (Y ++ W)) (0%N :: t) (zeros (zl Y))).
    + cbn [obind]. eexists _, (se g). split; [rewrite PE; reflexivity|]. unfold shows. cbn [ln cp tx]. rewrite EE.
      split; [apply UE|]. split; [apply UE|]. split; [rewrite zl_app; lia|].
      rewrite EC, !zl_app in H3. split; [lia|].
      unfold zeros. rewrite Nat2Z.id. destruct (length Y) as [|ly] eqn:LY; [lia|]. cbn [repeat app].
      exists (repeat 0%N ly ++ 0%N :: t). split; [reflexivity|]. split.
      * rewrite EC in H6. rewrite !zl_app in *. cbn [length] in *. rewrite app_length, repeat_length. cbn [length]. lia.
      * intros K. apply Forall_app. split; [apply zeros_zero|constructor; [reflexivity|apply H7, K]].
    + rewrite <- !app_assoc. reflexivity.
    + rewrite zl_app. reflexivity.
    + unfold zeros. rewrite repeat_length, Nat2Z.id, squeeze_rest. reflexivity.
Qed.

(** what [text] answers *)
Lemma cstr_app : forall s t, Forall (fun c => c <> 0%N) s -> cstr (s ++ 0%N :: t) = Ok s.
Proof.
  induction s as [|c s IH]; intros t H; [reflexivity|]. inversion H; subst. cbn [app cstr]. apply N.eqb_neq in H2. rewrite H2.
  rewrite IH by assumption. reflexivity.
Qed.
Lemma units_no_zero : forall us, units us -> Forall (fun c => c <> 0%N) (concat us).
Proof.
  induction us as [|u us IH]; intros H; [constructor|]. inversion H; subst. cbn. apply Forall_app. split; [|apply IH; assumption].
  destruct H2 as [c cs Hc Hcs|].
  - constructor; [apply leads_not; assumption|]. eapply Forall_impl; [|exact Hcs]. intros x Hx. apply trails_not in Hx. tauto.
  - repeat constructor; discriminate.
Qed.
Lemma shows_text : forall k m d, shows k m d -> text_get m = Ok (content d).
Proof.
  intros k m d (H1 & H2 & H3 & H4 & t & H5 & H6 & H7). unfold text_get. rewrite H5. apply cstr_app.
  rewrite content_all. apply units_no_zero. apply units_app. split; [apply units_rev|]; assumption.
Qed.

(** * A session of editing *)
Inductive action := AMove (mv : move) | AType (us : list text) | AReturn | ATab | ABackspace | ADelete | AFrame.
Definition key_of (mv : move) : event :=
  match mv with
  | MLeft => KLeft | MRight => KRight | MUp => KUp | MDown => KDown | MHome => KHome | MEnd => KEnd
  | MPageUp => KPageUp | MPageDown => KPageDown
  end.
Definition event_of (a : action) : event :=
  match a with
  | AMove mv => key_of mv | AType us => KText (concat us) | AReturn => KReturn | ATab => KTab
  | ABackspace => KBackspace | ADelete => KDelete | AFrame => Frame
  end.
Definition done (a : action) (d : doc) : doc :=
  match a with
  | AMove mv => moved mv d | AType us => insert us d | AReturn => insert [eol] d
  | ATab => insert [[32%N]; [32%N]; [32%N]; [32%N]] d | ABackspace => backspace d | ADelete => delete d | AFrame => d
  end.
(** what an action relies on *)
Definition fine (k : bool) (a : action) (d : doc) : Prop :=
  match a with
  | AMove mv => move_fine mv d
  | AType us => k = true /\ typeable us
  | AReturn | ATab => k = true
  | _ => True
  end.
Definition still (k : bool) (a : action) (d : doc) : bool :=
  match a with ADelete => k && next_single d | _ => k end.
Fixpoint all_fine (k : bool) (as_ : list action) (d : doc) : Prop :=
  match as_ with [] => True | a :: r => fine k a d /\ all_fine (still k a d) r (done a d) end.

Definition quiet (g : glob) (d : doc) : Prop := ix g = pos d /\ sb g = se g /\ sh g = false.
Lemma pos_range : forall d, 0 <= pos d <= zl (content d).
Proof. intros d. unfold pos, content. rewrite zl_app. lia. Qed.

Lemma step_ok : forall M k m g d a, good M -> shows k m d -> quiet g d -> fine k a d ->
  exists m' g', step M m g (event_of a) = Ok (m', g') /\ shows (still k a d) m' (done a d) /\ quiet g' (done a d).
Proof.
  intros M k m g d a GM H (Q1 & Q2 & Q3) F. pose proof GM as (L & _).
  destruct a as [mv|us| | | | |]; cbn [event_of done fine still] in *.
  - destruct (shows_lies _ _ _ H) as (b & E & HL). pose proof (cursormove_ok m b mv d E HL F) as CM.
    assert (AK : arrowkey_selection g = with_sel g (pos d) (pos d)) by (unfold arrowkey_selection; rewrite Q3, Q1; reflexivity).
    destruct mv; cbn [key_of step mx my] in *; rewrite ?AK; unfold move_sel; cbn [ix with_sel]; rewrite Q1, CM; cbn [obind with_ix with_sel sh];
      rewrite Q3; eexists _, _; (split; [reflexivity|]); (split; [apply (shows_moved _ _ _ _ H)|]); unfold quiet; cbn [sh with_ix with_sel]; rewrite ?Q3; cbn [ix sb se sh with_ix with_sel]; auto.
  - destruct F as [-> F]. cbn [step].
    destruct (insert_ok M m d (reset_selection g) us GM H Q1 F) as (m' & E & H').
    destruct (concat us) as [|c s] eqn:ES.
    + eexists _, _. split; [reflexivity|].
      assert (us = []). { destruct F as (U & _). destruct us as [|u us]; [reflexivity|]. inversion U; subst. apply unit_nonempty in H2. cbn in ES. apply app_eq_nil in ES. destruct ES as [-> _]. cbn in H2. lia. }
      subst us. split; [destruct d; exact H|]. destruct d; repeat split; auto.
    + eexists _, _. split; [exact E|]. split; [exact H'|]. repeat split; auto.
  - subst k. destruct (insert_ok M m d g [eol] GM H Q1) as (m' & E & H').
    { split; [constructor; [apply u_eol|constructor]|split; discriminate]. }
    eexists _, _. split; [exact E|]. split; [exact H'|]. repeat split; auto.
  - subst k. destruct (insert_ok M m d g [[32%N]; [32%N]; [32%N]; [32%N]] GM H Q1) as (m' & E & H').
    { split; [|split; discriminate]. assert (U : unit_ [32%N]) by (constructor; [left; lia|constructor]). repeat (constructor; [exact U|]). constructor. }
    eexists _, _. split; [exact E|]. split; [exact H'|]. repeat split; auto.
  - cbn [step]. unfold has_selection. rewrite Q2, Z.eqb_refl. cbn [negb].
    destruct (backspace_ok k M m d g L H Q1) as (m' & E & H').
    eexists _, _. split; [exact E|]. split; [exact H'|]. repeat split; auto.
  - cbn [step]. unfold has_selection. rewrite Q2, Z.eqb_refl. cbn [negb].
    destruct (delete_ok k M m d g L H Q1) as (m' & E & H').
    eexists _, _. split; [exact E|]. split; [exact H'|]. repeat split; auto.
    change (ix (reset_selection g)) with (ix g). rewrite Q1. destruct d as [rb [|u a]]; reflexivity.
  - cbn [step]. pose proof H as (_ & _ & HL & _ & t & HT & _). rewrite HT.
    eexists _, _. split; [reflexivity|]. split; [exact H|]. unfold quiet. cbn [ix sb se sh]. rewrite Q2, Q3.
    pose proof (pos_range d). rewrite Q1. unfold gtu.
    replace ((pos d <? 0) || (ln m <? pos d)) with false by (symmetry; rewrite orb_false_iff, !Z.ltb_ge; lia).
    auto.
Qed.
Lemma session_ok : forall M as_ k m g d, good M -> shows k m d -> quiet g d -> all_fine k as_ d ->
  exists m' g', run M m g (map event_of as_) = Ok (m', g') /\
    text_get m' = Ok (content (fold_left (fun d a => done a d) as_ d)) /\
    ix g' = zl (before (fold_left (fun d a => done a d) as_ d)).
Proof.
  induction as_ as [|a as_ IH]; intros k m g d GM H Q F.
  - eexists _, _. split; [reflexivity|]. split; [eapply shows_text; eassumption|apply Q].
  - destruct F as [F1 F2]. destruct (step_ok M k m g d a GM H Q F1) as (m1 & g1 & E & H1 & Q1).
    cbn [map run fold_left]. rewrite E. cbn [obind]. eapply IH; eauto.
Qed.

(** * Selecting with the shift key *)
Lemma all_app : forall l rb a, all (l ++ rb, a) = all (rb, rev l ++ a).
Proof. intros. unfold all. cbn [fst snd]. rewrite rev_app_distr, <- app_assoc. reflexivity. Qed.
Lemma all_left : forall d, all (left d) = all d.
Proof. intros [[|u rb] a]; [reflexivity|]. cbn [left]. symmetry. apply (all_app [u] rb a). Qed.
Lemma all_right : forall d, all (right d) = all d.
Proof. intros [rb [|u a]]; [reflexivity|]. cbn [right]. apply (all_app [u] rb a). Qed.
Lemma all_home : forall d, all (home d) = all d.
Proof. intros [rb a]. unfold home. cbn [fst snd]. destruct (span ordinary rb) as [l rb'] eqn:E. destruct (span_spec _ _ _ E) as (-> & _). symmetry. apply all_app. Qed.
Lemma all_ending : forall d, all (ending d) = all d.
Proof.
  intros [rb a]. unfold ending. cbn [fst snd]. destruct (span ordinary a) as [l a'] eqn:E. destruct (span_spec _ _ _ E) as (-> & _).
  rewrite all_app, rev_involutive. reflexivity.
Qed.
Lemma all_along : forall k d, all (along k d) = all d.
Proof.
  induction k as [|k IH]; intros [rb a]; [destruct a; reflexivity|]. destruct a as [|u a]; [reflexivity|]. cbn [along].
  destruct (ordinary u); [|reflexivity]. rewrite IH. apply (all_app [u] rb a).
Qed.
Lemma all_up : forall d, all (up d) = all d.
Proof. intros d. unfold up. destruct (fst (home d)); [reflexivity|]. rewrite all_along, all_home, all_left, all_home. reflexivity. Qed.
Lemma all_down : forall d, all (down d) = all d.
Proof. intros d. unfold down. destruct (snd (ending d)); [apply all_ending|]. rewrite all_along, all_right, all_ending. reflexivity. Qed.
Lemma all_repeatedly : forall (f : doc -> doc), (forall d, all (f d) = all d) -> forall n d, all (repeatedly n f d) = all d.
Proof. intros f H. induction n as [|n IH]; intros d; [reflexivity|]. cbn [repeatedly]. rewrite IH. apply H. Qed.
Lemma all_moved : forall mv d, all (moved mv d) = all d.
Proof. intros [] d; cbn [moved]; auto using all_left, all_right, all_up, all_down, all_home, all_ending, all_repeatedly. Qed.

Definition moved_by (ms : list move) (d : doc) : doc := fold_left (fun d mv => moved mv d) ms d.
Fixpoint moves_fine (ms : list move) (d : doc) : Prop :=
  match ms with [] => True | mv :: r => move_fine mv d /\ moves_fine r (moved mv d) end.
Lemma all_moved_by : forall ms d, all (moved_by ms d) = all d.
Proof. induction ms as [|mv ms IH]; intros d; [reflexivity|]. unfold moved_by in *. cbn [fold_left]. rewrite IH. apply all_moved. Qed.
Lemma shows_moved_by : forall ms k m d, shows k m d -> shows k m (moved_by ms d).
Proof. induction ms as [|mv ms IH]; intros k m d H; [exact H|]. unfold moved_by in *. cbn [fold_left]. apply IH, shows_moved, H. Qed.

Lemma run_app : forall M es1 es2 m g, run M m g (es1 ++ es2) = do (m', g') <- run M m g es1; run M m' g' es2.
Proof.
  induction es1 as [|e es1 IH]; intros es2 m g; [reflexivity|]. cbn [app run]. destruct (step M m g e) as [[m1 g1]|]; [|reflexivity].
  cbn [obind]. apply IH.
Qed.
Lemma shift_move : forall M k m g d mv, shows k m d -> ix g = pos d -> sh g = true -> move_fine mv d ->
  step M m g (key_of mv) = Ok (m, {| ix := pos (moved mv d); sb := sb g; se := pos (moved mv d); sh := true |}).
Proof.
  intros M k m g d mv H G S F. destruct (shows_lies _ _ _ H) as (b & E & HL). pose proof (cursormove_ok m b mv d E HL F) as CM.
  assert (AK : arrowkey_selection g = with_sel g (sb g) (ix g)) by (unfold arrowkey_selection; rewrite S; reflexivity).
  destruct mv; cbn [key_of step mx my] in *; rewrite ?AK; unfold move_sel; cbn [ix with_sel]; rewrite G, CM;
    cbn [obind with_ix with_sel sh ix sb se]; rewrite S; unfold with_ix, with_sel; cbn [obind sh ix sb se]; rewrite ?S; reflexivity.
Qed.
Lemma shift_moves : forall M ms k m g d, shows k m d -> ix g = pos d -> sh g = true -> se g = pos d -> moves_fine ms d ->
  run M m g (map key_of ms) = Ok (m, {| ix := pos (moved_by ms d); sb := sb g; se := pos (moved_by ms d); sh := true |}).
Proof.
  induction ms as [|mv ms IH]; intros k m g d H G S E F.
  - cbn. destruct g as [i b e s]. cbn in *. subst. reflexivity.
  - destruct F as [F1 F2]. cbn [map run]. rewrite (shift_move M k m g d mv H G S F1). cbn [obind].
    rewrite (IH k m _ (moved mv d)); auto. apply shows_moved. assumption.
Qed.
Lemma shift_select : forall M ms k m g d, shows k m d -> ix g = pos d -> moves_fine ms d -> ms <> [] ->
  run M m g (KShift :: map key_of ms ++ [KShiftUp]) =
  Ok (m, {| ix := pos (moved_by ms d); sb := pos d; se := pos (moved_by ms d); sh := false |}).
Proof.
  intros M ms k m g d H G F NE. destruct ms as [|mv ms]; [congruence|]. destruct F as [F1 F2].
  cbn [map run step obind app]. rewrite (shift_move M k m _ d mv H) by (auto; apply G). cbn [obind].
  rewrite run_app, (shift_moves M ms k m _ (moved mv d)); auto; [|apply shows_moved; assumption].
  cbn. rewrite G. reflexivity.
Qed.

Lemma fst_length : forall d, (length (fst d) <= length (all d))%nat.
Proof. intros [rb a]. unfold all. cbn [fst snd]. rewrite app_length, rev_length. lia. Qed.
Lemma pos_firstn : forall d, pos d = zl (concat (firstn (length (fst d)) (all d))).
Proof. intros d. unfold pos. rewrite before_firstn. reflexivity. Qed.
Lemma concat_grows : forall us i j, units us -> (i < j <= length us)%nat -> zl (concat (firstn i us)) < zl (concat (firstn j us)).
Proof.
  induction us as [|u us IH]; intros i j U H; [cbn in H; lia|]. destruct j as [|j]; [lia|]. inversion U; subst. cbn [length] in H.
  cbn [firstn concat]. rewrite zl_app. pose proof (unit_nonempty _ H2). destruct i as [|i]; [cbn; lia|].
  cbn [firstn concat]. rewrite zl_app. specialize (IH i j H3). lia.
Qed.
Lemma pos_differs : forall d d', units (all d) -> all d' = all d -> length (fst d) <> length (fst d') -> pos d <> pos d'.
Proof.
  intros d d' U E N. rewrite !pos_firstn, E. pose proof (fst_length d). pose proof (fst_length d'). rewrite E in *.
  destruct (lt_eq_lt_dec (length (fst d)) (length (fst d'))) as [[L|L]|L]; [|congruence|].
  - pose proof (concat_grows (all d) _ _ U (conj L H0)). lia.
  - pose proof (concat_grows (all d) _ _ U (conj L H)). lia.
Qed.
Lemma shows_units : forall k m d, shows k m d -> units (all d).
Proof. intros k m d (H1 & H2 & _). unfold all. apply units_app. split; [apply units_rev|]; assumption. Qed.

Lemma shift_delete : forall M ms k m g d e, laps M = true -> shows k m d -> ix g = pos d -> moves_fine ms d ->
  length (fst (moved_by ms d)) <> length (fst d) -> e = KDelete \/ e = KBackspace ->
  let d' := erase (all d) (length (fst d)) (length (fst (moved_by ms d))) in
  exists m' g', run M m g ((KShift :: map key_of ms ++ [KShiftUp]) ++ [e]) = Ok (m', g') /\
    text_get m' = Ok (content d') /\ ix g' = zl (before d') /\ shows k m' d' /\ quiet g' d'.
Proof.
  intros M ms k m g d e L H G F NE He d'.
  assert (NM : ms <> []) by (intros ->; apply NE; reflexivity).
  rewrite run_app, (shift_select M ms k m g d H G F NM). cbn [obind run].
  assert (HS : pos d <> pos (moved_by ms d)).
  { apply pos_differs; [eapply shows_units; eassumption|apply all_moved_by|congruence]. }
  set (g1 := {| ix := pos (moved_by ms d); sb := pos d; se := pos (moved_by ms d); sh := false |}).
  destruct (cut_ok k M m d g1 (length (fst d)) (length (fst (moved_by ms d))) L H) as (m' & e' & E & S').
  - apply fst_length.
  - rewrite <- (all_moved_by ms d). apply fst_length.
  - cbn [g1 sb se]. split; [apply pos_firstn|]. rewrite pos_firstn, all_moved_by. reflexivity.
  - assert (ST : step M m g1 e = cut M m g1).
    { destruct He as [-> | ->]; cbn [step]; unfold has_selection; cbn [g1 sb se];
        (replace (pos d =? pos (moved_by ms d)) with false by (symmetry; apply Z.eqb_neq; exact HS)); reflexivity. }
    rewrite ST, E. cbn [obind]. eexists _, _. split; [reflexivity|]. split; [eapply shows_text; eassumption|].
    split; [reflexivity|]. split; [exact S'|]. repeat split.
Qed.

(** [append:] replaces the selection *)
Lemma filter_no_zero : forall t, Forall (fun c => c <> 0%N) t -> filter (fun c => negb (N.eqb c 0)) t = t.
Proof. induction t as [|c t IH]; intros H; [reflexivity|]. inversion H; subst. cbn [filter]. apply N.eqb_neq in H2. rewrite H2. cbn [negb]. rewrite IH by assumption. reflexivity. Qed.
Lemma append_ok : forall M m d g p q us, good M -> shows true m d -> (p <= length (all d))%nat -> (q <= length (all d))%nat -> ix g = pos d ->
  sb g = zl (concat (firstn p (all d))) /\ se g = zl (concat (firstn q (all d))) -> typeable us ->
  let d' := insert us (if Nat.eqb p q then d else erase (all d) p q) in
  exists m' g', append M m g (concat us) = Ok (m', g') /\ text_get m' = Ok (content d') /\ ix g' = zl (before d') /\ shows true m' d'.
Proof.
  intros M m d g p q us GM H Hp Hq G SEL T d'. pose proof GM as (L & _).
  assert (UZ : filter (fun c => negb (N.eqb c 0)) (concat us) = concat us) by (apply filter_no_zero, units_no_zero, T).
  unfold append. rewrite UZ. destruct SEL as [S1 S2]. pose proof (shows_units _ _ _ H) as U.
  destruct (get_selection g) as [b e] eqn:GS.
  assert (LT : (b <? e) = negb (Nat.eqb p q) /\ b = Z.min (sb g) (se g)).
  { unfold get_selection in GS. destruct (Z.ltb_spec (se g) (sb g)); injection GS as <- <-.
    - split; [|lia]. replace (se g <? sb g) with true by (symmetry; apply Z.ltb_lt; lia).
      destruct (Nat.eqb_spec p q) as [->|]; [lia|reflexivity].
    - split; [|lia]. destruct (Nat.eqb_spec p q) as [->|NE]; [apply Z.ltb_ge; lia|]. apply Z.ltb_lt.
      destruct (lt_eq_lt_dec p q) as [[LT|LT]|LT]; [|congruence|].
      + pose proof (concat_grows (all d) p q U (conj LT Hq)). lia.
      + pose proof (concat_grows (all d) q p U (conj LT Hp)). lia. }
  destruct LT as [-> BM]. destruct (Nat.eqb p q) eqn:PQ; cbn [negb].
  - destruct (insert_ok M m d g us GM H G T) as (m' & E & S'). rewrite E. eexists _, _. split; [reflexivity|].
    split; [eapply shows_text; exact S'|]. split; [reflexivity|exact S'].
  - destruct (cut_ok true M m d g p q L H Hp Hq (conj S1 S2)) as (m1 & e1 & E1 & H1). rewrite E1. cbn [obind].
    set (g1 := with_ix _ b). 
    destruct (insert_ok M m1 (erase (all d) p q) g1 us GM H1) as (m' & E & S'); auto.
    { cbn [g1 with_ix ix]. rewrite BM, S1, S2. unfold pos, before, erase. cbn [fst]. rewrite rev_involutive.
      destruct (le_lt_dec p q).
      - rewrite Nat.min_l by lia. destruct (Nat.eq_dec p q) as [->|]; [lia|].
        pose proof (concat_grows (all d) p q U ltac:(lia)). lia.
      - rewrite Nat.min_r by lia. pose proof (concat_grows (all d) q p U ltac:(lia)). lia. }
    rewrite E. eexists _, _. split; [reflexivity|]. split; [eapply shows_text; exact S'|]. split; [reflexivity|exact S'].
Qed.

(** [selected] *)
Lemma charpos_ok : forall l f P R n, Forall (fun c => (c < 256)%N) l -> (length l < f)%nat ->
  charpos f (P ++ l ++ R) (zl P) (zl P + zl l) n = Ok (n + Z.of_nat (chars l)).
Proof.
  induction l as [|c l IH]; intros f P R n B F; (destruct f as [|f]; [cbn in F; lia|]); cbn [charpos].
  - change (zl []) with 0. rewrite Z.add_0_r, Z.ltb_irrefl. cbn. f_equal. lia.
  - replace (zl P <? zl P + zl (c :: l)) with true by (symmetry; apply Z.ltb_lt; cbn [length]; lia).
    cbn [app]. rewrite rdz_at. cbn [obind]. inversion B; subst.
    replace (P ++ c :: l ++ R) with ((P ++ [c]) ++ l ++ R) by (rewrite <- app_assoc; reflexivity).
    replace (zl P + 1) with (zl (P ++ [c])) by (rewrite zl_app; reflexivity).
    replace (zl P + zl (c :: l)) with (zl (P ++ [c]) + zl l) by (rewrite zl_app; cbn [length]; lia).
    rewrite IH; [|assumption|cbn [length] in F; lia]. f_equal. unfold chars. cbn [filter].
    rewrite leadb_cont, contb_range by assumption. destruct (negb _); cbn [length]; lia.
Qed.
Lemma units_bytes : forall us, units us -> Forall (fun c => (c < 256)%N) (concat us).
Proof.
  induction us as [|u us IH]; intros H; [constructor|]. inversion H; subst. cbn. apply Forall_app. split; [|apply IH; assumption].
  destruct H2 as [c cs Hc Hcs|].
  - constructor; [destruct Hc; lia|]. eapply Forall_impl; [|exact Hcs]. intros x Hx. destruct Hx; lia.
  - repeat constructor.
Qed.
Lemma selected_ok : forall k m d g p q, shows k m d -> (p <= q <= length (all d))%nat ->
  (sb g = zl (concat (firstn p (all d))) /\ se g = zl (concat (firstn q (all d))) \/
   sb g = zl (concat (firstn q (all d))) /\ se g = zl (concat (firstn p (all d)))) ->
  selected m g = Ok (Z.of_nat (chars (concat (firstn p (all d)))) + 1, Z.of_nat (chars (concat (firstn q (all d)))) + 1).
Proof.
  intros k m d g p q H PQ SEL. pose proof (shows_units _ _ _ H) as U.
  assert (GE : zl (concat (firstn p (all d))) <= zl (concat (firstn q (all d)))).
  { destruct (Nat.eq_dec p q) as [->|]; [lia|]. pose proof (concat_grows (all d) p q U ltac:(lia)). lia. }
  unfold selected. assert (GS : get_selection g = (zl (concat (firstn p (all d))), zl (concat (firstn q (all d))))).
  { unfold get_selection. destruct SEL as [[S1 S2]|[S1 S2]]; rewrite S1, S2; destruct (Z.ltb_spec (zl (concat (firstn q (all d)))) (zl (concat (firstn p (all d))))); destruct (Z.ltb_spec (zl (concat (firstn p (all d)))) (zl (concat (firstn q (all d))))); try reflexivity; f_equal; lia. }
  rewrite GS. destruct H as (_ & _ & _ & _ & t & -> & _).
  assert (CP : forall n, bytepos2utf8pos (content d ++ 0%N :: t) (zl (concat (firstn n (all d)))) = Ok (Z.of_nat (chars (concat (firstn n (all d)))))).
  { intros n. unfold bytepos2utf8pos. rewrite content_all at 1 2. rewrite <- (firstn_skipn n (all d)) at 1 2. rewrite concat_app, <- app_assoc.
    pose proof (charpos_ok (concat (firstn n (all d))) (rounds (concat (firstn n (all d)) ++ concat (skipn n (all d)) ++ 0%N :: t)) [] (concat (skipn n (all d)) ++ 0%N :: t) 0) as C.
    cbn [app length] in C. change (Z.of_nat 0) with 0 in C. rewrite !Z.add_0_l in C. apply C.
    - apply units_bytes. unfold units in *. rewrite <- (firstn_skipn n (all d)) in U. apply Forall_app in U. apply U.
    - unfold rounds. rewrite !app_length. lia. }
  rewrite !CP. reflexivity.
Qed.

(** double click *)
Lemma breaks_iff : forall c, breaks c = true <-> blank c.
Proof. intros c. unfold breaks, blank. rewrite !orb_true_iff, !N.eqb_eq. tauto. Qed.
Lemma breaks_no : forall c, ~ blank c -> breaks c = false.
Proof. intros c H. apply not_true_iff_false. rewrite breaks_iff. exact H. Qed.
Lemma word_left_ok : forall l f P R, word_free l -> (length l < f)%nat -> (P = [] \/ exists P' x, P = P' ++ [x] /\ blank x) ->
  word_left f (P ++ l ++ R) (zl P + zl l) = Ok (zl P).
Proof.
  induction l as [|c l IH] using rev_ind; intros f P R B F D; (destruct f as [|f]; [lia|]); cbn [word_left].
  - change (zl []) with 0. rewrite Z.add_0_r. destruct D as [->|(P' & x & -> & X)]; [reflexivity|].
    replace (0 <=? zl (P' ++ [x]) - 1) with true by (symmetry; apply Z.leb_le; rewrite zl_app; cbn [length]; lia).
    rewrite (rdz_eq _ _ P' x R); [|rewrite <- app_assoc; reflexivity|rewrite zl_app; cbn [length]; lia].
    cbn [obind]. apply breaks_iff in X. rewrite X. reflexivity.
  - apply Forall_app in B. destruct B as [B1 B2]. inversion B2; subst. rewrite app_length in *. cbn [length] in *.
    replace (0 <=? zl P + Z.of_nat (length l + 1) - 1) with true by (symmetry; apply Z.leb_le; lia).
    rewrite (rdz_eq _ _ (P ++ l) c R); [|rewrite <- !app_assoc; reflexivity|rewrite zl_app; lia].
    cbn [obind]. rewrite breaks_no by assumption.
    replace (zl P + Z.of_nat (length l + 1) - 1) with (zl P + zl l) by lia.
    rewrite <- app_assoc. apply IH; auto; lia.
Qed.
Lemma word_right_ok : forall l f P R len, word_free l -> (length l < f)%nat ->
  (zl P + zl l = len \/ (zl P + zl l < len /\ exists x R', R = x :: R' /\ blank x)) ->
  word_right f (P ++ l ++ R) len (zl P) = Ok (zl P + zl l).
Proof.
  induction l as [|c l IH]; intros f P R len B F D; (destruct f as [|f]; [cbn in F; lia|]); cbn [word_right]; unfold ltu.
  - change (zl []) with 0 in *. rewrite Z.add_0_r in *. destruct D as [->|(L & x & R' & -> & X)].
    + rewrite Z.ltb_irrefl, andb_false_r. reflexivity.
    + replace ((0 <=? zl P) && (zl P <? len)) with true by (symmetry; rewrite andb_true_iff, Z.leb_le, Z.ltb_lt; lia).
      cbn [app]. rewrite rdz_at. cbn [obind]. apply breaks_iff in X. rewrite X. reflexivity.
  - cbn [length] in *. assert (zl P < len) by (destruct D as [D|[D _]]; lia).
    replace ((0 <=? zl P) && (zl P <? len)) with true by (symmetry; rewrite andb_true_iff, Z.leb_le, Z.ltb_lt; lia).
    cbn [app]. rewrite rdz_at. cbn [obind]. inversion B; subst. rewrite breaks_no by assumption.
    replace (P ++ c :: l ++ R) with ((P ++ [c]) ++ l ++ R) by (rewrite <- app_assoc; reflexivity).
    replace (zl P + 1) with (zl (P ++ [c])) by (rewrite zl_app; reflexivity).
    rewrite IH; [f_equal; rewrite zl_app; cbn [length]; lia|assumption|lia|].
    rewrite zl_app. cbn [length]. destruct D as [D|[D D']]; [left; lia|right; split; [lia|exact D']].
Qed.
Lemma select_word_ok : forall m g P w1 w2 Q t, tx m = Some ((P ++ w1 ++ w2 ++ Q) ++ 0%N :: t) -> ln m = zl (P ++ w1 ++ w2 ++ Q) ->
  ix g = zl (P ++ w1) -> word_free (w1 ++ w2) -> (P = [] \/ exists P' x, P = P' ++ [x] /\ blank x) -> (Q = [] \/ exists x Q', Q = x :: Q' /\ blank x) ->
  exists b, tx m = Some b /\ select_word b (ln m) g = Ok (with_sel g (zl P) (zl (P ++ w1 ++ w2))).
Proof.
  intros m g P w1 w2 Q t HT HL HI W DP DQ. eexists. split; [exact HT|]. apply Forall_app in W. destruct W as [W1 W2].
  unfold select_word. rewrite HL, HI. set (b := (P ++ w1 ++ w2 ++ Q) ++ 0%N :: t).
  assert (WL : word_left (rounds b) b (zl (P ++ w1)) = Ok (zl P)).
  { rewrite zl_app. replace b with (P ++ w1 ++ w2 ++ Q ++ 0%N :: t) by (unfold b; rewrite <- !app_assoc; reflexivity).
    apply word_left_ok; auto. unfold rounds. rewrite !app_length. lia. }
  assert (WR : word_right (rounds b) b (zl (P ++ w1 ++ w2 ++ Q)) (zl (P ++ w1)) = Ok (zl (P ++ w1) + zl w2)).
  { replace b with ((P ++ w1) ++ w2 ++ Q ++ 0%N :: t) by (unfold b; rewrite <- !app_assoc; reflexivity).
    apply word_right_ok; auto.
    - unfold rounds. rewrite !app_length. lia.
    - rewrite !zl_app. destruct DQ as [->|(x & Q' & -> & X)]; [left; cbn; lia|right; split; [cbn [length]; lia|]].
      exists x, (Q' ++ 0%N :: t). auto. }
  rewrite WL, WR. cbn [obind]. f_equal. f_equal. rewrite !zl_app. lia.
Qed.

(** * The mouse *)
Lemma lies_next_line : forall b len d, lies b len d -> lies b len (next_line d).
Proof. intros b len d H. unfold next_line. destruct (snd (ending d)); [apply lies_ending, H|apply lies_right, lies_ending, H]. Qed.
Lemma times_next : forall n b len d, lies b len d -> times n (to_first_next b len) (pos d) = Ok (pos (repeatedly n next_line d)).
Proof.
  induction n as [|n IH]; intros b len d H; [reflexivity|]. cbn [times repeatedly]. rewrite (to_first_next_ok b len d H).
  cbn [obind]. fold (next_line d). apply IH, lies_next_line, H.
Qed.
Definition within (rb l a : list text) (j : nat) : doc := (rev (firstn j l) ++ rb, skipn j l ++ a).
Lemma lies_within : forall b len rb l a j, lies b len (rb, l ++ a) -> lies b len (within rb l a j).
Proof.
  intros. unfold within. apply lies_app. rewrite rev_involutive, app_assoc, firstn_skipn. assumption.
Qed.
Lemma pos_within : forall rb l a j, pos (within rb l a j) = zl (before (rb, @nil text)) + zl (concat (firstn j l)).
Proof. intros. unfold pos, within. rewrite (before_app _ rb _ []), rev_involutive, zl_app. reflexivity. Qed.
Lemma along_within : forall rb l a j, Forall (fun u => ordinary u = true) l -> (j <= length l)%nat -> along j (rb, l ++ a) = within rb l a j.
Proof.
  intros rb l a j. revert rb l. induction j as [|j IH]; intros rb l O L; [destruct (l ++ a) eqn:E; unfold within; cbn; rewrite E; reflexivity|].
  destruct l as [|u l]; [cbn in L; lia|]. inversion O; subst. cbn [app along]. rewrite H1. rewrite IH by (auto; cbn in L; lia).
  unfold within. cbn [firstn rev skipn]. rewrite <- app_assoc. reflexivity.
Qed.
Lemma firstn_snoc : forall (l : list text) j u r, skipn j l = u :: r -> firstn (S j) l = firstn j l ++ [u].
Proof.
  induction l as [|x l IH]; intros j u r E; [rewrite skipn_nil in E; discriminate|]. destruct j as [|j]; cbn in E.
  - injection E as <- _. reflexivity.
  - cbn [firstn app]. f_equal. apply (IH j u r E).
Qed.
Lemma skipn_next : forall (l : list text) j u r, skipn j l = u :: r -> skipn (S j) l = r.
Proof.
  induction l as [|x l IH]; intros j u r E; [rewrite skipn_nil in E; discriminate|]. destruct j as [|j]; cbn in E.
  - injection E as _ <-. reflexivity.
  - apply (IH j u r E).
Qed.
Lemma skipn_some : forall (l : list text) j, (j < length l)%nat -> exists u r, skipn j l = u :: r.
Proof.
  intros l j H. destruct (skipn j l) as [|u r] eqn:E; [|eauto]. apply (f_equal (@length text)) in E. rewrite skipn_length in E. cbn in E. lia.
Qed.
(** one gap to the right and to the left *)
Lemma within_right : forall b len rb l a j, lies b len (rb, l ++ a) -> Forall (fun u => ordinary u = true) l -> (j < length l)%nat ->
  move_right 1 false b len (pos (within rb l a j)) = Ok (pos (within rb l a (S j))).
Proof.
  intros b len rb l a j H O L. pose proof (lies_within b len rb l a j H) as HW. destruct (skipn_some l j L) as (u & r & E).
  assert (Ou : ordinary u = true). { rewrite Forall_forall in O. apply O. rewrite <- (firstn_skipn j l), E. apply in_or_app. right. left. reflexivity. }
  unfold within in HW |- *. rewrite E in *. cbn [app] in *. rewrite move_right_unit by assumption. rewrite Ou. cbn [move_right].
  rewrite (firstn_snoc l j u r E), (skipn_next l j u r E), rev_app_distr. reflexivity.
Qed.
Lemma within_left : forall b len rb l a j, lies b len (rb, l ++ a) -> Forall (fun u => ordinary u = true) l -> (j < length l)%nat ->
  move_left 1 false b (pos (within rb l a (S j))) = Ok (pos (within rb l a j)).
Proof.
  intros b len rb l a j H O L. pose proof (lies_within b len rb l a (S j) H) as HW. destruct (skipn_some l j L) as (u & r & E).
  assert (Ou : ordinary u = true). { rewrite Forall_forall in O. apply O. rewrite <- (firstn_skipn j l), E. apply in_or_app. right. left. reflexivity. }
  unfold within in HW |- *. rewrite (firstn_snoc l j u r E), (skipn_next l j u r E), rev_app_distr in *. cbn [rev app] in *.
  destruct HW as (HU & _ & (t & ->) & _). cbn [fst] in HU. inversion HU; subst.
  unfold pos at 1. unfold content. rewrite before_cons, <- !app_assoc, zl_app.
  rewrite left_unit_line by assumption. unfold pos. rewrite E. reflexivity.
Qed.
Lemma infer_loop_ok : forall width relx b len rb l a, lies b len (rb, l ++ a) -> Forall (fun u => ordinary u = true) l ->
  forall j f seg last, (j < f)%nat -> (j <= length l)%nat ->
  (j = length l /\ relx <= gap width l j \/ (j < length l)%nat /\ seg = gap width l (S j) /\ relx <= seg) ->
  exists j', infer_loop f width relx b len (pos (rb, l ++ a)) (pos (within rb l a j)) (concat (firstn j l)) seg last = Ok (pos (within rb l a j')) /\
    (j' <= length l)%nat /\
    ((exists i, (0 < i < length l)%nat /\ gap width l i < relx <= gap width l (S i) /\
        j' = if gap width l (S i) - relx <? relx - gap width l i then S i else i) \/
     (j' = 0%nat /\ forall i, (0 < i <= j)%nat -> relx <= gap width l i)).
Proof.
  intros width relx b len rb l a H O. assert (UL : units l) by (destruct H as (_ & H & _); cbn [snd] in H; apply units_app in H; tauto).
  assert (P0 : pos (rb, l ++ a) = zl (before (rb, @nil text))) by reflexivity.
  induction j as [|j IH]; intros f seg last F L D; (destruct f as [|f]; [lia|]); cbn [infer_loop]; rewrite P0, pos_within.
  - cbn [firstn concat length]. rewrite Z.add_0_r, Z.ltb_irrefl. exists 0%nat. rewrite pos_within. cbn [firstn concat length]. rewrite Z.add_0_r.
    split; [reflexivity|]. split; [lia|]. right. split; [reflexivity|]. intros; lia.
  - pose proof (concat_grows l 0 (S j) UL ltac:(lia)) as GR. change (zl (concat (firstn 0 l))) with 0 in GR.
    replace (zl (before (rb, @nil text)) <? zl (before (rb, @nil text)) + zl (concat (firstn (S j) l))) with true by (symmetry; apply Z.ltb_lt; lia).
    fold (gap width l (S j)). destruct (gap width l (S j) <? relx) eqn:EG.
    + apply Z.ltb_lt in EG. destruct D as [[_ D]|(D1 & -> & D2)]; [lia|].
      rewrite <- pos_within with (a := a).
      destruct (gap width l (S (S j)) - relx <? relx - gap width l (S j)) eqn:ED.
      * exists (S (S j)). rewrite within_right by assumption. split; [reflexivity|]. split; [lia|]. left. exists (S j). rewrite ED. repeat split; auto; lia.
      * exists (S j). split; [reflexivity|]. split; [lia|]. left. exists (S j). rewrite ED. repeat split; auto; lia.
    + apply Z.ltb_ge in EG. rewrite <- pos_within with (a := a). rewrite (within_left b len) by (assumption || lia). cbn [obind].
      replace (pos (within rb l a j) <? zl (before (rb, @nil text))) with false by (symmetry; apply Z.ltb_ge; rewrite pos_within; lia).
      replace (firstn (Z.to_nat (pos (within rb l a j) - zl (before (rb, @nil text)))) (concat (firstn (S j) l))) with (concat (firstn j l)).
      * rewrite <- P0. destruct (IH f (gap width l (S j)) seg) as (j' & E & L' & D'); [lia|lia|right; repeat split; auto; lia|].
        exists j'. split; [exact E|]. split; [exact L'|]. destruct D' as [D'|[D' D'']]; [left; exact D'|right]. split; [exact D'|].
        intros i Hi. destruct (Nat.eq_dec i (S j)) as [->|]; [exact EG|apply D''; lia].
      * rewrite pos_within. replace (zl (before (rb, @nil text)) + zl (concat (firstn j l)) - zl (before (rb, @nil text))) with (zl (concat (firstn j l))) by lia.
        rewrite Nat2Z.id. destruct (skipn_some l j ltac:(lia)) as (u & r & E). rewrite (firstn_snoc l j u r E), concat_app.
        rewrite firstn_app, Nat.sub_diag, firstn_all, firstn_O, app_nil_r. reflexivity.
Qed.
Lemma infer_ok : forall k m us width relx line, shows k m ([], us) ->
  let d := line_at (Z.to_nat line) us in let l := the_line d in
  exists j, infer m width relx line = Ok (zl (before (along j d))) /\ (j <= length l)%nat /\
    (widening width l -> gap width l 1 < relx -> nearest width l relx j).
Proof.
  intros k m us width relx line H d l. destruct (shows_lies _ _ _ H) as (b & E & HL).
  assert (Hd : lies b (ln m) d) by (unfold d, line_at; apply lies_repeatedly; [apply lies_next_line|exact HL]).
  unfold infer. destruct (ln m =? 0) eqn:EZ.
  - apply Z.eqb_eq in EZ. exists 0%nat. destruct Hd as (U1 & U2 & _ & LN). rewrite EZ in LN.
    assert (C : content d = []) by (destruct (content d); [reflexivity|cbn in LN; lia]).
    unfold content in C. apply app_eq_nil in C. destruct C as [C1 C2].
    assert (AL : along 0 d = d) by (destruct d as [? [|]]; reflexivity). rewrite AL, C1. split; [reflexivity|]. split; [lia|].
    intros _ _. assert (l = []).
    { unfold l, the_line. unfold after in C2. destruct (snd d) as [|u us'] eqn:ES; [reflexivity|]. inversion U2; subst.
      pose proof (unit_nonempty _ H2). cbn in C2. apply app_eq_nil in C2. destruct C2 as [-> _]. cbn in H0. lia. }
    rewrite H0. split; [cbn; lia|]. intros i Hi. cbn in Hi. replace i with 0%nat by lia. lia.
  - rewrite E. change 0 with (pos ([], us)). rewrite (times_next _ b (ln m) ([], us) HL). cbn [obind]. fold (line_at (Z.to_nat line) us). fold d.
    rewrite (ending_ok b (ln m) d Hd). cbn [obind].
    assert (SP : exists a, snd d = l ++ a /\ Forall (fun u => ordinary u = true) l /\ ending d = (rev l ++ fst d, a) /\ (a = [] \/ exists a', a = eol :: a')).
    { unfold l, the_line, ending. destruct (span ordinary (snd d)) as [x a] eqn:ES. destruct (span_spec _ _ _ ES) as (A & B & C). exists a. auto. }
    destruct SP as (a & SD & O & EE & DA). clearbody l. destruct d as [rb ad] eqn:Ed. cbn [fst snd] in *. subst ad.
    assert (EW : ending (rb, l ++ a) = within rb l a (length l)) by (unfold within; rewrite firstn_all, skipn_all; exact EE).
    assert (UL : units l) by (destruct Hd as (_ & U & _); cbn [snd] in U; apply units_app in U; tauto).
    assert (AW : forall j, (j <= length l)%nat -> zl (before (along j (rb, l ++ a))) = pos (within rb l a j)).
    { intros j Hj. rewrite along_within by assumption. reflexivity. }
    rewrite EW. pose proof (pos_within rb l a (length l)) as PW. rewrite firstn_all in PW.
    assert (P0 : pos (rb, l ++ a) = zl (before (rb, @nil text))) by reflexivity.
    destruct (pos (rb, l ++ a) =? pos (within rb l a (length l))) eqn:ESE.
    + apply Z.eqb_eq in ESE. assert (length l = 0)%nat.
      { destruct l as [|u l']; [reflexivity|]. exfalso. inversion UL; subst. pose proof (unit_nonempty _ H2). cbn [concat] in PW. rewrite zl_app in PW. lia. }
      exists 0%nat. rewrite AW by lia. rewrite H0. split; [reflexivity|]. split; [lia|]. intros _ _. split; [lia|]. intros i Hi. replace i with 0%nat by lia. lia.
    + apply Z.eqb_neq in ESE.
      replace (pos (within rb l a (length l)) <? pos (rb, l ++ a)) with false by (symmetry; apply Z.ltb_ge; lia).
      assert (SL : slice b (Z.to_nat (pos (rb, l ++ a))) (Z.to_nat (pos (within rb l a (length l)) - pos (rb, l ++ a))) = Ok (concat l)).
      { rewrite PW, P0. replace (zl (before (rb, @nil text)) + zl (concat l) - zl (before (rb, @nil text))) with (zl (concat l)) by lia. rewrite !Nat2Z.id.
        destruct Hd as (_ & _ & (t & ->) & _). unfold content, after. cbn [snd]. rewrite concat_app, <- !app_assoc.
        change (before (rb, l ++ a)) with (before (rb, @nil text)). unfold slice.
        replace (length (before (rb, @nil text)) + length (concat l) <=? _)%nat with true by (symmetry; apply Nat.leb_le; rewrite !app_length; lia).
        rewrite skipn_app, skipn_all, Nat.sub_diag. cbn [app skipn]. rewrite firstn_app, Nat.sub_diag, firstn_all, firstn_O, app_nil_r. reflexivity. }
      rewrite SL. cbn [obind].
      destruct (width (concat l) <? relx) eqn:EWI.
      * apply Z.ltb_lt in EWI. exists (length l). rewrite AW by lia. split; [|split; [lia|]].
        { rewrite (ending_ok b (ln m) (within rb l a (length l))) by (apply lies_within; exact Hd). do 2 f_equal.
          unfold within. rewrite firstn_all, skipn_all. cbn [app]. unfold ending. cbn [fst snd].
          destruct DA as [->|(a' & ->)]; reflexivity. }
        intros W _. split; [lia|]. intros i Hi. pose proof (W i (length l) ltac:(lia)) as W'.
        assert (gap width l (length l) = width (concat l)) by (unfold gap; rewrite firstn_all; reflexivity). lia.
      * apply Z.ltb_ge in EWI. assert (GL : gap width l (length l) = width (concat l)) by (unfold gap; rewrite firstn_all; reflexivity).
        destruct (infer_loop_ok width relx b (ln m) rb l a Hd O (length l) (rounds b) (width (concat l)) (width (concat l))) as (j & EJ & LJ & DJ).
        { unfold rounds. destruct Hd as (_ & _ & (t & ->) & _). unfold content, after. cbn [snd]. rewrite concat_app, !app_length.
          assert (length l <= length (concat l))%nat.
          { clear -UL. induction l as [|u l IH]; [cbn; lia|]. inversion UL; subst. pose proof (unit_nonempty _ H1). cbn [concat length]. rewrite app_length. specialize (IH H2). lia. }
          lia. }
        { lia. }
        { left. split; [reflexivity|lia]. }
        rewrite firstn_all in EJ. exists j. rewrite AW by assumption. split; [exact EJ|]. split; [exact LJ|].
        intros W G1. split; [exact LJ|]. destruct DJ as [(i & Hi & (G2 & G3) & ->)|[-> DJ]].
        -- intros i' Hi'. destruct (le_lt_dec i' i).
           ++ pose proof (W i' i ltac:(lia)). destruct (Z.ltb_spec (gap width l (S i) - relx) (relx - gap width l i)); lia.
           ++ pose proof (W (S i) i' ltac:(lia)). destruct (Z.ltb_spec (gap width l (S i) - relx) (relx - gap width l i)); lia.
        -- exfalso. assert (0 < length l)%nat by (destruct l as [|u0 l0]; [exfalso; apply ESE; rewrite PW, P0; cbn [concat length]; lia|cbn; lia]). specialize (DJ 1%nat ltac:(lia)). lia.
Qed.

(** * Line endings *)
Fixpoint emit (prev : N) (o : text) : text :=
  match o with
  | [] => []
  | c :: r => let cur := if N.eqb c 9 then 32%N else c in
      (if N.eqb cur 10 && negb (N.eqb prev 13) then [13%N] else []) ++
      (if N.eqb prev 13 && negb (N.eqb cur 10) then [10%N] else []) ++ cur :: emit cur r
  end.
Lemma normal_other : forall c r, c <> 13%N -> c <> 10%N -> c <> 9%N -> lines_normal (c :: r) = c :: lines_normal r.
Proof.
  intros c r H1 H2 H3. destruct c as [|p]; [reflexivity|].
  do 4 (destruct p as [p|p|]; try reflexivity); congruence.
Qed.
Lemma normal_cr : forall c r, c <> 10%N -> lines_normal (13%N :: c :: r) = 13%N :: 10%N :: lines_normal (c :: r).
Proof.
  intros c r H. destruct c as [|p]; [reflexivity|]. do 4 (destruct p as [p|p|]; try reflexivity); congruence.
Qed.
Lemma emit_normal : forall n o, (length o <= n)%nat ->
  (forall p, p <> 13%N -> emit p o = lines_normal o) /\ 13%N :: emit 13 o = lines_normal (13%N :: o).
Proof.
  induction n as [|n IH]; intros o L.
  - destruct o; [|cbn in L; lia]. split; reflexivity.
  - destruct o as [|c r]; [split; reflexivity|]. cbn [length] in L. destruct (IH r ltac:(lia)) as [IH1 IH2].
    assert (A : forall p, p <> 13%N -> emit p (c :: r) = lines_normal (c :: r)).
    { intros p P. cbn [emit]. cbv zeta. apply N.eqb_neq in P. rewrite P. cbn [andb app negb].
      destruct (N.eq_dec c 9) as [->|C9]; [cbn [N.eqb Pos.eqb andb app]; rewrite IH1 by discriminate; reflexivity|].
      rewrite (proj2 (N.eqb_neq c 9) C9). destruct (N.eq_dec c 10) as [->|C10]; [cbn [N.eqb Pos.eqb andb app]; rewrite IH1 by discriminate; reflexivity|].
      rewrite (proj2 (N.eqb_neq c 10) C10). cbn [andb app]. destruct (N.eq_dec c 13) as [->|C13]; [exact IH2|].
      rewrite IH1 by assumption. symmetry. apply normal_other; assumption. }
    split; [exact A|]. destruct (N.eq_dec c 10) as [->|C10].
    + cbn [emit N.eqb Pos.eqb andb negb app lines_normal]. rewrite IH1 by discriminate. reflexivity.
    + rewrite normal_cr by assumption. f_equal. rewrite <- (A 0%N) by discriminate. cbn [emit]. cbv zeta.
      assert (C : N.eqb (if N.eqb c 9 then 32%N else c) 10 = false) by (destruct (N.eqb c 9); [reflexivity|apply N.eqb_neq; exact C10]).
      rewrite C. reflexivity.
Qed.
Lemma norm_loop_ok : forall M len o prev i d w z, good M -> zero_tail z -> length w = (d + i)%nat -> len = (i + length o)%nat ->
  (len + d + 1 <= length (w ++ z))%nat ->
  exists z', norm_loop M len o prev i d (w ++ z) = Ok (w ++ emit prev o ++ 0%N :: z') /\ zero_tail z'.
Proof.
  induction o as [|c o IH]; intros prev i d w z GM Z W LN B.
  - cbn [norm_loop emit app length] in *. rewrite app_length in B. destruct (zero_cons z Z) as (z' & -> & Z'); [intros ->; cbn in B; lia|].
    exists z'. auto.
  - cbn [norm_loop emit length] in *. cbv zeta. set (cur := if N.eqb c 9 then 32%N else c).
    assert (WR : forall dd (ww zz : text) (x : N), length ww = (dd + i)%nat -> zero_tail zz -> (1 <= length zz)%nat ->
      exists z2, put (ww ++ zz) (Z.of_nat (dd + i)) [x] = Ok ((ww ++ [x]) ++ z2) /\ zero_tail z2 /\ length zz = S (length z2)).
    { intros dd ww zz x HW HZ HL. destruct zz as [|y zz]; [cbn in HL; lia|]. inversion HZ; subst. exists zz. split; [|split; [assumption|reflexivity]].
      rewrite (put_eq _ _ ww [0%N] zz [x]); [rewrite <- app_assoc; reflexivity|reflexivity|f_equal; auto|reflexivity]. }
    destruct (N.eqb cur 10 && negb (N.eqb prev 13)) eqn:C1.
    + destruct (WR d w z 13%N W Z) as (z1 & E1 & Z1 & L1); [rewrite app_length in B; lia|]. rewrite E1. cbn [obind].
      assert (C2 : N.eqb prev 13 && negb (N.eqb cur 10) = false) by (apply andb_true_iff in C1; destruct C1 as [-> C1]; apply andb_false_r).
      rewrite C2. cbn [obind].
      destruct (realloc_block M (w ++ [13%N]) z1 (len + (d + 1) + 1) GM Z1) as (z2 & E2 & Z2 & L2 & L2'). rewrite E2.
      destruct (WR (d + 1)%nat (w ++ [13%N]) z2 cur) as (z3 & E3 & Z3 & L3); [rewrite app_length; cbn; lia|exact Z2|rewrite !app_length in L2; cbn in L2; lia|].
      rewrite E3. cbn [obind].
      destruct (IH cur (i + 1)%nat (d + 1)%nat ((w ++ [13%N]) ++ [cur]) z3 GM Z3) as (z4 & E4 & Z4); [rewrite !app_length; cbn; lia|lia|rewrite !app_length in *; cbn in *; lia|].
      exists z4. rewrite E4. split; [|exact Z4]. rewrite <- !app_assoc. reflexivity.
    + cbn [obind]. destruct (N.eqb prev 13 && negb (N.eqb cur 10)) eqn:C2.
      * destruct (WR d w z 10%N W Z) as (z1 & E1 & Z1 & L1); [rewrite app_length in B; lia|]. rewrite E1. cbn [obind].
        destruct (realloc_block M (w ++ [10%N]) z1 (len + (d + 1) + 1) GM Z1) as (z2 & E2 & Z2 & L2 & L2'). rewrite E2.
        destruct (WR (d + 1)%nat (w ++ [10%N]) z2 cur) as (z3 & E3 & Z3 & L3); [rewrite app_length; cbn; lia|exact Z2|rewrite !app_length in L2; cbn in L2; lia|].
        rewrite E3. cbn [obind].
        destruct (IH cur (i + 1)%nat (d + 1)%nat ((w ++ [10%N]) ++ [cur]) z3 GM Z3) as (z4 & E4 & Z4); [rewrite !app_length; cbn; lia|lia|rewrite !app_length in *; cbn in *; lia|].
        exists z4. rewrite E4. split; [|exact Z4]. rewrite <- !app_assoc. reflexivity.
      * cbn [obind]. destruct (WR d w z cur W Z) as (z3 & E3 & Z3 & L3); [rewrite app_length in B; lia|].
        rewrite E3. cbn [obind].
        destruct (IH cur (i + 1)%nat d (w ++ [cur]) z3 GM Z3) as (z4 & E4 & Z4); [rewrite !app_length; cbn; lia|lia|rewrite !app_length in *; cbn in *; lia|].
        exists z4. rewrite E4. split; [|exact Z4]. rewrite <- !app_assoc. reflexivity.
Qed.
Lemma normalize_ok : forall M o t, good M -> Forall (fun c => c <> 0%N) o ->
  exists z, normalize M (o ++ 0%N :: t) = Ok (lines_normal o ++ 0%N :: z) /\ zero_tail z.
Proof.
  intros M o t GM NZ. unfold normalize. rewrite cstr_app by assumption. cbn [obind].
  destruct GM as [L G]. destruct (G (length o + 1)%nat) as [G1 G2].
  destruct (norm_loop_ok M (length o) o 0%N 0 0 [] (alloc M (length o + 1)) (conj L G) G2) as (z & E & Z); [reflexivity|reflexivity|cbn [app]; lia|].
  cbn [app] in E. exists z. split; [|exact Z]. rewrite E. destruct (emit_normal (length o) o (le_n _)) as [A _]. rewrite A by discriminate. reflexivity.
Qed.
Lemma normal_no_zero : forall n o, (length o <= n)%nat -> Forall (fun c => c <> 0%N) o -> Forall (fun c => c <> 0%N) (lines_normal o).
Proof.
  intros n o _ H. destruct (emit_normal (length o) o (le_n _)) as [A _]. rewrite <- (A 0%N) by discriminate. clear A n.
  assert (G : forall p, Forall (fun c => c <> 0%N) (emit p o)); [|apply G].
  induction H as [|c o C H IH]; intros p; [constructor|]. cbn [emit]. cbv zeta.
  apply Forall_app. split; [destruct (_ && _); repeat constructor; discriminate|].
  apply Forall_app. split; [destruct (_ && _); repeat constructor; discriminate|].
  constructor; [destruct (N.eqb c 9); [discriminate|exact C]|apply IH].
Qed.
Lemma without_zero_ok : forall t, Forall (fun c => c <> 0%N) (without_zero t).
Proof. intros t. apply Forall_forall. intros c H. apply filter_In in H. destruct H as [_ H]. apply negb_true_iff, N.eqb_neq in H. exact H. Qed.
Lemma write_ok : forall M t, good M -> exists m z, write M t = Ok m /\ text_get m = Ok (lines_normal (without_zero t)) /\
  tx m = Some (lines_normal (without_zero t) ++ 0%N :: z) /\ zero_tail z /\ ln m = zl (lines_normal (without_zero t)) /\ cp m = ln m.
Proof.
  intros M t GM. unfold write. change (cstring t) with (without_zero t ++ 0%N :: []).
  destruct (normalize_ok M (without_zero t) [] GM (without_zero_ok t)) as (z & E & Z). rewrite E. cbn [obind].
  assert (NZ : Forall (fun c => c <> 0%N) (lines_normal (without_zero t))) by (eapply normal_no_zero; [apply le_n|apply without_zero_ok]).
  rewrite cstr_app by exact NZ. cbn [obind]. eexists _, z. split; [reflexivity|]. unfold text_get. cbn [tx ln cp].
  rewrite cstr_app by exact NZ. repeat split; auto.
Qed.
Lemma write_shows : forall M t d, good M -> units (fst d) -> units (snd d) -> content d = lines_normal (without_zero t) ->
  exists m, write M t = Ok m /\ shows true m d.
Proof.
  intros M t d GM U1 U2 E. destruct (write_ok M t GM) as (m & z & W & _ & TX & Z & LN & CP). exists m. split; [exact W|].
  unfold shows. rewrite E, TX, CP, LN. repeat split; auto; [lia|]. exists z. split; [reflexivity|]. split; [rewrite zl_app; cbn [length]; lia|auto].
Qed.

(** * Texts in UTF-8 are made of units once their line endings are normal *)
Lemma is_char_lead : forall c, is_char c -> no_nul c ->
  (exists b, c = [b] /\ (0 < b < 128)%N) \/ (exists b r, c = b :: r /\ (192 <= b < 256)%N /\ Forall trails r).
Proof.
  intros c H NZ. unfold trails, cont in *. destruct H; inversion NZ; subst.
  - left. exists b. split; [reflexivity|]. lia.
  - right. exists b, [c1]. unfold cont in *. repeat split; try lia. repeat constructor; lia.
  - right. exists b, [c1; c2]. unfold cont in *. repeat split; try lia. repeat constructor; lia.
  - right. exists b, [c1; c2; c3]. unfold cont in *. repeat split; try lia. repeat constructor; lia.
Qed.
Lemma normal_trails : forall r t, Forall trails r -> lines_normal (r ++ t) = r ++ lines_normal t.
Proof.
  induction r as [|c r IH]; intros t H; [reflexivity|]. inversion H as [|? ? C H']; subst. cbn [app]. unfold trails in C.
  rewrite normal_other by lia. rewrite IH by assumption. reflexivity.
Qed.
Lemma ends_well_tail : forall a b, ends_well (a ++ b) -> b <> [] -> ends_well b.
Proof. intros a b H NE (p & ->). apply H. exists (a ++ p). rewrite <- app_assoc. reflexivity. Qed.
Lemma normal_units : forall n cs, (length cs <= n)%nat -> Forall is_char cs -> no_nul (concat cs) -> ends_well (concat cs) ->
  exists us, units us /\ concat us = lines_normal (concat cs).
Proof.
  induction n as [|n IH]; intros cs L CH NZ EW; (destruct cs as [|c cs]; [exists []; split; [constructor|reflexivity]|]); [cbn in L; lia|].
  cbn [length concat] in *. inversion CH as [|? ? CH1 CH2]; subst. apply Forall_app in NZ. destruct NZ as [NZ1 NZ2].
  assert (EWS : ends_well (concat cs)).
  { destruct (concat cs) eqn:E; [intros ([|? ?] & K); discriminate|]. eapply ends_well_tail; [exact EW|discriminate]. }
  destruct (IH cs ltac:(lia) CH2 NZ2 EWS) as (us & US & CU).
  destruct (is_char_lead _ CH1 NZ1) as [(b & -> & B)|(b & r & -> & B & R)].
  - cbn [app] in *. destruct (N.eq_dec b 13) as [->|B13].
    + destruct cs as [|c2 cs2]; [exfalso; apply EW; exists []; reflexivity|].
      cbn [concat] in *. inversion CH2 as [|? ? CH3 CH4]; subst. apply Forall_app in NZ2. destruct NZ2 as [NZ3 NZ4].
      destruct (is_char_lead _ CH3 NZ3) as [(b2 & -> & B2)|(b2 & r2 & -> & B2 & R2)]; cbn [app] in *.
      * destruct (N.eq_dec b2 10) as [->|B10].
        -- assert (EWS' : ends_well (concat cs2)).
           { destruct (concat cs2) eqn:E; [intros ([|? ?] & K); discriminate|]. eapply (ends_well_tail [10%N]); [exact EWS|discriminate]. }
           destruct (IH cs2 ltac:(cbn in L; lia) CH4 NZ4 EWS') as (us2 & US2 & CU2).
           exists (eol :: us2). split; [constructor; [apply u_eol|assumption]|]. cbn [concat]. rewrite CU2. reflexivity.
        -- exists (eol :: us). split; [constructor; [apply u_eol|assumption]|]. cbn [concat]. rewrite CU, normal_cr by assumption. reflexivity.
      * exists (eol :: us). split; [constructor; [apply u_eol|assumption]|]. cbn [concat]. rewrite CU, normal_cr by lia. reflexivity.
    + destruct (N.eq_dec b 10) as [->|B10].
      * exists (eol :: us). split; [constructor; [apply u_eol|assumption]|]. cbn [concat]. rewrite CU. reflexivity.
      * destruct (N.eq_dec b 9) as [->|B9].
        -- exists ([32%N] :: us). split; [constructor; [apply u_char; [left; lia|constructor]|assumption]|]. cbn [concat]. rewrite CU. reflexivity.
        -- exists ([b] :: us). split; [constructor; [apply u_char; [left; lia|constructor]|assumption]|]. cbn [concat]. rewrite CU, normal_other by assumption. reflexivity.
  - cbn [app]. exists ((b :: r) :: us). split; [constructor; [apply u_char; [right; lia|assumption]|assumption]|]. cbn [concat].
    rewrite normal_other by lia. rewrite normal_trails by assumption. rewrite CU. reflexivity.
Qed.
Lemma without_zero_id : forall t, no_nul t -> without_zero t = t.
Proof.
  induction t as [|c t IH]; intros H; [reflexivity|]. inversion H; subst. unfold without_zero in *. cbn [filter].
  apply N.eqb_neq in H2. rewrite H2. cbn [negb]. rewrite IH by assumption. reflexivity.
Qed.
Lemma write_utf8 : forall M t cs, good M -> chars_of t cs -> no_nul t -> ends_well t ->
  exists m us, write M t = Ok m /\ units us /\ concat us = lines_normal t /\ forall d, all d = us -> shows true m d.
Proof.
  intros M t cs GM (CH & ->) NZ EW. destruct (normal_units (length cs) cs (le_n _) CH NZ EW) as (us & U & E).
  destruct (write_shows M (concat cs) ([], us) GM) as (m & W & S); [constructor|exact U|rewrite without_zero_id by exact NZ; exact E|].
  exists m, us. split; [exact W|]. split; [exact U|]. split; [exact E|]. intros d AD.
  destruct (write_shows M (concat cs) d GM) as (m' & W' & S').
  - rewrite <- AD in U. apply units_app in U. destruct U as [U1 U2]. apply units_rev in U1. rewrite rev_involutive in U1. exact U1.
  - rewrite <- AD in U. apply units_app in U. tauto.
  - rewrite without_zero_id by exact NZ. rewrite <- E, <- AD. apply content_all.
  - rewrite W' in W. injection W as <-. exact S'.
Qed.

(** What normal lines are. *)
Lemma normal_tabs : forall n t, (length t <= n)%nat -> ~ In 9%N (lines_normal t).
Proof.
  intros n t _. destruct (emit_normal (length t) t (le_n _)) as [A _]. rewrite <- (A 0%N) by discriminate. clear.
  assert (G : forall p, ~ In 9%N (emit p t)); [|apply G]. induction t as [|c t IH]; intros p; cbn [emit]; [tauto|]. cbv zeta.
  rewrite !in_app_iff. intros [H|[H|[H|H]]].
  - destruct (_ && _) in H; cbn in H; intuition discriminate.
  - destruct (_ && _) in H; cbn in H; intuition discriminate.
  - destruct (N.eqb_spec c 9); congruence.
  - eapply IH, H.
Qed.
(** every LF comes after a CR, every CR before an LF or the end *)
Definition paired (prev : N) (t : text) : Prop :=
  forall P c Q, t = P ++ c :: Q -> (c = 10%N <-> last (prev :: P) 0%N = 13%N).
Lemma emit_paired : forall t p, paired p (emit p t).
Proof.
  assert (ONE : forall p c t, (c = 10%N <-> p = 13%N) -> paired c t -> paired p (c :: t)).
  { intros p c t H1 H2 [|x P] y Q E; injection E as <- E.
    - cbn. exact H1.
    - specialize (H2 P y Q E). cbn [last] in *. exact H2. }
  induction t as [|c t IH]; intros p; [intros [|] ? ? E; discriminate|]. cbn [emit]. cbv zeta. set (cur := if N.eqb c 9 then 32%N else c).
  destruct (N.eqb_spec cur 10) as [C|C]; destruct (N.eqb_spec p 13) as [P|P]; cbn [andb negb app].
  - apply ONE; [tauto|apply IH].
  - apply ONE; [split; [discriminate|tauto]|]. apply ONE; [tauto|apply IH].
  - apply ONE; [tauto|]. apply ONE; [split; [tauto|discriminate]|apply IH].
  - apply ONE; [tauto|apply IH].
Qed.
Lemma normal_paired : forall t P c Q, lines_normal t = P ++ c :: Q -> (c = 10%N <-> exists P', P = P' ++ [13%N]).
Proof.
  intros t P c Q E. destruct (emit_normal (length t) t (le_n _)) as [A _]. rewrite <- (A 0%N) in E by discriminate.
  rewrite (emit_paired t 0%N P c Q E). destruct (list_eq_dec N.eq_dec P []) as [->|NE].
  - cbn. split; [discriminate|]. intros ([|] & K); discriminate.
  - destruct (exists_last NE) as (P' & x & ->). rewrite app_comm_cons, last_last. split; [intros ->; eauto|].
    intros (P2 & K). apply app_inj_tail in K. tauto.
Qed.
Lemma normal_same : forall t, ~ In 9%N t -> (forall P c Q, t = P ++ c :: Q -> (c = 10%N <-> exists P', P = P' ++ [13%N])) -> lines_normal t = t.
Proof.
  intros t T H. destruct (emit_normal (length t) t (le_n _)) as [A _]. rewrite <- (A 0%N) by discriminate. clear A.
  assert (PP : paired 0%N t).
  { intros P c Q E. rewrite (H P c Q E). destruct (list_eq_dec N.eq_dec P []) as [->|NE].
    - cbn. split; [|discriminate]. intros ([|] & K); discriminate.
    - destruct (exists_last NE) as (P' & x & ->). rewrite app_comm_cons, last_last. split; [|intros ->; eauto].
      intros (P2 & K). apply app_inj_tail in K. tauto. }
  clear H. revert PP. generalize 0%N. induction t as [|c t IH]; intros p PP; [reflexivity|]. cbn [emit]. cbv zeta.
  destruct (N.eqb_spec c 9) as [->|C9]; [exfalso; apply T; left; reflexivity|].
  pose proof (PP [] c t eq_refl) as K. cbn in K.
  rewrite (IH ltac:(intros F; apply T; right; exact F) c).
  - destruct (N.eqb_spec c 10); destruct (N.eqb_spec p 13); cbn [andb negb app]; tauto || reflexivity.
  - intros P x Q E. specialize (PP (c :: P) x Q). cbn [app] in PP. rewrite E in PP. specialize (PP eq_refl). cbn [last] in *. exact PP.
Qed.

(** * The clipboard *)
Lemma cstr_none : forall t, Forall (fun c => c <> 0%N) t -> cstr t = UB.
Proof. induction t as [|c t IH]; intros H; [reflexivity|]. inversion H; subst. cbn [cstr]. apply N.eqb_neq in H2. rewrite H2, IH by assumption. reflexivity. Qed.
Lemma put_whole : forall t z, length z = length t -> put z 0 t = Ok t.
Proof. intros t z L. rewrite (put_eq z 0 [] z [] t); [cbn [app]; rewrite app_nil_r; reflexivity|cbn [app]; rewrite app_nil_r; reflexivity|reflexivity|auto]. Qed.
Lemma clipboard_none : forall t, no_nul t -> (length t <> 24 /\ length t <> 56 /\ length t <> 120)%nat ->
  clipboard {| alloc := calloc; laps := true |} (Some t) = UB.
Proof.
  intros t NZ (H1 & H2 & H3). unfold clipboard. cbn [alloc]. unfold calloc at 1.
  apply Nat.eqb_neq in H1, H2, H3. rewrite H1, H2, H3. cbn [orb]. rewrite put_whole by apply repeat_length. cbn [obind].
  unfold normalize. rewrite cstr_none by exact NZ. reflexivity.
Qed.
Lemma clipboard_ok : forall M t, good M -> no_nul t -> (length t < length (alloc M (length t)))%nat -> clipboard M (Some t) = Ok (lines_normal t).
Proof.
  intros M t GM NZ L. unfold clipboard. destruct (proj2 GM (length t)) as [_ Z].
  set (z := alloc M (length t)) in *.
  assert (Z1 : exists x y, z = x ++ 0%N :: y /\ length x = length t).
  { exists (firstn (length t) z). destruct (skipn (length t) z) as [|c y] eqn:E.
    - apply (f_equal (@length N)) in E. rewrite skipn_length in E. cbn in E. lia.
    - exists y. split; [|apply firstn_length_le; lia]. rewrite <- (firstn_skipn (length t) z) at 1. rewrite E. f_equal. f_equal.
      unfold zero_tail in Z. rewrite Forall_forall in Z. apply Z. rewrite <- (firstn_skipn (length t) z), E. apply in_or_app. right. left. reflexivity. }
  destruct Z1 as (x & y & EZ & LX).
  rewrite (put_eq z 0 [] x (0%N :: y) t); [|exact EZ|reflexivity|auto]. cbn [obind app].
  destruct (normalize_ok M t y GM NZ) as (z2 & E2 & _). rewrite E2. cbn [obind]. apply cstr_app. eapply normal_no_zero; [apply le_n|exact NZ].
Qed.

(** * Keys and mouse, put together *)
Lemma shows_all : forall k m d d', shows k m d -> all d' = all d -> shows k m d'.
Proof.
  intros k m d d' H E. pose proof (shows_units _ _ _ H) as U. rewrite <- E in U. apply units_app in U. destruct U as [U1 U2].
  apply units_rev in U1. rewrite rev_involutive in U1. destruct H as (H1 & H2 & H). unfold shows.
  rewrite (content_all d'), E, <- (content_all d). auto.
Qed.
Lemma move_key : forall M k m g d mv, shows k m d -> quiet g d -> move_fine mv d ->
  exists g', step M m g (key_of mv) = Ok (m, g') /\ quiet g' (moved mv d).
Proof.
  intros M k m g d mv H (Q1 & Q2 & Q3) F. destruct (shows_lies _ _ _ H) as (b & E & HL). pose proof (cursormove_ok m b mv d E HL F) as CM.
  assert (AK : arrowkey_selection g = with_sel g (pos d) (pos d)) by (unfold arrowkey_selection; rewrite Q3, Q1; reflexivity).
  destruct mv; cbn [key_of step mx my] in *; rewrite ?AK; unfold move_sel; cbn [ix with_sel]; rewrite Q1, CM; cbn [obind with_ix with_sel sh];
    rewrite Q3; eexists; (split; [reflexivity|]); unfold quiet; cbn [sh with_ix with_sel]; rewrite ?Q3; cbn [ix sb se sh with_ix with_sel]; auto.
Qed.
Lemma click_ok : forall G k m g us width x y, shows k m ([], us) ->
  let d := line_at (Z.to_nat (g_offset G + Z.quot (y - g_y G - g_pady G) (g_lineheight G))) us in
  let l := the_line d in let relx := x - g_x G - g_padx G in
  exists j, mouse_down G m g width false x y = Ok {| ix := pos (along j d); sb := pos (along j d); se := pos (along j d); sh := true |} /\
    (j <= length l)%nat /\ (widening width l -> gap width l 1 < relx -> nearest width l relx j).
Proof.
  intros G k m g us width x y H d l relx. unfold mouse_down, infercursorpos.
  destruct (infer_ok k m us width relx (g_offset G + Z.quot (y - g_y G - g_pady G) (g_lineheight G)) H) as (j & E & L & NR).
  fold relx. rewrite E. cbn [obind]. exists j. split; [reflexivity|]. split; assumption.
Qed.
Lemma drag_ok : forall G m g width x y x' y' i i' g1, infercursorpos G m width x y = Ok i -> infercursorpos G m width x' y' = Ok i' ->
  mouse_down G m g width false x y = Ok g1 -> mouse_up G (Some m) g1 width x' y' = Ok {| ix := i'; sb := i; se := i'; sh := false |}.
Proof.
  intros G m g width x y x' y' i i' g1 E1 E2 H. unfold mouse_down in H. rewrite E1 in H. cbn in H. injection H as <-.
  unfold mouse_up. cbn [sh]. rewrite E2. reflexivity.
Qed.
Lemma double_ok : forall G k m g width x y d P w1 w2 Q, shows k m d -> infercursorpos G m width x y = Ok (pos d) ->
  before d = P ++ w1 -> after d = w2 ++ Q -> word_free (w1 ++ w2) ->
  (P = [] \/ exists P' c, P = P' ++ [c] /\ blank c) -> (Q = [] \/ exists c Q', Q = c :: Q' /\ blank c) ->
  mouse_down G m g width true x y = Ok {| ix := pos d; sb := zl P; se := zl (P ++ w1 ++ w2); sh := false |}.
Proof.
  intros G k m g width x y d P w1 w2 Q H E EB EA W DP DQ. unfold mouse_down. rewrite E. cbn [obind].
  destruct H as (H1 & H2 & H3 & H4 & t & H5 & H6 & H7).
  assert (C : content d = P ++ w1 ++ w2 ++ Q) by (unfold content; rewrite EB, EA, <- app_assoc; reflexivity).
  destruct (select_word_ok m {| ix := pos d; sb := pos d; se := pos d; sh := true |} P w1 w2 Q t) as (b & TB & SW); auto.
  - rewrite <- C. exact H5.
  - rewrite <- C. exact H3.
  - cbn [ix]. unfold pos. rewrite EB. reflexivity.
  - rewrite TB, SW. reflexivity.
Qed.

(** Checking the units of an example. *)
Definition unitb (u : text) : bool :=
  text_eqb u eol || match u with
  | [] => false
  | c :: cs => ((1 <=? c) && (c <? 128) && negb (c =? 10) && negb (c =? 13) || (192 <=? c) && (c <? 256))%N && forallb (fun x => (128 <=? x) && (x <? 192))%N cs
  end.
Lemma unitsb : forall us, forallb unitb us = true -> units us.
Proof.
  intros us H. apply Forall_forall. intros u HU. rewrite forallb_forall in H. specialize (H u HU). unfold unitb in H.
  apply orb_true_iff in H. destruct H as [H|H]; [apply text_eqb_eq in H; subst; apply u_eol|].
  destruct u as [|c cs]; [discriminate|]. apply andb_true_iff in H. destruct H as [H1 H2]. apply u_char.
  - unfold leads. destruct (1 <=? c)%N eqn:A; destruct (c <? 128)%N eqn:B; destruct (192 <=? c)%N eqn:C; destruct (c <? 256)%N eqn:D; destruct (N.eqb_spec c 10); destruct (N.eqb_spec c 13);
      rewrite ?N.leb_le, ?N.leb_gt, ?N.ltb_lt, ?N.ltb_ge in *; cbn in H1; try discriminate; lia.
  - apply Forall_forall. intros x Hx. rewrite forallb_forall in H2. specialize (H2 x Hx). apply andb_true_iff in H2. destruct H2 as [A B].
    apply N.leb_le in A. apply N.ltb_lt in B. split; assumption.
Qed.
Lemma good_calloc : good {| alloc := calloc; laps := true |}.
Proof.
  split; [reflexivity|]. intros n. cbn [alloc]. unfold calloc. rewrite repeat_length. split; [destruct (_ || _); lia|].
  apply Forall_forall. intros c H. apply repeat_spec in H. exact H.
Qed.
Lemma normal_twice : forall t, lines_normal (lines_normal t) = lines_normal t.
Proof. intros t. apply normal_same; [eapply normal_tabs, le_n|apply normal_paired]. Qed.
Lemma left_right_key : forall M k m g d, shows k m d -> quiet g d ->
  (exists g', step M m g KLeft = Ok (m, g') /\ ix g' = zl (before (left d)) /\ quiet g' (left d)) /\
  (exists g', step M m g KRight = Ok (m, g') /\ ix g' = zl (before (right d)) /\ quiet g' (right d)).
Proof.
  intros M k m g d H Q. split.
  - destruct (move_key M k m g d MLeft H Q I) as (g' & E & Q'). exists g'. split; [exact E|]. split; [exact (proj1 Q')|exact Q'].
  - destruct (move_key M k m g d MRight H Q I) as (g' & E & Q'). exists g'. split; [exact E|]. split; [exact (proj1 Q')|exact Q'].
Qed.
Lemma home_end_key : forall M k m g d, shows k m d -> quiet g d ->
  (exists g', step M m g KHome = Ok (m, g') /\ ix g' = zl (before (home d)) /\ quiet g' (home d)) /\
  (exists g', step M m g KEnd = Ok (m, g') /\ ix g' = zl (before (ending d)) /\ quiet g' (ending d)).
Proof.
  intros M k m g d H Q. split.
  - destruct (move_key M k m g d MHome H Q I) as (g' & E & Q'). exists g'. split; [exact E|]. split; [exact (proj1 Q')|exact Q'].
  - destruct (move_key M k m g d MEnd H Q I) as (g' & E & Q'). exists g'. split; [exact E|]. split; [exact (proj1 Q')|exact Q'].
Qed.
Lemma up_down_key : forall M k m g d, shows k m d -> quiet g d ->
  (fst (home d) <> [eol] -> exists g', step M m g KUp = Ok (m, g') /\ ix g' = zl (before (up d)) /\ quiet g' (up d)) /\
  (exists g', step M m g KDown = Ok (m, g') /\ ix g' = zl (before (down d)) /\ quiet g' (down d)).
Proof.
  intros M k m g d H Q. split.
  - intros F. destruct (move_key M k m g d MUp H Q F) as (g' & E & Q'). exists g'. split; [exact E|]. split; [exact (proj1 Q')|exact Q'].
  - destruct (move_key M k m g d MDown H Q I) as (g' & E & Q'). exists g'. split; [exact E|]. split; [exact (proj1 Q')|exact Q'].
Qed.
Strategy expand [moved move_fine pos quiet].
Strategy 100 [up down home ending along left right].
Lemma page_key : forall M k m g d, shows k m d -> quiet g d ->
  ((forall n, (n < 10)%nat -> fst (home (repeatedly n up d)) <> [eol]) ->
     exists g', step M m g KPageUp = Ok (m, g') /\ ix g' = zl (before (repeatedly 10 up d)) /\ quiet g' (repeatedly 10 up d)) /\
  (exists g', step M m g KPageDown = Ok (m, g') /\ ix g' = zl (before (repeatedly 10 down d)) /\ quiet g' (repeatedly 10 down d)).
Proof.
  intros M k m g d H Q. split.
  - intros F. assert (PF : page_fine 10 d).
    { clear -F. revert F. generalize 10%nat. intros n. revert d. induction n as [|n IH]; intros d F; cbn [page_fine]; [exact I|].
      split; [apply (F 0%nat); lia|]. apply IH. intros j Hj. apply (F (S j)). lia. }
    destruct (move_key M k m g d MPageUp H Q PF) as (g' & E & Q'). exists g'. split; [exact E|]. cbn [moved] in Q'. split; [destruct Q' as [Q' _]; unfold pos in Q'; rewrite Q'; reflexivity|exact Q'].
  - destruct (move_key M k m g d MPageDown H Q I) as (g' & E & Q'). exists g'. split; [exact E|]. cbn [moved] in Q'. split; [destruct Q' as [Q' _]; unfold pos in Q'; rewrite Q'; reflexivity|exact Q'].
Qed.
Lemma text_after : forall M k m g d a, good M -> shows k m d -> quiet g d -> fine k a d ->
  exists m' g', step M m g (event_of a) = Ok (m', g') /\ text_get m' = Ok (content (done a d)) /\ ix g' = zl (before (done a d)) /\
    shows (still k a d) m' (done a d) /\ quiet g' (done a d).
Proof.
  intros M k m g d a GM H Q F. destruct (step_ok M k m g d a GM H Q F) as (m' & g' & E & S & Q').
  exists m', g'. split; [exact E|]. split; [eapply shows_text; exact S|]. split; [apply Q'|]. split; assumption.
Qed.
Lemma type_key : forall M m g d us, good M -> shows true m d -> quiet g d -> units us -> concat us <> [8%N] -> concat us <> [127%N] ->
  exists m' g', step M m g (KText (concat us)) = Ok (m', g') /\ text_get m' = Ok (before d ++ concat us ++ after d) /\
    ix g' = zl (before d ++ concat us) /\ shows true m' (insert us d) /\ quiet g' (insert us d).
Proof.
  intros M m g d us GM H Q U N1 N2. destruct (text_after M true m g d (AType us) GM H Q (conj eq_refl (conj U (conj N1 N2)))) as (m' & g' & E & T & X & S & Q').
  exists m', g'. split; [exact E|]. cbn [done] in *. rewrite content_insert in T. split; [exact T|]. split; [|split; assumption].
  rewrite X. unfold insert. rewrite (before_app (rev us) (fst d) (snd d) (snd d)), rev_involutive. destruct d; reflexivity.
Qed.
Lemma backspace_key : forall M k m g d, good M -> shows k m d -> quiet g d ->
  exists m' g', step M m g KBackspace = Ok (m', g') /\ text_get m' = Ok (content (backspace d)) /\ ix g' = zl (before (backspace d)) /\
    shows k m' (backspace d) /\ quiet g' (backspace d).
Proof. intros M k m g d GM H Q. exact (text_after M k m g d ABackspace GM H Q I). Qed.
Lemma delete_key : forall M k m g d, good M -> shows k m d -> quiet g d ->
  exists m' g', step M m g KDelete = Ok (m', g') /\ text_get m' = Ok (content (delete d)) /\ ix g' = zl (before (delete d)) /\
    shows (k && next_single d) m' (delete d) /\ quiet g' (delete d).
Proof. intros M k m g d GM H Q. exact (text_after M k m g d ADelete GM H Q I). Qed.
Lemma return_tab_key : forall M m g d, good M -> shows true m d -> quiet g d ->
  (exists m' g', step M m g KReturn = Ok (m', g') /\ text_get m' = Ok (before d ++ eol ++ after d) /\ shows true m' (insert [eol] d) /\ quiet g' (insert [eol] d)) /\
  (exists m' g', step M m g KTab = Ok (m', g') /\ text_get m' = Ok (before d ++ [32; 32; 32; 32]%N ++ after d) /\
     shows true m' (insert [[32]; [32]; [32]; [32]]%N d) /\ quiet g' (insert [[32]; [32]; [32]; [32]]%N d)).
Proof.
  intros M m g d GM H Q. split.
  - destruct (text_after M true m g d AReturn GM H Q eq_refl) as (m' & g' & E & T & X & S & Q'). exists m', g'. cbn [done] in *.
    rewrite content_insert in T. cbn [concat app eol] in *. auto.
  - destruct (text_after M true m g d ATab GM H Q eq_refl) as (m' & g' & E & T & X & S & Q'). exists m', g'. cbn [done] in *.
    rewrite content_insert in T. cbn [concat app] in *. auto.
Qed.
Lemma select_key : forall M ms k m g d, shows k m d -> ix g = pos d -> moves_fine ms d -> ms <> [] ->
  exists g', run M m g (KShift :: map key_of ms ++ [KShiftUp]) = Ok (m, g') /\ ix g' = zl (before (moved_by ms d)) /\ sh g' = false /\
    sb g' = zl (before d) /\ se g' = zl (before (moved_by ms d)).
Proof.
  intros M ms k m g d H G F NE. rewrite (shift_select M ms k m g d H G F NE). eexists. split; [reflexivity|]. cbn. auto.
Qed.
Lemma session_from_write : forall M t cs, good M -> chars_of t cs -> no_nul t -> ends_well t ->
  exists m us, write M t = Ok m /\ units us /\ concat us = lines_normal t /\
    forall as_, all_fine true as_ ([], us) ->
    let d := fold_left (fun d a => done a d) as_ ([], us) in
    exists m' g', run M m {| ix := 0; sb := 0; se := 0; sh := false |} (map event_of as_) = Ok (m', g') /\
      text_get m' = Ok (content d) /\ ix g' = zl (before d).
Proof.
  intros M t cs GM CH NZ EW. destruct (write_utf8 M t cs GM CH NZ EW) as (m & us & W & U & E & SH).
  exists m, us. split; [exact W|]. split; [exact U|]. split; [exact E|]. intros as_ F.
  apply (session_ok M as_ true m {| ix := 0; sb := 0; se := 0; sh := false |} ([], us) GM); [apply SH; reflexivity| |exact F].
  split; [reflexivity|]. split; reflexivity.
Qed.
