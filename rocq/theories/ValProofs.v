(** Proofs about values of different kinds. *)
From Coq Require Import SpecFloat QArith.
From Verif Require Import Common Txt NumModel NumSpec NumProofs NumFacts TextModel TextSpec TextProofs ValSpec ValModel.

Lemma SFeqb_char : forall a b, SFeqb a b = true <->
  a <> S754_nan /\ (a = b \/ (exists s t, a = S754_zero s /\ b = S754_zero t)).
Proof.
  intros a b. split.
  - intros H. destruct a as [s|s| |s m e], b as [s'|s'| |s' m' e'];
      try (exfalso; cbn in H; try destruct s; try destruct s'; discriminate H); (split; [discriminate|]).
    + right. exists s, s'. split; reflexivity.
    + left. destruct s, s'; try discriminate H; reflexivity.
    + left. unfold SFeqb, SFcompare in H. destruct s, s'; try discriminate H; destruct (Z.compare_spec e e') as [->| |]; try discriminate H;
        change (Pos.compare_cont Eq m m') with (Pos.compare m m') in H; destruct (Pos.compare_spec m m') as [->| |]; try discriminate H; reflexivity.
  - intros [N [<-|(s & t & -> & ->)]]; [|reflexivity]. destruct a as [s|s| |s m e]; try reflexivity; [destruct s; reflexivity|contradiction|].
    unfold SFeqb, SFcompare. rewrite Z.compare_refl. change (Pos.compare_cont Eq m m) with (Pos.compare m m). rewrite Pos.compare_refl. destruct s; reflexivity.
Qed.
Lemma number_eq_sym : forall a b, number_eq a b = number_eq b a.
Proof.
  assert (H : forall a b, number_eq a b = true -> number_eq b a = true).
  { intros a b H. unfold number_eq in *. apply SFeqb_char in H. apply SFeqb_char. destruct H as [N [->|(s & t & -> & ->)]]; [auto|].
    split; [discriminate|]. right. exists t, s. auto. }
  intros a b. destruct (number_eq a b) eqn:E; destruct (number_eq b a) eqn:F; try reflexivity; [apply H in E|apply H in F]; congruence.
Qed.
Lemma number_eq_trans : forall a b c, number_eq a b = true -> number_eq b c = true -> number_eq a c = true.
Proof.
  intros a b c H K. unfold number_eq in *. apply SFeqb_char in H, K. apply SFeqb_char.
  destruct H as [N [->|(s & t & -> & ->)]]; [exact K|]. split; [discriminate|].
  destruct K as [_ [<-|(s' & t' & E & ->)]]; right; eexists _, _; split; reflexivity.
Qed.

Lemma unequals_ok : forall e v w, unequals e v w = (do (r, f) <- equals e v w; Ok (negb r, f)).
Proof.
  intros e v w. destruct v as [|b|x q|t|i]; cbn [unequals equals obind].
  - destruct w; reflexivity.
  - destruct (cast2bool e w) as [[c f]|]; reflexivity.
  - destruct (cast2number e w) as [[y f]|]; reflexivity.
  - destruct (cast2string e w) as [[s f]|]; [|reflexivity]. cbn [obind].
    destruct (string_neq_char (build_string t) (build_string s)) as (r & -> & ->). reflexivity.
  - destruct w; reflexivity.
Qed.

Definition eqt (e : env) (v w : value) : Prop := equals e v w = Ok (true, false).
Definition not_nan (v : value) : Prop := match v with VNum S754_nan _ => False | _ => True end.
Lemma string_eq_Ok : forall a b, exists r, string_eq a b = Ok r.
Proof. intros a b. destruct (string_eq_char a b) as (r & E & _). exists r. exact E. Qed.
Lemma equals_refl : forall e, reflexive_on not_nan (eqt e).
Proof.
  intros e [|b|x q|t|i] N; unfold eqt; cbn [equals cast2bool cast2number cast2string obind].
  - reflexivity.
  - destruct b; reflexivity.
  - do 2 f_equal. apply SFeqb_char. split; [|left; reflexivity]. intros ->. exact N.
  - destruct (string_eq_equiv (build_string t) (build_string t) (build_string t)) as [-> _]. reflexivity.
  - rewrite Nat.eqb_refl. reflexivity.
Qed.
Lemma equals_sym : forall e v w, type_of v = type_of w -> equals e v w = equals e w v.
Proof.
  intros e [|b|x q|t|i] [|b'|x' q'|t'|i'] K; try discriminate K; cbn [equals cast2bool cast2number cast2string obind].
  - reflexivity.
  - destruct b, b'; reflexivity.
  - rewrite number_eq_sym. reflexivity.
  - destruct (string_eq_equiv (build_string t) (build_string t') (build_string t)) as (_ & -> & _). reflexivity.
  - rewrite Nat.eqb_sym. reflexivity.
Qed.
Lemma equals_trans : forall e, transitive_on (fun u v w => type_of u = type_of v /\ type_of v = type_of w) (eqt e).
Proof.
  intros e [|b|x q|t|i] [|b'|x' q'|t'|i'] [|c|y r|s|j] [K1 K2] H1 H2; try discriminate K1; try discriminate K2;
    unfold eqt in *; cbn [equals cast2bool cast2number cast2string obind] in *.
  - reflexivity.
  - destruct b, b', c; try discriminate; reflexivity.
  - injection H1 as H1. injection H2 as H2. rewrite (number_eq_trans x x' y) by assumption. reflexivity.
  - destruct (string_eq_Ok (build_string t) (build_string t')) as (r1 & E1). rewrite E1 in H1. cbn [obind] in H1. injection H1 as ->.
    destruct (string_eq_Ok (build_string t') (build_string s)) as (r2 & E2). rewrite E2 in H2. cbn [obind] in H2. injection H2 as ->.
    destruct (string_eq_equiv (build_string t) (build_string t') (build_string s)) as (_ & _ & H). rewrite (H E1 E2). reflexivity.
  - injection H1 as H1. injection H2 as H2. apply Nat.eqb_eq in H1, H2. subst. rewrite Nat.eqb_refl. reflexivity.
Qed.

Lemma cstr_no_nul : forall m s, NumModel.cstr m = Ok s -> no_nul s.
Proof.
  induction m as [|c m IH]; intros s H; cbn [NumModel.cstr] in H; [discriminate H|]. destruct (N.eqb_spec c 0) as [->|C]; [injection H as <-; constructor|].
  destruct (NumModel.cstr m) as [s'|] eqn:E; [|discriminate H]. injection H as <-. constructor; [exact C|]. apply IH. reflexivity.
Qed.
(** If a text is equal to a whole number, the number is equal to the text. *)
Lemma text_number : forall e d t s z, dsep e = [d] -> tsep e = [t] -> sep_ok [d] -> sep_ok [t] -> d <> t -> (Z.abs z <= 2 ^ 53)%Z -> no_nul s ->
  eqt e (VTxt s) (VNum (of_Z z) None) -> eqt e (VNum (of_Z z) None) (VTxt s).
Proof.
  intros e d t s z D T SD ST NE B NU H. unfold eqt in *. cbn [equals cast2string cast2number] in *. rewrite D, T in *.
  destruct (whole_there_and_back d t z B SD ST NE) as (out & W & R). change (zs (100 + 0)) with (zeros 100) in H. rewrite W in H. cbn [obind] in H.
  assert (NO : no_nul out).
  { unfold number_to_string in W. destruct (flat_text (of_Z z)) as [b|]; [|discriminate W]. cbn [obind] in W.
    destruct (international [d] [t] b (zeros 100)) as [m|]; [|discriminate W]. cbn [obind] in W.
    destruct (NumModel.cstr m) as [u|] eqn:E; [|discriminate W]. cbn [obind] in W. injection W as <-. eapply cstr_no_nul; exact E. }
  destruct (string_eq_no_nul (build_string s) (build_string out)) as (r & E & EQ); [exact NU|exact NO|].
  rewrite E in H. cbn [obind] in H. injection H as ->. assert (s = out) as -> by (apply EQ; reflexivity).
  change (zs 41) with (zeros 41). rewrite R. cbn [obind]. unfold number_eq. replace (SFeqb (of_Z z) (of_Z z)) with true; [reflexivity|].
  symmetry. apply SFeqb_char. split; [|left; reflexivity]. intros N. destruct (of_Z_ok z B) as [F _].
  rewrite N in F. exact F.
Qed.

(** * Truth *)
(** What the truth of a value is. *)
Definition has_truth (e : env) (v : value) (c : bool) : Prop :=
  match v with
  | VNil => c = false
  | VBool b => c = b
  | VNum x _ => finite x /\ exists z, (SF2Q x == inject_Z z)%Q /\ int_range z /\ c = negb (z =? 0)%Z
  | VTxt t => (c = false <-> t = [])
  | VObj i => obj_bool e i = Some c
  end.
Lemma cast_truth : forall e v c, has_truth e v c -> cast2bool e v = Ok (c, false).
Proof.
  intros e v c H. destruct v as [|b'|x q|t|i]; cbn [has_truth cast2bool] in *; try (subst; reflexivity).
  - destruct H as (F & z & E & R & ->). unfold number_to_boolean. rewrite (c_int_whole x z F E R). reflexivity.
  - unfold string_to_boolean, build_string. cbn [tval]. destruct t, c; cbn; try reflexivity; exfalso; [destruct H as [_ H]; specialize (H eq_refl); discriminate|destruct H as [H _]; specialize (H eq_refl); discriminate].
  - rewrite H. reflexivity.
Qed.
Lemma connectives : forall e b v c, has_truth e v c ->
  bool_and e b v = Ok (andb b c, false) /\ bool_or e b v = Ok (orb b c, false) /\ bool_nor e b v = Ok (negb (orb b c), false) /\
  bool_not b = negb b /\ equals e (VBool b) v = Ok (negb (xorb b c), false).
Proof.
  intros e b v c H. apply cast_truth in H. unfold bool_and, bool_or, bool_nor. cbn [equals]. rewrite H. destruct b, c; repeat split; reflexivity.
Qed.
Lemma laws : forall e b v c, has_truth e v c ->
  (forall c', has_truth e v c' -> c' = c) /\
  bool_nor e b v = (do (r, f) <- bool_or e b v; Ok (bool_not r, f)) /\
  (do (r, f) <- bool_and e b v; Ok (bool_not r, f)) = bool_or e (bool_not b) (VBool (bool_not c)) /\
  (forall w d, has_truth e w d -> (do (r, f) <- bool_and e b v; bool_and e r w) = (do (r, f) <- bool_and e c w; bool_and e b (VBool r))) /\
  either_or b v (VBool b) = (if b then v else VBool false).
Proof.
  intros e b v c H. apply cast_truth in H. split; [intros c' H'; apply cast_truth in H'; congruence|].
  unfold bool_and, bool_or, bool_nor. rewrite H. split; [destruct b, c; reflexivity|]. split; [destruct b, c; reflexivity|].
  split; [|destruct b; reflexivity]. intros w d W. apply cast_truth in W. rewrite W. destruct b, c, d; reflexivity.
Qed.
