(** Proofs about the lexer. *)
From Verif Require Import Common TextModel NumModel LexModel LexSpec.
Open Scope nat_scope.

Lemma starts_prefix p t : starts p t = true <-> prefix p t.
Proof.
  revert t. induction p as [|a p IH]; intros t.
  - split; [intros _; now exists t|reflexivity].
  - destruct t as [|b t]; cbn [starts].
    + split; [discriminate|]. intros (r & E). discriminate.
    + rewrite andb_true_iff, N.eqb_eq, IH. split.
      * intros (-> & r & ->). now exists r.
      * intros (r & E). injection E as -> ->. split; [auto|now exists r].
Qed.
Lemma starts_false p t : starts p t = false <-> ~ prefix p t.
Proof. rewrite <- starts_prefix. destruct (starts p t); split; congruence. Qed.
Lemma starts_app p r : starts p (p ++ r) = true.
Proof. apply starts_prefix. now exists r. Qed.
Lemma apart_starts a b t : apart a b -> prefix a t -> starts b t = false.
Proof.
  intros (p & x & y & a' & b' & -> & -> & NE) (r & ->). apply starts_false. intros (r' & E).
  rewrite <- !app_assoc in E. apply app_inv_head in E. cbn in E. congruence.
Qed.
Lemma apart_sym a b : apart a b -> apart b a.
Proof. intros (p & x & y & a' & b' & A & B & NE). exists p, y, x, b', a'. auto. Qed.

(** [strncmp] against a word without NUL never reads past the NUL that ends the program. *)
Lemma starts_strncmp sep code : no_nul sep ->
  exists r, strncmp (code ++ [0%N]) (sep ++ [0%N]) (length sep) = Ok r /\ (r = 0%Z <-> starts sep code = true).
Proof.
  revert code. induction sep as [|a sep IH]; intros code NN.
  - exists 0%Z. split; [reflexivity|tauto].
  - assert (A0 : a <> 0%N) by (intros ->; apply NN; now left).
    destruct code as [|c code]; cbn [app length strncmp starts].
    + destruct (N.eqb_spec 0 a); [congruence|]. eexists. split; [reflexivity|]. split; [lia|discriminate].
    + destruct (N.eqb_spec c a) as [->|NE].
      * destruct (N.eqb_spec a 0); [congruence|]. rewrite N.eqb_refl. cbn [andb]. apply IH. intros H. apply NN. now right.
      * eexists. split; [reflexivity|]. destruct (N.eqb_spec a c); [congruence|]. cbn [andb]. split; [lia|discriminate].
Qed.

(** ** Tokens *)
Lemma lbind_ok A B (o : lres A) (f : A -> lres B) b : lbind o f = LOk b -> exists a, o = LOk a /\ f a = LOk b.
Proof. destruct o; cbn; try discriminate. eauto. Qed.
Lemma put_ok out c o : put out c = LOk o -> o = out ++ [c] /\ length o <= 255.
Proof.
  unfold put, bflmt. destruct (Nat.ltb_spec (length out) 255); [|discriminate].
  intros E. injection E as <-. rewrite app_length. cbn. split; [auto|lia].
Qed.
Lemma suffix_refl t : suffix t t. Proof. now exists []. Qed.
Lemma suffix_trans a b c : suffix a b -> suffix b c -> suffix a c.
Proof. intros (p & ->) (q & ->). exists (q ++ p). now rewrite app_assoc. Qed.
Lemma suffix_cons c t : suffix t (c :: t). Proof. now exists [c]. Qed.
Lemma suffix_skipn n t : suffix (skipn n t) t. Proof. exists (firstn n t). now rewrite firstn_skipn. Qed.
Lemma suffix_length s t : suffix s t -> length s <= length t.
Proof. intros (p & ->). rewrite app_length. lia. Qed.
Lemma skip_suffix code : forall b, suffix (skip b code) code.
Proof.
  induction code as [|c r IH]; intros b; [apply suffix_refl|].
  assert (T : forall x, suffix (skip x r) (c :: r)) by (intros x; eapply suffix_trans; [apply IH|apply suffix_cons]).
  cbn [skip]. destruct b; [destruct (c =? 10)%N; apply T|].
  destruct (isspace c); [apply T|]. destruct (c =? 35)%N; [apply T|apply suffix_refl].
Qed.
Lemma skip_head code c r : skip false code = c :: r -> isspace c = false /\ c <> 35%N.
Proof.
  assert (G : forall b, skip b code = c :: r -> isspace c = false /\ c <> 35%N); [|apply G].
  induction code as [|x t IH]; intros b; [discriminate|]. cbn [skip].
  destruct b; [destruct (x =? 10)%N; apply IH|].
  destruct (isspace x) eqn:I; [apply IH|]. destruct (N.eqb_spec x 35); [apply IH|].
  intros E. injection E as <- <-. auto.
Qed.

Lemma num_whole_ok d : forall fuel code out o rest, num_whole d fuel code out = LOk (o, rest) ->
  length out <= 255 -> length o <= 255 /\ suffix rest code /\ prefix out o /\
  (fuel <> 0 -> isdigit (peek code 0) = true -> code <> [] -> length rest < length code).
Proof.
  induction fuel as [|f IH]; intros code out o rest E LO.
  - injection E as <- <-. split; [auto|]. split; [apply suffix_refl|]. split; [exists []; now rewrite app_nil_r|congruence].
  - destruct code as [|c r].
    + injection E as <- <-. split; [auto|]. split; [apply suffix_refl|]. split; [exists []; now rewrite app_nil_r|congruence].
    + cbn [num_whole] in E. cbn [peek nth]. destruct (isdigit c).
      * apply lbind_ok in E. destruct E as (o1 & P & E). apply put_ok in P. destruct P as (-> & L1).
        match goal with H : num_whole _ _ ?r' _ = _ |- _ => set (r1 := r') in * end.
        assert (S1 : suffix r1 r) by (unfold r1; destruct (_ && _); [apply suffix_skipn|apply suffix_refl]).
        apply IH in E; [|auto]. destruct E as (A & B & (z & ->) & _). split; [auto|].
        split; [eapply suffix_trans; [eapply suffix_trans; [exact B|exact S1]|apply suffix_cons]|].
        split; [exists ([c] ++ z); now rewrite <- app_assoc|].
        intros _ _ _. apply suffix_length in B. apply suffix_length in S1. cbn [length]. lia.
      * injection E as <- <-. split; [auto|]. split; [apply suffix_refl|]. split; [exists []; now rewrite app_nil_r|discriminate].
Qed.
Lemma num_frac_ok : forall code out o rest, num_frac code out = LOk (o, rest) ->
  length out <= 255 -> length o <= 255 /\ suffix rest code.
Proof.
  induction code as [|c r IH]; intros out o rest E LO; cbn [num_frac] in E.
  - injection E as <- <-. split; [auto|apply suffix_refl].
  - destruct (isdigit c).
    + apply lbind_ok in E. destruct E as (o1 & P & E). apply put_ok in P. destruct P as (-> & L1).
      apply IH in E; [|auto]. destruct E as (A & B). split; [auto|]. eapply suffix_trans; [exact B|apply suffix_cons].
    + injection E as <- <-. split; [auto|apply suffix_refl].
Qed.
Lemma lex_number_ok d code o rest : lex_number d code = LOk (o, rest) ->
  length o <= 255 /\ suffix rest code /\
  ((peek code 0 = 45%N \/ isdigit (peek code 0) = true) -> code <> [] -> length rest < length code).
Proof.
  unfold lex_number. intros E. apply lbind_ok in E. destruct E as ((code1, out1) & E1 & E).
  assert (S1 : suffix code1 code /\ length out1 <= 255 /\
               ((peek code 0 = 45%N /\ length code1 < length code) \/ (code1 = code /\ peek code 0 <> 45%N) \/ code = [])).
  { destruct code as [|c r]; [injection E1 as <- <-; cbn; repeat split; auto using suffix_refl; lia|].
    cbn [peek nth]. destruct (N.eqb_spec c 45).
    - apply lbind_ok in E1. destruct E1 as (o' & P & E1). apply put_ok in P. injection E1 as <- <-.
      split; [apply suffix_cons|]. split; [apply P|]. left. cbn. split; [auto|lia].
    - injection E1 as <- <-. split; [apply suffix_refl|]. split; [cbn; lia|auto]. }
  destruct S1 as (S1 & L1 & C1). clear E1.
  apply lbind_ok in E. destruct E as ((out2, code2) & E2 & E).
  pose proof E2 as E2'. apply num_whole_ok in E2; [|auto]. destruct E2 as (L2 & S2 & _ & PR).
  assert (R : length o <= 255 /\ suffix rest code2).
  { destruct (_ && _) in E; [injection E as <- <-; split; [auto|apply suffix_refl]|].
    apply lbind_ok in E. destruct E as ((out3, code3) & E3 & E).
    assert (S3 : suffix code3 code2 /\ length out3 <= 255).
    { destruct (_ && _) in E3.
      - apply lbind_ok in E3. destruct E3 as (o' & P & E3). apply put_ok in P. injection E3 as <- <-.
        split; [exact (suffix_skipn 1 code2)|apply P].
      - injection E3 as <- <-. split; [apply suffix_refl|auto]. }
    apply num_frac_ok in E; [|apply S3]. destruct E as (A & B). split; [auto|].
    eapply suffix_trans; [exact B|apply S3]. }
  destruct R as (R1 & R2). split; [auto|]. split; [eapply suffix_trans; [exact R2|]; eapply suffix_trans; [exact S2|exact S1]|].
  intros H NE. pose proof (suffix_length _ _ R2). pose proof (suffix_length _ _ S2).
  destruct C1 as [(_ & C1)|[(-> & C1)|]]; [apply suffix_length in S1; lia| |congruence].
  destruct H as [H|H]; [congruence|].
  assert (length code2 < length code); [|lia]. apply PR; auto. destruct code; [congruence|discriminate].
Qed.
Lemma lex_ref_ok d : forall code out o rest, lex_ref d code out = LOk (o, rest) -> length out <= 255 ->
  length o <= 255 /\ suffix rest code /\ (code <> [] -> is_delimiter d code = false -> length rest < length code).
Proof.
  induction code as [|c r IH]; intros out o rest E LO; cbn [lex_ref] in E.
  - injection E as <- <-. split; [auto|]. split; [apply suffix_refl|congruence].
  - destruct (is_delimiter d (c :: r)) eqn:D.
    + injection E as <- <-. split; [auto|]. split; [apply suffix_refl|congruence].
    + apply lbind_ok in E. destruct E as (o1 & P & E). apply put_ok in P. destruct P as (-> & L1).
      match type of E with context[if (_ <? length ?x)%nat then _ else _] => set (o2 := x) in * end.
      destruct (_ <? _)%nat eqn:B in E; [discriminate|]. apply Nat.ltb_ge in B. unfold bflmt in B.
      apply IH in E; [|auto]. destruct E as (A & S1 & _). split; [auto|].
      split; [eapply suffix_trans; [exact S1|apply suffix_cons]|]. intros _ _. apply suffix_length in S1. cbn. lia.
Qed.

(** Words of a language that begin a token of their own. *)
Lemma skipn_lt (p t : text) : p <> [] -> starts p t = true -> length (skipn (length p) t) < length t.
Proof.
  intros NE H. apply starts_prefix in H. destruct H as (r & ->). rewrite skipn_app, skipn_all, Nat.sub_diag, !app_length.
  change (skipn 0 r) with r. destruct p; [congruence|]. cbn [app length]. lia.
Qed.
Lemma delim_first d c r : words_ok d -> isspace c = false -> c <> 40%N -> c <> 41%N -> c <> d_prefix d ->
  starts (d_eol d) (c :: r) = false -> starts (d_qo d) (c :: r) = false -> starts (d_assign d) (c :: r) = false ->
  starts [58%N; 61%N] (c :: r) = false -> starts (d_chain d) (c :: r) = false -> is_delimiter d (c :: r) = false.
Proof.
  intros W SP A B P E1 E2 E3 E4 E5. unfold is_delimiter. rewrite E1, E2, E3, E5. unfold colon_eq.
  pose proof (wo_len d W) as L. destruct (length (d_assign d)) as [|[|[|n]]]; [lia|lia| |]; rewrite E4;
    cbn [andb orb peek nth]; unfold isspace in SP; apply orb_false_iff in SP; destruct SP as (SP & S4);
    apply orb_false_iff in SP; destruct SP as (SP & S3); apply orb_false_iff in SP; destruct SP as (S1 & S2);
    rewrite S1, S2, S3, S4; rewrite (proj2 (N.eqb_neq c 40) A), (proj2 (N.eqb_neq c 41) B), (proj2 (N.eqb_neq c (d_prefix d)) P); reflexivity.
Qed.

(** Every token other than the end consumes something, what is left is an end of the
    program text, and the value fits the buffer. *)
Lemma tok_ok d code t v rest : words_ok d -> tok d code = LOk (t, v, rest) ->
  length v <= 255 /\ suffix rest code /\ (t = TFIN <-> skip false code = []) /\
  (t <> TFIN -> length rest < length code).
Proof.
  intros W. unfold tok. pose proof (skip_suffix code false) as SS. pose proof (suffix_length _ _ SS) as SL.
  destruct (skip false code) as [|c r] eqn:SK.
  - intros E. injection E as <- <- <-. cbn. split; [lia|]. split; [exact SS|]. split; [tauto|congruence].
  - pose proof (skip_head _ _ _ SK) as (NSP & NH). cbv zeta.
    assert (G : forall t' v' rest', length v' <= 255 -> suffix rest' (c :: r) -> length rest' < length (c :: r) -> t' <> TFIN ->
              LOk (t', v', rest') = LOk (t, v, rest) ->
              length v <= 255 /\ suffix rest code /\ (t = TFIN <-> c :: r = []) /\ (t <> TFIN -> length rest < length code)).
    { intros t' v' rest' L S1 LT NF E. injection E as <- <- <-. split; [auto|].
      split; [eapply suffix_trans; eauto|]. split; [split; [congruence|discriminate]|]. intros _. lia. }
    assert (L0 : length (@nil N) <= 255) by (cbn; lia).
    assert (LR : length r < length (c :: r)) by (cbn; lia).
    destruct (N.eqb_spec c 40); [apply G; auto using suffix_cons; discriminate|].
    destruct (N.eqb_spec c 41); [apply G; auto using suffix_cons; discriminate|].
    destruct (N.eqb_spec c 123); [apply G; auto using suffix_cons; discriminate|].
    destruct (N.eqb_spec c 125); [apply G; auto using suffix_cons; discriminate|].
    destruct (starts (d_eol d) (c :: r)) eqn:E1; [apply G; auto using suffix_skipn; [apply skipn_lt; auto; apply W|discriminate]|].
    destruct (starts (d_chain d) (c :: r)) eqn:E2; [apply G; auto using suffix_skipn; [apply skipn_lt; auto; apply W|discriminate]|].
    destruct (starts (d_assign d) (c :: r)) eqn:E3; [apply G; auto using suffix_skipn; [apply skipn_lt; auto; apply W|discriminate]|].
    destruct (starts [58%N; 61%N] (c :: r)) eqn:E4;
      [apply G; auto; [exact (suffix_skipn 2 (c :: r))|exact (skipn_lt [58%N; 61%N] (c :: r) ltac:(discriminate) E4)|discriminate]|].
    destruct (N.eqb_spec c (d_prefix d)); [apply G; auto using suffix_cons; discriminate|].
    destruct (starts (d_return d) (c :: r)) eqn:E5;
      [destruct (peek (c :: r) (length (d_return d)) =? 32)%N; cbn [andb];
       [apply G; auto using suffix_skipn; [apply skipn_lt; auto; apply W|discriminate]|]|cbn [andb]];
    (destruct (starts (d_qo d) (c :: r)) eqn:E6; [apply G; auto using suffix_skipn; [apply skipn_lt; auto; apply W|discriminate]|]);
    (match goal with |- (if ?b then _ else _) = _ -> _ => destruct b eqn:ND end;
     [intros E; apply lbind_ok in E; destruct E as ((v1, r1) & E & EQ); apply lex_number_ok in E; destruct E as (A & B & C);
      revert EQ; apply G; auto; [|discriminate]; apply C; [|discriminate]; cbn [peek nth];
      apply orb_true_iff in ND; destruct ND as [ND|ND]; [left|right; exact ND];
      apply andb_true_iff in ND; destruct ND as (ND & _); apply andb_true_iff in ND; destruct ND as (ND & _); now apply N.eqb_eq
     |intros E; apply lbind_ok in E; destruct E as ((v1, r1) & E & EQ); apply lex_ref_ok in E; [|cbn; lia]; destruct E as (A & B & C);
      revert EQ; apply G; auto; [|discriminate]; apply C; [discriminate|]; now apply delim_first]).
Qed.

(** ** The buffer is large enough for words of at most 255 bytes *)
Lemma stop_delim d c r : stop d c -> is_delimiter d (c :: r) = true.
Proof.
  intros (H & _). unfold is_delimiter. cbn [peek nth].
  assert (X : ((c =? 40) || (c =? 41) || (c =? d_prefix d) || (c =? 32) || (c =? 10) || (c =? 9) || (c =? 13))%N = true).
  { cbn in H. destruct H as [<-|[<-|[<-|[<-|[<-|[<-|[]]]]]]]; cbn; rewrite ?orb_true_r; reflexivity. }
  rewrite X, orb_true_r. reflexivity.
Qed.
Lemma stop_nondigit d c : stop d c -> isdigit c = false.
Proof. intros (H & _). cbn in H. destruct H as [<-|[<-|[<-|[<-|[<-|[<-|[]]]]]]]; reflexivity. Qed.
Lemma ends_cons d n c r : ends_within d n (c :: r) -> ~ stop d c -> n <> 0 /\ ends_within d (n - 1) r.
Proof.
  intros [L|(w & x & r' & E & L & ST)] NS.
  - cbn in L. split; [lia|]. left. lia.
  - destruct w as [|y w]; [injection E as <- <-; contradiction|]. injection E as <- ->. cbn in L.
    split; [lia|]. right. exists w, x, r'. repeat split; auto; try apply ST. lia.
Qed.
Lemma ends_skip d n sep r : (forall c, stop d c -> ~ In c sep) -> starts sep r = true -> ends_within d n r ->
  ends_within d n (skipn (length sep) r).
Proof.
  intros NS H [L|(w & x & r' & E & L & ST)].
  - left. rewrite skipn_length. lia.
  - right. apply starts_prefix in H. destruct H as (z & ->). rename E into E2.
    rewrite skipn_app, skipn_all, Nat.sub_diag. cbn [skipn app].
    revert w L E2. induction sep as [|a sep IH]; intros w L E2.
    + cbn in E2. subst z. now exists w, x, r'.
    + destruct w as [|y w]; cbn in E2; injection E2 as -> E2.
      * exfalso. apply (NS x ST). now left.
      * apply (IH (fun c S1 I => NS c S1 (or_intror I)) w); [cbn in L; lia|exact E2].
Qed.
Definition fits (d : dict) (out code : text) : Prop := exists n, length out + n <= 255 /\ ends_within d n code.
Lemma fits_put d out c r : fits d out (c :: r) -> ~ stop d c -> put out c = LOk (out ++ [c]) /\ fits d (out ++ [c]) r.
Proof.
  intros (n & L & E) NS. apply ends_cons in E; [|auto]. destruct E as (NZ & E). unfold put, bflmt.
  destruct (Nat.ltb_spec (length out) 255); [|lia]. split; [auto|]. exists (n - 1). rewrite app_length. cbn. split; [lia|auto].
Qed.
Lemma num_whole_safe d : forall fuel code out, fits d out code ->
  exists o rest, num_whole d fuel code out = LOk (o, rest) /\ fits d o rest.
Proof.
  induction fuel as [|f IH]; intros code out F; [eexists _, _; split; [reflexivity|auto]|].
  destruct code as [|c r]; [eexists _, _; split; [reflexivity|auto]|]. cbn [num_whole].
  destruct (isdigit c) eqn:DG; [|eexists _, _; split; [reflexivity|auto]].
  destruct (fits_put d out c r F) as (P & F1); [intros ST; apply stop_nondigit in ST; congruence|].
  rewrite P. cbn [lbind]. apply IH. destruct F1 as (n & L & E). exists n. split; [auto|].
  destruct (starts (d_tho d) r) eqn:T; cbn [andb]; [|auto].
  destruct (_ && _); [|auto]. apply ends_skip; auto. intros x ST. apply ST.
Qed.
Lemma num_frac_safe d : forall code out, fits d out code -> exists o rest, num_frac code out = LOk (o, rest).
Proof.
  induction code as [|c r IH]; intros out F; cbn [num_frac]; [eauto|].
  destruct (isdigit c) eqn:DG; [|eauto].
  destruct (fits_put d out c r F) as (P & F1); [intros ST; apply stop_nondigit in ST; congruence|].
  rewrite P. cbn [lbind]. now apply IH.
Qed.
Lemma stop_not_minus d : ~ stop d 45%N.
Proof. intros (H & _). cbn in H. decompose [or] H; congruence. Qed.
Lemma lex_number_safe d code : fits d [] code -> exists o rest, lex_number d code = LOk (o, rest).
Proof.
  intros F. unfold lex_number.
  assert (X : exists code1 out1,
      (match code with
       | c :: r => if (c =? 45)%N then lx o <- put [] c; LOk (r, o) else LOk (code, [])
       | [] => LOk (code, [])
       end) = LOk (code1, out1) /\ fits d out1 code1).
  { destruct code as [|c r]; [eexists _, _; split; [reflexivity|auto]|].
    destruct (N.eqb_spec c 45) as [->|]; [|eexists _, _; split; [reflexivity|auto]].
    destruct (fits_put d [] 45%N r F (stop_not_minus d)) as (P & F1). rewrite P. eexists _, _; split; [reflexivity|auto]. }
  destruct X as (code1 & out1 & -> & F1). cbn [lbind].
  destruct (num_whole_safe d (length code1) code1 out1 F1) as (out2 & code2 & -> & F2). cbn [lbind].
  destruct (_ && _); [eauto|].
  destruct (length (d_dec d) + 1 <=? length code2) eqn:A; [|cbn [andb lbind]; now apply (num_frac_safe d)].
  destruct (isdigit (peek code2 (length (d_dec d)))) eqn:B; [|cbn [andb lbind]; now apply (num_frac_safe d)].
  destruct (starts (d_dec d) code2) eqn:C; [|cbn [andb lbind]; now apply (num_frac_safe d)].
  cbn [andb]. destruct code2 as [|c r]; [apply Nat.leb_le in A; cbn in A; lia|].
  assert (NS : ~ stop d c).
  { intros ST. destruct (d_dec d) as [|x dd] eqn:DD; [cbn in B; apply stop_nondigit in ST; congruence|].
    cbn in C. apply andb_true_iff in C. destruct C as (C & _). apply N.eqb_eq in C. subst x.
    destruct ST as (_ & _ & ST). rewrite DD in ST. apply ST. now left. }
  destruct F2 as (n & L & E). apply ends_cons in E; [|auto]. destruct E as (NZ & E).
  unfold put, bflmt. destruct (Nat.ltb_spec (length out2) 255); [|lia]. cbn [lbind skipn].
  apply (num_frac_safe d). exists (n - 1). rewrite app_length. cbn. split; [lia|auto].
Qed.
Lemma lex_ref_safe d : forall code out, fits d out code -> exists o rest, lex_ref d code out = LOk (o, rest).
Proof.
  induction code as [|c r IH]; intros out F; cbn [lex_ref]; [eauto|].
  destruct (is_delimiter d (c :: r)) eqn:DL; [eauto|].
  destruct (fits_put d out c r F) as (P & F1); [intros ST; rewrite (stop_delim d c r ST) in DL; congruence|].
  rewrite P. cbn [lbind]. set (o2 := if (_ && _)%bool then _ else _).
  assert (L2 : length o2 <= length (out ++ [c])).
  { unfold o2. destruct (_ && _); [|lia]. rewrite firstn_length. lia. }
  assert (F2 : fits d o2 r) by (destruct F1 as (n & L & E); exists n; split; [lia|auto]).
  destruct (Nat.ltb_spec bflmt (length o2)) as [B|_]; [|now apply IH].
  exfalso. destruct F1 as (n & L & _). unfold bflmt in B. lia.
Qed.
Lemma tok_safe d code : ends_within d 255 (skip false code) -> exists r, tok d code = LOk r.
Proof.
  intros E. unfold tok. destruct (skip false code) as [|c r] eqn:SK; [eauto|]. cbv zeta.
  assert (F : fits d [] (c :: r)) by (exists 255; split; [cbn; lia|auto]).
  repeat match goal with |- exists _, (if ?b then _ else _) = _ => destruct b end; eauto.
  - destruct (lex_number_safe d _ F) as (o & rest & ->). cbn. eauto.
  - destruct (lex_ref_safe d _ _ F) as (o & rest & ->). cbn. eauto.
Qed.

(** ** Text literals *)
Lemma unescape_spec c x : escaped c x -> unescape c = x.
Proof.
  intros H. unfold unescape. destruct H; try reflexivity.
  repeat match goal with |- context[(c =? ?k)%N] => destruct (N.eqb_spec c k) as [->|]; [exfalso; apply H; cbn; tauto|] end.
  reflexivity.
Qed.
Lemma emit_ok out block s : length s <= 10 -> length out + 10 < block -> emit out block s = LOk (out ++ s).
Proof. intros L B. unfold emit. destruct (Nat.leb_spec (length out + length s) block); [auto|lia]. Qed.
Lemma grow_ok out block s : length s <= 10 -> length out + 10 < block -> length (out ++ s) + 10 < grow (out ++ s) block.
Proof. intros L B. unfold grow. rewrite app_length. destruct (Nat.leb_spec block (length out + length s + 10)); lia. Qed.
Lemma literal_loop d k src t : marks_ok d -> denotes d k src t ->
  forall fuel out block nest, prefix (d_qc d) k -> length (src ++ k) <= fuel -> length out + 10 < block ->
  (0 <= nest)%Z -> (nest + Z.of_nat (length src) < W64)%Z ->
  exists fuel' block', length k <= fuel' /\ length (out ++ t) + 10 < block' /\
    str_loop d false fuel (src ++ k) out block nest false = str_loop d false fuel' k (out ++ t) block' nest false.
Proof.
  intros MO D. induction D as [k|k c src t NB UM D IH|k c x src t ES D IH|k src t D IH|k src t D IH|k inner ti src t D1 IH1 D2 IH2];
    intros fuel out block nest PK FU BL NN NW.
  - exists fuel, block. rewrite app_nil_r. auto.
  - destruct fuel as [|fuel]; [cbn in FU; lia|]. cbn [app] in *.
    destruct UM as (U1 & U2 & U3 & U4). apply starts_false in U1, U2, U3, U4.
    destruct (IH fuel (out ++ [c]) (grow (out ++ [c]) block) nest) as (f' & b' & A & B & E); auto.
    { cbn in FU. lia. } { apply grow_ok; [cbn; lia|auto]. } { cbn in NW. lia. }
    exists f', b'. rewrite <- app_assoc in B, E. cbn [app] in B, E. split; [auto|]. split; [exact B|]. rewrite <- E.
    cbn [str_loop]. destruct (Nat.leb_spec (length (c :: src ++ k)) (length (d_qc d))) as [L|_].
    { exfalso. destruct PK as (r & ->). cbn in L. rewrite !app_length in L. lia. }
    rewrite U1, U2, U3, U4. cbn [andb negb]. destruct (N.eqb_spec c 92); [congruence|]. cbn [andb].
    rewrite emit_ok by (cbn; lia). reflexivity.
  - destruct fuel as [|[|fuel]]; [cbn in FU; lia|cbn in FU; lia|]. cbn [app] in *.
    destruct (IH fuel (out ++ [x]) (grow (out ++ [x]) block) nest) as (f' & b' & A & B & E); auto.
    { cbn in FU. lia. } { apply grow_ok; [cbn; lia|auto]. } { cbn in NW. lia. }
    exists f', b'. rewrite <- app_assoc in B, E. cbn [app] in B, E. split; [auto|]. split; [exact B|]. rewrite <- E.
    assert (LK : length (d_qc d) <= length k) by (destruct PK as (r & ->); rewrite app_length; lia).
    cbn [str_loop]. destruct (Nat.leb_spec (length (92%N :: c :: src ++ k)) (length (d_qc d))) as [L|_].
    { exfalso. cbn in L. rewrite !app_length in L. lia. }
    assert (Q : starts (d_qc d) (92%N :: c :: src ++ k) = false).
    { pose proof (mo_qc d MO) as NE. pose proof (proj1 (mo_qc_bytes d MO)) as NI. destruct (d_qc d) as [|a q]; [congruence|].
      cbn. destruct (N.eqb_spec a 92) as [->|]; [elim NI; now left|reflexivity]. }
    rewrite Q. cbn [andb negb N.eqb Pos.eqb lbind].
    destruct (Nat.leb_spec (length (c :: src ++ k)) (length (d_qc d))) as [L|_].
    { exfalso. cbn in L. rewrite !app_length in L. lia. }
    rewrite andb_false_r. cbn [andb negb]. rewrite andb_false_r. rewrite (unescape_spec c x ES).
    rewrite emit_ok by (cbn; lia). reflexivity.
  - destruct fuel as [|fuel]; [cbn in FU; lia|].
    destruct (IH fuel (out ++ [10%N]) (grow (out ++ [10%N]) block) nest) as (f' & b' & A & B & E); auto.
    { cbn in FU. lia. } { apply grow_ok; [cbn; lia|auto]. } { rewrite app_length in NW. cbn in NW. lia. }
    exists f', b'. rewrite <- app_assoc in B, E. cbn [app] in B, E. split; [auto|]. split; [exact B|]. rewrite <- E.
    assert (LK : length (d_qc d) <= length k) by (destruct PK as (r & ->); rewrite app_length; lia).
    destruct (mo_signs d MO) as (_ & _ & S3 & _).
    assert (Q : starts (d_qc d) (newline_sign ++ src ++ k) = false) by (apply (apart_starts newline_sign); [now apply apart_sym|now exists (src ++ k)]).
    rewrite <- app_assoc. change (newline_sign ++ src ++ k) with (226 :: 134 :: 181 :: src ++ k)%N in *.
    cbn [str_loop]. rewrite Q.
    destruct (Nat.leb_spec (length (226 :: 134 :: 181 :: src ++ k)%N) (length (d_qc d))) as [L|_].
    { exfalso. cbn in L. rewrite !app_length in L. lia. }
    cbn [andb negb N.eqb Pos.eqb starts newline_sign]. rewrite emit_ok by (cbn; lia). reflexivity.
  - destruct fuel as [|fuel]; [cbn in FU; lia|].
    destruct (IH fuel (out ++ [9%N]) (grow (out ++ [9%N]) block) nest) as (f' & b' & A & B & E); auto.
    { cbn in FU. lia. } { apply grow_ok; [cbn; lia|auto]. } { rewrite app_length in NW. cbn in NW. lia. }
    exists f', b'. rewrite <- app_assoc in B, E. cbn [app] in B, E. split; [auto|]. split; [exact B|]. rewrite <- E.
    assert (LK : length (d_qc d) <= length k) by (destruct PK as (r & ->); rewrite app_length; lia).
    destruct (mo_signs d MO) as (_ & _ & _ & S4).
    assert (Q : starts (d_qc d) (tab_sign ++ src ++ k) = false) by (apply (apart_starts tab_sign); [now apply apart_sym|now exists (src ++ k)]).
    rewrite <- app_assoc. change (tab_sign ++ src ++ k) with (226 :: 135 :: 191 :: src ++ k)%N in *.
    cbn [str_loop]. rewrite Q.
    destruct (Nat.leb_spec (length (226 :: 135 :: 191 :: src ++ k)%N) (length (d_qc d))) as [L|_].
    { exfalso. cbn in L. rewrite !app_length in L. lia. }
    cbn [andb negb N.eqb Pos.eqb starts newline_sign tab_sign]. rewrite emit_ok by (cbn; lia). reflexivity.
  - assert (LK : length (d_qc d) <= length k) by (destruct PK as (r & ->); rewrite app_length; lia).
    pose proof (mo_qo_len d MO) as LO. pose proof (mo_qc_len d MO) as LC.
    assert (NO : 0 < length (d_qo d)) by (pose proof (mo_qo d MO); destruct (d_qo d); [congruence|cbn; lia]).
    assert (NC : 0 < length (d_qc d)) by (pose proof (mo_qc d MO); destruct (d_qc d); [congruence|cbn; lia]).
    repeat rewrite app_length in FU. repeat rewrite app_length in NW. rewrite <- !app_assoc.
    destruct fuel as [|fuel]; [lia|].
    destruct (IH1 fuel (out ++ d_qo d) (grow (out ++ d_qo d) block) (nest + 1)%Z) as (f1 & b1 & A1 & B1 & E1).
    { now exists (src ++ k). } { rewrite !app_length. lia. } { apply grow_ok; auto. } { lia. } { lia. }
    rewrite !app_length in A1.
    destruct f1 as [|f1]; [lia|].
    destruct (IH2 f1 (((out ++ d_qo d) ++ ti) ++ d_qc d) (grow (((out ++ d_qo d) ++ ti) ++ d_qc d) b1) nest) as (f2 & b2 & A2 & B2 & E2).
    { auto. } { rewrite app_length. lia. } { now apply grow_ok. } { lia. } { lia. }
    exists f2, b2. split; [auto|]. split; [now rewrite <- !app_assoc in B2|].
    replace (out ++ d_qo d ++ ti ++ d_qc d ++ t) with ((((out ++ d_qo d) ++ ti) ++ d_qc d) ++ t) by now rewrite <- !app_assoc.
    rewrite <- E2. clear E2.
    assert (STEP1 : str_loop d false (S fuel) (d_qo d ++ inner ++ d_qc d ++ src ++ k) out block nest false =
                    str_loop d false fuel (inner ++ d_qc d ++ src ++ k) (out ++ d_qo d) (grow (out ++ d_qo d) block) (nest + 1)%Z false).
    { set (r := inner ++ d_qc d ++ src ++ k) in *.
      assert (Q1 : starts (d_qo d) (d_qo d ++ r) = true) by apply starts_app.
      assert (PF : prefix (d_qo d) (d_qo d ++ r)) by now exists r.
      destruct (mo_signs d MO) as (S1 & S2 & _ & _).
      pose proof (apart_starts _ _ _ (mo_apart d MO) PF) as Q2. pose proof (apart_starts _ _ _ S1 PF) as Q3.
      pose proof (apart_starts _ _ _ S2 PF) as Q4.
      assert (Q5 : exists c r', d_qo d ++ r = c :: r' /\ c <> 92%N).
      { pose proof (proj1 (mo_qo_bytes d MO)) as NI. destruct (d_qo d) as [|a q]; [cbn in NO; lia|].
        exists a, (q ++ r). split; [reflexivity|]. intros ->. apply NI. now left. }
      assert (Q6 : length (d_qo d ++ r) <=? length (d_qc d) = false).
      { apply Nat.leb_gt. unfold r. rewrite !app_length. lia. }
      assert (Q7 : skipn (length (d_qo d)) (d_qo d ++ r) = r) by (rewrite skipn_app, skipn_all, Nat.sub_diag; reflexivity).
      destruct Q5 as (c & r' & Q5 & NB). rewrite Q5 in *. cbn [str_loop]. rewrite Q1, Q2, Q3, Q4, Q6, Q7.
      destruct (N.eqb_spec c 92); [congruence|]. cbn [andb negb]. rewrite emit_ok by auto. cbn [lbind].
      f_equal. unfold wrap64. apply Z.mod_small. lia. }
    rewrite STEP1, E1. clear STEP1 E1.
    set (o := (out ++ d_qo d) ++ ti) in *.
    set (r := src ++ k) in *.
    assert (Q1 : starts (d_qc d) (d_qc d ++ r) = true) by apply starts_app.
    assert (PF : prefix (d_qc d) (d_qc d ++ r)) by now exists r.
    destruct (mo_signs d MO) as (_ & _ & S3 & S4).
    pose proof (apart_starts _ _ _ S3 PF) as Q3. pose proof (apart_starts _ _ _ S4 PF) as Q4.
    assert (Q5 : exists c r', d_qc d ++ r = c :: r' /\ c <> 92%N).
    { pose proof (proj1 (mo_qc_bytes d MO)) as NI. destruct (d_qc d) as [|a q]; [cbn in NC; lia|].
      exists a, (q ++ r). split; [reflexivity|]. intros ->. apply NI. now left. }
    assert (Q6 : length (d_qc d ++ r) <=? length (d_qc d) = false).
    { apply Nat.leb_gt. unfold r. rewrite !app_length. lia. }
    assert (Q7 : skipn (length (d_qc d)) (d_qc d ++ r) = r) by (rewrite skipn_app, skipn_all, Nat.sub_diag; reflexivity).
    destruct Q5 as (c & r' & Q5 & NB). rewrite Q5 in *. cbn [str_loop]. rewrite Q1, Q3, Q4, Q6, Q7.
    destruct (Z.eqb_spec (nest + 1) 0); [lia|]. destruct (N.eqb_spec c 92); [congruence|]. cbn [andb negb].
    rewrite emit_ok by auto. cbn [lbind]. f_equal. unfold wrap64. rewrite Z.mod_small by lia. lia.
Qed.
Lemma readstr_literal d src t rest : marks_ok d -> denotes d (d_qc d ++ rest) src t ->
  (Z.of_nat (length src) < W64)%Z -> readstr d false (src ++ d_qc d ++ rest) = LOk (t, rest).
Proof.
  intros MO D L. unfold readstr.
  destruct (literal_loop d _ src t MO D (length (src ++ d_qc d ++ rest)) [] 100 0) as (f & b & A & B & E);
    [now exists rest|lia|cbn; lia|lia|lia|].
  rewrite E. cbn [app] in *. clear E.
  assert (X : str_loop d false f (d_qc d ++ rest) t b 0 false = LOk (t, d_qc d ++ rest)).
  { pose proof (mo_qc d MO). pose proof (starts_app (d_qc d) rest) as ST. destruct (d_qc d ++ rest) as [|c r] eqn:EQ.
    - destruct (d_qc d); [congruence|discriminate].
    - destruct f; [cbn in A; lia|]. cbn [str_loop]. rewrite ST. cbn [andb negb Z.eqb]. now destruct (_ <=? _). }
  rewrite X. cbn [lbind]. rewrite app_length.
  destruct (Nat.leb_spec (length (d_qc d)) (length (d_qc d) + length rest)); [|lia].
  rewrite skipn_app, skipn_all, Nat.sub_diag. reflexivity.
Qed.

(** ** The code of a text *)
Lemma strncmp_decides sep : no_nul sep -> forall t,
  (forall r, strncmp t sep (length sep) = Ok r ->
     (r = 0%Z <-> starts sep t = true) /\ (starts sep t = false -> forall k, starts sep (t ++ k) = false)) /\
  ((exists q, q <> [] /\ sep = t ++ q) \/ exists r, strncmp t sep (length sep) = Ok r).
Proof.
  induction sep as [|a sep IH]; intros NN t.
  - split; [|right; eexists; reflexivity]. intros r E. injection E as <-. split; [tauto|discriminate].
  - assert (A0 : a <> 0%N) by (intros ->; apply NN; now left).
    assert (NN' : no_nul sep) by (intros H; apply NN; now right).
    destruct t as [|c t]; cbn [strncmp length starts app].
    + split; [discriminate|]. left. exists (a :: sep). split; [discriminate|reflexivity].
    + destruct (IH NN' t) as (IH1 & IH2). destruct (N.eqb_spec c a) as [->|NE].
      * destruct (N.eqb_spec a 0); [congruence|]. rewrite N.eqb_refl. cbn [andb]. split; [exact IH1|].
        destruct IH2 as [(q & Q & ->)|]; [left; now exists q|auto].
      * destruct (N.eqb_spec a c); [congruence|]. cbn [andb]. split; [|eauto].
        intros r E. injection E as <-. split; [split; [lia|discriminate]|reflexivity].
Qed.
Definition marked (d : dict) (t : text) : bool := starts (d_qo d) t || starts (d_qc d) t.
Fixpoint esc (d : dict) (t : text) : text :=
  match t with
  | [] => []
  | c :: r => if marked d t then 92%N :: c :: esc d r else c :: esc d r
  end.
(** Every position of the text is decided without looking behind its end. *)
Fixpoint decided (d : dict) (t : text) : Prop :=
  match t with
  | [] => True
  | _ :: r => (marked d t = false -> forall k, marked d (t ++ k) = false) /\ decided d r
  end.
Lemma find_quotes_ok d : marks_ok d -> forall t i qs, find_quotes d t i = Ok qs ->
  (0 <= i)%Z -> (forall j, marked d (skipn j t) = true -> (i + Z.of_nat j < 128)%Z) ->
  decided d t /\ mark_quotes t i qs = esc d t /\ Forall (fun q => (i <= q < 128)%Z) qs.
Proof.
  intros MO. assert (NO : no_nul (d_qo d)) by apply (mo_qo_bytes d MO). assert (NC : no_nul (d_qc d)) by apply (mo_qc_bytes d MO).
  induction t as [|c t IH]; intros i qs E I0 P.
  - injection E as <-. repeat split. constructor.
  - cbn [find_quotes] in E. destruct (strncmp_decides _ NO (c :: t)) as (A1 & _). destruct (strncmp_decides _ NC (c :: t)) as (B1 & _).
    destruct (strncmp (c :: t) (d_qo d) (length (d_qo d))) as [a|] eqn:EA; [|discriminate]. cbn [obind] in E.
    destruct (A1 a eq_refl) as (A2 & A3).
    assert (H : exists hit, (if (a =? 0)%Z then Ok true
                 else do b <- strncmp (c :: t) (d_qc d) (length (d_qc d)); Ok (b =? 0)%Z) = Ok hit /\
                 hit = marked d (c :: t) /\ (hit = false -> forall k, marked d ((c :: t) ++ k) = false)).
    { unfold marked. destruct (Z.eqb_spec a 0) as [->|NZ].
      - exists true. split; [auto|]. rewrite (proj1 A2 eq_refl). split; [reflexivity|discriminate].
      - assert (SO : starts (d_qo d) (c :: t) = false) by (apply not_true_iff_false; tauto). rewrite SO.
        destruct (strncmp (c :: t) (d_qc d) (length (d_qc d))) as [b|] eqn:EB; [|discriminate]. cbn [obind].
        destruct (B1 b eq_refl) as (B2 & B3). exists (b =? 0)%Z. split; [auto|]. split.
        + cbn [orb]. destruct (Z.eqb_spec b 0); symmetry; [tauto|]. apply not_true_iff_false. tauto.
        + intros BF k. rewrite A3 by auto. cbn [orb]. apply B3. apply Z.eqb_neq in BF. apply not_true_iff_false. tauto. }
    destruct H as (hit & HE & HH & HK). rewrite HE in E. cbn [obind] in E.
    destruct (find_quotes d t (i + 1)) as [rest|] eqn:ER; [|discriminate]. cbn [obind] in E. injection E as <-.
    destruct (IH (i + 1)%Z rest ER ltac:(lia)) as (D & M & F).
    { intros j H. specialize (P (S j) H). lia. }
    split; [split; [rewrite <- HH; exact HK|exact D]|].
    assert (F' : Forall (fun q => (i <= q < 128)%Z) rest) by (eapply Forall_impl; [|exact F]; cbn; intros; lia).
    cbn [esc mark_quotes]. rewrite <- HH. destruct hit.
    + assert (I1 : (i < 128)%Z). { specialize (P 0). cbn [skipn] in P. rewrite <- HH in P. specialize (P eq_refl). lia. }
      assert (SC : schar i = i). { unfold schar. rewrite Z.mod_small by lia. destruct (Z.ltb_spec i 128); [auto|lia]. }
      rewrite SC. unfold wrap64. rewrite Z.mod_small by (unfold W64; lia). rewrite Z.eqb_refl. rewrite M.
      split; [auto|]. constructor; [lia|exact F'].
    + split; [|exact F']. destruct rest as [|q rest]; [now rewrite M|].
      inversion F as [|q' r' HQ HF]; subst. unfold wrap64. rewrite Z.mod_small by (unfold W64; lia).
      destruct (Z.eqb_spec i q); [lia|]. now rewrite M.
Qed.
Lemma esc_prefix d p : ~ In 92%N p -> forall r k, prefix p (esc d r ++ k) -> prefix p (r ++ k).
Proof.
  induction p as [|a p IH]; intros NI r k H; [now exists (r ++ k)|].
  destruct r as [|c r]; [exact H|]. cbn [esc] in H.
  destruct (marked d (c :: r)).
  - destruct H as (z & H). injection H as H _. exfalso. apply NI. now left.
  - destruct H as (z & H). cbn in H. injection H as <- H.
    destruct (IH (fun X => NI (or_intror X)) r k) as (z' & E); [now exists z|]. exists z'. cbn. now rewrite E.
Qed.
Lemma esc_denotes d t : marks_ok d -> decided d t -> ~ In 92%N t ->
  ~ occurs newline_sign (t ++ d_qc d) -> ~ occurs tab_sign (t ++ d_qc d) ->
  denotes d (d_qc d) (esc d t) t.
Proof.
  intros MO. induction t as [|c t IH]; intros DE NB ON OT; [constructor|].
  destruct DE as (D1 & D2). cbn [esc].
  assert (R : denotes d (d_qc d) (esc d t) t).
  { apply IH; auto; [intros H; apply NB; now right| |]; intros (i & H); [apply ON|apply OT]; now exists (S i). }
  destruct (marked d (c :: t)) eqn:M.
  - apply den_escape; [|exact R]. destruct (mo_first d MO) as (F1 & F2). apply orb_true_iff in M.
    destruct M as [M|M]; apply starts_prefix in M; destruct M as (z & M).
    + pose proof (mo_qo d MO). destruct (d_qo d) as [|a q]; [congruence|]. injection M as <- _. exact F1.
    + pose proof (mo_qc d MO). destruct (d_qc d) as [|a q]; [congruence|]. injection M as <- _. exact F2.
  - apply den_byte; [intros ->; apply NB; now left| |exact R].
    specialize (D1 eq_refl (d_qc d)). unfold marked in D1. apply orb_false_iff in D1. destruct D1 as (D3 & D4).
    apply starts_false in D3, D4.
    assert (X : forall p, ~ In 92%N p -> prefix p (c :: esc d t ++ d_qc d) -> prefix p ((c :: t) ++ d_qc d)).
    { intros p NI H. apply (esc_prefix d p NI (c :: t)). cbn [esc]. rewrite M. exact H. }
    split; [intros H; apply D3, X; [apply (mo_qo_bytes d MO)|exact H]|].
    split; [intros H; apply D4, X; [apply (mo_qc_bytes d MO)|exact H]|].
    split; intros H; [apply ON|apply OT]; exists 0; apply X; auto; cbn; intros N; decompose [or] N; congruence.
Qed.
Lemma upto_nul_id t : no_nul t -> upto_nul t = t.
Proof.
  induction t as [|c t IH]; intros H; [reflexivity|]. cbn. destruct (N.eqb_spec c 0) as [->|]; [elim H; now left|].
  rewrite IH; [auto|]. intros X. apply H. now right.
Qed.
Lemma tok_quote d r : marks_ok d -> lead_ok d -> tok d (d_qo d ++ r) = LOk (TQUOTE, [], r).
Proof.
  intros MO LO. unfold tok. pose proof (mo_qo d MO) as NE.
  assert (PF : prefix (d_qo d) (d_qo d ++ r)) by now exists r.
  pose proof (apart_starts _ _ _ (lo_eol d LO) PF) as E1. pose proof (apart_starts _ _ _ (lo_chain d LO) PF) as E2.
  pose proof (apart_starts _ _ _ (proj1 (lo_assign d LO)) PF) as E3. pose proof (apart_starts _ _ _ (proj2 (lo_assign d LO)) PF) as E4.
  pose proof (apart_starts _ _ _ (lo_return d LO) PF) as E5. pose proof (starts_app (d_qo d) r) as E6.
  assert (E7 : skipn (length (d_qo d)) (d_qo d ++ r) = r) by (rewrite skipn_app, skipn_all, Nat.sub_diag; reflexivity).
  pose proof (lo_byte d LO) as B. destruct (d_qo d ++ r) as [|c q] eqn:EQ; [destruct (d_qo d); [congruence|discriminate]|].
  assert (HD : hd 0%N (d_qo d) = c) by (destruct (d_qo d); [congruence|now injection EQ]).
  rewrite HD in B. cbn [In] in B.
  assert (SK : skip false (c :: q) = c :: q).
  { cbn [skip]. unfold isspace. repeat match goal with |- context[(c =? ?k)%N] => destruct (N.eqb_spec c k) as [X|_]; [elim B; rewrite X; tauto|] end. reflexivity. }
  rewrite SK. cbv zeta. rewrite E1, E2, E3, E4, E5, E6, E7. cbn [andb].
  repeat match goal with |- context[(c =? ?k)%N] => destruct (N.eqb_spec c k) as [X|_]; [elim B; rewrite X; tauto|] end. reflexivity.
Qed.
Lemma esc_length d t : length (esc d t) <= 2 * length t.
Proof. induction t as [|c t IH]; [cbn; lia|]. cbn [esc length]. destruct (marked d (c :: t)); cbn [length]; lia. Qed.
Lemma esc_nonul d t : no_nul t -> no_nul (esc d t).
Proof.
  induction t as [|c t IH]; intros H; [exact H|]. cbn [esc].
  assert (IH' : no_nul (esc d t)) by (apply IH; intros X; apply H; now right).
  assert (C0 : c <> 0%N) by (intros ->; apply H; now left).
  destruct (marked d (c :: t)); intros [X|X]; try congruence; auto; destruct X as [X|X]; try congruence; auto.
Qed.
Lemma code_round_trip d t c : marks_ok d -> lead_ok d -> no_nul t -> ~ In 92%N t ->
  ~ occurs newline_sign (t ++ d_qc d) -> ~ occurs tab_sign (t ++ d_qc d) ->
  (forall m j, is_mark d m -> prefix m (skipn j t) -> j < 128) -> (Z.of_nat (2 * length t) < W64)%Z ->
  string_to_code d t = Ok c ->
  exists src, tok d c = LOk (TQUOTE, [], src) /\ readstr d false src = LOk (t, []).
Proof.
  intros MO LO NN NB ON OT P L E. unfold string_to_code in E.
  destruct (find_quotes d t 0) as [qs|] eqn:FQ; [|discriminate]. cbn [obind] in E. injection E as <-.
  destruct (find_quotes_ok d MO t 0%Z qs FQ) as (D & M & _); [lia| |].
  { intros j H. unfold marked in H. apply orb_true_iff in H. destruct H as [H|H]; apply starts_prefix in H.
    - specialize (P _ j (or_introl eq_refl) H). lia.
    - specialize (P _ j (or_intror eq_refl) H). lia. }
  rewrite M. rewrite upto_nul_id.
  - exists (esc d t ++ d_qc d). split; [now apply tok_quote|].
    rewrite <- (app_nil_r (d_qc d)). apply readstr_literal; [auto| |].
    + rewrite app_nil_r. now apply esc_denotes.
    + pose proof (esc_length d t). lia.
  - intros H. apply in_app_or in H. destruct H as [H|H]; [now apply (mo_qo_bytes d MO)|].
    apply in_app_or in H. destruct H as [H|H]; [now apply (esc_nonul d t)|now apply (mo_qc_bytes d MO)].
Qed.
Lemma code_defined d t : marks_ok d -> ~ broken_end d t -> exists c, string_to_code d t = Ok c.
Proof.
  intros MO NB. assert (NO : no_nul (d_qo d)) by apply (mo_qo_bytes d MO). assert (NC : no_nul (d_qc d)) by apply (mo_qc_bytes d MO).
  assert (F : forall t, ~ broken_end d t -> forall i, exists qs, find_quotes d t i = Ok qs).
  { clear t NB. induction t as [|c t IH]; intros NB i; [eexists; reflexivity|]. cbn [find_quotes].
    destruct (strncmp_decides _ NO (c :: t)) as (_ & [(q & Q & EQ)|(a & ->)]).
    { elim NB. exists (d_qo d), (c :: t), q. split; [now left|]. repeat split; auto; [discriminate|apply suffix_refl]. }
    cbn [obind].
    destruct (strncmp_decides _ NC (c :: t)) as (_ & [(q & Q & EQ)|(b & ->)]).
    { elim NB. exists (d_qc d), (c :: t), q. split; [now right|]. repeat split; auto; [discriminate|apply suffix_refl]. }
    destruct (IH) with (i := (i + 1)%Z) as (qs & ->).
    { intros (m & p & q & IM & EM & NP & NQ & SP). apply NB. exists m, p, q. repeat split; auto.
      eapply suffix_trans; [exact SP|apply suffix_cons]. }
    destruct (a =? 0)%Z; cbn [obind]; eauto. }
  unfold string_to_code. destruct (F t NB 0%Z) as (qs & ->). cbn. eauto.
Qed.

(** ** Literals never leave their buffer *)
Lemma str_loop_safe d verb : 1 <= length (d_qo d) <= 10 -> 1 <= length (d_qc d) <= 10 ->
  forall fuel code out block nest (esc : bool), length out + 10 + (if esc then 0 else 1) <= block ->
  exists o rest, str_loop d verb fuel code out block nest esc = LOk (o, rest) /\ suffix rest code /\
    length o + length rest <= length out + length code.
Proof.
  intros LO LC. induction fuel as [|f IH]; intros code out block nest esc B.
  - exists out, code. repeat split; auto using suffix_refl.
  - destruct code as [|c r]; [exists out, []; repeat split; auto using suffix_refl|].
    cbn [str_loop]. destruct (length (c :: r) <=? length (d_qc d)); [exists out, (c :: r); repeat split; auto using suffix_refl|].
    destruct (_ && _ && _); [exists out, (c :: r); repeat split; auto using suffix_refl|].
    assert (NX : forall code' s nest', 1 <= length s <= 10 -> suffix code' r -> length s + length code' <= S (length r) ->
      exists o rest, (lx out1 <- emit out block s; str_loop d verb f code' out1 (grow out1 block) nest' false) = LOk (o, rest) /\
        suffix rest (c :: r) /\ length o + length rest <= length out + length (c :: r)).
    { intros code' s nest' L SF LL. unfold emit. destruct (Nat.leb_spec (length out + length s) block); [|destruct esc; lia]. cbn [lbind].
      destruct (IH code' (out ++ s) (grow (out ++ s) block) nest' false) as (o & rest & E & S1 & L1).
      - unfold grow. rewrite app_length. destruct (Nat.leb_spec block (length out + length s + 10)); lia.
      - exists o, rest. rewrite app_length in L1. split; [auto|]. split; [|cbn; lia].
        eapply suffix_trans; [exact S1|]. eapply suffix_trans; [exact SF|]. apply suffix_cons. }
    assert (SKN : forall n, 1 <= n -> suffix (skipn n (c :: r)) r).
    { intros n N1. destruct n as [|n]; [lia|]. apply (suffix_skipn n r). }
    assert (STL : forall p, starts p (c :: r) = true -> length p + length (skipn (length p) (c :: r)) <= S (length r)).
    { intros p H. apply starts_prefix in H. destruct H as (z & E). rewrite skipn_length.
      assert (length (c :: r) = length p + length z) by (rewrite E, app_length; auto). cbn [length] in *. lia. }
    destruct ((c =? 92)%N && negb esc) eqn:BS.
    + apply andb_true_iff in BS. destruct BS as (_ & BE). destruct esc; [discriminate|].
      destruct verb.
      * unfold emit. cbn [length]. destruct (Nat.leb_spec (length out + 1) block); [|lia]. cbn [lbind].
        destruct (IH r (out ++ [92%N]) block nest true) as (o & rest & E & S1 & L1).
        { rewrite app_length. cbn. lia. }
        exists o, rest. rewrite app_length in L1. cbn [length] in *. split; [auto|]. split; [|lia].
        eapply suffix_trans; [exact S1|apply suffix_cons].
      * cbn [lbind]. destruct (IH r out block nest true) as (o & rest & E & S1 & L1); [lia|].
        exists o, rest. split; [auto|]. split; [|cbn; lia]. eapply suffix_trans; [exact S1|apply suffix_cons].
    + cbv zeta. destruct esc; [apply NX; cbn; auto using suffix_refl; lia|].
      destruct (negb verb && starts newline_sign (c :: r)) eqn:E1.
      { apply andb_true_iff in E1. destruct E1 as (_ & E1). apply NX; [cbn; lia|refine (SKN 3 _); lia|].
        pose proof (STL _ E1). cbn [length newline_sign] in *. lia. }
      destruct (negb verb && starts tab_sign (c :: r)) eqn:E2.
      { apply andb_true_iff in E2. destruct E2 as (_ & E2). apply NX; [cbn; lia|refine (SKN 3 _); lia|].
        pose proof (STL _ E2). cbn [length tab_sign] in *. lia. }
      destruct (starts (d_qc d) (c :: r)) eqn:E3; [apply NX; [lia|apply SKN; lia|now apply STL]|].
      destruct (starts (d_qo d) (c :: r)) eqn:E4; [apply NX; [lia|apply SKN; lia|now apply STL]|].
      apply NX; cbn; auto using suffix_refl; lia.
Qed.
Lemma readstr_safe d verb code : 1 <= length (d_qo d) <= 10 -> 1 <= length (d_qc d) <= 10 ->
  exists v rest, readstr d verb code = LOk (v, rest) /\ suffix rest code /\ length v + length rest <= length code.
Proof.
  intros LO LC. unfold readstr.
  destruct (str_loop_safe d verb LO LC (length code) code [] 100 0%Z false) as (o & rest & E & S1 & L1); [cbn; lia|].
  rewrite E. cbn [lbind]. eexists _, _. split; [reflexivity|].
  destruct (length (d_qc d) <=? length rest); [|split; [auto|cbn in L1; lia]].
  split; [eapply suffix_trans; [apply suffix_skipn|exact S1]|]. rewrite skipn_length. cbn in L1. lia.
Qed.
