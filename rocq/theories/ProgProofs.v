(** Proofs about the Program object. *)
From Coq Require Import Lia QArith.
From Verif Require Import Common NumModel JsonModel FileModel FloatSpec NumSpec FileSpec ProgModel ProgSpec NumProofs NumFacts TextProofs FileProofs.
Local Open Scope Z_scope.

Lemma uint64_whole : forall x n, finite x -> (SF2Q x == inject_Z n)%Q -> 0 <= n < W64 -> c_uint64 x = Ok n.
Proof.
  intros x n F V R. unfold c_uint64. rewrite (trunc_whole x n F V).
  replace (0 <=? n) with true by (symmetry; apply Z.leb_le; lia).
  replace (n <? W64) with true by (symmetry; apply Z.ltb_lt; lia). reflexivity.
Qed.
Theorem memlimit_exact : forall x n u k, finite x -> (SF2Q x == inject_Z n)%Q -> 0 <= n ->
  unit_bytes u k -> u <> Some [71; 66]%N -> n * k < W64 -> setmemlimit x u = Ok (n * k).
Proof.
  intros x n u k F V N0 U Ng L. assert (K1 : 1 <= k) by (destruct U; lia). assert (n < W64) by nia.
  unfold setmemlimit. rewrite (uint64_whole x n F V) by lia. cbn [obind].
  destruct U; [| | |congruence].
  - now rewrite Z.mul_1_r.
  - change (Nat.eqb (length [75%N; 66%N]) 2) with true. change (text_eqb [75%N; 66%N] [75%N; 66%N]) with true. cbv iota.
    rewrite Z.mod_small by lia. reflexivity.
  - change (Nat.eqb (length [77%N; 66%N]) 2) with true. change (text_eqb [77%N; 66%N] [75%N; 66%N]) with false.
    change (text_eqb [77%N; 66%N] [77%N; 66%N]) with true. cbv iota.
    rewrite Z.mod_small by lia. reflexivity.
Qed.
(** Whatever the unit, the limit is a value of its type. *)
Theorem memlimit_range : forall x u l, setmemlimit x u = Ok l -> 0 <= l < W64.
Proof.
  intros x u l. unfold setmemlimit, c_uint64. destruct (trunc x) as [z|]; [|discriminate].
  destruct ((0 <=? z) && (z <? W64))%bool eqn:E; [|discriminate]. cbn [obind]. apply andb_prop in E as [E1 E2].
  apply Z.leb_le in E1. apply Z.ltb_lt in E2. intros H.
  assert (M : forall a, 0 <= a mod W64 < W64) by (intros; apply Z.mod_pos_bound; reflexivity).
  destruct u as [u|]; [|injection H as <-; lia].
  destruct (Nat.eqb (length u) 2); [|injection H as <-; lia].
  destruct (text_eqb u [75; 66]%N); [injection H as <-; apply M|].
  destruct (text_eqb u [77; 66]%N); injection H as <-; [apply M|lia].
Qed.

Lemma atoi_written : forall t n, in_digits t n -> n <= INT_MAX -> atoi t = Ok n.
Proof.
  intros t n (Ne & D & V) L. unfold atoi.
  destruct t as [|c t]; [contradiction|]. inversion D as [|? ? D1 D2]; subst. unfold digit in D1.
  assert (S1 : skip_space (c :: t) = c :: t).
  { cbn [skip_space]. replace ((9 <=? c) && (c <=? 13) || (c =? 32))%N with false; [reflexivity|].
    symmetry. apply Bool.orb_false_iff. split; [apply Bool.andb_false_iff; right; apply N.leb_gt; lia|apply N.eqb_neq; lia]. }
  rewrite S1. cbn [take_sign]. unfold cminus.
  replace (c =? 45)%N with false by (symmetry; apply N.eqb_neq; lia).
  replace (c =? 43)%N with false by (symmetry; apply N.eqb_neq; lia).
  pose proof (span_digits_app (c :: t) [] D I) as S2. rewrite app_nil_r in S2. rewrite S2. cbn [fst].
  rewrite digits_val_dvalue by exact D. cbn [cond_Zopp].
  assert (0 <= dvalue (c :: t)) by (rewrite <- digits_val_dvalue by exact D; lia).
  replace (in_int (dvalue (c :: t))) with true; [reflexivity|].
  symmetry. unfold in_int. apply andb_true_intro. split; apply Z.leb_le; unfold INT_MAX in *; lia.
Qed.
Theorem startup_exact : forall lt mt st l m s, or_default lt 10 l -> or_default mt 1 m -> or_default st 2 s ->
  0 <= l <= 2147 -> 0 <= m <= INT_MAX -> 1 <= s <= 127 ->
  startup lt mt st = Ok (l * 1000000, m, if Z.testbit m 3 then Some (l * 1000000 / s) else None).
Proof.
  intros lt mt st l m s Hl Hm Hs Ll Lm Ls. unfold startup.
  assert (E1 : (match lt with None => Ok 10000000
     | Some t => do n <- atoi t; if in_int (n * 1000000) then Ok ((n * 1000000) mod W64) else UB end) = Ok (l * 1000000)).
  { destruct lt as [t|]; cbn in Hl; [|subst; reflexivity].
    rewrite (atoi_written t l Hl) by (unfold INT_MAX; lia). cbn [obind].
    replace (in_int (l * 1000000)) with true.
    - rewrite Z.mod_small by (unfold W64; lia). reflexivity.
    - symmetry. unfold in_int. apply andb_true_intro. split; apply Z.leb_le; unfold INT_MAX; lia. }
  rewrite E1. cbn [obind].
  assert (E2 : (match mt with None => Ok 1 | Some t => atoi t end) = Ok m).
  { destruct mt as [t|]; cbn in Hm; [|subst; reflexivity]. apply atoi_written; [exact Hm|lia]. }
  rewrite E2. cbn [obind].
  assert (E3 : (match st with None => Ok 2 | Some t => do n <- atoi t; Ok (c_char n) end) = Ok s).
  { destruct st as [t|]; cbn in Hs; [|subst; reflexivity]. rewrite (atoi_written t s Hs) by (unfold INT_MAX; lia). cbn [obind].
    unfold c_char. f_equal. rewrite Z.mod_small by lia. lia. }
  rewrite E3. cbn [obind].
  assert (B : (Z.land m 8 =? 0) = negb (Z.testbit m 3)).
  { destruct (Z.testbit m 3) eqn:T.
    - apply Z.eqb_neq. intros H. assert (Z.testbit (Z.land m 8) 3 = Z.testbit 0 3) by now rewrite H.
      rewrite Z.land_spec, T, Z.bits_0 in H0. discriminate.
    - apply Z.eqb_eq. apply Z.bits_inj'. intros i Hi. rewrite Z.land_spec, Z.bits_0.
      destruct (Z.eq_dec i 3) as [->|Ni]; [now rewrite T|]. change 8 with (2 ^ 3). rewrite Z.pow2_bits_false by lia. apply Bool.andb_false_r. }
  rewrite B. destruct (Z.testbit m 3); cbn [negb]; [|reflexivity].
  replace (s =? 0) with false by (symmetry; apply Z.eqb_neq; lia).
  rewrite (Z.mod_small s) by (unfold W64; lia). reflexivity.
Qed.

(** * Arguments *)
Theorem argument_at : forall argv x n, finite x -> (SF2Q x == inject_Z (Z.of_nat n))%Q -> Z.of_nat n <= INT_MAX ->
  Z.of_nat (length argv) <= INT_MAX ->
  program_argument argv x = Ok (match n with O => None | S k => nth_error argv k end).
Proof.
  intros argv x n F V L La. unfold program_argument. rewrite (c_int_trunc x (Z.of_nat n) F).
  - cbn [obind]. destruct n as [|k].
    + change (Z.of_nat 0 <? 1) with true. now rewrite Bool.orb_true_r.
    + replace (Z.of_nat (S k) <? 1) with false by (symmetry; apply Z.ltb_ge; lia). rewrite Bool.orb_false_r.
      destruct (Z.ltb_spec (Z.of_nat (length argv)) (Z.of_nat (S k))) as [H|H].
      * f_equal. symmetry. apply nth_error_None. lia.
      * replace (Z.to_nat (Z.of_nat (S k) - 1)) with k by lia.
        destruct (nth_error argv k) eqn:E; [reflexivity|]. apply nth_error_None in E. lia.
  - destruct (trunc_spec x F) as (z & E & T). rewrite (trunc_whole x _ F V) in E. injection E as <-. exact T.
  - split; unfold INT_MAX in *; lia.
Qed.
Theorem argument_safe : forall argv x n, c_int x = Ok n -> exists r, program_argument argv x = Ok r /\
  (n < 1 \/ Z.of_nat (length argv) < n <-> r = None).
Proof.
  intros argv x n E. unfold program_argument. rewrite E. cbn [obind].
  destruct ((Z.of_nat (length argv) <? n) || (n <? 1))%bool eqn:B.
  - exists None. split; [reflexivity|]. apply Bool.orb_true_iff in B as [B|B]; apply Z.ltb_lt in B; tauto.
  - apply Bool.orb_false_iff in B as [B1 B2]. apply Z.ltb_ge in B1, B2.
    destruct (nth_error argv (Z.to_nat (n - 1))) as [t|] eqn:N; [|apply nth_error_None in N; lia].
    exists (Some t). split; [reflexivity|]. split; [lia|discriminate].
Qed.

Local Open Scope nat_scope.
(** * Environment *)
Lemma entry_of_entry : forall n m v, ~ In 61%N n -> ~ In 61%N m ->
  entry_of n (m ++ 61%N :: v) = if list_eq_dec N.eq_dec n m then Some v else None.
Proof.
  intros n m v Hn Hm. unfold entry_of.
  revert m Hm. induction n as [|c n IH]; intros m Hm.
  - cbn. destruct m as [|d m]; cbn.
    + reflexivity.
    + destruct (N.eqb_spec d 61) as [->|]; [destruct Hm; now left|]. destruct (list_eq_dec N.eq_dec [] (d :: m)); [discriminate|reflexivity].
  - destruct m as [|d m].
    + cbn [app length firstn skipn]. cbn [text_eqb].
      destruct (list_eq_dec N.eq_dec (c :: n) []); [discriminate|].
      replace (61 =? c)%N with false; [reflexivity|]. symmetry. apply N.eqb_neq. intros <-. apply Hn. now left.
    + cbn [app length firstn skipn]. cbn [text_eqb].
      destruct (N.eqb_spec d c) as [->|Ne]; cbn [andb].
      * rewrite IH; [|intros H; apply Hn; now right|intros H; apply Hm; now right].
        destruct (list_eq_dec N.eq_dec n m) as [E0|Ne]; destruct (list_eq_dec N.eq_dec (c :: n) (c :: m)) as [E|E]; try congruence.
      * destruct (list_eq_dec N.eq_dec (c :: n) (d :: m)) as [E|E]; [congruence|reflexivity].
Qed.
(** An entry found under a name without an equals sign is that name's entry. *)
Lemma entry_of_inv : forall n e v, entry_of n e = Some v -> e = n ++ 61%N :: v.
Proof.
  intros n e v. unfold entry_of. destruct (text_eqb (firstn (length n) e) n) eqn:E; [|discriminate].
  apply text_eqb_eq in E. destruct (skipn (length n) e) as [|c r] eqn:S; [discriminate|].
  destruct (N.eqb_spec c 61) as [->|]; [|discriminate]. intros H. injection H as <-.
  rewrite <- (firstn_skipn (length n) e) at 1. now rewrite S, E.
Qed.
Lemma getenv_set_same : forall env n v, ~ In 61%N n -> getenv (replace_env env n v) n = Some v.
Proof.
  intros env n v Hn.
  assert (X : entry_of n (n ++ 61%N :: v) = Some v).
  { rewrite entry_of_entry by assumption. destruct (list_eq_dec N.eq_dec n n); [reflexivity|contradiction]. }
  induction env as [|e env IH]; cbn [replace_env getenv].
  - now rewrite X.
  - destruct (entry_of n e) eqn:E; cbn [getenv]; [now rewrite X|]. now rewrite E.
Qed.
Lemma getenv_set_other : forall env n m v, ~ In 61%N n -> ~ In 61%N m -> m <> n ->
  getenv (replace_env env n v) m = getenv env m.
Proof.
  intros env n m v Hn Hm D.
  assert (X : forall u, entry_of m (n ++ 61%N :: u) = None).
  { intros u. rewrite entry_of_entry by assumption. destruct (list_eq_dec N.eq_dec m n); [contradiction|reflexivity]. }
  induction env as [|e env IH]; cbn [replace_env getenv].
  - now rewrite X.
  - destruct (entry_of n e) as [u|] eqn:E; cbn [getenv].
    + apply entry_of_inv in E. subst e. now rewrite !X.
    + now rewrite IH.
Qed.
Lemma getenv_unset : forall env n m, ~ In 61%N n -> ~ In 61%N m ->
  getenv (filter (fun e => match entry_of n e with Some _ => false | None => true end) env) m =
  if list_eq_dec N.eq_dec m n then None else getenv env m.
Proof.
  intros env n m Hn Hm. induction env as [|e env IH]; cbn [filter getenv].
  - now destruct (list_eq_dec N.eq_dec m n).
  - destruct (entry_of n e) as [u|] eqn:E; cbn [getenv].
    + rewrite IH. destruct (list_eq_dec N.eq_dec m n) as [->|Ne]; [reflexivity|].
      apply entry_of_inv in E. subst e. rewrite entry_of_entry by assumption.
      destruct (list_eq_dec N.eq_dec m n); [contradiction|reflexivity].
    + rewrite IH. destruct (list_eq_dec N.eq_dec m n) as [->|Ne]; [now rewrite E|reflexivity].
Qed.
Lemma good_not_bad : forall n, good_name n -> bad_name n = false.
Proof.
  intros [|c n] (Ne & No & _); [contradiction|]. unfold bad_name.
  destruct (existsb (N.eqb 61) (c :: n)) eqn:E; [|reflexivity].
  apply existsb_exists in E as (x & I & E). apply N.eqb_eq in E. subst. contradiction.
Qed.
Lemma get_good : forall env n, good_name n -> program_get_env env n = getenv env n.
Proof.
  intros env n (Ne & _ & F). unfold program_get_env. rewrite until_free by exact F. destruct n; [contradiction|reflexivity].
Qed.
Lemma set_good : forall env n v m, good_setting (n, v) -> good_name m ->
  program_get_env (program_set_env env n v) m = if list_eq_dec N.eq_dec m n then v else program_get_env env m.
Proof.
  intros env n v m [Gn Gv] Gm. cbn [fst snd] in *. rewrite !get_good by assumption.
  pose proof (good_not_bad n Gn) as B. destruct Gn as (Ne & No & Fn). destruct Gm as (_ & Mo & _).
  unfold program_set_env. rewrite (cstring_free n Fn). destruct v as [v|].
  - rewrite (cstring_free v Gv). unfold setenv. rewrite B.
    destruct (list_eq_dec N.eq_dec m n) as [->|D]; [now apply getenv_set_same|now apply getenv_set_other].
  - unfold unsetenv. rewrite B. now apply getenv_unset.
Qed.
Theorem settings_history : forall hist env m, Forall good_setting hist -> good_name m ->
  program_get_env (fold_left (fun e nv => program_set_env e (fst nv) (snd nv)) hist env) m =
  fold_left (fun s nv => stored s (fst nv) (snd nv)) hist (program_get_env env) m.
Proof.
  intros hist. assert (G : forall hist env s, Forall good_setting hist ->
    (forall m, good_name m -> program_get_env env m = s m) -> forall m, good_name m ->
    program_get_env (fold_left (fun e nv => program_set_env e (fst nv) (snd nv)) hist env) m =
    fold_left (fun s nv => stored s (fst nv) (snd nv)) hist s m).
  { clear hist. induction hist as [|[n v] hist IH]; intros env s F E m Gm; cbn [fold_left fst snd].
    - now apply E.
    - inversion F; subst. apply IH; auto. intros k Gk. rewrite set_good by assumption. unfold stored.
      destruct (list_eq_dec N.eq_dec k n); [reflexivity|now apply E]. }
  intros env m F Gm. now apply G.
Qed.

(** * Reading *)
Lemma ask_run : forall fuel inp i page buf k, length buf < page ->
  (forall j, i <= j < i + k -> inp j <> 10%Z) ->
  (fuel <= k -> ask_loop fuel inp i page buf = Ok None) /\
  (k < fuel -> inp (i + k) = 10%Z ->
   ask_loop fuel inp i page buf = Ok (Some (buf ++ map (fun j => Z.to_N (inp j mod 256)%Z) (seq i k)))).
Proof.
  induction fuel as [|f IH]; intros inp i page buf k L Q.
  - split; [reflexivity|lia].
  - cbn [ask_loop]. replace (page <=? length buf) with false by (symmetry; apply Nat.leb_gt; lia).
    destruct k as [|k].
    + split; [lia|]. intros _ E. rewrite Nat.add_0_r in E. rewrite E. cbn. now rewrite app_nil_r.
    + assert (Ni : (inp i =? 10)%Z = false) by (apply Z.eqb_neq, Q; lia). rewrite Ni.
      specialize (IH inp (S i) (if page <=? length (buf ++ [Z.to_N (inp i mod 256)]) then page * 2 else page)
        (buf ++ [Z.to_N (inp i mod 256)]) k).
      destruct IH as [I1 I2].
      { rewrite app_length. cbn [length]. destruct (Nat.leb_spec page (length buf + 1)); lia. }
      { intros j Hj. apply Q. lia. }
      split; intros H.
      * apply I1. lia.
      * intros E. rewrite I2; [|lia|replace (S i + k) with (i + S k) by lia; exact E].
        cbn [seq map]. rewrite <- app_assoc. reflexivity.
Qed.
Theorem ask_line : forall inp line rest fuel, Forall (fun c => (c < 256)%N /\ c <> 10%N) line ->
  (forall j, j < length (line ++ 10%N :: rest) -> inp j = Z.of_N (nth j (line ++ 10%N :: rest) 0%N)) ->
  length line < fuel -> program_ask fuel inp = Ok (Some line).
Proof.
  intros inp line rest fuel F E L. unfold program_ask.
  assert (El : forall j, j < length line -> inp j = Z.of_N (nth j line 0%N)).
  { intros j Hj. rewrite E by (rewrite app_length; lia). now rewrite app_nth1. }
  destruct (ask_run fuel inp 0 10 [] (length line)) as [_ A].
  { cbn. lia. }
  { intros j Hj. rewrite El by lia. rewrite Forall_forall in F.
    destruct (F (nth j line 0%N)) as [_ H]; [apply nth_In; lia|]. lia. }
  rewrite A; [|exact L|].
  - cbn [app]. do 2 f_equal. clear A E L. apply nth_ext with (d := 0%N) (d' := 0%N).
    + now rewrite map_length, seq_length.
    + intros j Hj. rewrite map_length, seq_length in Hj.
      rewrite nth_indep with (d' := (fun j => Z.to_N (inp j mod 256)%Z) 0) by (now rewrite map_length, seq_length).
      rewrite (map_nth (fun j => Z.to_N (inp j mod 256)%Z)). rewrite seq_nth by exact Hj. cbn [Nat.add]. rewrite El by exact Hj. rewrite Forall_forall in F.
      destruct (F (nth j line 0%N)) as [H _]; [apply nth_In; lia|]. rewrite Z.mod_small by lia. apply N2Z.id.
  - cbn [Nat.add]. rewrite E by (rewrite app_length; cbn; lia). rewrite app_nth2 by lia. now rewrite Nat.sub_diag.
Qed.
Theorem ask_never : forall inp fuel, (forall j, inp j <> 10%Z) -> program_ask fuel inp = Ok None.
Proof.
  intros inp fuel Q. unfold program_ask. destruct (ask_run fuel inp 0 10 [] fuel) as [A _]; [cbn; lia|auto|]. apply A. lia.
Qed.

Lemma input_run : forall fuel inp content, length inp < fuel -> input_loop fuel inp content = Some (content ++ inp).
Proof.
  induction fuel as [|f IH]; intros inp content L; [lia|]. cbn [input_loop].
  destruct (Nat.eqb_spec (length (firstn 64 inp)) 64) as [E|E]; cbn [negb].
  - rewrite firstn_length in E. rewrite IH.
    + rewrite <- app_assoc, firstn_skipn. reflexivity.
    + rewrite skipn_length. lia.
  - rewrite firstn_length in E. rewrite firstn_all2 by lia. reflexivity.
Qed.
Theorem input_all : forall inp t, chomped inp t -> program_input inp = Some t.
Proof.
  intros inp t C. unfold program_input. rewrite input_run by lia. cbn [app]. f_equal. destruct C as [t|t H].
  - rewrite app_length. cbn [length]. replace (length t + 1 - 1) with (length t) by lia.
    rewrite app_nth2 by lia. rewrite Nat.sub_diag. cbn [nth]. rewrite N.eqb_refl, Bool.andb_true_r.
    replace (0 <? length t + 1) with true by (symmetry; apply Nat.ltb_lt; lia).
    rewrite firstn_app, Nat.sub_diag, firstn_all. cbn [firstn]. apply app_nil_r.
  - destruct t as [|c t'] using rev_ind; [reflexivity|]. clear IHt'.
    rewrite app_length. cbn [length]. replace (length t' + 1 - 1) with (length t') by lia.
    rewrite app_nth2 by lia. rewrite Nat.sub_diag. cbn [nth].
    destruct (N.eqb_spec c 10) as [->|]; [now destruct (H t')|]. now rewrite Bool.andb_false_r.
Qed.

Lemma fgets_app : forall n inp, let (a, b) := fgets n inp in a ++ b = inp.
Proof.
  induction n as [|n IH]; intros inp; [reflexivity|]. destruct inp as [|c r]; [reflexivity|]. cbn [fgets].
  destruct (c =? 10)%N; [reflexivity|]. specialize (IH r). destruct (fgets n r) as [a b]. cbn. now rewrite IH.
Qed.
Lemma fgets_some : forall n c r, fst (fgets (S n) (c :: r)) <> [].
Proof. intros n c r. cbn [fgets]. destruct (c =? 10)%N; [discriminate|]. destruct (fgets n r). discriminate. Qed.
Lemma shell_run : forall fuel out acc, length out < fuel -> nul_free out -> shell_loop fuel out acc = Some (acc ++ out).
Proof.
  induction fuel as [|f IH]; intros out acc L F; [lia|]. cbn [shell_loop].
  pose proof (fgets_app 511 out) as A. destruct out as [|c out].
  - cbn. now rewrite app_nil_r.
  - pose proof (fgets_some 510 c out) as S. destruct (fgets 511 (c :: out)) as [l r]. cbn [fst] in S.
    destruct l as [|d l]; [contradiction|]. cbv iota.
    assert (Fl : nul_free (d :: l)) by (intros H; apply F; rewrite <- A; apply in_or_app; now left).
    assert (Fr : nul_free r) by (intros H; apply F; rewrite <- A; apply in_or_app; now right).
    rewrite until_free by exact Fl. rewrite IH.
    + rewrite <- app_assoc, A. reflexivity.
    + assert (X : length ((d :: l) ++ r) = length (c :: out)) by now rewrite A. rewrite app_length in X. cbn [length] in *. lia.
    + exact Fr.
Qed.
Theorem shell_output : forall popen cmd out, nul_free cmd -> popen cmd = Some out -> nul_free out ->
  program_shell popen cmd = Ok (Some out).
Proof.
  intros popen cmd out Fc E Fo. unfold program_shell. rewrite (until_free cmd Fc), E. f_equal. now rewrite shell_run by (try lia; assumption).
Qed.
