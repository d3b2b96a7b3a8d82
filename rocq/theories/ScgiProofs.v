(** Proofs about the SCGI server (model: ScgiModel). *)
From Coq Require Import ZArith Lia Permutation.
From Verif Require Import Common NumModel CodecSpec CodecModel CodecProofs CodecMore ScgiSpec ScgiModel.
Local Open Scope Z_scope.
Local Notation length := List.length.

(** ** Reading the environment *)
Lemma isdigit_ok c : isdigit c = true <-> is_digit c.
Proof. unfold isdigit, is_digit. rewrite Bool.andb_true_iff, N.leb_le, N.leb_le. tauto. Qed.
Lemma value_ge : forall ds acc, 0 <= acc -> Forall is_digit ds -> acc <= value acc ds.
Proof.
  induction ds as [|d ds IH]; intros acc A F; cbn [value]; [lia|]. inversion F; subst. unfold is_digit in *.
  specialize (IH (acc * 10 + (Z.of_N d - 48))). assert (0 <= acc * 10 + (Z.of_N d - 48)) by lia. specialize (IH H H2). lia.
Qed.
Lemma read_len_ok : forall ds acc c r, 0 <= acc -> Forall is_digit ds -> value acc ds <= 2147483599 -> ~ is_digit c ->
  read_len acc (ds ++ c :: r) = Ok (value acc ds, Some c, r).
Proof.
  induction ds as [|d ds IH]; intros acc c r A F V C; cbn [app read_len value].
  - destruct (isdigit c) eqn:E; [apply isdigit_ok in E; tauto|reflexivity].
  - inversion F as [|? ? D F']; subst. rewrite (proj2 (isdigit_ok d) D).
    assert (0 <= acc * 10 + (Z.of_N d - 48)) by (unfold is_digit in D; lia).
    pose proof (value_ge ds _ H F'). cbn [value] in V.
    assert (I : NumModel.in_int (acc * 10 + Z.of_N d) = true). { unfold NumModel.in_int, INT_MAX. apply Bool.andb_true_iff. split; apply Z.leb_le; lia. }
    rewrite I. replace (acc * 10 + Z.of_N d - 48) with (acc * 10 + (Z.of_N d - 48)) by lia. apply IH; assumption.
Qed.
Definition eq_of (p : text * text) : text := fst p ++ 61%N :: snd p.
Lemma mark_plain : forall n k r, ~ In 0%N n -> mark k (n ++ r) = (n ++ fst (mark k r), snd (mark k r)).
Proof.
  induction n as [|c n IH]; intros k r N; cbn [app mark]. { destruct (mark k r); reflexivity. }
  destruct (N.eqb_spec c 0); [exfalso; apply N; left; congruence|]. rewrite IH by (intros I; apply N; right; exact I). destruct (mark k r); reflexivity.
Qed.
Lemma odd_2 n : Nat.odd (2 * n) = false.
Proof. rewrite Nat.odd_mul. reflexivity. Qed.
Lemma mark_sent : forall v m, sendable v -> mark (2 * m) (sent v) = (flat_map (fun p => eq_of p ++ [0%N]) v, (2 * (m + length v))%nat).
Proof.
  induction v as [|(n, x) v IH]; intros m SV.
  { change (mark (2 * m) (sent [])) with (@nil N, (2 * m)%nat). cbn [flat_map length]. do 2 f_equal. lia. }
  inversion SV as [|? ? (S1 & S2) S']; subst. cbn [fst snd] in *. unfold sent. cbn [flat_map fst snd].
  rewrite <- app_assoc. rewrite mark_plain by exact S1. cbn [app mark N.eqb].
  rewrite <- app_assoc. rewrite mark_plain by exact S2. cbn [app mark N.eqb].
  fold (sent v). replace (S (S (2 * m)))%nat with (2 * (m + 1))%nat by lia. rewrite IH by exact S'. cbn [fst snd].
  replace (Nat.odd (S (2 * m))) with true by (rewrite Nat.odd_succ, Nat.even_mul; reflexivity).
  rewrite odd_2. cbn [fst snd]. f_equal; [|cbn [length]; lia].
  unfold eq_of. cbn [fst snd]. rewrite <- !app_assoc. cbn [app]. rewrite <- ?app_assoc. reflexivity.
Qed.
Lemma entries_plain size : forall n r cur env, ~ In 0%N n -> entries size (n ++ r) cur env = entries size r (cur ++ n) env.
Proof.
  induction n as [|c n IH]; intros r cur env N; cbn [app entries]; [now rewrite app_nil_r|].
  destruct (N.eqb_spec c 0); [exfalso; apply N; left; congruence|]. rewrite IH by (intros I; apply N; right; exact I). now rewrite <- app_assoc.
Qed.
Lemma entries_ok size : forall v env, sendable v -> (length env + length v < size)%nat ->
  entries size (flat_map (fun p => eq_of p ++ [0%N]) v) [] env = Ok (env ++ map eq_of v).
Proof.
  induction v as [|(n, x) v IH]; intros env S L; cbn [flat_map map].
  { cbn [entries]. cbn [length] in L. destruct (Nat.ltb_spec (length env) size); [now rewrite app_nil_r|lia]. }
  inversion S as [|? ? (S1 & S2) S']; subst. cbn [fst snd length] in *. rewrite <- app_assoc. cbn [app].
  rewrite entries_plain. 2:{ unfold eq_of. cbn [fst snd]. rewrite in_app_iff. intros [I|[I|I]]; [exact (S1 I)|discriminate|exact (S2 I)]. }
  cbn [app entries N.eqb]. destruct (Nat.ltb_spec (length env) size); [|lia].
  rewrite IH by (try assumption; rewrite app_length; cbn [length]; lia). now rewrite <- app_assoc.
Qed.
Lemma firstn_here {A} (a b : list A) : firstn (length a) (a ++ b) = a.
Proof. rewrite firstn_app, Nat.sub_diag, firstn_all. cbn. apply app_nil_r. Qed.
Lemma skipn_here {A} (a b : list A) : skipn (length a) (a ++ b) = b.
Proof. rewrite skipn_app, Nat.sub_diag, skipn_all. reflexivity. Qed.
Lemma read_env_ok ds v body : sendable v -> numeral ds (Z.of_nat (length (sent v))) -> 4 <= Z.of_nat (length (sent v)) <= 2147483599 ->
  read_env (request ds v body) = Ok (Some (map eq_of v), body).
Proof.
  intros S (D & V) L. unfold read_env, request. rewrite read_len_ok; try assumption; try lia. 2:{ unfold is_digit. lia. }
  cbn [obind]. rewrite V. destruct (Z.ltb_spec (Z.of_nat (length (sent v))) 4); [lia|]. rewrite Nat2Z.id.
  destruct (Nat.ltb_spec (length (sent v ++ 44%N :: body)) (length (sent v))). { rewrite app_length in *. lia. }
  rewrite firstn_here, skipn_here. pose proof (mark_sent v 0 S) as M. cbn [Nat.mul Nat.add] in M.
  change (0 + 0)%nat with 0%nat in M. rewrite M.
  rewrite entries_ok; [reflexivity|exact S|].
  cbn [length]. replace (length v + (length v + 0))%nat with (length v * 2)%nat by lia. rewrite Nat.div_mul by discriminate. lia.
Qed.
(** all inputs *)
Fixpoint zeros (b : text) : nat := match b with [] => O | c :: r => ((if (c =? 0)%N then 1 else 0) + zeros r)%nat end.
Lemma half_succ k : Nat.div (S k) 2 = (Nat.div k 2 + (if Nat.odd (S k) then 0 else 1))%nat.
Proof.
  destruct (Nat.Even_or_Odd k) as [(m & ->)|(m & ->)].
  - replace (Nat.odd (S (2 * m))) with true by (rewrite Nat.odd_succ, Nat.even_mul; reflexivity).
    replace (S (2 * m)) with (1 + m * 2)%nat by lia. rewrite Nat.div_add by discriminate. replace (2 * m)%nat with (m * 2)%nat by lia. rewrite Nat.div_mul by discriminate. change (1 / 2)%nat with 0%nat. lia.
  - replace (S (2 * m + 1)) with (2 * (m + 1))%nat by lia. rewrite odd_2. replace (2 * (m + 1))%nat with ((m + 1) * 2)%nat by lia. rewrite Nat.div_mul by discriminate.
    replace (2 * m + 1)%nat with (1 + m * 2)%nat by lia. rewrite Nat.div_add by discriminate. change (1 / 2)%nat with 0%nat. lia.
Qed.
Lemma mark_zeros : forall b k, (zeros (fst (mark k b)) + Nat.div k 2 = Nat.div (snd (mark k b)) 2)%nat.
Proof.
  induction b as [|c b IH]; intros k; cbn [mark]; [reflexivity|]. destruct (N.eqb_spec c 0).
  - specialize (IH (S k)). destruct (mark (S k) b) as [r n] eqn:E. cbn [fst snd] in *. rewrite half_succ in IH.
    destruct (Nat.odd (S k)); cbn [zeros N.eqb]; lia.
  - specialize (IH k). destruct (mark k b) as [r m] eqn:E. cbn [fst snd zeros] in *. destruct (N.eqb_spec c 0); [contradiction|]. exact IH.
Qed.
Lemma entries_safe size : forall b cur env, (length env + zeros b < size)%nat -> exists e, entries size b cur env = Ok e /\ length e = (length env + zeros b)%nat.
Proof.
  induction b as [|c b IH]; intros cur env L; cbn [entries zeros] in *.
  - destruct (Nat.ltb_spec (length env) size); [|lia]. eexists. split; [reflexivity|lia].
  - destruct (N.eqb_spec c 0).
    + destruct (Nat.ltb_spec (length env) size); [|lia]. destruct (IH [] (env ++ [cur])) as (e' & E' & L'); rewrite ?app_length in *; cbn [length] in *; [lia|].
      exists e'. split; [exact E'|lia].
    + destruct (IH (cur ++ [c]) env) as (e' & E' & L'); [lia|]. exists e'. split; [exact E'|lia].
Qed.
Lemma read_len_safe : forall inp acc, 0 <= acc -> (forall ds r, inp = ds ++ r -> Forall is_digit ds -> value acc ds <= 2147483599) ->
  exists ds k r, read_len acc inp = Ok (value acc ds, k, r) /\ Forall is_digit ds /\ inp = ds ++ match k with Some c => c :: r | None => r end.
Proof.
  induction inp as [|c inp IH]; intros acc A H; cbn [read_len].
  { exists [], None, []. repeat split; constructor. }
  destruct (isdigit c) eqn:E.
  - apply isdigit_ok in E. assert (V : value acc [c] <= 2147483599) by (apply (H [c] inp); [reflexivity|constructor; [exact E|constructor]]). cbn [value] in V.
    assert (0 <= acc * 10 + (Z.of_N c - 48)) by (unfold is_digit in E; lia).
    assert (I : NumModel.in_int (acc * 10 + Z.of_N c) = true). { unfold NumModel.in_int, INT_MAX. apply Bool.andb_true_iff. split; apply Z.leb_le; lia. }
    rewrite I. replace (acc * 10 + Z.of_N c - 48) with (acc * 10 + (Z.of_N c - 48)) by lia.
    destruct (IH (acc * 10 + (Z.of_N c - 48)) H0) as (ds & k & r & R & F & Q).
    { intros ds r Q F. apply (H (c :: ds) r); [cbn; now rewrite Q|now constructor]. }
    exists (c :: ds), k, r. split; [exact R|]. split; [now constructor|]. cbn [app]. now rewrite <- Q.
  - exists [], (Some c), inp. repeat split. constructor.
Qed.
(** whatever is sent is read without harm, and what is accepted has the form of a request *)
Lemma read_env_safe inp : (forall ds r, inp = ds ++ r -> Forall is_digit ds -> value 0 ds <= 2147483599) ->
  exists o r, read_env inp = Ok (o, r) /\
    match o with
    | Some env => exists ds b, inp = ds ++ 58%N :: b ++ 44%N :: r /\ numeral ds (Z.of_nat (length b)) /\ (length env = Nat.div (zeros b) 2)%nat
    | None => True
    end.
Proof.
  intros H. destruct (read_len_safe inp 0 ltac:(lia) H) as (ds & k & r & R & F & Q). unfold read_env. rewrite R. cbn [obind].
  destruct k as [k|]; [|eexists _, _; split; [reflexivity|exact I]].
  destruct (N.eq_dec k 58) as [->|K].
  2:{ assert (X : forall (T : Type) (a b : T), (match k with 58%N => a | _ => b end) = b).
      { intros T a b. destruct k as [|p]; [reflexivity|]. do 6 (destruct p as [p|p|]; try reflexivity). now exfalso. }
      rewrite X. eexists _, _. split; [reflexivity|exact I]. }
  destruct (Z.ltb_spec (value 0 ds) 4); [eexists _, _; split; [reflexivity|exact I]|].
  destruct (Nat.ltb_spec (length r) (Z.to_nat (value 0 ds))) as [L|L]; [eexists _, _; split; [reflexivity|exact I]|].
  destruct (skipn (Z.to_nat (value 0 ds)) r) as [|c body] eqn:SK; [eexists _, _; split; [reflexivity|exact I]|].
  destruct (N.eq_dec c 44) as [->|C].
  2:{ assert (X : forall (T : Type) (a b : T), (match c with 44%N => a | _ => b end) = b).
      { intros T a b. destruct c as [|p]; [reflexivity|]. do 6 (destruct p as [p|p|]; try reflexivity). now exfalso. }
      rewrite X. eexists _, _. split; [reflexivity|exact I]. }
  pose proof (mark_zeros (firstn (Z.to_nat (value 0 ds)) r) 0) as M. destruct (mark 0 (firstn (Z.to_nat (value 0 ds)) r)) as [b n] eqn:EM. cbn [fst snd] in M.
  change (Nat.div 0 2) with 0%nat in M.
  destruct (entries_safe (Nat.div n 2 + 1) b [] []) as (e & E & EL); [cbn [length]; lia|]. rewrite E. cbn [obind].
  eexists _, _. split; [reflexivity|]. exists ds, (firstn (Z.to_nat (value 0 ds)) r).
  split. { rewrite Q. do 2 f_equal. rewrite <- SK. symmetry. apply firstn_skipn. }
  split. { split; [exact F|]. rewrite firstn_length. lia. }
  cbn [length] in EL. rewrite EL. assert (n = zeros (firstn (Z.to_nat (value 0 ds)) r)); [|subst n; lia].
  assert (G : forall t j, snd (mark j t) = (j + zeros t)%nat).
  { induction t as [|c t IH]; intros j; cbn [mark zeros]; [cbn; lia|]. destruct (N.eqb_spec c 0).
    - specialize (IH (S j)). destruct (mark (S j) t). cbn [snd] in *. lia.
    - specialize (IH j). destruct (mark j t). cbn [snd] in *. lia. }
  specialize (G (firstn (Z.to_nat (value 0 ds)) r) 0%nat). rewrite EM in G. exact G.
Qed.
(** looking up *)
Lemma strip_name : forall name n x, ~ In 61%N name -> ~ In 61%N n -> strip (name ++ [61%N]) (n ++ 61%N :: x) = if list_eq_dec N.eq_dec n name then Some x else None.
Proof.
  induction name as [|c name IH]; intros n x N1 N2.
  - destruct n as [|d n]; cbn [app strip]; [reflexivity|]. destruct (N.eqb_spec 61 d); [exfalso; apply N2; left; congruence|]. reflexivity.
  - destruct n as [|d n]; cbn [app strip].
    + destruct (N.eqb_spec c 61); [exfalso; apply N1; left; congruence|]. reflexivity.
    + destruct (N.eqb_spec c d) as [->|D].
      * rewrite IH by (intros I; first [apply N1; right; exact I|apply N2; right; exact I]).
        destruct (list_eq_dec N.eq_dec n name) as [K|K]; destruct (list_eq_dec N.eq_dec (d :: n) (d :: name)) as [K'|K']; try reflexivity; exfalso; congruence.
      * destruct (list_eq_dec N.eq_dec (d :: n) (c :: name)) as [K'|K']; [exfalso; congruence|reflexivity].
Qed.
Lemma getenv_var : forall v name, Forall (fun p => ~ In 61%N (fst p)) v -> ~ In 61%N name -> getenv (map eq_of v) name = var v name.
Proof.
  induction v as [|(n, x) v IH]; intros name F N; cbn [map getenv var]; [reflexivity|]. inversion F; subst. unfold eq_of at 1. cbn [fst snd] in *.
  rewrite strip_name by assumption. destruct (list_eq_dec N.eq_dec n name); [reflexivity|]. now apply IH.
Qed.

(** ** Sealing *)
Lemma bytes_app a b : bytes a -> bytes b -> bytes (a ++ b).
Proof. intros. apply Forall_app. split; assumption. Qed.
Lemma text_eqb_eq a : forall b, text_eqb a b = true <-> a = b.
Proof.
  induction a as [|x a IH]; intros [|y b]; cbn; split; try congruence; try discriminate.
  - rewrite Bool.andb_true_iff, N.eqb_eq, IH. intros [-> ->]. reflexivity.
  - intros H. injection H as -> ->. rewrite N.eqb_refl. apply IH. reflexivity.
Qed.
Lemma text_refl a : text_eqb a a = true.
Proof. now apply text_eqb_eq. Qed.
Lemma seal_round sha1 aes unaes salt p w : cipher sha1 aes unaes -> length salt = 8%nat -> bytes salt -> bytes p -> p <> [] -> w <> [] ->
  4 * (Z.of_nat (length p) + 44) + 11 <= 2147483647 ->
  exists q, cgi_encrypt sha1 aes salt p w = Ok (Some q) /\ cgi_decrypt sha1 unaes q w = Ok (Some p).
Proof.
  intros C LS BS BP NP NW L. set (x := digest sha1 p w salt ++ p).
  assert (LX : length x = (20 + length p)%nat) by (unfold x, digest; rewrite app_length, (sha_size _ _ _ C); reflexivity).
  assert (BX : bytes x) by (apply bytes_app; [apply (sha_bytes _ _ _ C)|exact BP]).
  pose proof (aes_size _ _ _ C salt w x) as LO. pose proof (Nat.div_mod (length x) 16 ltac:(discriminate)) as DM. pose proof (Nat.mod_upper_bound (length x) 16 ltac:(discriminate)) as MB.
  assert (LP : (1 <= length p)%nat) by (destruct p; [congruence|cbn; lia]).
  destruct (base64_round (salt ++ aes salt w x)) as (q & E & _ & D).
  { destruct salt; [discriminate|discriminate]. }
  { apply bytes_app; [exact BS|apply (aes_bytes _ _ _ C)]. }
  { unfold fits. apply Z.leb_le. rewrite app_length. lia. }
  exists q.
  assert (NQ : q <> []). { intros ->. vm_compute in D. injection D as D. destruct salt; discriminate. }
  split.
  - unfold cgi_encrypt. destruct p as [|p0 p']; [congruence|]. destruct w as [|w0 w']; [congruence|]. cbv zeta.
    unfold fits, salt_size, digest_size. rewrite (proj2 (Z.leb_le _ _)) by lia.
    fold x. destruct (Nat.leb_spec (8 + length (aes salt (w0 :: w') x)) (8 + 20 + length (p0 :: p') + 32)); [exact E|lia].
  - unfold cgi_decrypt. destruct q as [|q0 q']; [congruence|]. destruct w as [|w0 w']; [congruence|]. rewrite D. cbn [obind].
    unfold digest_size, salt_size. rewrite app_length, LS.
    destruct (Nat.leb_spec (8 + length (aes salt (w0 :: w') x)) (20 + 8)); [lia|].
    rewrite <- LS. rewrite firstn_here, skipn_here. rewrite (unaes_aes _ _ _ C) by exact BX. rewrite LS.
    destruct (Nat.ltb_spec (8 + length (aes salt (w0 :: w') x) + 32) (length x)); [lia|].
    destruct (Nat.ltb_spec 20 (length x)); [|lia].
    assert (L20 : length (digest sha1 p (w0 :: w') salt) = 20%nat) by apply (sha_size _ _ _ C).
    assert (FX : firstn 20 x = digest sha1 p (w0 :: w') salt) by (unfold x; rewrite <- L20 at 1; apply firstn_here).
    assert (SX : skipn 20 x = p) by (unfold x; rewrite <- L20 at 1; apply skipn_here).
    cbv zeta. rewrite FX, SX, text_refl.
    destruct (Nat.leb_spec (length p) (8 + length (aes salt (w0 :: w') x))) as [G|G]; [reflexivity|lia].
Qed.
Lemma unseal_genuine sha1 aes unaes q w d : cipher sha1 aes unaes -> cgi_decrypt sha1 unaes q w = Ok (Some d) ->
  d <> [] /\ exists salt body, decode_base64 q = Ok (salt ++ body) /\ length salt = 8%nat /\ unaes salt w body = sha1 (salt ++ w ++ d) ++ d.
Proof.
  intros C. unfold cgi_decrypt. destruct q as [|q0 q']; [discriminate|]. destruct w as [|w0 w']; [discriminate|].
  destruct (decode_base64 (q0 :: q')) as [ret|] eqn:D; [|discriminate]. cbn [obind].
  unfold digest_size, salt_size. destruct (Nat.leb_spec (length ret) (20 + 8)); [discriminate|].
  destruct (Nat.ltb_spec (length ret + 32) (length (unaes (firstn 8 ret) (w0 :: w') (skipn 8 ret)))); [discriminate|].
  set (out := unaes (firstn 8 ret) (w0 :: w') (skipn 8 ret)) in *.
  destruct (Nat.ltb_spec 20 (length out)) as [G|]; [|discriminate].
  destruct (text_eqb (firstn 20 out) (digest sha1 (skipn 20 out) (w0 :: w') (firstn 8 ret))) eqn:T; [|discriminate].
  destruct (Nat.leb_spec (length (skipn 20 out)) (length ret)); [|discriminate]. intros X. assert (DD : skipn 20 out = d) by congruence. clear X. subst d.
  split. { intros K. pose proof (skipn_length 20 out) as Q. rewrite K in Q. cbn [List.length] in Q. lia. }
  exists (firstn 8 ret), (skipn 8 ret). rewrite firstn_skipn. split; [reflexivity|]. split; [rewrite firstn_length; lia|].
  fold out. apply text_eqb_eq in T. unfold digest in T. rewrite <- T. symmetry. apply firstn_skipn.
Qed.
Lemma unseal_safe sha1 aes unaes q w : cipher sha1 aes unaes -> bytes q -> 3 * Z.of_nat (length q) + 3 <= 2147483647 -> exists o, cgi_decrypt sha1 unaes q w = Ok o.
Proof.
  intros C B L. unfold cgi_decrypt. destruct q as [|q0 q']; [eauto|]. destruct w as [|w0 w']; [eauto|].
  rewrite decode_base64_ok; [|exact B|unfold fits; apply Z.leb_le; lia]. cbn [obind]. set (ret := unsixed (sextets (q0 :: q'))).
  unfold digest_size, salt_size. destruct (Nat.leb_spec (length ret) (20 + 8)); [eauto|].
  pose proof (unaes_size _ _ _ C (firstn 8 ret) (w0 :: w') (skipn 8 ret)) as U. rewrite skipn_length in U.
  destruct (Nat.ltb_spec (length ret + 32) (length (unaes (firstn 8 ret) (w0 :: w') (skipn 8 ret)))); [lia|].
  destruct (Nat.ltb_spec 20 (length (unaes (firstn 8 ret) (w0 :: w') (skipn 8 ret)))); [|eauto].
  destruct (text_eqb _ _); [|eauto]. destruct (Nat.leb_spec (length (skipn 20 (unaes (firstn 8 ret) (w0 :: w') (skipn 8 ret)))) (length ret)) as [|G]; [eauto|].
  rewrite skipn_length in G. lia.
Qed.

Lemma map_mod x : bytes x -> map (fun c => c mod 256)%N x = x.
Proof. induction 1 as [|c x C _ IH]; cbn [map]; [reflexivity|]. rewrite IH, N.mod_small by exact C. reflexivity. Qed.
Lemma bytes_mod x : bytes (map (fun c => c mod 256)%N x).
Proof. apply Forall_forall. intros c I. apply in_map_iff in I. destruct I as (d & <- & _). apply N.mod_lt. discriminate. Qed.
Lemma bytes_repeat c n : (c < 256)%N -> bytes (repeat c n).
Proof. intros C. apply Forall_forall. intros d I. apply repeat_spec in I. now subst. Qed.
Lemma last_repeat (c : N) : forall n, (1 <= n)%nat -> last (repeat c n) 0%N = c.
Proof. induction n as [|[|n] IH]; intros H; [lia|reflexivity|]. change (last (repeat c (S (S n))) 0%N) with (last (repeat c (S n)) 0%N). apply IH. lia. Qed.
Lemma last_end (a b : text) : b <> [] -> last (a ++ b) 0%N = last b 0%N.
Proof. intros N. induction a as [|c a IH]; [reflexivity|]. cbn [app last]. destruct (a ++ b) eqn:E; [destruct a; [cbn in E; congruence|discriminate]|exact IH]. Qed.
Lemma toy_pad_ok x : (1 <= toy_pad x <= 16)%nat.
Proof. unfold toy_pad. pose proof (Nat.div_mod (length x) 16 ltac:(discriminate)). pose proof (Nat.mod_upper_bound (length x) 16 ltac:(discriminate)). lia. Qed.
Lemma toy_cipher : cipher toy_sha toy_aes toy_unaes.
Proof.
  constructor.
  - intros x. unfold toy_sha. rewrite firstn_length, app_length, repeat_length. lia.
  - intros x. unfold toy_sha. assert (B : bytes (map (fun c => c mod 256)%N x ++ repeat 0%N 20)) by (apply bytes_app; [apply bytes_mod|apply bytes_repeat; lia]).
    rewrite <- (firstn_skipn 20) in B. apply Forall_app in B. tauto.
  - intros s w x. unfold toy_aes. rewrite app_length, map_length, repeat_length. pose proof (toy_pad_ok x). unfold toy_pad in *. lia.
  - intros s w x. unfold toy_aes. apply bytes_app; [apply bytes_mod|]. apply bytes_repeat. pose proof (toy_pad_ok x). lia.
  - intros s w x. unfold toy_unaes. rewrite firstn_length. lia.
  - intros s w x B. unfold toy_unaes, toy_aes. rewrite (map_mod x B). pose proof (toy_pad_ok x) as P.
    rewrite last_end by (destruct (toy_pad x); [lia|discriminate]). rewrite last_repeat by lia. rewrite Nat2N.id, app_length, repeat_length.
    replace (length x + toy_pad x - toy_pad x)%nat with (length x) by lia. apply firstn_here.
Qed.
