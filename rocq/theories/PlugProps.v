(** C140-C142: the database, passwords and the percolator. *)
From Coq Require Import ZArith String SpecFloat Lia.
From Verif Require Import Common CodecSpec Txt NumModel PhysSpec RegexModel PlugSpec PlugModel PlugProofs.
Local Open Scope list_scope.
Local Open Scope nat_scope.
Notation tx := lit.

(** *** C140 *)
(** Rows come in their order, each as a map that gives every column its value and nothing else, if the names of columns are distinct
    and written small and without quotes; a missing value is a text without characters *)
Theorem C140_rows_partial : forall server nil command params,
  let r := server (dropped command) (param_values nil params (length params) 0) in
  shaped r -> NoDup (columns r) -> Forall plain_name (columns r) ->
  exists ms, pg_query server nil true command params = Ok (Rows ms) /\ Forall2 (fun m row => tells (get m) (columns r) row written) ms (cells r).
Proof. exact query_lemma. Qed.
Print Assumptions C140_rows_partial.

(** What is sent for parameters: Nil first, then all but the last of them.  So only queries without parameters are what was asked *)
Theorem C140_parameters_partial : forall nil l,
  param_values nil l (length l) 0 = match l with [] => [] | _ => dropped nil :: map dropped (removelast l) end.
Proof. exact params_lemma. Qed.
Print Assumptions C140_parameters_partial.

(** However often it is closed, a connection is finished once *)
Theorem C140_close : forall n, Nat.iter (S n) (fun p => pg_close (fst p) (snd p)) (true, 0) = (false, 1).
Proof. exact close_lemma. Qed.
Print Assumptions C140_close.

Definition demo (cols : list text) (rows : list (list (option text))) (_ : text) (_ : list text) : result := mkR cols rows.
Example C140_case :
  pg_query (demo [tx "id"; tx "name"] [[Some (tx "1"); Some (tx "Ann")]; [Some (tx "2"); None]]) (tx "Nil") true (tx "select") [] =
  Ok (Rows [[(tx "name", tx "Ann"); (tx "id", tx "1")]; [(tx "name", []); (tx "id", tx "2")]]).
Proof. vm_compute. reflexivity. Qed.
Ltac plain_tac :=
  apply Forall_forall; intros c H; vm_compute in H; repeat (destruct H as [<-|H]; [split; [lia|discriminate]|]); destruct H.
Example C140_names : plain_name (tx "id") /\ plain_name (tx "?column?") /\ NoDup [tx "id"; tx "name"].
Proof.
  split; [|split].
  1,2: plain_tac.
  repeat (apply NoDup_cons; [vm_compute; intros K; repeat (destruct K as [K|K]; [discriminate|]); destruct K|]). apply NoDup_nil.
Qed.

(** The parameters 7 and 8 arrive as Nil and 7 *)
Theorem C140_parameters_refuted : exists nil l, map dropped l = l /\ param_values nil l (length l) 0 <> l /\
  param_values nil l (length l) 0 = [tx "Nil"; tx "7"].
Proof. exists (tx "Nil"), [tx "7"; tx "8"]. vm_compute. repeat split. discriminate. Qed.
(** A column with a capital in its name is looked for in small letters: the process reads address zero *)
Theorem C140_capital_refuted : exists cols rows, shaped (mkR cols rows) /\ NoDup cols /\
  pg_query (demo cols rows) (tx "Nil") true (tx "select") [] = UB.
Proof.
  exists [tx "Total"], [[Some (tx "1")]]. split; [repeat constructor|]. split; [repeat constructor; intros []|]. vm_compute. reflexivity.
Qed.
(** ... or the value of another column is given *)
Theorem C140_other_refuted : exists cols rows, shaped (mkR cols rows) /\ NoDup cols /\ exists m,
  pg_query (demo cols rows) (tx "Nil") true (tx "select") [] = Ok (Rows [m]) /\ get m (tx "Total") = Some (tx "1") /\
  rows = [[Some (tx "1"); Some (tx "2")]] /\ cols = [tx "total"; tx "Total"].
Proof.
  exists [tx "total"; tx "Total"], [[Some (tx "1"); Some (tx "2")]]. split; [repeat constructor|].
  split; [repeat (apply NoDup_cons; [vm_compute; intros K; repeat (destruct K as [K|K]; [discriminate|]); destruct K|]); apply NoDup_nil|].
  eexists. vm_compute. repeat split.
Qed.
(** Two columns of one name: the second value is lost *)
Theorem C140_twice_refuted : exists cols rows, shaped (mkR cols rows) /\ Forall plain_name cols /\
  pg_query (demo cols rows) (tx "Nil") true (tx "select") [] = Ok (Rows [[(tx "id", tx "1")]]) /\ rows = [[Some (tx "1"); Some (tx "2")]].
Proof.
  exists [tx "id"; tx "id"], [[Some (tx "1"); Some (tx "2")]]. split; [repeat constructor|].
  split; [repeat (apply Forall_cons; [plain_tac|]); apply Forall_nil|].
  vm_compute. auto.
Qed.
(** A missing value and an empty one, and a query that failed and one without rows, are answered the same *)
Theorem C140_missing_refuted : exists rows rows', rows <> rows' /\
  pg_query (demo [tx "a"] rows) (tx "Nil") true (tx "select") [] = pg_query (demo [tx "a"] rows') (tx "Nil") true (tx "select") [] /\
  pg_query (demo [] []) (tx "Nil") true (tx "wrong") [] = pg_query (demo [tx "a"] []) (tx "Nil") true (tx "select") [].
Proof. exists [[None]], [[Some []]]. split; [discriminate|]. vm_compute. split; reflexivity. Qed.
Print Assumptions C140_parameters_refuted.
Print Assumptions C140_capital_refuted.
Print Assumptions C140_other_refuted.
Print Assumptions C140_twice_refuted.
Print Assumptions C140_missing_refuted.

(** *** C141 *)
(** A new password is equal to its text, and to another text exactly if the library says so; no other text of the program changes *)
Theorem C141_equal : forall hash check salt pw s r, hashing hash check -> password_new hash salt pw s = (r, length s) ->
  (forall q, password_verify check r (Some (AText (length s))) q = Ok (check (until_zero (hash salt pw)) q)) /\
  password_verify check r (Some (AText (length s))) pw = Ok true /\
  (forall i, i < length s -> nth_error r i = nth_error s i).
Proof. exact password_lemma. Qed.
Print Assumptions C141_equal.

(** The prototype, which has no hash, is equal to nothing *)
Theorem C141_prototype : forall hash check s q, hashing hash check -> password_verify check s None q = Ok false.
Proof. exact prototype_lemma. Qed.
Print Assumptions C141_prototype.

(** A password made from a hash: as that hash says, if there is a zero byte in it (as in what [string] of a password gives) or
    it has no bytes; otherwise memory beyond it is read *)
Theorem C141_from_hash_partial : forall check s r t q, nth_error s r = Some t ->
  password_verify check s (Some (from_hash (AText r))) q =
    match t with [] => Ok (check [] q) | _ => if in_dec N.eq_dec 0%N t then Ok (check (until_zero t) q) else UB end.
Proof. exact from_text_lemma. Qed.
Print Assumptions C141_from_hash_partial.

(** A toy that keeps the promises *)
Definition mix (p : text) : N := (fold_left N.add p 0 mod 255 + 1)%N.
Definition toy_hash (_ p : text) : text := mix p :: repeat 0%N 127.
Definition toy_check (c p : text) : bool := text_eqb c [mix p].
Example C141_toy : hashing toy_hash toy_check.
Proof.
  assert (M : forall p, (mix p =? 0)%N = false) by (intros p; apply N.eqb_neq; unfold mix; rewrite N.add_1_r; apply N.neq_succ_0).
  split; [|split].
  - intros salt p. split; [reflexivity|]. right. now left.
  - intros salt p. unfold toy_hash, toy_check. change (repeat 0%N 127) with (0%N :: repeat 0%N 126). cbn [until_zero]. rewrite M.
    cbn [N.eqb]. cbn. now rewrite N.eqb_refl.
  - reflexivity.
Qed.
Example C141_case : let '(s, p) := password_new toy_hash [] (tx "secret") [tx "other"] in
  password_verify toy_check s (Some (AText p)) (tx "secret") = Ok true /\ password_verify toy_check s (Some (AText p)) (tx "secreu") = Ok false /\
  password_verify toy_check s (Some (from_hash (AText p))) (tx "secret") = Ok true /\ password_verify toy_check s None (tx "secret") = Ok false.
Proof. vm_compute. repeat split. Qed.
(** A hash as databases keep it, without the zeros at its end, is read beyond its end *)
Theorem C141_loaded_refuted : exists hash check salt pw, hashing hash check /\
  password_verify check [until_zero (hash salt pw)] (Some (from_hash (AText 0))) pw = UB.
Proof. exists toy_hash, toy_check, [], (tx "secret"). split; [exact C141_toy|]. vm_compute. reflexivity. Qed.
(** A thing that is no text is taken for one *)
Theorem C141_thing_refuted : exists check pw, password_verify check [] (Some (from_hash AThing)) pw = UB.
Proof. exists toy_check, (tx "secret"). reflexivity. Qed.
(** The password is the text given, not a copy: what happens to the text happens to the password *)
Theorem C141_shared_refuted : exists check t t' pw r, from_hash (AText r) = AText r /\
  password_verify check [t] (Some (from_hash (AText r))) pw = Ok true /\ password_verify check [t'] (Some (from_hash (AText r))) pw = Ok false.
Proof. exists toy_check, (toy_hash [] (tx "a")), (toy_hash [] (tx "b")), (tx "a"), 0. vm_compute. repeat split. Qed.
Print Assumptions C141_loaded_refuted.
Print Assumptions C141_thing_refuted.
Print Assumptions C141_shared_refuted.

(** *** C142 *)
Local Open Scope Z_scope.
(** For two different numbers (in units of 2^-20): as many cups as the coffee and the water are good for, then the right answer why
    not, and exactly that coffee and water less; no other number changes *)
Theorem C142_brew_partial : forall n s p kc kw, coffee p <> water p -> holds s (coffee p) kc -> holds s (water p) kw ->
  0 <= kc < 2 ^ 52 -> 0 <= kw < 2 ^ 52 ->
  exists s', brews n s p = Ok (s', repeat Coffee (Nat.min n (cups kc kw)) ++
                                   repeat (if kc <? unit * (1 + Z.of_nat (cups kc kw)) then NoCoffee else NoWater) (n - cups kc kw)) /\
    holds s' (coffee p) (kc - unit * Z.of_nat (Nat.min n (cups kc kw))) /\
    holds s' (water p) (kw - 2 * unit * Z.of_nat (Nat.min n (cups kc kw))) /\
    (forall r, r <> coffee p -> r <> water p -> nth_error s' r = nth_error s r).
Proof. exact brews_lemma. Qed.
Print Assumptions C142_brew_partial.
Example C142_case : exists s', brews 4 [of_Z 3; of_Z 5; of_Z 9] (pour 0 1) = Ok (s', [Coffee; Coffee; NoWater; NoWater]).
Proof. eexists. vm_compute. reflexivity. Qed.
(** A new percolator is empty *)
Example C142_new : snd (match brew (fst (percolator_new [])) (snd (percolator_new [])) with Ok x => x | UB => ([], Coffee) end) = NoCoffee.
Proof. vm_compute. reflexivity. Qed.

(** The numbers of the program itself are used up: a variable with 3 spoons has 2 after a cup *)
Theorem C142_variable_refuted : exists s p s', brew s p = Ok (s', Coffee) /\ nth_error s 0 = Some (of_Z 3) /\ nth_error s' 0 = Some (of_Z 2) /\ p = pour 0 1.
Proof. exists [of_Z 3; of_Z 9], (pour 0 1). eexists. vm_compute. repeat split. Qed.
(** One number for both: 6 spoons and 6 cups of water make two cups of coffee, not three *)
Theorem C142_same_refuted : exists s p s', brews 3 s p = Ok (s', [Coffee; Coffee; NoCoffee]) /\ s = [of_Z 6] /\ p = pour 0 0 /\
  cups (6 * unit) (6 * unit) = 3%nat.
Proof. exists [of_Z 6], (pour 0 0). eexists. vm_compute. repeat split. Qed.
(** Adding does not add: what was in there is gone *)
Theorem C142_add_refuted : exists s p p', p = pour 0 1 /\ p' = pour 2 3 /\
  s = [of_Z 1; of_Z 2; of_Z 1; of_Z 2] /\ match brews 2 s p' with Ok (_, l) => l = [Coffee; NoCoffee] | UB => False end.
Proof. exists [of_Z 1; of_Z 2; of_Z 1; of_Z 2], (pour 0 1), (pour 2 3). vm_compute. repeat split. Qed.
Print Assumptions C142_variable_refuted.
Print Assumptions C142_same_refuted.
Print Assumptions C142_add_refuted.
