(** The SCGI server: its requests, its processes, and sealed texts.  Theorems only; proofs in ScgiProofs and ScgiServer. *)
From Coq Require Import String ZArith Lia.
From Verif Require Import Common Txt NumModel CodecSpec CodecModel CodecProofs ScgiSpec ScgiModel ScgiProofs ScgiServer.
Local Open Scope Z_scope.
Local Notation length := List.length.
Local Notation "'tx' s" := (lit s%string) (at level 8, s at level 0).

(** ** C136 *)
(** The variables of a request become the environment, in order; the body is left to be read. *)
Theorem C136_environment_partial : forall ds v body, sendable v -> numeral ds (Z.of_nat (length (sent v))) -> 4 <= Z.of_nat (length (sent v)) <= 2147483599 ->
  read_env (request ds v body) = Ok (Some (map (fun p => fst p ++ 61%N :: snd p) v), body).
Proof. exact read_env_ok. Qed.
Print Assumptions C136_environment_partial.
(** A variable is found by its name, the first of that name. *)
Theorem C136_lookup_partial : forall ds v body name, sendable v -> numeral ds (Z.of_nat (length (sent v))) -> 4 <= Z.of_nat (length (sent v)) <= 2147483599 ->
  Forall (fun p => ~ In 61%N (fst p)) v -> ~ In 61%N name ->
  exists env, read_env (request ds v body) = Ok (Some env, body) /\ getenv env name = var v name.
Proof. intros ds v body name S D L F N. eexists. split; [apply read_env_ok; assumption|]. now apply getenv_var. Qed.
Print Assumptions C136_lookup_partial.
(** Whatever is sent, if its number is not too large, no memory is harmed; what is accepted has the length it claims, and the body begins behind the comma. *)
Theorem C136_any_partial : forall inp, (forall ds r, inp = ds ++ r -> Forall is_digit ds -> value 0 ds <= 2147483599) ->
  exists o r, read_env inp = Ok (o, r) /\
    match o with
    | Some env => exists ds b, inp = ds ++ 58%N :: b ++ 44%N :: r /\ numeral ds (Z.of_nat (length b)) /\ (length env = Nat.div (zeros b) 2)%nat
    | None => True
    end.
Proof. exact read_env_safe. Qed.
Print Assumptions C136_any_partial.
Definition c136_vars : vars := [(tx "CONTENT_LENGTH", tx "2"); (tx "SCGI", tx "1"); (tx "QUERY_STRING", []); (tx "SCGI", tx "a=b")].
Example C136_case : sendable c136_vars /\ numeral (tx "047") (Z.of_nat (length (sent c136_vars))) /\ 4 <= Z.of_nat (length (sent c136_vars)) <= 2147483599 /\
  Forall (fun p => ~ In 61%N (fst p)) c136_vars /\
  (exists env, read_env (request (tx "047") c136_vars (tx "hi")) = Ok (Some env, tx "hi") /\ getenv env (tx "SCGI") = Some (tx "1") /\ getenv env (tx "QUERY_STRING") = Some [] /\ getenv env (tx "PATH") = None).
Proof.
  assert (Z0 : forall p, existsb (N.eqb 0) p = false -> no_zero p) by (intros p E I; assert (X : existsb (N.eqb 0) p = true) by (apply existsb_exists; exists 0%N; auto); congruence).
  assert (Z1 : forall p, existsb (N.eqb 61) p = false -> ~ In 61%N p) by (intros p E I; assert (X : existsb (N.eqb 61) p = true) by (apply existsb_exists; exists 61%N; auto); congruence).
  split. { unfold sendable, c136_vars. repeat (constructor; [split; apply Z0; reflexivity|]). constructor. }
  split. { split; [|reflexivity]. repeat (constructor; [unfold is_digit; vm_compute; split; discriminate|]). constructor. }
  split; [vm_compute; split; discriminate|].
  split. { unfold c136_vars. repeat (constructor; [apply Z1; reflexivity|]). constructor. }
  eexists. split; [vm_compute; reflexivity|]. repeat split; vm_compute; reflexivity.
Qed.
Example C136_any_case : (forall ds r, tx "9:abc" = ds ++ r -> Forall is_digit ds -> value 0 ds <= 2147483599) /\ read_env (tx "9:abc") = Ok (None, []).
Proof.
  split; [|vm_compute; reflexivity]. intros ds r E F. destruct ds as [|a [|b ds]]; [cbn; lia| |].
  - injection E as <- _. vm_compute. discriminate.
  - injection E as <- <- _. inversion F as [|? ? _ F']; subst. inversion F' as [|? ? B _]; subst. unfold is_digit in B. vm_compute in B. destruct B as [_ B]. exfalso. now apply B.
Qed.
(** A length of ten digits overflows. *)
Theorem C136_length_refuted : exists inp, length inp = 10%nat /\ Forall is_digit inp /\ read_env inp = UB.
Proof.
  exists (tx "2147483648"). split; [reflexivity|]. split; [|vm_compute; reflexivity].
  repeat (constructor; [unfold is_digit; vm_compute; split; discriminate|]). constructor.
Qed.
Print Assumptions C136_length_refuted.
(** A name with an equals sign in it hides a part of itself in the value: another variable can be forged. *)
Theorem C136_forged_refuted : exists ds v body env, sendable v /\ numeral ds (Z.of_nat (length (sent v))) /\ read_env (request ds v body) = Ok (Some env, body) /\
  var v (tx "AUTH") = Some (tx "none") /\ getenv env (tx "AUTH") = Some (tx "root=").
Proof.
  assert (Z0 : forall p, existsb (N.eqb 0) p = false -> no_zero p) by (intros p E I; assert (X : existsb (N.eqb 0) p = true) by (apply existsb_exists; exists 0%N; auto); congruence).
  exists (tx "21"), [(tx "AUTH=root", []); (tx "AUTH", tx "none")], []. eexists.
  split. { repeat (constructor; [split; apply Z0; reflexivity|]). constructor. }
  split. { split; [|vm_compute; reflexivity]. repeat (constructor; [unfold is_digit; vm_compute; split; discriminate|]). constructor. }
  split; [vm_compute; reflexivity|]. split; vm_compute; reflexivity.
Qed.
Print Assumptions C136_forged_refuted.
(** Variables that are not pairs of ended strings are accepted, and what is not ended is lost; one variable of less than four bytes is refused. *)
Theorem C136_malformed_refuted : exists b, ~ In 0%N b /\ read_env (tx "4:" ++ b ++ tx ",") = Ok (Some [], []) /\
  exists b', (forall v, sent v <> b') /\ read_env (tx "8:" ++ b' ++ tx ",") = Ok (Some [tx "A=1"], []).
Proof.
  exists (tx "aaaa"). split; [intros I; cbn in I; repeat destruct I as [I|I]; discriminate || contradiction|]. split; [vm_compute; reflexivity|].
  exists [65; 0; 49; 0; 66; 66; 0; 50]%N. split; [|vm_compute; reflexivity].
  intros v E. assert (L : v = [] \/ last (sent v) 1%N = 0%N).
  { clear. induction v as [|(n, x) v IH]; [now left|]. right. unfold sent. cbn [flat_map fst snd]. fold (sent v).
    destruct IH as [->|IH]. { cbn [sent flat_map]. rewrite app_nil_r. change (0%N :: x ++ [0%N]) with ((0%N :: x) ++ [0%N]). rewrite app_assoc. apply last_last. }
    destruct (sent v) as [|c t] eqn:S; [discriminate|]. rewrite app_removelast_last with (l := c :: t) (d := 1%N) by discriminate. rewrite IH.
    rewrite app_assoc. apply last_last. }
  destruct L as [->|L]; [discriminate|]. rewrite E in L. discriminate.
Qed.
Print Assumptions C136_malformed_refuted.
Theorem C136_short_refuted : exists ds v body, sendable v /\ numeral ds (Z.of_nat (length (sent v))) /\ v <> [] /\ read_env (request ds v body) = Ok (None, sent v ++ 44%N :: body).
Proof.
  exists (tx "3"), [(tx "A", [])], [].
  split. { constructor; [split; intros I; cbn in I; repeat destruct I as [I|I]; discriminate || contradiction|constructor]. }
  split. { split; [|reflexivity]. constructor; [unfold is_digit; vm_compute; split; discriminate|constructor]. }
  split; [discriminate|vm_compute; reflexivity].
Qed.
Print Assumptions C136_short_refuted.

(** ** C137 *)
(** The settings of a server, whatever was asked for. *)
Theorem C137_limits_partial : forall mp mi ma, NumModel.in_int mp = true -> NumModel.in_int mi = true -> NumModel.in_int ma = true -> mi <= 2147483645 ->
  exists l, sanity mp mi ma = Ok l /\
  1 <= maxproc l <= 10000 /\ 1 <= minidle l < maxidle l /\ (0 < mi -> minidle l = mi) /\ (0 < mi < ma -> maxidle l = ma) /\ (0 < mp <= 10000 -> maxproc l = mp).
Proof. intros mp mi ma A B C L. destruct (limits_some mp mi ma L) as (l & E). exists l. split; [exact E|]. eapply limits_ok; eassumption. Qed.
Print Assumptions C137_limits_partial.
Theorem C137_limits_refuted : exists mp mi ma, NumModel.in_int mp = true /\ NumModel.in_int mi = true /\ NumModel.in_int ma = true /\ sanity mp mi ma = UB.
Proof. exists 100, 2147483646, 8. repeat split; vm_compute; reflexivity. Qed.
Print Assumptions C137_limits_refuted.
(** Whatever happens, the table names just the children not waited for, each once; the counts are right, and there are never too many. *)
Theorem C137_counts : forall l es s, 0 <= maxproc l -> run l (begin l) es = Some s ->
  NoDup (map fst (kids s)) /\ (forall p, p <> 0 -> (state_in (procs (board_of s)) p <> None <-> In p (map fst (kids s)))) /\
  numproc (board_of s) = Z.of_nat (length (kids s)) /\ Z.of_nat (length (kids s)) <= maxproc l /\ numidle (board_of s) = Z.of_nat (length (idle_kids s)).
Proof.
  intros l es s M R. pose proof (inv_run _ _ _ _ (inv_begin l M) R) as I. split; [apply (in_nodup _ _ I)|].
  split. { intros p Z. rewrite <- (state_none (procs (board_of s)) p). pose proof (so_pids _ _ _ (in_board _ _ I)) as P. split.
    - intros K. apply (Permutation.Permutation_in _ P). apply filter_In. split; [|unfold nz; destruct (Z.eqb_spec p 0); [contradiction|reflexivity]].
      destruct (in_dec Z.eq_dec p (map fst (procs (board_of s)))); [assumption|contradiction].
    - intros K N. apply N. apply (Permutation.Permutation_in _ (Permutation.Permutation_sym P)) in K. apply filter_In in K. tauto. }
  pose proof (so_num _ _ _ (in_board _ _ I)) as N. unfold pids in N. rewrite map_length in N. split; [exact N|]. split; [rewrite <- N; apply (in_max _ _ I)|].
  now apply (idle_kids_ok l).
Qed.
Print Assumptions C137_counts.
(** What the table and the messages not read yet say of a child is what the child said last, if no number is used again while messages of it are unread. *)
Theorem C137_truth_partial : forall l es s p, 0 <= maxproc l -> fresh l (begin l) es -> run l (begin l) es = Some s -> In p (map fst (kids s)) ->
  told s p = Some (if busy_after p false (story l (begin l) es) then 2 else 1) /\
  (~ In p (map fst (pipe s)) -> (In p (idle_kids s) <-> busy_after p false (story l (begin l) es) = false)).
Proof.
  intros l es s p M F R I. assert (T : truth (begin l) []) by (intros q []).
  pose proof (truth_run l es (begin l) s [] (inv_begin l M) T F R p I) as E. cbn [app] in E. split; [exact E|].
  intros N. unfold told in E. rewrite (last_none p (pipe s) N) in E. unfold idle_kids. rewrite filter_In, E. fold (pids (kids s)) in I. unfold code.
  destruct (busy_after p false (story l (begin l) es)); split; try discriminate; try tauto. intros [_ K]. discriminate.
Qed.
Print Assumptions C137_truth_partial.
(** Before the parent waits there are enough idle children, or as many children as there may be, or a child could not be made. *)
Theorem C137_enough : forall l es s fk s', 0 <= maxproc l -> run l (begin l) es = Some s -> at_ s = Top -> step l s (Parent fk) = Some s' -> at_ s' = Ready \/ at_ s' = After ->
  minidle l <= Z.of_nat (length (idle_kids s)) \/ Z.of_nat (length (kids s)) = maxproc l \/ (fk = None /\ kids s <> []).
Proof. intros l es s fk s' M R. apply top_leaves. apply (inv_run _ _ _ _ (inv_begin l M) R). Qed.
Print Assumptions C137_enough.
(** Only when too many are idle is a child killed, one at a time and one the table has as idle. *)
Theorem C137_kill : forall l es s e s', 0 <= maxproc l -> 0 <= maxidle l -> run l (begin l) es = Some s -> step l s e = Some s' ->
  killed s' = killed s \/ (maxidle l < Z.of_nat (length (idle_kids s)) /\ exists p, killed s' = p :: killed s /\ In p (idle_kids s)).
Proof.
  intros l es s e s' M M2 R E. pose proof (inv_run _ _ _ _ (inv_begin l M) R) as I. destruct e as [fk|pid st|pid]; [|left; exact (killed_same _ _ _ _ E Logic.I)..].
  destruct (at_ s) eqn:A; [left; apply (killed_same _ _ _ _ E); rewrite A; discriminate..| |left; apply (killed_same _ _ _ _ E); rewrite A; discriminate].
  pose proof (killed_step _ _ _ _ M2 I A E) as K. rewrite (idle_kids_ok _ _ I) in K.
  destruct (Z.ltb_spec (maxidle l) (Z.of_nat (length (idle_kids s)))); [|now left]. right. split; [assumption|].
  destruct K as (p & K1 & K2 & K3). exists p. split; [exact K1|]. unfold idle_kids. apply filter_In. split; [exact K2|]. now rewrite K3.
Qed.
Print Assumptions C137_kill.
(** Children that ended are noticed: as long as one is not waited for, the flag is set; and the parent comes to a stop only if its first child could
    not be made, or if all children ended between its look at the flag and [read]. *)
Theorem C137_stuck_partial : forall l es s, 1 <= maxproc l -> 1 <= minidle l -> run l (begin l) es = Some s ->
  (Exists (fun k => snd k = false) (kids s) -> exited s = true) /\
  ((forall e, step l s e = None) -> at_ s = Over \/ (at_ s = Reading /\ pipe s = [] /\ kids s <> [] /\ Forall (fun k => snd k = false) (kids s) /\ exited s = true)).
Proof.
  intros l es s M1 M2 R. assert (M : 0 <= maxproc l) by lia. pose proof (inv_run _ _ _ _ (inv_begin l M) R) as I. split.
  - intros X. apply (in_dead _ _ I). intros K. apply Exists_exists in X. destruct X as ((p, b) & IN & B). cbn in B. subst b.
    assert (Q : In p (dead (kids s))) by (unfold dead; apply in_map_iff; exists (p, false); split; [reflexivity|apply filter_In; split; [exact IN|reflexivity]]).
    rewrite K in Q. destruct Q.
  - apply stuck_ok; [exact I|]. apply (waits_run l M1 M2 es (begin l)); [apply inv_begin; exact M| |exact R]. intros [A|A]; discriminate.
Qed.
Print Assumptions C137_stuck_partial.
(** A child that ends while the parent waits in [read] wakes it: the parent goes on, and does not count that child any more. *)
Theorem C137_wakes : forall l es s pid s', 0 <= maxproc l -> run l (begin l) es = Some s -> at_ s = Reading -> step l s (Exit pid) = Some s' ->
  exists s2, step l s' (Parent None) = Some s2 /\ ~ In pid (map fst (kids s2)) /\ numproc (board_of s2) = Z.of_nat (length (kids s2)).
Proof.
  intros l es s pid s' M R A E. pose proof (inv_run _ _ _ _ (inv_begin l M) R) as I. pose proof (inv_step _ _ _ _ I E) as I'.
  assert (X : at_ s' = After /\ kids s' = map (fun k => if fst k =? pid then (fst k, false) else k) (kids s)).
  { cbn [step] in E. destruct (is_alive pid (kids s)); [|discriminate]. injection E as <-. cbn [at_ kids]. now rewrite A. }
  destruct X as (X1 & X2). eexists. split; [cbn [step]; rewrite X1; reflexivity|]. split.
  - cbn [after kids]. intros K. apply in_map_iff in K. destruct K as ((p, b) & <- & K). apply filter_In in K. destruct K as (K & B). cbn in B. subst b.
    rewrite X2 in K. apply in_map_iff in K. destruct K as ((q, c) & Q & _). cbn [fst] in Q. destruct (Z.eqb_spec q p) as [->|N]; [discriminate|].
    injection Q as -> _. now apply N.
  - assert (S2 : step l s' (Parent None) = Some (after l s')) by (cbn [step]; now rewrite X1).
    pose proof (inv_step _ _ _ _ I' S2) as I2. pose proof (so_num _ _ _ (in_board _ _ I2)) as N. unfold pids in N. now rewrite map_length in N.
Qed.
Print Assumptions C137_wakes.
(** A server of the default settings: eight children are made, one becomes busy, a ninth is made; the parent waits. *)
Definition c137_limits : limits := mkL 100 8 10.
Definition c137_start : list event := map (fun p => Parent (Some p)) [11; 12; 13; 14; 15; 16; 17; 18].
Definition c137_es : list event := c137_start ++ [Send 13 2; Parent None; Parent None; Parent None; Parent None; Parent (Some 19); Parent None].
Example C137_case : serve_limits None None None = Ok c137_limits /\ fresh c137_limits (begin c137_limits) c137_es /\
  exists s, run c137_limits (begin c137_limits) c137_es = Some s /\ at_ s = Ready /\ idle_kids s = [11; 12; 14; 15; 16; 17; 18; 19] /\ told s 13 = Some 2 /\ killed s = [].
Proof.
  split; [vm_compute; reflexivity|]. split. { vm_compute. repeat split; tauto. }
  eexists. split; [vm_compute; reflexivity|]. repeat split; vm_compute; reflexivity.
Qed.
(** Too many idle: three children become busy, three more are made, the three become idle again; one child is killed. *)
Definition c137_round : list event := [Parent None; Parent None; Parent None; Parent None].
Definition c137_many : list event := c137_start ++ [Send 11 2; Send 12 2; Send 13 2; Parent None; Parent None; Parent None; Parent None;
  Parent (Some 19); Parent None; Parent None; Parent None; Parent None; Parent (Some 20); Parent None; Parent None; Parent None; Parent None; Parent (Some 21);
  Send 11 1; Send 12 1; Send 13 1] ++ c137_round ++ c137_round ++ [Parent None; Parent None; Parent None].
Example C137_kill_case : exists s s', run c137_limits (begin c137_limits) c137_many = Some s /\ length (idle_kids s) = 11%nat /\ step c137_limits s (Parent None) = Some s' /\ killed s' = [11].
Proof. eexists _, _. split; [vm_compute; reflexivity|]. split; [vm_compute; reflexivity|]. split; vm_compute; reflexivity. Qed.
(** When all children end between the look at the flag and [read], the server is dead for ever though it could make new ones. *)
Theorem C137_hang_refuted : exists l es s, 1 <= minidle l < maxidle l /\ minidle l <= maxproc l /\ run l (begin l) es = Some s /\ at_ s <> Over /\ (forall e, step l s e = None).
Proof.
  exists (mkL 2 2 4), [Parent (Some 11); Parent (Some 12); Parent None; Exit 11; Exit 12; Parent None]. eexists.
  split; [cbn; lia|]. split; [cbn; lia|]. split; [vm_compute; reflexivity|]. split; [discriminate|].
  intros [fk|p st|p]; cbn [step at_ pipe kids is_alive existsb fst snd andb].
  - reflexivity.
  - now rewrite !Bool.andb_false_r.
  - now rewrite !Bool.andb_false_r.
Qed.
Print Assumptions C137_hang_refuted.
(** A child that is at work, and has said so, may be killed: its message was not read yet. *)
Theorem C137_kill_refuted : exists l es s s' p, 1 <= minidle l < maxidle l /\ fresh l (begin l) es /\ run l (begin l) es = Some s /\
  busy_after p false (story l (begin l) es) = true /\ step l s (Parent None) = Some s' /\ killed s = [] /\ killed s' = [p].
Proof.
  exists c137_limits, (c137_many ++ [Send 11 2]). do 2 eexists. exists 11. split; [cbn; lia|].
  split. { vm_compute. repeat split; try tauto; intros K; repeat (destruct K as [K|K]; [discriminate|]); destruct K. }
  split; [vm_compute; reflexivity|]. repeat split; vm_compute; reflexivity.
Qed.
Print Assumptions C137_kill_refuted.
(** If a number is used again while a message of it is unread, a new, idle child is taken for a busy one until it has served a request. *)
Theorem C137_truth_refuted : exists l es s p, 1 <= minidle l < maxidle l /\ run l (begin l) es = Some s /\ In p (map fst (kids s)) /\ pipe s = [] /\
  busy_after p false (story l (begin l) es) = false /\ state_in (procs (board_of s)) p = Some 2.
Proof.
  exists (mkL 2 1 3), [Parent (Some 11); Send 11 2; Exit 11; Parent None; Parent None; Parent (Some 11); Parent None; Parent None; Parent None]. eexists. exists 11.
  split; [cbn; lia|]. split; [vm_compute; reflexivity|]. split; [now left|]. repeat split; vm_compute; reflexivity.
Qed.
Print Assumptions C137_truth_refuted.

(** ** C138 *)
(** What was sealed with a password is opened with it, whatever the eight random bytes are. *)
Theorem C138_round_partial : forall sha1 aes unaes salt p w, cipher sha1 aes unaes -> length salt = 8%nat -> bytes salt -> bytes p -> p <> [] -> w <> [] ->
  4 * (Z.of_nat (length p) + 44) + 11 <= 2147483647 ->
  exists q, cgi_encrypt sha1 aes salt p w = Ok (Some q) /\ cgi_decrypt sha1 unaes q w = Ok (Some p).
Proof. exact seal_round. Qed.
Print Assumptions C138_round_partial.
(** What is opened was sealed with that password: its digest, made of salt, password and data, is inside. *)
Theorem C138_genuine : forall sha1 aes unaes q w d, cipher sha1 aes unaes -> cgi_decrypt sha1 unaes q w = Ok (Some d) ->
  d <> [] /\ exists salt body, decode_base64 q = Ok (salt ++ body) /\ length salt = 8%nat /\ unaes salt w body = sha1 (salt ++ w ++ d) ++ d.
Proof. exact unseal_genuine. Qed.
Print Assumptions C138_genuine.
(** Opening any text harms no memory. *)
Theorem C138_safe_partial : forall sha1 aes unaes q w, cipher sha1 aes unaes -> bytes q -> 3 * Z.of_nat (length q) + 3 <= 2147483647 -> exists o, cgi_decrypt sha1 unaes q w = Ok o.
Proof. exact unseal_safe. Qed.
Print Assumptions C138_safe_partial.
Example C138_case : cipher toy_sha toy_aes toy_unaes /\ exists q, cgi_encrypt toy_sha toy_aes (tx "8 bytes!") (tx "the quick brown fox") (tx "pw") = Ok (Some q) /\
  cgi_decrypt toy_sha toy_unaes q (tx "pw") = Ok (Some (tx "the quick brown fox")) /\ cgi_decrypt toy_sha toy_unaes q (tx "wp") = Ok None.
Proof. split; [exact toy_cipher|]. eexists. split; [vm_compute; reflexivity|]. split; vm_compute; reflexivity. Qed.
(** A text without a byte cannot be sealed, though any other can. *)
Theorem C138_empty_refuted : exists p, bytes p /\ forall sha1 aes salt w, cgi_encrypt sha1 aes salt p w = Ok None.
Proof. exists []. split; [constructor|reflexivity]. Qed.
Print Assumptions C138_empty_refuted.
