(** Property theorems about the Regex plug-in (C97, C98). *)
From Coq Require Import String.
From Verif Require Import Common Txt Fuel SipModel TextSpec RegexSpec RegexModel RegexProofs.
Local Notation length := List.length.
Local Notation "'tx' s" := (lit s%string) (at level 8, s at level 0).

(** * C97: process:do: *)
(** For every pattern that does not stand for the empty text, and every matcher that follows POSIX (leftmost, longest): every
    text of the pattern is replaced by what the block makes of it; there is just one such text. *)
Theorem C97_substitutes : forall S L f exec (blk : S -> list text -> S * text) comp p o t st fuel, finds L exec -> ~ L [] ->
  comp (dropped p) (has 110 o) (has 105 o) = Some exec -> has 33 o = false -> printable t -> (length t < fuel)%nat ->
  (forall st m gs, snd (blk st (m :: gs)) = f m) ->
  exists st' out, process_options fuel zeroed comp p (HText t) (Some blk) o st = Ret (st', RText out, false) /\
    substituted L f t out /\ forall out', substituted L f t out' -> out' = out.
Proof. exact substitutes. Qed.
Print Assumptions C97_substitutes.
(** Whatever the block does: it is called once for each match, from left to right, with the match and the groups
    that are set, and what it answers takes the place of the match. *)
Theorem C97_calls : forall S exec (blk : S -> list text -> S * text) comp p o t st fuel, sound exec -> never_empty exec ->
  comp (dropped p) (has 110 o) (has 105 o) = Some exec -> has 33 o = false -> (length t < fuel)%nat ->
  exists st' out, process_options fuel zeroed comp p (HText t) (Some blk) o st = Ret (st', RText out, false) /\
    processed exec blk st (dropped t) st' out.
Proof. exact process_ok. Qed.
Print Assumptions C97_calls.
(** A block that answers the match leaves the text as it is. *)
Theorem C97_same : forall S exec (blk : S -> list text -> S * text) comp p o t st fuel, sound exec -> never_empty exec ->
  comp (dropped p) (has 110 o) (has 105 o) = Some exec -> has 33 o = false -> (length t < fuel)%nat -> printable t ->
  (forall st m gs, snd (blk st (m :: gs)) = m) ->
  exists st', process_options fuel zeroed comp p (HText t) (Some blk) o st = Ret (st', RText t, false).
Proof.
  intros S exec blk comp p o t st fuel SO NE C O F P B.
  destruct (process_ok S exec blk comp p o t st fuel SO NE C O F) as (st' & out & E & PR). exists st'.
  rewrite dropped_id in PR by exact P. rewrite (processed_same S exec blk B st t st' out PR) in E. exact E.
Qed.
Print Assumptions C97_same.
(** A pattern that stands for one text, and a block that answers always the same: like [replace:with:] of texts. *)
Theorem C97_like_replace : forall S q r exec (blk : S -> list text -> S * text) comp p o t st fuel, finds (fun m => m = q) exec -> q <> [] ->
  comp (dropped p) (has 110 o) (has 105 o) = Some exec -> has 33 o = false -> printable t -> (length t < fuel)%nat ->
  (forall st m gs, snd (blk st (m :: gs)) = r) ->
  exists st' out, process_options fuel zeroed comp p (HText t) (Some blk) o st = Ret (st', RText out, false) /\ replaced q r t out.
Proof.
  intros S q r exec blk comp p o t st fuel F NE C O P FU B.
  destruct (substitutes S (fun m => m = q) (fun _ => r) exec blk comp p o t st fuel F) as (st' & out & E & SU & _); auto.
  exists st', out. split; [exact E|]. apply substituted_replaced; assumption.
Qed.
Print Assumptions C97_like_replace.
(** The options: [n] and [i] are handed to the library, [!] switches the pattern off. *)
Theorem C97_options : forall o, printable o -> (length o < 256)%nat ->
  (has 110 o = true <-> In 110%N o) /\ (has 105 o = true <-> In 105%N o) /\ (has 33 o = true <-> In 33%N o).
Proof. intros o P L. split; [apply has_ok; assumption|]. split; apply has_ok; assumption. Qed.
Print Assumptions C97_options.
Theorem C97_switched_off : forall S exec (blk : S -> list text -> S * text) comp p o t st fuel fresh,
  comp (dropped p) (has 110 o) (has 105 o) = Some exec -> printable o -> (length o < 256)%nat -> In 33%N o -> printable t ->
  process_options fuel fresh comp p (HText t) (Some blk) o st = Ret (st, RText t, false).
Proof.
  intros S exec blk comp p o t st fuel fresh C P L I PT. rewrite <- (dropped_id t) at 2 by exact PT. apply (ignore_ok S exec); [exact C|]. apply has_ok; assumption.
Qed.
Print Assumptions C97_switched_off.
(** No block, or a pattern that the library does not accept: an error, and the state is as it was. *)
Theorem C97_errors : forall S (blk : option (S -> list text -> S * text)) comp p o h st fuel fresh,
  blk = None \/ comp (dropped p) (has 110 o) (has 105 o) = None ->
  exists a, process_options fuel fresh comp p h blk o st = Ret (st, a, true) /\ forall t, a <> RText t.
Proof.
  intros S [b|] comp p o h st fuel fresh H; cbn [process_options].
  - destruct H as [H|H]; [discriminate H|]. unfold process_options. rewrite H. exists RNil. split; [reflexivity|discriminate].
  - exists RMyself. split; [reflexivity|discriminate].
Qed.
Print Assumptions C97_errors.

(** The pattern [0-9]+, a counter as the state, and a block that numbers the matches. *)
Definition digits (m : text) : bool := match m with [] => false | _ => forallb (fun c => (48 <=? c) && (c <=? 57))%N m end.
Definition comp_digits : compiler := fun p _ _ => if list_eq_dec N.eq_dec p (tx "[0-9]+") then Some (posix digits) else None.
Definition numbering : nat -> list text -> nat * text := fun n gs => (S n, tx "#" ++ [48 + N.of_nat n]%N ++ hd [] gs).
Example C97_example :
  process 99 zeroed comp_digits (tx "[0-9]+") (HText (tx "a12, b3; 456")) (Some numbering) 1%nat = Ret (4%nat, RText (tx "a#112, b#23; #3456"), false) /\
  process_options 99 zeroed comp_digits (tx "[0-9]+") (HText (tx "a12")) (Some numbering) (tx "n!") 1%nat = Ret (1%nat, RText (tx "a12"), false) /\
  process 99 zeroed comp_digits (tx "[0-9") (HText (tx "a12")) (Some numbering) 1%nat = Ret (1%nat, RNil, true) /\
  finds (fun m => digits m = true) (posix digits) /\ digits [] = false.
Proof. split; [vm_compute; reflexivity|]. split; [vm_compute; reflexivity|]. split; [vm_compute; reflexivity|]. split; [apply posix_finds|reflexivity]. Qed.
Example C97_example_replace : forall q, exists exec, finds (fun m => m = q) exec.
Proof.
  intros q. exists (posix (fun m => if list_eq_dec N.eq_dec m q then true else false)).
  destruct (posix_finds (fun m => if list_eq_dec N.eq_dec m q then true else false)) as (F1 & F2 & F3 & F4).
  assert (Q : forall m, (if list_eq_dec N.eq_dec m q then true else false) = true <-> m = q) by (intros m; destruct (list_eq_dec N.eq_dec m q); split; intros; congruence).
  split; [exact F1|]. split; [exact F2|]. split.
  - intros h P E (x & m & y & EQ & M). apply (F3 h P E). exists x, m, y. split; [exact EQ|]. apply Q, M.
  - intros h w gs P E. destruct (F4 h w gs P E) as (x & m & y & [[EQ M] [A B]] & W). exists x, m, y. split; [|exact W].
    split; [split; [exact EQ|apply Q, M]|]. split; [intros x' m' y' [E2 M2]; apply (A x' m' y')|intros m' y' [E2 M2]; apply (B m' y')]; (split; [exact E2|apply Q, M2]).
Qed.

(** A pattern that stands for the empty text, as a*: [process:do:] does not end, for any text and any block. *)
Theorem C97_empty_match_refuted : exists L, L [] /\ (exists exec, finds L exec) /\
  forall S exec (blk : S -> list text -> S * text) comp p t st fuel, finds L exec -> comp (dropped p) false false = Some exec ->
  process fuel zeroed comp p (HText t) (Some blk) st = NoFuel.
Proof.
  exists (fun m => forallb (N.eqb 97) m = true). split; [reflexivity|]. split; [exists (posix (forallb (N.eqb 97))); apply posix_finds|].
  intros S exec blk comp p t st fuel F C. unfold process, process_options. change (has 110 []) with false. change (has 105 []) with false. change (has 33 []) with false.
  rewrite C. rewrite (endless S _ exec blk F eq_refl fuel (dropped t) st [] (dropped_printable t)). reflexivity.
Qed.
Print Assumptions C97_empty_match_refuted.
(** The pattern ^a: the rest of the text behind each match is taken for a text of its own, so that ^ matches again
    and again.  [begins] is the matcher of the library: the a at the begin of what it is given. *)
Definition begins : matcher := fun h => match h with 97%N :: _ => EMatch (0, 1)%nat [] | _ => ENoMatch end.
Theorem C97_caret_refuted : exists t out, sound begins /\ never_empty begins /\
  process 99 zeroed (fun _ _ _ => Some begins) (tx "^a") (HText t) (Some (fun (_ : unit) _ => (tt, tx "b"))) tt = Ret (tt, RText out, false) /\
  t = tx "aaa" /\ out = tx "bbb".
Proof.
  exists (tx "aaa"), (tx "bbb"). assert (B : forall h w gs, begins h = EMatch w gs -> w = (0, 1)%nat /\ gs = [] /\ exists r, h = 97%N :: r).
  { intros [|c r] w gs E; [discriminate E|]. unfold begins in E. destruct (N.eq_dec c 97) as [->|NE].
    - injection E as <- <-. split; [reflexivity|]. split; [reflexivity|]. exists r. reflexivity.
    - exfalso. repeat (match goal with H : context [match ?x with _ => _ end] |- _ => is_var x; destruct x; try discriminate H end). contradiction. }
  split; [|split].
  - intros h w gs _ E. destruct (B h w gs E) as (-> & -> & r & ->). split; [split; cbn; lia|intros s []].
  - intros h w gs E. destruct (B h w gs E) as (-> & _). cbn. lia.
  - split; [vm_compute; reflexivity|]. split; reflexivity.
Qed.
Print Assumptions C97_caret_refuted.
(** The pattern (a)|(b) on b: the first group is not set, and the second one, which is, does not reach the block. *)
Theorem C97_group_lost_refuted : exists exec, exec (tx "b") = EMatch (0, 1)%nat [None; Some (0, 1)%nat] /\ sound exec /\
  forall exec', exec' (tx "b") = EMatch (0, 1)%nat [None; Some (0, 1)%nat] -> exec' [] = ENoMatch ->
  process 9 zeroed (fun _ _ _ => Some exec') (tx "(a)|(b)") (HText (tx "b"))
    (Some (fun (n : nat) gs => (length gs, nth 2 gs (tx "lost")))) 0%nat = Ret (1%nat, RText (tx "lost"), false).
Proof.
  exists (fun h => if list_eq_dec N.eq_dec h (tx "b") then EMatch (0, 1)%nat [None; Some (0, 1)%nat] else ENoMatch).
  split; [reflexivity|]. split.
  - intros h w gs _ E. destruct (list_eq_dec N.eq_dec h (tx "b")) as [->|]; [|discriminate E]. injection E as <- <-.
    split; [split; cbn; lia|]. intros s [I|[I|[]]]; [discriminate I|]. injection I as <-. split; cbn; lia.
  - intros exec' E1 E2. unfold process, process_options. change (has 33 []) with false. change (dropped (tx "b")) with (tx "b"). cbn [process_loop].
    rewrite E1. match goal with |- context [groups_of ?a ?b ?c] => change (groups_of a b c) with (Ok [tx "b"]) end. cbv iota beta. cbn [snd].
    change (skipn 1 (tx "b")) with (@nil N). rewrite E2. reflexivity.
Qed.
Print Assumptions C97_group_lost_refuted.
(** 256 options are none. *)
Theorem C97_many_options_refuted : exists o, In 33%N o /\ In 105%N o /\ printable o /\ has 33 o = false /\ has 105 o = false.
Proof.
  exists (33 :: repeat 105 255)%N. split; [left; reflexivity|]. split; [right; left; reflexivity|]. split.
  - intros [E|I]; [discriminate E|]. apply repeat_spec in I. discriminate I.
  - split; vm_compute; reflexivity.
Qed.
Print Assumptions C97_many_options_refuted.
(** NUL bytes of the text are lost, even without a match. *)
Theorem C97_nul_refuted : exists t u, process 9 zeroed (fun _ _ _ => Some (posix digits)) (tx "x") (HText t) (Some numbering) 1%nat = Ret (1%nat, RText u, false) /\ t <> u.
Proof. exists [97; 0; 98]%N, [97; 98]%N. split; [vm_compute; reflexivity|discriminate]. Qed.
Print Assumptions C97_nul_refuted.
(** Memory that was in use before (pools on): the groups have no NUL of their own, and end where the old bytes do. *)
Theorem C97_used_memory_refuted : exists fresh, (forall n, length (fresh n) = n) /\
  process 9 fresh comp_digits (tx "[0-9]+") (HText (tx "a12")) (Some numbering) 1%nat = Bad.
Proof. exists (repeat 120%N). split; [intros n; apply repeat_length|]. vm_compute. reflexivity. Qed.
Print Assumptions C97_used_memory_refuted.
(** A number instead of a text. *)
Theorem C97_not_text_refuted : exists h, process 9 zeroed comp_digits (tx "[0-9]+") h (Some numbering) 1%nat = Bad.
Proof. exists HOther. vm_compute. reflexivity. Qed.
Print Assumptions C97_not_text_refuted.

(** * C98: matches: *)
Theorem C98_matches : forall L exec comp p t, finds L exec -> comp (dropped p) false false = Some exec -> printable t ->
  (matches comp p t = (VTrue, false) /\ contains L t) \/ (matches comp p t = (VFalse, false) /\ ~ contains L t).
Proof. exact matches_ok. Qed.
Print Assumptions C98_matches.
Theorem C98_bad_pattern : forall comp p t, comp (dropped p) false false = None -> matches comp p t = (VNil, true).
Proof. intros comp p t H. unfold matches. rewrite H. reflexivity. Qed.
Print Assumptions C98_bad_pattern.
(** Processing and matching agree: the block is called if and only if [matches:] answers True. *)
Theorem C98_agrees : forall exec comp p t, comp (dropped p) false false = Some exec -> sound exec -> never_empty exec -> never_fails exec ->
  exists n out, process (Datatypes.S (length t)) zeroed comp p (HText t) (Some (fun n gs => (Datatypes.S n, hd [] gs))) 0%nat = Ret (n, RText out, false) /\
    (matches comp p t = (VTrue, false) <-> (0 < n)%nat).
Proof.
  intros exec comp p t C SO NE NF.
  destruct (process_ok nat exec (fun n gs => (Datatypes.S n, hd [] gs)) comp p [] t 0%nat (Datatypes.S (length t)) SO NE C eq_refl (Nat.lt_succ_diag_r _)) as (n & out & E & P).
  exists n, out. split; [exact E|]. unfold matches. rewrite C.
  assert (MONO : forall st h st' out, processed exec (fun n gs => (Datatypes.S n, hd [] gs)) st h st' out -> (st <= st')%nat).
  { clear. intros st h st' out P. induction P as [|st h x m y gs st' r st'' out EH EX B P IH]; [apply Nat.le_refl|]. injection B as <- _. lia. }
  inversion P as [st h NO E1 E2 E3 E4|st h x m y gs st' r st'' out' EH EX B P']; subst.
  - destruct (exec (dropped t)) as [w gs| |] eqn:X; [exfalso; eapply NO; reflexivity| |exfalso; exact (NF _ X)]. split; [discriminate|lia].
  - rewrite EX. injection B as <- _. apply MONO in P'. split; [lia|reflexivity].
Qed.
Print Assumptions C98_agrees.
Example C98_example : matches comp_digits (tx "[0-9]+") (tx "ab1c") = (VTrue, false) /\ matches comp_digits (tx "[0-9]+") (tx "abc") = (VFalse, false) /\
  matches comp_digits (tx "[0-9") (tx "abc") = (VNil, true) /\ sound (posix digits) /\ never_fails (posix digits).
Proof. split; [vm_compute; reflexivity|]. split; [vm_compute; reflexivity|]. split; [vm_compute; reflexivity|]. split; apply posix_finds. Qed.
(** A text with a NUL: a match across it. *)
Theorem C98_nul_refuted : exists d t, matches (fun _ _ _ => Some (posix d)) (tx "ab") t = (VTrue, false) /\ (forall m, d m = true -> m = tx "ab") /\ ~ contains (fun m => d m = true) t.
Proof.
  exists (fun m => if list_eq_dec N.eq_dec m (tx "ab") then true else false), [97; 0; 98]%N. split; [vm_compute; reflexivity|]. split.
  - intros m H. destruct (list_eq_dec N.eq_dec m (tx "ab")); [assumption|discriminate H].
  - intros (x & m & y & E & M). destruct (list_eq_dec N.eq_dec m (tx "ab")) as [->|]; [|discriminate M]. cbn in E.
    destruct x as [|a [|b [|c [|? x]]]]; cbn in E; try discriminate E; injection E; intros; try discriminate.
Qed.
Print Assumptions C98_nul_refuted.

(** With blocks that may fail: as long as none does, everything is as above. *)
Theorem C97_no_failure : forall S rstr exec fresh (f : S -> list text -> S * text) quiet fuel st h out,
  flow_loop rstr fuel fresh exec (fun s gs => let '(s', r) := f s gs in (s', AText r)) quiet st None h out =
  rbind (process_loop fuel fresh exec f st h out) (fun '(st', o) => Ret (st', None, o)).
Proof. exact flow_none. Qed.
Print Assumptions C97_no_failure.
(** Once an error is raised there is one at the end, and the program is not changed any more. *)
Theorem C97_stays_failed : forall S rstr exec fresh (blk : S -> list text -> S * answer) quiet fuel st e h out r,
  flow_loop rstr fuel fresh exec blk quiet st (Some e) h out = Ret r -> fst (fst r) = st /\ snd (fst r) <> None.
Proof. intros S rstr exec fresh blk quiet fuel st e h out r H. apply flow_some in H. destruct H as [A [B|B]]; rewrite B; split; try exact A; discriminate. Qed.
Print Assumptions C97_stays_failed.
(** But it is another error: whatever went wrong in the block, the program is told that it must answer a text. *)
Theorem C97_error_refuted : (exists e r st o, e <> tx "Must return a string." /\
    flow_loop (tx "Must return a string.") 9 zeroed (posix digits) (fun n _ => (S n, AError e)) (fun _ => None) 0%nat None (tx "a1b2") [] = Ret (st, Some r, o) /\ r <> e /\ st = 1%nat) /\
  forall S rstr exec fresh (blk : S -> list text -> S * answer) quiet fuel st h out st' e o,
    flow_loop rstr fuel fresh exec blk quiet st None h out = Ret (st', Some e, o) -> e = rstr.
Proof.
  split; [|exact flow_calls]. exists (tx "Division by zero."). eexists. eexists. eexists. split; [discriminate|].
  split; [vm_compute; reflexivity|]. split; [discriminate|reflexivity].
Qed.
Print Assumptions C97_error_refuted.
