(** Claims about the objects Path, Command and Slurp. *)
From Coq Require Import String.
From Verif Require Import Common Txt SlurpModel SlurpSpec SlurpProofs.
Import ListNotations.
Local Open Scope nat_scope.
Local Notation "'tx' s" := (lit s%string) (at level 8, s at level 0).

(** * C50 *)
(** Full claim: messages with any number of arguments, [wanted] in place of [parts].  That
    is false ([C50_arguments_refuted]); here: at most one argument each. *)
Theorem C50_chain_partial : forall pt ct colon dirsep known w root sep ms ps, sound w ->
  (root = VPath /\ sep = dirsep \/ root = VCommand /\ sep = [32%N]) -> ms <> [] ->
  Forall (fun m => known (fst m) = false) ms -> all_parts pt ct colon w ms ps ->
  exists w', chain colon dirsep known pt ct w root ms = Ok (SDone w' (VSlurp (length (slurps w)))) /\
    show pt ct w' (VSlurp (length (slurps w))) = Some (join sep ps) /\ sound w' /\
    (forall v t, show pt ct w v = Some t -> show pt ct w' v = Some t).
Proof. exact chain_root. Qed.
Print Assumptions C50_chain_partial.
(** Adding to a path later on.  The arguments must not read the path that grows
    ([C50_self_refuted]). *)
Theorem C50_again_partial : forall pt ct colon dirsep known w i s g r ms ps a, sound w ->
  nth_error (slurps w) i = Some s -> glue s = Some g -> command s = Some r -> show pt ct w (VSlurp i) = Some a ->
  Forall (fun m => known (fst m) = false) ms -> all_parts pt ct colon w ms ps ->
  Forall (fun m => Forall (apart w i) (snd m)) ms ->
  exists w', chain colon dirsep known pt ct w (VSlurp i) ms = Ok (SDone w' (VSlurp i)) /\
    show pt ct w' (VSlurp i) = Some (join g (a :: ps)) /\ show pt ct w' (VText r) = Some (join g (a :: ps)) /\ sound w' /\
    (forall v t, apart w i v -> show pt ct w v = Some t -> show pt ct w' v = Some t).
Proof. exact chain_again. Qed.
Print Assumptions C50_again_partial.
Theorem C50_obtain : forall pt ct w i t, show pt ct w (VSlurp i) = Some t -> sound w ->
  exists w' r, slurp_obtain w i = Ok (w', r) /\ show pt ct w' (VText r) = Some t /\
    (forall v u, show pt ct w v = Some u -> show pt ct w' v = Some u).
Proof. exact obtain_shows. Qed.
Print Assumptions C50_obtain.

Definition slash : text := tx "/".
Definition known0 (t : text) : bool := false.
Local Notation run := (chain 58%N slash known0 (tx "[Object]") (tx "[Object]")).
Local Notation look := (show (tx "[Object]") (tx "[Object]")).

(** [Path etc, file: 'a', x.], later one more message to it *)
Lemma sound0 : sound world0.
Proof.
  split.
  - intros [|[|i]] s r H Hr; cbn in H; try discriminate. injection H as <-. discriminate.
  - intros [|[|i]] j s s' r H H' Hr _; cbn in H; try discriminate. injection H as <-. discriminate.
Qed.
Lemma bare_file : bare 58 (tx "file:") (tx "file").
Proof. exact (bare_colon 58 (tx "file")). Qed.
Example C50_example :
  sound world0 /\
  all_parts (tx "[Object]") (tx "[Object]") 58 world0
    [(tx "etc", []); (tx "file:", [VOther (tx "a")]); (tx "x", [])] [tx "etc"; tx "file"; tx "a"; tx "x"] /\
  exists w, run world0 VPath [(tx "etc", []); (tx "file:", [VOther (tx "a")]); (tx "x", [])] = Ok (SDone w (VSlurp 1)) /\
    look w (VSlurp 1) = Some (tx "etc/file/a/x") /\
  exists w', run w (VSlurp 1) [(tx "y", [])] = Ok (SDone w' (VSlurp 1)) /\ look w' (VSlurp 1) = Some (tx "etc/file/a/x/y").
Proof.
  split; [exact sound0|]. split.
  - apply (all_cons _ _ 58 world0 _ _ [tx "etc"] [tx "file"; tx "a"; tx "x"]); [constructor|].
    apply (all_cons _ _ 58 world0 _ _ [tx "file"; tx "a"] [tx "x"]); [constructor; [exact bare_file|reflexivity]|].
    apply (all_cons _ _ 58 world0 _ _ [tx "x"] []); constructor.
  - eexists. split; [vm_compute; reflexivity|]. split; [vm_compute; reflexivity|].
    eexists. split; vm_compute; reflexivity.
Qed.
Print Assumptions C50_example.

(** [Path home, a: 'x' b: 'y'.]: messages with two arguments add nothing. *)
Theorem C50_arguments_refuted :
  exists w w' i m ps a,
    run world0 VPath [(tx "home", [])] = Ok (SDone w (VSlurp i)) /\ sound w /\ look w (VSlurp i) = Some a /\
    wanted (tx "[Object]") (tx "[Object]") 58 w m ps /\ Forall (apart w i) (snd m) /\
    run w (VSlurp i) [m] = Ok (SDone w' (VSlurp i)) /\ look w' (VSlurp i) = Some a /\ a <> join slash (a :: ps).
Proof.
  destruct (chain_root (tx "[Object]") (tx "[Object]") 58 slash known0 world0 VPath slash [(tx "home", [])] [tx "home"] sound0)
    as (w & E & T & Sw & _); [now left|discriminate|repeat constructor| |].
  { apply (all_cons _ _ 58 world0 _ _ [tx "home"] []); constructor. }
  vm_compute in E. injection E as <-.
  eexists _, _, 1, (tx "a:b:", [VOther (tx "x"); VOther (tx "y")]), [tx "a"; tx "x"; tx "b"; tx "y"], (tx "home").
  split; [vm_compute; reflexivity|]. split; [exact Sw|]. split; [vm_compute; reflexivity|]. split; [|split; [|split; [|split]]].
  - apply (wanted_more _ _ 58 _ (tx "a") (tx "b:") (VOther (tx "x")) (tx "x") [VOther (tx "y")] [tx "b"; tx "y"]).
    + cbn. intros [H|[]]. discriminate.
    + discriminate.
    + reflexivity.
    + apply wanted_last; [exact (bare_colon 58 (tx "b"))|reflexivity].
  - constructor; [|constructor; [|constructor]]; split; intros; discriminate.
  - vm_compute. reflexivity.
  - vm_compute. reflexivity.
  - vm_compute. discriminate.
Qed.
Print Assumptions C50_arguments_refuted.
(** The text answered by [obtain] changes when the path grows. *)
Theorem C50_obtain_refuted :
  exists w i w' r w'', run world0 VPath [(tx "home", [])] = Ok (SDone w (VSlurp i)) /\
    slurp_obtain w i = Ok (w', r) /\ look w' (VText r) = Some (tx "home") /\
    run w' (VSlurp i) [(tx "me", [])] = Ok (SDone w'' (VSlurp i)) /\ look w'' (VText r) = Some (tx "home/me").
Proof.
  do 5 eexists. split; [vm_compute; reflexivity|]. split; [vm_compute; reflexivity|]. split; [vm_compute; reflexivity|].
  split; vm_compute; reflexivity.
Qed.
Print Assumptions C50_obtain_refuted.
(** [p a: p]: the argument is read after the parts before it were added. *)
Theorem C50_self_refuted :
  exists w i w', run world0 VPath [(tx "home", [])] = Ok (SDone w (VSlurp i)) /\
    look w (VSlurp i) = Some (tx "home") /\
    run w (VSlurp i) [(tx "in:", [VSlurp i])] = Ok (SDone w' (VSlurp i)) /\
    look w' (VSlurp i) = Some (tx "home/in/home/in/") /\
    tx "home/in/home/in/" <> join slash [tx "home"; tx "in"; tx "home"].
Proof.
  do 3 eexists. split; [vm_compute; reflexivity|]. split; [vm_compute; reflexivity|]. split; [vm_compute; reflexivity|].
  split; [vm_compute; reflexivity|vm_compute; discriminate].
Qed.
Print Assumptions C50_self_refuted.
(** [Slurp hello world.], the usage given in the manual of Slurp, and any two messages to a
    slurp object made by [new]. *)
Theorem C50_slurp_refuted :
  run world0 (VSlurp 0) [(tx "hello", []); (tx "world", [])] = UB /\
  exists w i, make world0 = (w, i) /\ run w (VSlurp i) [(tx "a", []); (tx "b", [])] = UB.
Proof. split; [vm_compute; reflexivity|]. do 2 eexists. split; vm_compute; reflexivity. Qed.
Print Assumptions C50_slurp_refuted.
