(** Property theorems about packages of files (C96). *)
From Coq Require Import String.
From Verif Require Import Common Txt Fuel SipModel PackSpec PackModel PackProofs.
Local Open Scope N_scope.
Local Notation length := List.length.
Local Notation "'tx' s" := (lit s%string) (at level 8, s at level 0).

(** The full statement: whatever files are added to a package, loading a name from it answers the content of the
    file of that name that was added (the newest), and loading another name answers nothing. *)
Definition C96_full : Prop := forall chunk opens d pkg news asset mem junk fuel d' f c,
  (0 < chunk)%nat -> mem < T63 -> length junk = 500%nat -> opens pkg = true -> d pkg = None -> name_ok asset ->
  (forall p c, In (p, c) news -> name_ok p /\ p <> pkg /\ d p = Some c /\ size c < T31 /\ size c <= mem) ->
  add_all chunk opens d pkg (map fst news) fuel = Ret d' -> d' pkg = Some f -> In (asset, c) news ->
  load_asset fuel mem f junk asset = Ret (Some c).
(** What is missing: names of more than 491 bytes and empty files (both refuted below); a newer version
    of a file that is already in the package is covered, as [content_of] takes the first (refuted as "the newest"). *)
Theorem C96_package_partial : forall chunk opens d pkg news asset mem junk fuel, (0 < chunk)%nat -> opens pkg = true -> d pkg = None ->
  (forall p c, In (p, c) news -> name_ok p /\ p <> pkg /\ d p = Some c /\ (length c < fuel)%nat) ->
  Forall (fun e => (length (fst e) <= 491)%nat /\ size (snd e) < T31 /\ size (snd e) <= mem) news ->
  name_ok asset -> mem < T63 -> length junk = 500%nat -> (length news < fuel)%nat -> news <> [] ->
  N.of_nat (fold_right (fun e n => length (fst e) + 9 + length (snd e) + n)%nat 0%nat news) + size asset + 10 < T63 ->
  exists d' f, add_all chunk opens d pkg (map fst news) fuel = Ret d' /\ d' pkg = Some f /\ (forall q, q <> pkg -> d' q = d q) /\
    load_asset fuel mem f junk asset = Ret (match content_of asset news with Some (c :: r) => Some (c :: r) | _ => None end).
Proof. exact package_ok. Qed.
Print Assumptions C96_package_partial.
(** Adding to a package keeps what is in it: the new file comes last. *)
Theorem C96_add : forall chunk opens d pkg path es content fuel, (0 < chunk)%nat -> opens pkg = true -> name_ok path -> path <> pkg ->
  d path = Some content -> (d pkg = None /\ es = [] \/ d pkg = Some (packed 0 es)) -> (length content < fuel)%nat ->
  exists d', package_add chunk opens d pkg (Some path) fuel = Ret (d', AMyself, false) /\
    d' pkg = Some (packed 0 (es ++ [(path, content)])) /\ (forall q, q <> pkg -> d' q = d q).
Proof. exact add_ok. Qed.
Print Assumptions C96_add.
(** A file that is not there: an error, and the package is as it was (or empty, if there was none). *)
Theorem C96_missing_file : forall chunk opens d pkg path fuel, opens pkg = true -> name_ok path -> path <> pkg -> d path = None ->
  exists d', package_add chunk opens d pkg (Some path) fuel = Ret (d', ANil, true) /\
    d' pkg = Some (match d pkg with Some t => t | None => [] end) /\ (forall q, q <> pkg -> d' q = d q).
Proof. exact add_missing. Qed.
Print Assumptions C96_missing_file.

Definition files (l : entries) : disk := fun q => content_of q l.
Definition pk := tx "assets.dat".
Definition all_open : text -> bool := fun _ => true.
Definition package (r : res disk) : option text := match r with Ret d => d pk | _ => None end.
(** Two files, pieces of 2 bytes, a buffer full of junk. *)
Definition two : entries := [(tx "a.png", [137; 80; 78; 0; 1]); (tx "a", [7; 8; 9; 10])].
Example C96_example : exists f, package (add_all 2 all_open (files two) pk (map fst two) 9) = Some f /\
  load_asset 9 1000 f (repeat 65 500) (tx "a.png") = Ret (Some [137; 80; 78; 0; 1]) /\
  load_asset 9 1000 f (repeat 65 500) (tx "a") = Ret (Some [7; 8; 9; 10]) /\
  load_asset 9 1000 f (repeat 65 500) (tx "a.pn") = Ret None /\ load_asset 9 1000 f (repeat 65 500) [] = Ret None.
Proof. eexists. split; [vm_compute; reflexivity|]. repeat (match goal with |- _ /\ _ => split end; [vm_compute; reflexivity|]); vm_compute; reflexivity. Qed.
Example C96_hypotheses : (forall p c, In (p, c) two -> name_ok p /\ p <> pk /\ files two p = Some c /\ (length c < 9)%nat) /\
  Forall (fun e => (length (fst e) <= 491)%nat /\ size (snd e) < T31 /\ size (snd e) <= 1000) two /\ name_ok (tx "a").
Proof.
  split.
  - intros p c [E|[E|[]]]; injection E as <- <-; (split; [unfold name_ok; vm_compute; intuition discriminate|]); (split; [discriminate|]); (split; [vm_compute; reflexivity|apply Nat.ltb_lt; reflexivity]).
  - split; [|unfold name_ok; vm_compute; intuition discriminate]. repeat apply Forall_cons; try apply Forall_nil; (split; [apply Nat.leb_le; reflexivity|split; [reflexivity|vm_compute; discriminate]]).
Qed.

(** A name of 492 bytes: when another file is looked for, the number behind the name is not in the buffer and is
    taken from beyond it. *)
Theorem C96_long_name_refuted : exists es f asset, Forall (fun e => name_ok (fst e) /\ size (snd e) <= 1000) es /\
  package (add_all 100 all_open (files es) pk (map fst es) 9) = Some f /\ content_of asset es = Some (tx "x") /\
  load_asset 9 1000 f (repeat 0 500) asset = Bad.
Proof.
  exists [(repeat 97 492, tx "y"); (tx "b", tx "x")]. eexists. exists (tx "b"). split.
  - repeat apply Forall_cons; try apply Forall_nil; (split; [|vm_compute; discriminate]); cbn [fst].
    + intros I. apply repeat_spec in I. discriminate.
    + unfold name_ok. vm_compute. intuition discriminate.
  - repeat (match goal with |- _ /\ _ => split end; [vm_compute; reflexivity|]); vm_compute; reflexivity.
Qed.
Print Assumptions C96_long_name_refuted.
(** An empty file is answered as if it was not in the package. *)
Theorem C96_empty_file_refuted : exists es f asset, package (add_all 100 all_open (files es) pk (map fst es) 9) = Some f /\
  content_of asset es = Some [] /\ load_asset 9 1000 f (repeat 0 500) asset = Ret None.
Proof. exists [(tx "e", []); (tx "b", tx "x")]. eexists. exists (tx "e"). repeat (match goal with |- _ /\ _ => split end; [vm_compute; reflexivity|]); vm_compute; reflexivity. Qed.
Print Assumptions C96_empty_file_refuted.
(** Adding a file again after it was changed: the package keeps giving the old content. *)
Theorem C96_newer_refuted : exists d f, d (tx "a") = Some (tx "old") /\
  package (let! d1 := add_all 100 all_open d pk [tx "a"] 9 in
           add_all 100 all_open (save d1 (tx "a") (tx "new")) pk [tx "a"] 9) = Some f /\
  load_asset 9 1000 f (repeat 0 500) (tx "a") = Ret (Some (tx "old")).
Proof. exists (files [(tx "a", tx "old")]). eexists. repeat (match goal with |- _ /\ _ => split end; [vm_compute; reflexivity|]); vm_compute; reflexivity. Qed.
Print Assumptions C96_newer_refuted.
(** A package that cannot be opened for writing: not an error, but a use of a null pointer. *)
Theorem C96_unopenable_refuted : exists opens d, d (tx "a") = Some (tx "x") /\ opens pk = false /\
  package_add 100 opens d pk (Some (tx "a")) 9 = Bad.
Proof. exists (fun _ => false), (files [(tx "a", tx "x")]). repeat split. Qed.
Print Assumptions C96_unopenable_refuted.
(** A file that is no package of this form: its bytes are used as positions and sizes.  Here 8 bytes
    that lead back to themselves: the search does not end. *)
Definition knot : text := tx "aa" ++ [0] ++ bytes64 11 ++ tx "b" ++ [0] ++ bytes64 11.
Lemma cycle : forall fuel buf, length buf = 500%nat -> load_loop fuel 1000 knot 11 buf (tx "c") = NoFuel.
Proof.
  induction fuel as [|fuel IH]; intros buf L; [reflexivity|].
  destruct (load_step 1000 (tx "c") (tx "b") 11 [] fuel 11 buf knot) as (buf' & L' & E);
    [unfold name_ok; vm_compute; intuition discriminate|unfold name_ok; vm_compute; intuition discriminate|discriminate|exact L
    |apply Nat.leb_le; reflexivity|reflexivity|reflexivity|vm_compute; reflexivity|].
  rewrite E. apply IH, L'.
Qed.
Theorem C96_endless_refuted : exists f asset, forall fuel junk, length junk = 500%nat -> load_asset fuel 1000 f junk asset = NoFuel.
Proof.
  exists knot, (tx "c"). intros fuel junk L. unfold load_asset. change (filter _ (tx "c")) with (tx "c"). destruct fuel as [|fuel]; [reflexivity|].
  destruct (load_step 1000 (tx "c") (tx "aa") 11 (tx "b" ++ [0] ++ bytes64 11) fuel 0 junk knot) as (buf' & L' & E);
    [unfold name_ok; vm_compute; intuition discriminate|unfold name_ok; vm_compute; intuition discriminate|discriminate|exact L
    |apply Nat.leb_le; reflexivity|reflexivity|reflexivity|vm_compute; reflexivity|].
  rewrite E. apply cycle, L'.
Qed.
Print Assumptions C96_endless_refuted.
