(** Claims about files. *)
From Coq Require Import String.
From Verif Require Import Common Txt JsonModel FileModel FileSpec FileProofs.
Import ListNotations.
Local Open Scope nat_scope.
Local Notation "'tx' s" := (lit s%string) (at level 8, s at level 0).

(** * C44 *)
Theorem C44_write_read : forall place readable writable creatable fresh taken s p t s' e,
  nul_free p -> unused s (fresh s) -> (forall s i, length t <= taken s i t) ->
  file_write place readable writable creatable fresh taken s (Some p) t = Ok (s', AMe, e) ->
  e = false /\
  (forall l, place p = Some l -> readable s' l = true ->
     file_read place readable s' (Some p) = Ok (s', AText t, false) /\
     file_exists place readable s' (Some p) = Ok (s', ABool true, false) /\
     ((Z.of_nat (length t) < 2147483648)%Z ->
      file_size place readable s' (Some p) = Ok (s', ANumber (Z.of_nat (length t)), false))).
Proof. exact write_then_read. Qed.
Print Assumptions C44_write_read.
Theorem C44_append : forall place readable writable creatable fresh taken s p t s' e l,
  nul_free p -> unused s (fresh s) -> place p = Some l -> (forall s i, length t <= taken s i t) ->
  file_append place readable writable creatable fresh taken s (Some p) t = Ok (s', AMe, e) -> readable s' l = true ->
  e = false /\ exists old, (view s l = Some (AFile old) \/ view s l = None /\ old = []) /\
    file_read place readable s' (Some p) = Ok (s', AText (old ++ t), false).
Proof. exact append_then_read. Qed.
Print Assumptions C44_append.
Theorem C44_delete : forall place readable removable s p s' e,
  file_delete place removable s (Some p) = Ok (s', AMe, e) ->
  e = false /\ file_exists place readable s' (Some p) = Ok (s', ABool false, false) /\
  file_read place readable s' (Some p) = Ok (s', ANil, true) /\
  file_size place readable s' (Some p) = Ok (s', ANumber 0, false).
Proof. exact delete_then. Qed.
Print Assumptions C44_delete.
Theorem C44_errors : forall place readable writable creatable removable fresh taken s p o s' a e,
  perform place readable writable creatable removable fresh taken s p o = Ok (s', a, e) ->
  (e = true -> s' = s /\ a = ANil) /\ (o = ORead \/ o = OExists \/ o = OSize -> s' = s).
Proof. exact error_changes_nothing. Qed.
Print Assumptions C44_errors.
Theorem C44_other_files : forall place readable writable creatable removable fresh taken s p o s' a e l,
  nul_free p -> place p = Some l -> unused s (fresh s) -> (forall t s i, length t <= taken s i t) ->
  perform place readable writable creatable removable fresh taken s (Some p) o = Ok (s', a, e) ->
  forall l', l' <> l -> entry s' l' = entry s l' /\
    forall j, entry s l' = Some (Regular j) -> entry s l <> Some (Regular j) -> bytes s' j = bytes s j.
Proof. exact others_untouched. Qed.
Print Assumptions C44_other_files.
(** Histories of any length on any number of files. *)
Theorem C44_histories : forall place readable writable creatable removable fresh taken,
  (forall s l, readable s l = true) -> (forall s l, writable s l = true) -> (forall s l, creatable s l = true) ->
  (forall s l, removable s l = true) -> (forall s, unused s (fresh s)) -> (forall s i t, length t <= taken s i t) ->
  forall h s s' r, unshared s ->
  (forall p o, In (p, o) h -> nul_free p /\ place p <> None) ->
  (forall h1 h2 s1 r1, h = h1 ++ h2 -> history place readable writable creatable removable fresh taken s h1 = Ok (s1, r1) -> small (view s1)) ->
  history place readable writable creatable removable fresh taken s h = Ok (s', r) ->
  lives place (view s) h (view s') r.
Proof. exact histories. Qed.
Print Assumptions C44_histories.

(** A file system with the places "a", "b" and "d", the last a folder. *)
Definition a_place (t : text) : option N := match t with [97%N] => Some 0%N | [98%N] => Some 1%N | [100%N] => Some 2%N | _ => None end.
Definition start : os := mkOs (fun l => if (l =? 0)%N then Some (Regular 5) else if (l =? 2)%N then Some Folder else None) (fun i => if (i =? 5)%N then tx "old" else []).
Definition yes (s : os) (l : N) : bool := true.
Definition next (s : os) : N := match entry s 0%N, entry s 1%N with Some (Regular 5), _ | _, Some (Regular 5) => 6%N | _, _ => 5%N end.
Definition all (s : os) (i : N) (t : text) : nat := length t.
Example C44_case :
  unshared start /\ unused start (next start) /\ nul_free (tx "b") /\ small (view start) /\
  match history a_place yes yes yes yes next all start
    [(tx "a", OAppend (tx "er")); (tx "b", OWrite [0; 1]%N); (tx "a", ORead); (tx "b", OSize); (tx "b", ODelete); (tx "b", ORead); (tx "d", OWrite (tx "x"))] with
  | Ok (_, r) => r = [(AMe, false); (AMe, false); (AText (tx "older"), false); (ANumber 2, false); (AMe, false); (ANil, true); (ANil, true)]
  | UB => False
  end.
Proof.
  split; [|split; [|split; [|split; [|vm_compute; reflexivity]]]].
  - intros l l' i H H'. unfold start in *; cbn [entry] in *. destruct (N.eqb_spec l 0), (N.eqb_spec l' 0); try congruence.
    + destruct (l' =? 2)%N; discriminate.
    + destruct (l =? 2)%N; discriminate.
    + destruct (l =? 2)%N; discriminate.
  - intros l H. unfold start, next in H; cbn [entry N.eqb] in H. destruct (l =? 0)%N; [discriminate|]. destruct (l =? 2)%N; discriminate.
  - intros [H|[]]; discriminate H.
  - intros l t H. unfold view, start in H. cbn [entry bytes] in H. destruct (l =? 0)%N; [inversion H; vm_compute; reflexivity|]. destruct (l =? 2)%N; discriminate.
Qed.

(** A NUL byte in the path: [write:] stops there, the other messages leave it out. *)
Theorem C44_nul_refuted : exists place s p t s', file_write place yes yes yes next all s (Some p) t = Ok (s', AMe, false) /\
  file_read place yes s' (Some p) = Ok (s', ANil, true) /\ file_exists place yes s' (Some p) = Ok (s', ABool false, false).
Proof. exists a_place, start, [97; 0; 98]%N, (tx "x"). eexists. split; [reflexivity|]. split; vm_compute; reflexivity. Qed.
Print Assumptions C44_nul_refuted.
(** A device that takes only a part of the text: [write:] answers as if all were well. *)
Theorem C44_short_write_refuted : exists taken s p t s', file_write a_place yes yes yes next taken s (Some p) t = Ok (s', AMe, false) /\
  file_read a_place yes s' (Some p) = Ok (s', AText [], false) /\ t <> [].
Proof. exists (fun _ _ _ => 0), start, (tx "a"), (tx "x"). eexists. split; [reflexivity|]. split; [vm_compute; reflexivity|discriminate]. Qed.
Print Assumptions C44_short_write_refuted.
(** A file of 2^31 bytes has a negative size. *)
Theorem C44_large_refuted : exists s p z, file_size a_place yes s (Some p) = Ok (s, ANumber z, false) /\ (z < 0)%Z.
Proof.
  exists (mkOs (fun _ => Some (Regular 0)) (fun _ => repeat 0%N (Z.to_nat 2147483648))), (tx "a"), (-2147483648)%Z.
  split; [|reflexivity]. unfold file_size, open_read. change (cstring (tx "a")) with [97%N]. cbn [a_place entry bytes yes].
  rewrite repeat_length, Z2Nat.id by discriminate. reflexivity.
Qed.
Print Assumptions C44_large_refuted.
(** A file that may not be read does not exist for [exists]. *)
Theorem C44_unreadable_refuted : exists s p t, view s 0%N = Some (AFile t) /\ a_place p = Some 0%N /\
  file_exists a_place (fun _ _ => false) s (Some p) = Ok (s, ABool false, false).
Proof. exists start, (tx "a"), (tx "old"). split; [reflexivity|]. split; vm_compute; reflexivity. Qed.
Print Assumptions C44_unreadable_refuted.

(** * C69 *)
Theorem C69_listing_partial : forall opendir kind path names, opendir (cstring path) = Some names ->
  (forall d, In d names -> length (cstring path) + 1 + length d <= 4096 /\ length d <= 255) ->
  exists l, file_list opendir kind path = Ok (Some l) /\
    map fst l = filter (fun d => match kind (cstring path ++ 47%N :: d) with Some _ => true | None => false end) names /\
    (forall d k, In (d, k) l -> kind (cstring path ++ 47%N :: d) = Some k).
Proof. exact listing. Qed.
Print Assumptions C69_listing_partial.
Example C69_case : file_list (fun p => Some [tx "."; tx "x"; tx "y"])
  (fun p => if text_eqb p (tx "/t/x") then None else if text_eqb p (tx "/t/y") then Some (tx "file") else Some (tx "folder")) (tx "/t")
  = Ok (Some [(tx ".", tx "folder"); (tx "y", tx "file")]).
Proof. vm_compute. reflexivity. Qed.
(** A path that can be opened (4095 bytes and the terminator) but leaves no room for names. *)
Theorem C69_long_path_refuted : exists path names kind, length path <= 4095 /\ file_list (fun _ => Some names) kind path = UB.
Proof.
  exists (repeat 47%N 4095), [tx "."], (fun _ => None). split; [rewrite repeat_length; reflexivity|]. vm_compute. reflexivity.
Qed.
Print Assumptions C69_long_path_refuted.
