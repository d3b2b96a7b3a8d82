(** Property theorems about maps (C31, C32, C52). *)
From Verif Require Import Common Fuel TextSpec MapSpec MapModel MapProofs.

(** * C31.  [rep m l] also says that the items are exactly one well-formed doubly linked list:
    no other item is allocated (nothing leaks) and nothing that is linked was freed. *)
Theorem C31_map_is_finite_map : forall (V : Type) (hash : list N -> Z) (os : list (mop V)) fuel, length os + 1 < fuel ->
  exists m', map_run hash fuel map_new os = Ret (m', snd (fm_run [] os)) /\ rep hash m' (fst (fm_run [] os)).
Proof. exact @run_new. Qed.
Print Assumptions C31_map_is_finite_map.
Theorem C31_lookup_put_same : forall (V : Type) l k (v : V), lookup (with_binding l k v) k = Some v.
Proof. exact @lookup_with_same. Qed.
Print Assumptions C31_lookup_put_same.
Theorem C31_lookup_put_other : forall (V : Type) l k (v : V) k', k <> k' -> lookup (with_binding l k v) k' = lookup l k'.
Proof. exact @lookup_with_other. Qed.
Print Assumptions C31_lookup_put_other.
Theorem C31_lookup_delete : forall (V : Type) (l : list (list N * V)) k k', lookup (without l k) k' = if text_dec k k' then None else lookup l k'.
Proof. exact @lookup_without. Qed.
Print Assumptions C31_lookup_delete.
Theorem C31_keys_distinct : forall (V : Type) (os : list (mop V)), NoDup (map fst (fst (fm_run [] os))).
Proof. intros V os. exact (fm_run_nodup (fun _ => 0%Z) os [] (NoDup_nil _)). Qed.
Print Assumptions C31_keys_distinct.
Theorem C31_has : forall (V : Type) (hash : list N -> Z) (str : V -> list N) m l needle fuel, rep hash m l -> length l < fuel ->
  exists b, map_has str fuel m needle = Ret b /\ (b = true <-> exists v, In v (map snd l) /\ same_text (str v) needle).
Proof. exact @has_rep. Qed.
Print Assumptions C31_has.
(** all keys collide here *)
Example C31_example : map (fun r => r) (match map_run (fun _ => 0%Z) 20 map_new
    [MPut 1 [97]%N; MPut 2 [98]%N; MMsg [97;58]%N 3; MCount; MAt [97]%N; MDel [98]%N; MAt [98]%N; MKeys; MValues]
    with Ret (_, rs) => rs | _ => [] end) =
  [MSame; MSame; MSame; MNum 2; MVal (Some 3); MSame; MVal None; MTexts [[97]%N]; MVals [3]].
Proof. vm_compute. reflexivity. Qed.

(** * C32: the block sees every binding once, oldest first. *)
Theorem C32_each_partial : forall (V : Type) (hash : list N -> Z) (W : Type) (blk : W -> list N -> V -> W * flow) m l fuel w,
  rep hash m l -> length l < fuel ->
  map_each hash (fun w k v c => (fst (blk w k v), c, snd (blk w k v))) fuel w m = Ret (visit blk w (rev l)).
Proof. exact @each_rep. Qed.
Print Assumptions C32_each_partial.
Example C32_example :
  match map_run (fun _ => 0%Z) 20 map_new [MPut 1 [97]%N; MPut 2 [98]%N; MPut 3 [97]%N; MPut 4 [99]%N] with
  | Ret (m, _) => map_each (fun _ => 0%Z) (fun w k v c => (w ++ [(k, v)], c, if (v =? 3)%nat then FBreak else FContinue)) 20 [] m
  | _ => Bad end = Ret ([([98]%N, 2); ([97]%N, 3)], FNone).
Proof. vm_compute. reflexivity. Qed.
(** A block that deletes the current entry from the copy it is given as third argument makes the
    loop read a freed item. *)
Theorem C32_each_refuted : exists m, rep (fun _ => 0%Z) m [([97]%N, 1)] /\
  map_each (fun _ => 0%Z)
    (fun w k (v : nat) c => (w, match map_delete (fun _ => 0%Z) 20 c k with Ret c' => c' | _ => c end, FNone)) 20 tt m = Bad.
Proof.
  destruct (run_new (fun _ => 0%Z) [MPut 1 [97]%N] 20) as (m & E & R); [simpl; lia|].
  exists m. split; [exact R|]. vm_compute in E. injection E as <-. vm_compute. reflexivity.
Qed.
Print Assumptions C32_each_refuted.

(** * C52: [entries] hands out the key objects themselves; changing one (e.g. with [append:]) makes
    the binding unreachable while it still counts. *)
Definition change_key {V} (m : pmap V) (a : nat) (k : list N) : pmap V :=
  match m_heap m a with
  | Some it => mkM (upd (m_heap m) a (Some (mkI (i_hash it) k (i_val it) (i_prev it) (i_next it)))) (m_brk m) (m_head m) (m_size m)
  | None => m
  end.
Theorem C52_key_change_refuted : exists (m : pmap nat),
  rep (fun t => Z.of_nat (length t)) m [([97]%N, 1)] /\
  let m' := change_key m 0 [97; 98]%N in
  map_keys 20 m' = Ret [[97; 98]%N] /\ map_count m' = 1 /\
  map_get (fun t => Z.of_nat (length t)) 20 m' [97]%N = Ret None /\
  map_get (fun t => Z.of_nat (length t)) 20 m' [97; 98]%N = Ret None.
Proof.
  destruct (run_new (fun t => Z.of_nat (length t)) [MPut 1 [97]%N] 20) as (m & E & R); [simpl; lia|].
  exists m. split; [exact R|]. vm_compute in E. injection E as <-. repeat split.
Qed.
Print Assumptions C52_key_change_refuted.
