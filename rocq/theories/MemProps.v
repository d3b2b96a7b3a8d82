(** Property theorems about the memory manager (C37, C38, C53, C54, C55).
    [disciplined avail t_start l]: the calls in [l], from the start of the program, each
    respect the contract of the manager ([uses_ok]): requests below 2^31 - 48 bytes, only
    blocks in use are freed or resized, and the pool is at least 384 bytes. *)
From Verif Require Import Common MemModel MemSpec MemProofs.
Open Scope Z_scope.

(** A history used in the examples: pool of 1000 bytes, blocks of several classes, frees,
    resizes, tracked blocks. *)
Definition demo : list mop :=
  [OAlloc 24; OTAlloc 100; OPool 1000; OAlloc 10; OAlloc 20; OTAlloc 3; OFree (Pod Sp 0);
   OAlloc 1; ORealloc (Pod Sp 1) 90; OTRewind 1; OFree (Sys 0)].
Definition always (n : N) : bool := true.
Lemma demo_ok : disciplined always t_start demo.
Proof.
  apply disciplinedb_sound. vm_compute. reflexivity.
Qed.
Example demo_runs : match mrun always t_start demo with
  | MOk t => map (fun b => (b_addr b, b_width b, b_req b)) (m_live (t_mem t)) | _ => [] end
  = [(Pod Lp 0, 128, 90); (Pod Sp 0, 32, 1); (Sys 3, 184, 176); (Sys 1, 108, 100)].
Proof. vm_compute. reflexivity. Qed.

(** * C37 *)
Theorem C37_ledger_is_live_total : forall avail l t,
  disciplined avail t_start l -> mrun avail t_start l = MOk t ->
  m_alloc (t_mem t) = total (m_live (t_mem t)) /\
  (m_alloc (t_mem t) = 0 <-> m_live (t_mem t) = []).
Proof. exact history_ledger. Qed.
Print Assumptions C37_ledger_is_live_total.
Theorem C37_allocation_within_limit : forall avail l t n a m,
  disciplined avail t_start l -> mrun avail t_start l = MOk t ->
  size_ok n -> heap_allocate avail (t_mem t) n = MOk (a, m) -> m_alloc m <= m_limit m.
Proof. exact history_limit. Qed.
Print Assumptions C37_allocation_within_limit.
Theorem C37_over_limit_is_refused : forall avail l t n,
  disciplined avail t_start l -> mrun avail t_start l = MOk t ->
  size_ok n -> m_limit (t_mem t) < total (m_live (t_mem t)) + n + 8 ->
  heap_allocate avail (t_mem t) n = MExit.
Proof. exact history_refuse. Qed.
Print Assumptions C37_over_limit_is_refused.
Example C37_example : match mrun always t_start demo with
  | MOk t => (m_alloc (t_mem t), heap_allocate always (t_mem t) 9999999) | _ => (0, MUB) end
  = (452, MExit).
Proof. vm_compute. reflexivity. Qed.

(** Resizing a block is not checked against the limit. *)
Theorem C37_reallocate_ignores_limit_refuted : exists l t,
  disciplined always t_start l /\ mrun always t_start l = MOk t /\
  m_limit (t_mem t) < m_alloc (t_mem t).
Proof.
  exists [OLimit 1000; OAlloc 10; ORealloc (Sys 0) 1000000].
  eexists. split; [|split; [vm_compute; reflexivity|vm_compute; reflexivity]].
  apply disciplinedb_sound. vm_compute. reflexivity.
Qed.
Print Assumptions C37_reallocate_ignores_limit_refuted.

(** * C38 *)
Theorem C38_never_undefined : forall avail l,
  disciplined avail t_start l -> mrun avail t_start l <> MUB.
Proof. exact history_no_ub. Qed.
Print Assumptions C38_never_undefined.
Theorem C38_layout : forall avail l t,
  disciplined avail t_start l -> mrun avail t_start l = MOk t ->
  disjoint_blocks (t_mem t) /\ roomy_blocks (t_mem t) /\ sound_free_lists (t_mem t).
Proof. exact history_layout. Qed.
Print Assumptions C38_layout.
Theorem C38_allocate_adds_one_block : forall avail l t n a m,
  disciplined avail t_start l -> mrun avail t_start l = MOk t ->
  size_ok n -> heap_allocate avail (t_mem t) n = MOk (a, m) ->
  (forall b, In b (m_live (t_mem t)) -> b_addr b <> a) /\
  exists b, m_live m = b :: m_live (t_mem t) /\ b_addr b = a /\ b_req b = n.
Proof. exact history_alloc. Qed.
Print Assumptions C38_allocate_adds_one_block.
Theorem C38_free_removes_one_block : forall avail l t a,
  disciplined avail t_start l -> mrun avail t_start l = MOk t -> in_use t a ->
  exists m l1 b l2, heap_free (t_mem t) a = MOk m /\
    m_live (t_mem t) = l1 ++ b :: l2 /\ b_addr b = a /\ m_live m = l1 ++ l2.
Proof. exact history_free. Qed.
Print Assumptions C38_free_removes_one_block.
Theorem C38_reallocate_replaces_one_block : forall avail l t n a a' m,
  disciplined avail t_start l -> mrun avail t_start l = MOk t ->
  size_ok n -> in_use t a -> heap_reallocate avail (t_mem t) a n = MOk (a', m) ->
  exists l1 b l2 b', m_live (t_mem t) = l1 ++ b :: l2 /\ b_addr b = a /\
    m_live m = b' :: l1 ++ l2 /\ b_addr b' = a' /\ b_req b' = n /\ b_width b <= b_width b'.
Proof. exact history_realloc. Qed.
Print Assumptions C38_reallocate_replaces_one_block.

(** A pool of 300 to 383 bytes: the number of large pods is 0 - 1 as a [size_t], so large
    pods are carved beyond the end of their region. *)
Theorem C38_small_pool_refuted : exists n l t, 300 <= n < 384 /\
  mrun always t_start (OPool n :: l) = MOk t /\ ~ roomy_blocks (t_mem t).
Proof.
  exists 300, [OAlloc 100]. eexists. split; [lia|].
  split; [vm_compute; reflexivity|]. intros H.
  specialize (H _ (or_introl eq_refl)). cbn in H. lia.
Qed.
Print Assumptions C38_small_pool_refuted.
(** A request of 2^32 bytes is cut to an [int] and gets a block without any room. *)
Theorem C38_huge_request_refuted : exists n t,
  mrun always t_start [OLimit (2 ^ 40); OAlloc n] = MOk t /\
  exists b, m_live (t_mem t) = [b] /\ b_req b = 4294967296 /\ b_width b = 8.
Proof.
  exists 4294967296. eexists. split; [vm_compute; reflexivity|].
  eexists. split; [reflexivity|]. split; reflexivity.
Qed.
Print Assumptions C38_huge_request_refuted.

(** * C53 *)
Theorem C53_zero_filled_partial : forall avail l t,
  existsb is_pool_op l = false -> mrun avail t_start l = MOk t ->
  forall b, In b (m_live (t_mem t)) -> b_zero b = true.
Proof. exact history_zero. Qed.
Print Assumptions C53_zero_filled_partial.
Example C53_example : match mrun always t_start [OAlloc 5; OAlloc 9; OFree (Sys 0); ORealloc (Sys 1) 40] with
  | MOk t => map (fun b => (b_addr b, b_zero b)) (m_live (t_mem t)) | _ => [] end = [(Sys 2, true)].
Proof. vm_compute. reflexivity. Qed.
Theorem C53_pool_memory_not_zeroed_refuted : exists l t b,
  disciplined always t_start l /\ mrun always t_start l = MOk t /\
  In b (m_live (t_mem t)) /\ b_zero b = false.
Proof.
  exists [OPool 1000; OAlloc 5]. eexists. eexists.
  split; [apply disciplinedb_sound; vm_compute; reflexivity|].
  split; [vm_compute; reflexivity|]. split; [left; reflexivity|reflexivity].
Qed.
Print Assumptions C53_pool_memory_not_zeroed_refuted.

(** * C54 *)
Theorem C54_rewind_frees_exactly_the_later_blocks : forall avail l t k,
  disciplined avail t_start l -> mrun avail t_start l = MOk t ->
  exists t', tracker_rewind t k = MOk t' /\ t_blocks t' = firstn k (t_blocks t) /\
    forall b, In b (m_live (t_mem t')) <->
              In b (m_live (t_mem t)) /\ ~ In (b_addr b) (skipn k (t_blocks t)).
Proof. exact history_rewind. Qed.
Print Assumptions C54_rewind_frees_exactly_the_later_blocks.
Theorem C54_free_rest_releases_all_tracked : forall avail l t,
  disciplined avail t_start l -> mrun avail t_start l = MOk t ->
  exists t', free_rest t = MOk t' /\ t_blocks t' = [] /\
    (forall b, In b (m_live (t_mem t')) <->
       In b (m_live (t_mem t)) /\ ~ In (b_addr b) (t_blocks t) /\ t_arr t <> Some (b_addr b)) /\
    ((forall a, in_use t a -> ~ own t a) -> m_alloc (t_mem t') = 0).
Proof. exact history_free_rest. Qed.
Print Assumptions C54_free_rest_releases_all_tracked.
Example C54_example :
  match mrun always t_start (demo ++ [OFree (Pod Lp 0); OFree (Pod Sp 0); OTAlloc 77; OTFreeRest]) with
  | MOk t => (m_alloc (t_mem t), m_live (t_mem t)) | _ => (1, []) end = (0, []).
Proof. vm_compute. reflexivity. Qed.

(** * C55: once every pod of a class has been handed out, pods that come back are never
    used again, although the whole class is free. *)
Theorem C55_returned_pods_reused_refuted : exists l t m a,
  disciplined always t_start l /\ mrun always t_start l = MOk t /\
  m_live (t_mem t) = [] /\ length (p_free (m_pool (t_mem t)) Sp) = 9%nat /\
  heap_allocate always (t_mem t) 8 = MOk (a, m) /\ a = Sys 0.
Proof.
  exists (OPool 1000 :: repeat (OAlloc 8) 9 ++ map (fun i => OFree (Pod Sp i)) [0;1;2;3;4;5;6;7;8]).
  eexists. eexists. eexists.
  split; [|split; [vm_compute; reflexivity|split; [reflexivity|split; [reflexivity|split;
    [vm_compute; reflexivity|reflexivity]]]]].
  apply disciplinedb_sound. vm_compute. reflexivity.
Qed.
Print Assumptions C55_returned_pods_reused_refuted.
(** As long as a pod has never been handed out, a returned pod is reused. *)
Theorem C55_reuse_partial : forall avail m c i fr n, p_on (m_pool m) = true ->
  p_free (m_pool m) c = Pod c i :: fr -> p_cnt (m_pool m) c < p_cap (m_pool m) c ->
  psize c / 2 < n + 8 <= psize c \/ (c = Sp /\ 0 <= n <= 24) -> 0 <= m_alloc m ->
  m_alloc m + psize c <= m_limit m -> m_limit m < W64 -> 0 <= i ->
  (i + 1) * psize c <= p_size (m_pool m) ->
  exists m', heap_allocate avail m n = MOk (Pod c i, m').
Proof. exact reuse_pod. Qed.
Print Assumptions C55_reuse_partial.
