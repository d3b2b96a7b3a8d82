(** What a user of the memory manager relies on, stated on the observable memory layout:
    which byte ranges are in use, how large they are, and what the ledger says. *)
From Verif Require Import Common MemModel.
Open Scope Z_scope.

(** The bytes of a block: the memory area it belongs to (one area per pod class, one per
    block of the C library) and the half-open interval inside that area. *)
Inductive area := APods (c : cls) | ASys (n : N).
Definition area_of (a : addr) : area := match a with Pod c _ => APods c | Sys n => ASys n end.
Definition start_of (a : addr) : Z := match a with Pod c i => i * psize c | Sys _ => 0 end.
(** Size of an area: a pod region has [p_size] bytes. *)
Definition area_size (m : mem) (b : blk) : Z :=
  match b_addr b with Pod _ _ => p_size (m_pool m) | Sys _ => b_width b end.

Definition byte_of (b : blk) (ar : area) (z : Z) : Prop :=
  area_of (b_addr b) = ar /\ start_of (b_addr b) <= z < start_of (b_addr b) + b_width b.

(** No byte belongs to two blocks in use. *)
Definition disjoint_blocks (m : mem) : Prop :=
  forall l1 b l2 b' l3 ar z, m_live m = l1 ++ b :: l2 ++ b' :: l3 ->
    byte_of b ar z -> byte_of b' ar z -> False.

(** Every block holds the requested bytes behind its 8-byte header and stays inside its
    area. *)
Definition roomy_blocks (m : mem) : Prop :=
  forall b, In b (m_live m) ->
    0 <= b_req b /\ b_req b + 8 <= b_width b /\
    0 <= start_of (b_addr b) /\ start_of (b_addr b) + b_width b <= area_size m b.

(** What waits in a free list is pool memory of that class, inside the region, and no byte
    of it is in use. *)
Definition sound_free_lists (m : mem) : Prop :=
  forall c a, In a (p_free (m_pool m) c) ->
    exists i, a = Pod c i /\ 0 <= i /\ (i + 1) * psize c <= p_size (m_pool m) /\
      forall b z, In b (m_live m) -> byte_of b (APods c) z ->
        ~ (i * psize c <= z < (i + 1) * psize c).

(** The total of the blocks handed out. *)
Fixpoint total (l : list blk) : Z :=
  match l with [] => 0 | b :: r => b_width b + total r end.

(** What the rest of the program has to respect. *)
Definition BIG : Z := 2147483600.      (* a request this large does not fit the int *)
Definition size_ok (n : Z) : Prop := 0 <= n < BIG.
Definition in_use (t : tmem) (a : addr) : Prop := In a (map b_addr (m_live (t_mem t))).
Definition own (t : tmem) (a : addr) : Prop :=
  in_use t a /\ ~ In a (t_blocks t) /\ t_arr t <> Some a.

Definition uses_ok (t : tmem) (o : mop) : Prop :=
  match o with
  | OAlloc n => size_ok n
  | OFree a => own t a
  | ORealloc a n => own t a /\ size_ok n
  | OTAlloc n => size_ok n /\ Z.of_nat (length (t_blocks t)) < 100000000
  | OTRealloc id n => (id < length (t_blocks t))%nat /\ size_ok n
  | OTRewind _ => True
  | OTFreeRest => True
  | OPool n => (n < 300 \/ 384 <= n) /\ 0 <= n
  | OLimit n => 0 <= n < W64
  end.

Fixpoint disciplined (avail : N -> bool) (t : tmem) (l : list mop) : Prop :=
  match l with
  | [] => True
  | o :: r => uses_ok t o /\
              match mstep avail t o with
              | MOk t' => disciplined avail t' r
              | _ => True
              end
  end.
