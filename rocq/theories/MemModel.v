(** The memory manager (memory.c): ledger, width headers, the pool allocator with its
    three pod classes and free lists, and the tracked blocks.

    An address is the start of a block as the manager sees it (the pointer handed to the
    rest of the program is 8 bytes further, memory.c 71, 172, 209, 236): pod number [i] of
    a class, or the [n]-th block obtained from [calloc].  The [malloc]/[calloc]/[free] of
    the C library are external: blocks they hand out are disjoint from everything else
    and have the requested size; [calloc] fails when an oracle says so, and at the latest
    when the live blocks would exceed 2^62 bytes.  Contents other than the width header
    and the fact "handed out zero-filled" are not modelled.  [ctr_gc_clean_free]
    (memory.c 165) is never set to anything but 0 in the sources and is taken to be 0. *)
From Verif Require Import Common.
Open Scope Z_scope.

Inductive mres (A : Type) : Type :=
| MOk (a : A)     (** normal return *)
| MExit           (** [exit(1)] *)
| MUB.            (** undefined behaviour *)
Arguments MOk {A} a.
Arguments MExit {A}.
Arguments MUB {A}.
Definition mbind {A B} (o : mres A) (f : A -> mres B) : mres B :=
  match o with MOk a => f a | MExit => MExit | MUB => MUB end.
Notation "'mlet' x := o 'in' f" := (mbind o (fun x => f))
  (at level 200, x pattern, o at level 100, f at level 200, right associativity).

(** Pod classes: memory.c 306-308 ([spod = 32], [mpod = 64], [lpod = 128]). *)
Inductive cls := Sp | Mp | Lp.
Definition psize (c : cls) : Z := match c with Sp => 32 | Mp => 64 | Lp => 128 end.
Definition cls_eqb (a b : cls) : bool :=
  match a, b with Sp, Sp | Mp, Mp | Lp, Lp => true | _, _ => false end.

Inductive addr := Pod (c : cls) (i : Z) | Sys (n : N).
Definition addr_eqb (a b : addr) : bool :=
  match a, b with
  | Pod c i, Pod d j => cls_eqb c d && (i =? j)
  | Sys n, Sys m => N.eqb n m
  | _, _ => false
  end.

(** memory.c 291-308: the pool variables.  [p_free c] is the used part of the free list
    of the class, last entry first. *)
Record pools := {
  p_on : bool;              (* usePools *)
  p_size : Z;               (* size in bytes of each of the three pod regions *)
  p_cap : cls -> Z;         (* spods, mpods, lpods *)
  p_cnt : cls -> Z;         (* spodCount, mpodCount, lpodCount *)
  p_free : cls -> list addr (* freeslist, freemlist, freellist *)
}.

(** A block in use: its address, the width stored in its first 8 bytes, the number of
    bytes that were asked for, and whether it was zero-filled when handed out. *)
Record blk := { b_addr : addr; b_width : Z; b_req : Z; b_zero : bool }.

Record mem := {
  m_pool : pools;
  m_alloc : Z;       (* ctr_gc_alloc *)
  m_limit : Z;       (* ctr_gc_memlimit *)
  m_live : list blk;
  m_next : N         (* number of calloc calls so far *)
}.

Definition no_pools : pools :=
  {| p_on := false; p_size := 0; p_cap := fun _ => 0; p_cnt := fun _ => 0; p_free := fun _ => [] |}.
(** citrine.c 119: default limit 10 MB. *)
Definition mem_start : mem :=
  {| m_pool := no_pools; m_alloc := 0; m_limit := 10000000; m_live := []; m_next := 0%N |}.

Definition set_cls {A} (f : cls -> A) (c : cls) (v : A) : cls -> A :=
  fun d => if cls_eqb d c then v else f d.

(** One value per class, computed once. *)
Definition per_cls {A} (f : cls -> A) : cls -> A :=
  let s := f Sp in let m := f Mp in let l := f Lp in
  fun c => match c with Sp => s | Mp => m | Lp => l end.

(** Conversion of [ctr_size] to the [int] result of ctr_pool_bucket (truncation, as every
    supported compiler does), and back to [size_t]. *)
Definition to_int (z : Z) : Z :=
  let m := z mod 4294967296 in if m <? 2147483648 then m else m - 4294967296.

(** memory.c 353-364, [ctr_pool_bucket] *)
Definition pool_bucket (p : pools) (size : Z) : Z :=
  to_int (
    if (0 <? size) && (size <=? 32) && (p_cnt p Sp <? p_cap p Sp) then 32
    else if (32 <? size) && (size <=? 64) && (p_cnt p Mp <? p_cap p Mp) then 64
    else if (64 <? size) && (size <=? 128) && (p_cnt p Lp <? p_cap p Lp) then 128
    else if (size =? 32) || (size =? 64) || (size =? 128) then wrap64 (size + 1)
    else size).

Definition cls_of (size : Z) : option cls :=
  if size =? 32 then Some Sp else if size =? 64 then Some Mp
  else if size =? 128 then Some Lp else None.

(** The C library's [calloc]: the oracle [avail] may refuse any call. *)
Definition sys_total (l : list blk) : Z :=
  fold_right (fun b t => match b_addr b with Sys _ => b_width b + t | Pod _ _ => t end) 0 l.
Definition SYS_MAX : Z := 4611686018427387904.

Section Oracle.
Variable avail : N -> bool.

Definition sys_calloc (m : mem) (size : Z) : option addr :=
  if avail (m_next m) && (sys_total (m_live m) + size <=? SYS_MAX)
  then Some (Sys (m_next m)) else None.

Definition with_pool (m : mem) (p : pools) : mem :=
  {| m_pool := p; m_alloc := m_alloc m; m_limit := m_limit m; m_live := m_live m;
     m_next := m_next m |}.
Definition with_alloc (m : mem) (z : Z) : mem :=
  {| m_pool := m_pool m; m_alloc := z; m_limit := m_limit m; m_live := m_live m;
     m_next := m_next m |}.
Definition with_live (m : mem) (l : list blk) : mem :=
  {| m_pool := m_pool m; m_alloc := m_alloc m; m_limit := m_limit m; m_live := l;
     m_next := m_next m |}.
Definition bump (m : mem) : mem :=
  {| m_pool := m_pool m; m_alloc := m_alloc m; m_limit := m_limit m; m_live := m_live m;
     m_next := N.succ (m_next m) |}.

(** memory.c 370-390, [ctr_pool_alloc]: answers the block (None for NULL), whether it is
    zero-filled, and the new state.  The three classes are treated alike, so the chain of
    conditions becomes a test of the class. *)
Definition pool_alloc (m : mem) (size : Z) : option (addr * bool) * mem :=
  let p := m_pool m in
  let os := match sys_calloc m size with
            | Some a => (Some (a, true), bump m)
            | None => (None, bump m)
            end in
  if negb (p_on p) then os
  else match cls_of size with
       | None => os
       | Some c =>
           match p_free p c with
           | a :: fr =>
               (Some (a, true),
                with_pool m {| p_on := p_on p; p_size := p_size p; p_cap := p_cap p;
                               p_cnt := p_cnt p; p_free := set_cls (p_free p) c fr |})
           | [] =>
               if p_cnt p c <? p_cap p c then
                 (Some (Pod c (p_cnt p c), false),
                  with_pool m {| p_on := p_on p; p_size := p_size p; p_cap := p_cap p;
                                 p_cnt := set_cls (p_cnt p) c (wrap64 (p_cnt p c + 1));
                                 p_free := p_free p |})
               else os
           end
       end.

(** The C library's [free]: defined only on a block that came from [calloc]. *)
Definition sys_free (m : mem) (a : addr) : mres mem :=
  match a with Sys _ => MOk m | Pod _ _ => MUB end.

(** memory.c 395-415, [ctr_pool_dealloc]; [width] is the header found in the block. *)
Definition pool_dealloc (m : mem) (a : addr) (width : Z) : mres mem :=
  let p := m_pool m in
  if negb (p_on p) then sys_free m a
  else match cls_of width with
       | None => sys_free m a
       | Some c =>
           if Z.of_nat (length (p_free p c)) <? p_cap p c then
             MOk (with_pool m {| p_on := p_on p; p_size := p_size p; p_cap := p_cap p;
                                 p_cnt := p_cnt p;
                                 p_free := set_cls (p_free p) c (a :: p_free p c) |})
           else sys_free m a
       end.

(** Bytes really available at an address: a pod is usable only as far as the pod region
    reaches; a block from [calloc] has the size it was asked with. *)
Definition room (p : pools) (a : addr) (width : Z) : Z :=
  match a with
  | Pod c i => Z.min (psize c) (p_size p - i * psize c)
  | Sys _ => width
  end.

Definition find_blk (m : mem) (a : addr) : option blk :=
  find (fun b => addr_eqb (b_addr b) a) (m_live m).
Definition drop_blk (m : mem) (a : addr) : mem :=
  with_live m (filter (fun b => negb (addr_eqb (b_addr b) a)) (m_live m)).
Definition add_blk (m : mem) (b : blk) : mem := with_live m (b :: m_live m).

(** memory.c 49-73, [ctr_heap_allocate] *)
Definition heap_allocate (m : mem) (n : Z) : mres (addr * mem) :=
  let size := wrap64 (n + 8) in
  let size := wrap64 (pool_bucket (m_pool m) size) in
  let m1 := with_alloc m (wrap64 (m_alloc m + size)) in
  if m_limit m1 <? m_alloc m1 then MExit
  else match pool_alloc m1 size with
       | (None, _) => MExit
       | (Some (a, z), m2) =>
           if room (m_pool m2) a size <? 8 then MUB          (* header does not fit *)
           else MOk (a, add_blk m2 {| b_addr := a; b_width := size; b_req := n; b_zero := z |})
       end.

(** memory.c 166-186, [ctr_heap_free] on a non-NULL pointer; a pointer that is not a block
    in use is undefined behaviour. *)
Definition heap_free (m : mem) (a : addr) : mres mem :=
  match find_blk m a with
  | None => MUB
  | Some b =>
      mlet m1 := pool_dealloc m a (b_width b) in
      let m2 := drop_blk m1 a in
      MOk (if m_alloc m2 <? b_width b then with_alloc m2 0
           else with_alloc m2 (m_alloc m2 - b_width b))
  end.

(** memory.c 196-239, [ctr_heap_reallocate] *)
Definition heap_reallocate (m : mem) (a : addr) (n : Z) : mres (addr * mem) :=
  let size := wrap64 (n + 8) in
  let size := wrap64 (pool_bucket (m_pool m) size) in
  match find_blk m a with
  | None => MUB
  | Some b =>
      let old := b_width b in
      if size <=? old then
        MOk (a, add_blk (drop_blk m a)
                  {| b_addr := a; b_width := old; b_req := n; b_zero := b_zero b |})
      else
        let m1 := with_alloc m (wrap64 (wrap64 (m_alloc m - old) + size)) in
        match pool_alloc m1 size with
        | (None, _) => MExit
        | (Some (a', z), m2) =>
            if room (m_pool m2) a' size <? old then MUB       (* memcpy leaves the block *)
            else
              mlet m3 := pool_dealloc m2 a old in
              MOk (a', add_blk (drop_blk m3 a)
                         {| b_addr := a'; b_width := size; b_req := n; b_zero := z |})
        end
  end.

(** memory.c 316-338, [ctr_pool_init].  The sizes are [size_t]: a region smaller than one
    pod gives 0 - 1.  The three regions are obtained with [malloc], which cannot hand out
    more than 2^60 bytes here.  The failure of the [malloc] of the free-list arrays
    (334-336), which the code does not check, is not modelled. *)
Definition POOL_MAX : Z := 1152921504606846976.
Definition pool_init (m : mem) (pool : Z) : mres mem :=
  if p_on (m_pool m) then MOk m
  else if pool <? 300 then MExit
  else
    let sz := pool / 3 in
    if POOL_MAX <? sz then MExit
    else MOk (with_pool m
                {| p_on := true; p_size := sz;
                   p_cap := per_cls (fun c => wrap64 (sz / psize c - 1));
                   p_cnt := p_cnt (m_pool m); p_free := p_free (m_pool m) |}).

(** Tracked memory: memory.c 16-19 ([memBlocks], [numberOfMemBlocks],
    [maxNumberOfMemBlocks]); an entry is 16 bytes (memory.c 10-13). *)
Record tmem := {
  t_mem : mem;
  t_blocks : list addr;   (* memBlocks[0 .. numberOfMemBlocks-1].space *)
  t_max : Z;              (* maxNumberOfMemBlocks *)
  t_arr : option addr     (* memBlocks *)
}.
Definition t_start : tmem :=
  {| t_mem := mem_start; t_blocks := []; t_max := 0; t_arr := None |}.

(** Write of entry number [i]: must lie inside the block that holds the array. *)
Definition entry_ok (m : mem) (arr : option addr) (i : Z) : bool :=
  match arr with
  | None => false
  | Some a => match find_blk m a with
              | None => false
              | Some b => (i + 1) * 16 <=? room (m_pool m) a (b_width b) - 8
              end
  end.

(** memory.c 102-118, [ctr_heap_allocate_tracked] *)
Definition allocate_tracked (t : tmem) (n : Z) : mres (addr * tmem) :=
  mlet (sp, m1) := heap_allocate (t_mem t) n in
  let k := Z.of_nat (length (t_blocks t)) in
  mlet (arr, mx, m2) :=
    (if t_max t <=? k then
       match t_arr t with
       | None => mlet (a, m2) := heap_allocate m1 16 in MOk (Some a, 1, m2)
       | Some a =>
           let mx := wrap64 (t_max t + 10) in
           mlet (a', m2) := heap_reallocate m1 a (wrap64 (16 * mx)) in
           MOk (Some a', mx, m2)
       end
     else MOk (t_arr t, t_max t, m1)) in
  if entry_ok m2 arr k then
    MOk (sp, {| t_mem := m2; t_blocks := t_blocks t ++ [sp]; t_max := mx; t_arr := arr |})
  else MUB.

Fixpoint set_nth {A} (l : list A) (i : nat) (v : A) : list A :=
  match l, i with
  | [], _ => []
  | _ :: r, O => v :: r
  | x :: r, S i' => x :: set_nth r i' v
  end.

(** memory.c 124-131, [ctr_heap_reallocate_tracked] *)
Definition reallocate_tracked (t : tmem) (id : nat) (n : Z) : mres (addr * tmem) :=
  match nth_error (t_blocks t) id with
  | None => MUB
  | Some sp =>
      mlet (sp', m1) := heap_reallocate (t_mem t) sp n in
      MOk (sp', {| t_mem := m1; t_blocks := set_nth (t_blocks t) id sp'; t_max := t_max t;
                   t_arr := t_arr t |})
  end.

(** Frees blocks one after the other. *)
Fixpoint free_all (m : mem) (l : list addr) : mres mem :=
  match l with
  | [] => MOk m
  | a :: r => mlet m1 := heap_free m a in free_all m1 r
  end.

(** memory.c 88-96, [ctr_heap_tracker_rewind]: frees from the last entry down to [k]. *)
Definition tracker_rewind (t : tmem) (k : nat) : mres tmem :=
  mlet m1 := free_all (t_mem t) (rev (skipn k (t_blocks t))) in
  MOk {| t_mem := m1; t_blocks := firstn k (t_blocks t); t_max := t_max t; t_arr := t_arr t |}.

(** memory.c 143-152, [ctr_heap_free_rest] *)
Definition free_rest (t : tmem) : mres tmem :=
  mlet m1 := free_all (t_mem t) (t_blocks t) in
  mlet m2 := (match t_arr t with None => MOk m1 | Some a => heap_free m1 a end) in
  MOk {| t_mem := m2; t_blocks := []; t_max := 0; t_arr := None |}.

(** One call into the memory manager. *)
Inductive mop :=
| OAlloc (n : Z)                  (** ctr_heap_allocate *)
| OFree (a : addr)                (** ctr_heap_free *)
| ORealloc (a : addr) (n : Z)     (** ctr_heap_reallocate *)
| OTAlloc (n : Z)                 (** ctr_heap_allocate_tracked *)
| OTRealloc (id : nat) (n : Z)    (** ctr_heap_reallocate_tracked *)
| OTRewind (k : nat)              (** ctr_heap_tracker_rewind *)
| OTFreeRest                      (** ctr_heap_free_rest *)
| OPool (n : Z)                   (** ctr_pool_init *)
| OLimit (n : Z).                 (** assignment to ctr_gc_memlimit, system.c 246 *)

Definition with_mem (t : tmem) (m : mem) : tmem :=
  {| t_mem := m; t_blocks := t_blocks t; t_max := t_max t; t_arr := t_arr t |}.

Definition mstep (t : tmem) (o : mop) : mres tmem :=
  match o with
  | OAlloc n => mlet (_, m) := heap_allocate (t_mem t) n in MOk (with_mem t m)
  | OFree a => mlet m := heap_free (t_mem t) a in MOk (with_mem t m)
  | ORealloc a n => mlet (_, m) := heap_reallocate (t_mem t) a n in MOk (with_mem t m)
  | OTAlloc n => mlet (_, t') := allocate_tracked t n in MOk t'
  | OTRealloc id n => mlet (_, t') := reallocate_tracked t id n in MOk t'
  | OTRewind k => tracker_rewind t k
  | OTFreeRest => free_rest t
  | OPool n => mlet m := pool_init (t_mem t) n in MOk (with_mem t m)
  | OLimit n =>
      MOk (with_mem t {| m_pool := m_pool (t_mem t); m_alloc := m_alloc (t_mem t);
                         m_limit := n; m_live := m_live (t_mem t);
                         m_next := m_next (t_mem t) |})
  end.

Fixpoint mrun (t : tmem) (l : list mop) : mres tmem :=
  match l with
  | [] => MOk t
  | o :: r => mlet t' := mstep t o in mrun t' r
  end.

End Oracle.
