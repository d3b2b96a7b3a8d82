(** The keyed hash (siphash.c, base.c).

    A [uint64_t] is an [N] below 2^64.  The machine is little endian, so [_le64toh] is the
    identity (siphash.c 34-36) and a word in memory is made of its bytes, least significant
    first.  Unaligned access to words is taken to work. *)
From Verif Require Import Common NumModel LexModel.
Open Scope N_scope.

Definition M64 : N := 18446744073709551616.
(** siphash.c 62 *)
Definition rotate (x b : N) : N := N.lor (N.shiftl x b mod M64) (N.shiftr x (64 - b)).
Definition words := (N * N * N * N)%type.
(** siphash.c 64-68; the answer lists a, b, c, d *)
Definition half_round (a b c d s t : N) : words :=
  let a := (a + b) mod M64 in
  let c := (c + d) mod M64 in
  let b := N.lxor (rotate b s) a in
  let d := N.lxor (rotate d t) c in
  let a := rotate a 32 in
  (a, b, c, d).
(** siphash.c 70-74 *)
Definition double_round (v : words) : words :=
  let '(v0, v1, v2, v3) := v in
  let '(v0, v1, v2, v3) := half_round v0 v1 v2 v3 13 16 in
  let '(v2, v1, v0, v3) := half_round v2 v1 v0 v3 17 21 in
  let '(v0, v1, v2, v3) := half_round v0 v1 v2 v3 13 16 in
  let '(v2, v1, v0, v3) := half_round v2 v1 v0 v3 17 21 in
  (v0, v1, v2, v3).

(** A word in memory. *)
Definition load (bytes : text) : N := fold_right (fun c w => c + 256 * w) 0 bytes.
(** Read of the 8 bytes at [off]. *)
Definition read_word (s : text) (off : nat) : outcome N := do b <- slice s off 8; Ok (load b).

(** siphash.c 89-95: the loop over whole words; [in] is at [off], [sz] bytes are left *)
Fixpoint sip_loop (fuel : nat) (src : text) (off sz : nat) (v : words) : outcome (words * nat * nat) :=
  match fuel with
  | O => UB
  | S f =>
      if (8 <=? sz)%nat then
        do mi <- read_word src off;
        let '(v0, v1, v2, v3) := v in
        let '(v0, v1, v2, v3) := double_round (v0, v1, v2, N.lxor v3 mi) in
        sip_loop f src (off + 8) (sz - 8) (N.lxor v0 mi, v1, v2, v3)
      else Ok (v, off, sz)
  end.

(** [pt[i] = m[i]] *)
Definition copy_byte (src : text) (off i : nat) (pt : text) : outcome text :=
  do c <- rd src (off + i); Ok (firstn i pt ++ c :: skipn (S i) pt).
(** siphash.c 97-106: the switch, with its fall-through cases *)
Definition sip_tail (src : text) (off sz : nat) : outcome text :=
  let pt := repeat 0 8 in
  if (4 <=? sz)%nat then
    do pt <- (if (sz =? 7)%nat then copy_byte src off 6 pt else Ok pt);
    do pt <- (if (6 <=? sz)%nat then copy_byte src off 5 pt else Ok pt);
    do pt <- (if (5 <=? sz)%nat then copy_byte src off 4 pt else Ok pt);
    do four <- slice src off 4;
    Ok (four ++ skipn 4 pt)
  else
    do pt <- (if (sz =? 3)%nat then copy_byte src off 2 pt else Ok pt);
    do pt <- (if (2 <=? sz)%nat then copy_byte src off 1 pt else Ok pt);
    if (1 <=? sz)%nat then copy_byte src off 0 pt else Ok pt.

(** siphash.c 77-115, [siphash24] *)
Definition siphash24 (src key : text) : outcome N :=
  do k0 <- read_word key 0;
  do k1 <- read_word key 8;
  let sz := length src in
  let b := N.shiftl (N.of_nat sz) 56 mod M64 in
  let v0 := N.lxor k0 0x736f6d6570736575 in
  let v1 := N.lxor k1 0x646f72616e646f6d in
  let v2 := N.lxor k0 0x6c7967656e657261 in
  let v3 := N.lxor k1 0x7465646279746573 in
  do (v, off, sz) <- sip_loop (S sz) src 0 sz (v0, v1, v2, v3);
  do t <- sip_tail src off sz;
  let b := N.lor b (load t) in
  let '(v0, v1, v2, v3) := v in
  let '(v0, v1, v2, v3) := double_round (v0, v1, v2, N.lxor v3 b) in
  let '(v0, v1, v2, v3) := double_round (N.lxor v0 b, v1, N.lxor v2 0xff, v3) in
  let '(v0, v1, v2, v3) := double_round (v0, v1, v2, v3) in
  Ok (N.lxor (N.lxor v0 v1) (N.lxor v2 v3)).

(** memory.c 264-281, [ctr_heap_allocate_cstring]: NUL bytes are left out, a NUL is added *)
Definition cstring (t : text) : text := filter (fun c => negb (c =? 0)) t ++ [0].
(** base.c 2410-2424, [ctr_string_hash_with_key]: [None] is the error and Nil *)
Definition hash_with_key (self key : text) : outcome (option text) :=
  let key_string := cstring key in
  if (length (upto_nul key_string) <? 16)%nat then Ok None
  else do h <- siphash24 self key_string; Ok (Some (dec h)).

(** world.c 121-124, [ctr_internal_index_hash]; [key] is [CtrHashKey] *)
Definition index_hash (t key : text) : outcome N := siphash24 t key.
