(** SipHash-c-d after Aumasson and Bernstein, "SipHash: a fast short-input PRF" (section 2),
    in terms of arithmetic modulo 2^64. *)
From Verif Require Import Common.
Open Scope N_scope.

Definition add64 (x y : N) : N := (x + y) mod 2 ^ 64.
Definition rotl (x r : N) : N := (x * 2 ^ r) mod 2 ^ 64 + x / 2 ^ (64 - r).
Record sip := mkSip { s0 : N; s1 : N; s2 : N; s3 : N }.
(** Figure 2.1: the two halves of SipRound. *)
Definition sipround (v : sip) : sip :=
  let a0 := add64 (s0 v) (s1 v) in
  let a2 := add64 (s2 v) (s3 v) in
  let a1 := N.lxor (rotl (s1 v) 13) a0 in
  let a3 := N.lxor (rotl (s3 v) 16) a2 in
  let b0 := rotl a0 32 in
  let c2 := add64 a2 a1 in
  let c0 := add64 b0 a3 in
  let c1 := N.lxor (rotl a1 17) c2 in
  let c3 := N.lxor (rotl a3 21) c0 in
  mkSip c0 c1 (rotl c2 32) c3.
Definition rounds (n : nat) (v : sip) : sip := Nat.iter n sipround v.
(** The little-endian value of a sequence of bytes. *)
Fixpoint le_value (bs : list N) : N := match bs with [] => 0 | b :: r => b + 256 * le_value r end.
(** The message, padded with zeros and the length modulo 256, as 64-bit words. *)
Definition padded (m : list N) : list N :=
  m ++ repeat 0 (7 - length m mod 8) ++ [N.of_nat (length m) mod 256].
Fixpoint word_list (n : nat) (bs : list N) : list N :=
  match n with O => [] | S k => le_value (firstn 8 bs) :: word_list k (skipn 8 bs) end.
Definition message_words (m : list N) : list N := word_list (S (length m / 8)) (padded m).
Definition compress (c : nat) (v : sip) (w : N) : sip :=
  let u := rounds c (mkSip (s0 v) (s1 v) (s2 v) (N.lxor (s3 v) w)) in
  mkSip (N.lxor (s0 u) w) (s1 u) (s2 u) (s3 u).
(** "somepseudorandomlygeneratedbytes" *)
Definition initial (k0 k1 : N) : sip :=
  mkSip (N.lxor k0 8317987319222330741) (N.lxor k1 7237128888997146477)
        (N.lxor k0 7816392313619706465) (N.lxor k1 8387220255154660723).
Definition sip_hash (c d : nat) (key m : list N) : N :=
  let v := fold_left (compress c) (message_words m) (initial (le_value (firstn 8 key)) (le_value (firstn 8 (skipn 8 key)))) in
  let u := rounds d (mkSip (s0 v) (s1 v) (N.lxor (s2 v) 255) (s3 v)) in
  N.lxor (N.lxor (s0 u) (s1 u)) (N.lxor (s2 u) (s3 u)).
