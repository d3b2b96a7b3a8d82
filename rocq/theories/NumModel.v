(** Numbers: arithmetic, predicates, reading and writing (base.c 7-63, 855-1563).

    A [ctr_number] is a C [double] (citrine.h 144), modelled by the standard library's
    [spec_float] with 53 bits of precision and exponents up to 1024.  NaNs carry no sign or
    payload.  Arguments are taken after [ctr_internal_cast2number]. *)
From Coq Require Export SpecFloat.
From Verif Require Import Common.
Open Scope Z_scope.

Notation num := spec_float (only parsing).
Definition add64 := SFadd 53 1024.
Definition sub64 := SFsub 53 1024.
Definition mul64 := SFmul 53 1024.
Definition div64 := SFdiv 53 1024.
Definition zero64 : num := S754_zero false.

(** Conversion of an integer to [double]. *)
Definition of_Z (z : Z) : num := binary_normalize 53 1024 z 0 false.

(** |x| rounded to a whole number in the three ways of the C library. *)
Definition mag_floor (m : positive) (e : Z) : Z :=
  if 0 <=? e then Zpos m * 2 ^ e else Zpos m / 2 ^ (- e).
Definition mag_ceil (m : positive) (e : Z) : Z :=
  if 0 <=? e then Zpos m * 2 ^ e else (Zpos m + (2 ^ (- e) - 1)) / 2 ^ (- e).
Definition mag_round (m : positive) (e : Z) : Z :=
  if 0 <=? e then Zpos m * 2 ^ e else (2 * Zpos m + 2 ^ (- e)) / (2 * 2 ^ (- e)).

(** A whole number as [double], keeping the sign of zero. *)
Definition whole (s : bool) (k : Z) : num :=
  if k =? 0 then S754_zero s else of_Z (cond_Zopp s k).
(** C library [floor], [ceil] and [round] *)
Definition c_floor (x : num) : num :=
  match x with
  | S754_finite s m e => whole s (if s then mag_ceil m e else mag_floor m e)
  | _ => x
  end.
Definition c_ceil (x : num) : num :=
  match x with
  | S754_finite s m e => whole s (if s then mag_floor m e else mag_ceil m e)
  | _ => x
  end.
Definition c_round (x : num) : num :=
  match x with S754_finite s m e => whole s (mag_round m e) | _ => x end.

(** [(int) x] and [(int64_t) x]: truncation; undefined when out of range. *)
Definition INT_MAX : Z := 2147483647.
Definition in_int (z : Z) : bool := (- INT_MAX - 1 <=? z) && (z <=? INT_MAX).
Definition trunc (x : num) : option Z :=
  match x with
  | S754_zero _ => Some 0
  | S754_finite s m e => Some (cond_Zopp s (mag_floor m e))
  | _ => None
  end.
Definition c_int (x : num) : outcome Z :=
  match trunc x with Some z => if in_int z then Ok z else UB | None => UB end.
Definition c_int64 (x : num) : outcome Z :=
  match trunc x with Some z => if in_long z then Ok z else UB | None => UB end.

(** ** Comparison *)
(** base.c 925-928, [ctr_number_higherThan] *)
Definition number_gt (a b : num) : bool := SFltb b a.
(** base.c 938-941, [ctr_number_higherEqThan] *)
Definition number_ge (a b : num) : bool := SFleb b a.
(** base.c 953-956, [ctr_number_lowerThan] *)
Definition number_lt (a b : num) : bool := SFltb a b.
(** base.c 968-971, [ctr_number_lowerEqThan] *)
Definition number_le (a b : num) : bool := SFleb a b.
(** base.c 983-986, [ctr_number_eq] *)
Definition number_eq (a b : num) : bool := SFeqb a b.
(** base.c 998-1001, [ctr_number_neq] *)
Definition number_neq (a b : num) : bool := negb (SFeqb a b).
(** base.c 1317-1319, [ctr_number_positive] *)
Definition number_positive (a : num) : bool := SFltb zero64 a.
(** base.c 1330-1332, [ctr_number_negative] *)
Definition number_negative (a : num) : bool := SFltb a zero64.

(** base.c 607-610, [ctr_build_bool]: anything but 0 is true. *)
Definition build_bool (z : Z) : bool := negb (z =? 0).
(** base.c 1051-1053, [ctr_number_odd] *)
Definition number_odd (a : num) : outcome bool := do z <- c_int a; Ok (build_bool (Z.rem z 2)).
(** base.c 1063-1065, [ctr_number_even] *)
Definition number_even (a : num) : outcome bool :=
  do z <- c_int a; Ok (build_bool (if Z.rem z 2 =? 0 then 1 else 0)).
(** base.c 1606-1608, [ctr_number_to_boolean]: the [double] is converted to the [int]
    parameter of [ctr_build_bool]. *)
Definition number_to_boolean (a : num) : outcome bool := do z <- c_int a; Ok (build_bool z).

(** ** Arithmetic.  Effect of a message: the receiver afterwards, the answer ([None]: the
    receiver itself), and whether an error is pending. *)
Record neff := mkN { n_self : num; n_ans : option num; n_err : bool }.
Definition fresh (self r : num) : neff := mkN self (Some r) false.
(** base.c 1077-1097, [ctr_number_add] (argument not a text) *)
Definition number_add (a b : num) : neff := fresh a (add64 a b).
(** base.c 1108-1112, [ctr_number_inc] *)
Definition number_inc (a b : num) : neff := mkN (add64 a b) None false.
(** base.c 1123-1128, [ctr_number_minus] *)
Definition number_minus (a b : num) : neff := fresh a (sub64 a b).
(** base.c 1139-1143, [ctr_number_dec] *)
Definition number_dec (a b : num) : neff := mkN (sub64 a b) None false.
(** base.c 1153-1161, [ctr_number_multiply] *)
Definition number_multiply (a b : num) : neff := fresh a (mul64 a b).
(** base.c 1232-1236, [ctr_number_mul] *)
Definition number_mul (a b : num) : neff := mkN (mul64 a b) None false.
(** base.c 1245-1254, [ctr_number_divide] *)
Definition number_divide (a b : num) : neff :=
  if SFeqb b zero64 then mkN a None true else fresh a (div64 a b).
(** base.c 1265-1273, [ctr_number_div] *)
Definition number_div (a b : num) : neff :=
  if SFeqb b zero64 then mkN a None true else mkN (div64 a b) None false.
(** C library [fmod]: exact remainder with the sign of the first operand. *)
Definition c_fmod (a b : num) : num :=
  match a, b with
  | S754_nan, _ | _, S754_nan => S754_nan
  | S754_infinity _, _ | _, S754_zero _ => S754_nan
  | S754_zero s, _ => S754_zero s
  | _, S754_infinity _ => a
  | S754_finite s m e, S754_finite _ m' e' =>
      let l := Z.min e e' in
      let r := (Zpos m * 2 ^ (e - l)) mod (Zpos m' * 2 ^ (e' - l)) in
      if r =? 0 then S754_zero s else binary_normalize 53 1024 (cond_Zopp s r) l false
  end.
(** base.c 1283-1292, [ctr_number_modulo] *)
Definition number_modulo (a b : num) : neff :=
  if SFeqb b zero64 then mkN a None true else fresh a (c_fmod a b).
(** base.c 1342-1344, [ctr_number_floor] *)
Definition number_floor (a : num) : num := c_floor a.
(** base.c 1389-1391, [ctr_number_ceil] *)
Definition number_ceil (a : num) : num := c_ceil a.
(** base.c 1401-1403, [ctr_number_round] *)
Definition number_round (a : num) : num := c_round a.
(** base.c 1413-1415, [ctr_number_abs] *)
Definition number_abs (a : num) : num := SFabs a.
(** base.c 1426-1428, [ctr_number_sqrt] *)
Definition number_sqrt (a : num) : num := SFsqrt 53 1024 a.
(** base.c 1492-1494, [ctr_number_bit_and] *)
Definition number_bit_and (a b : num) : outcome num :=
  do x <- c_int a; do y <- c_int b; Ok (of_Z (Z.land x y)).
(** base.c 1503-1505, [ctr_number_bit_or] *)
Definition number_bit_or (a b : num) : outcome num :=
  do x <- c_int a; do y <- c_int b; Ok (of_Z (Z.lor x y)).
(** base.c 1514-1516, [ctr_number_bit_xor] *)
Definition number_bit_xor (a b : num) : outcome num :=
  do x <- c_int a; do y <- c_int b; Ok (of_Z (Z.lxor x y)).

(** [RAND_MAX] of the C library (glibc) *)
Definition RAND_MAX : Z := 2147483647.
(** base.c 1031-1035: the sum of [rolls] calls of [rand()] *)
Fixpoint roll (rolls : nat) (rand : nat -> Z) (acc : Z) : Z :=
  match rolls with
  | O => acc
  | S n => roll n (fun i => rand (S i)) (acc + rand O)
  end.
(** base.c 1011-1041, [ctr_number_between] *)
Definition number_between (rand : nat -> Z) (lo hi : num) : outcome num :=
  let lo := c_round lo in
  let hi := c_round hi in
  let '(lo, hi) := if SFltb hi lo then (hi, lo) else (lo, hi) in
  if SFeqb lo hi then Ok lo
  else
    do u <- c_int hi; do l <- c_int lo;
    if negb (in_int (u - l)) || (u - l =? - INT_MAX - 1) then UB
    else
      let ub := of_Z (Z.abs (u - l)) in
      do rolls <- c_int (c_ceil (div64 ub (of_Z RAND_MAX)));
      let result := roll (Z.to_nat rolls) rand 0 in
      do n <- c_int64 ub;
      do l64 <- c_int64 lo;
      Ok (add64 (of_Z (Z.rem result (n + 1))) (of_Z l64)).

(** ** Writing *)
Definition c0 : N := 48. Definition c9 : N := 57. Definition cdot : N := 46. Definition cminus : N := 45.
Definition isdigit (c : N) : bool := ((c0 <=? c) && (c <=? c9))%N.

(** Decimal digits of a natural number, most significant first. *)
Fixpoint dec_loop (fuel : nat) (n : N) (acc : text) : text :=
  match fuel with
  | O => acc
  | S f => let acc := (c0 + n mod 10)%N :: acc in
           if (n <? 10)%N then acc else dec_loop f (n / 10)%N acc
  end.
Definition dec (n : N) : text := dec_loop (S (N.size_nat n)) n [].
(** Exactly [w] digits. *)
Fixpoint dec_fix (w : nat) (n : N) (acc : text) : text :=
  match w with
  | O => acc
  | S w => dec_fix w (n / 10)%N ((c0 + n mod 10)%N :: acc)
  end.

(** |x| * 10^10 rounded to the nearest integer, ties to even, as [printf] does. *)
Definition TEN10 : Z := 10000000000.
Definition scaled (m : positive) (e : Z) : Z :=
  if 0 <=? e then Zpos m * 2 ^ e * TEN10
  else let n := Zpos m * TEN10 in
       let d := 2 ^ (- e) in
       let q := n / d in
       let r := n mod d in
       match 2 * r ?= d with
       | Lt => q | Gt => q + 1 | Eq => if Z.even q then q else q + 1
       end.
Definition sign_text (s : bool) : text := if s then [cminus] else [].
(** C library: [printf "%.10f"] *)
Definition f10 (x : num) : text :=
  match x with
  | S754_nan => [110; 97; 110]%N
  | S754_infinity s => sign_text s ++ [105; 110; 102]%N
  | S754_zero s => sign_text s ++ [c0; cdot] ++ repeat c0 10
  | S754_finite s m e =>
      let v := scaled m e in
      sign_text s ++ dec (Z.to_N (v / TEN10)) ++ [cdot] ++ dec_fix 10 (Z.to_N (v mod TEN10)) []
  end.

(** base.c 1546: the pointer walks back over trailing zeros; running off the beginning of
    the buffer is UB. *)
Fixpoint drop_zeros (r : text) : outcome text :=
  match r with
  | [] => UB
  | c :: r' => if (c =? c0)%N then drop_zeros r' else Ok r
  end.
(** base.c 1544-1548 on the buffer of 100 bytes *)
Definition flat_text (x : num) : outcome text :=
  let buf := firstn 98 (f10 x) in
  do r <- drop_zeros (rev buf);
  match r with
  | [] => UB
  | c :: r' => if (c =? cdot)%N then Ok (rev r') else Ok (rev r)
  end.

(** Contents of a C string in a block of memory. *)
Fixpoint cstr (mem : text) : outcome text :=
  match mem with
  | [] => UB
  | c :: r => if (c =? 0)%N then Ok [] else do t <- cstr r; Ok (c :: t)
  end.
(** Sequential write of [out] to the beginning of a block. *)
Definition write (mem out : text) : outcome text :=
  if (length out <=? length mem)%nat then Ok (out ++ skipn (length out) mem) else UB.

(** base.c 22-37: the loop of [ctr_international_number]; [i] counts the bytes read, [k]
    the digits seen, [s] is the length of the integer part, [out] what has been written. *)
Fixpoint intl_loop (dec_sep tho_sep : text) (old : text) (i s k : nat) (out : text) : text :=
  match old with
  | [] => out
  | c :: r =>
      if (c =? cdot)%N then intl_loop dec_sep tho_sep r (S i) s k (out ++ dec_sep)
      else
        let out := if (i <? s)%nat && (0 <? k)%nat && ((s - i) mod 3 =? 0)%nat
                   then out ++ tho_sep else out in
        intl_loop dec_sep tho_sep r (S i) s (if isdigit c then S k else k) (out ++ [c])
  end.
Fixpoint index_of (c : N) (t : text) (i : nat) : option nat :=
  match t with
  | [] => None
  | x :: r => if (x =? c)%N then Some i else index_of c r (S i)
  end.
(** base.c 10-39, [ctr_international_number] writing into the block [mem].  The indices are
    [char]s: they must stay below 128. *)
Definition international (dec_sep tho_sep old mem : text) : outcome text :=
  let s := match index_of cdot old 0 with Some i => i | None => length old end in
  let out := intl_loop dec_sep tho_sep old 0 s 0 [] in
  if (127 <? length old)%nat || (128 <? length out)%nat then UB
  else write mem out.

(** base.c 1524-1563, [ctr_internal_number_to_string] with [flat = 0]; [mem] is the block
    allocated for the localized text ([100] bytes plus the length of the qualifier). *)
Definition number_to_string (dec_sep tho_sep : text) (mem : text) (qual : option text) (x : num)
  : outcome text :=
  do buf <- flat_text x;
  do q <- international dec_sep tho_sep buf mem;
  do s <- cstr q;
  match qual with
  | None => Ok s
  | Some ql =>
      let ql' := match cstr (ql ++ [0%N]) with Ok t => t | UB => [] end in
      let r := s ++ [32%N] ++ ql' in
      if (length r <? length mem)%nat then Ok r else UB
  end.
(** base.c 1593-1595, [ctr_number_to_string_flat] *)
Definition number_raw (x : num) : outcome text := flat_text x.

(** ** Reading *)
(** [strncmp (old, sep, len) == 0] on a C string, for a separator without NUL *)
Fixpoint starts (sep old : text) : bool :=
  match sep, old with
  | [], _ => true
  | a :: sep', b :: old' => (a =? b)%N && starts sep' old'
  | _ :: _, [] => false
  end.
(** base.c 44-63, [ctr_national_number], the bytes written; after either separator the
    length of the thousands separator is skipped.  The separators are not empty. *)
Fixpoint national (fuel : nat) (dec_sep tho_sep old : text) (out : text) : text :=
  match fuel, old with
  | S f, c :: r =>
      if starts tho_sep old then national f dec_sep tho_sep (skipn (length tho_sep) old) out
      else if starts dec_sep old then national f dec_sep tho_sep (skipn (length tho_sep) old) (out ++ [cdot])
      else national f dec_sep tho_sep r (out ++ [c])
  | _, _ => out
  end.

Fixpoint skip_space (t : text) : text :=
  match t with
  | c :: r => if ((9 <=? c) && (c <=? 13) || (c =? 32))%N then skip_space r else t
  | [] => []
  end.
Fixpoint span_digits (t : text) : text * text :=
  match t with
  | c :: r => if isdigit c then let '(a, b) := span_digits r in (c :: a, b) else ([], t)
  | [] => ([], [])
  end.
Fixpoint digits_val (t : text) (acc : N) : N :=
  match t with [] => acc | c :: r => digits_val r (acc * 10 + (c - c0))%N end.
Definition take_sign (t : text) : bool * text :=
  match t with
  | c :: r => if (c =? cminus)%N then (true, r) else if (c =? 43)%N then (false, r) else (false, t)
  | [] => (false, [])
  end.
(** The [double] nearest to [n * 10^k] *)
Definition of_decimal (s : bool) (n : N) (k : Z) : num :=
  match n with
  | N0 => S754_zero s
  | Npos p =>
      let '(a, b) := if 0 <=? k then (Z.to_pos (Zpos p * 10 ^ k), 1%positive)
                     else (p, Z.to_pos (10 ^ (- k))) in
      let '(mz, ez, lz) := SFdiv_core_binary 53 1024 (Zpos a) 0 (Zpos b) 0 in
      binary_round_aux 53 1024 s mz ez lz
  end.
(** C library [atof]: leading white space, sign, digits with optional fraction, optional
    exponent; the rest is ignored; no digits give 0.  The special forms of [strtod] (hexadecimal,
    infinity, NaN) are not modelled: [None]. *)
Definition atof (t : text) : option num :=
  let '(s, t) := take_sign (skip_space t) in
  let '(ip, t) := span_digits t in
  let '(fp, t) := match t with
                  | c :: r => if (c =? cdot)%N then span_digits r else ([], t)
                  | [] => ([], [])
                  end in
  match ip ++ fp, t with
  | [], c :: _ => if existsb (N.eqb c) [105; 73; 110; 78]%N then None else Some zero64
  | [], [] => Some zero64
  | [z], x :: _ =>
      if ((z =? c0) && ((x =? 120) || (x =? 88)))%N then None
      else Some (of_decimal s (digits_val (ip ++ fp) 0) (- Z.of_nat (length fp)))
  | ds, x :: r =>
      let '(es, r') := take_sign r in
      let '(ed, _) := span_digits r' in
      let ex := if ((x =? 101) || (x =? 69))%N && negb (match ed with [] => true | _ => false end)
                then cond_Zopp es (Z.of_N (digits_val ed 0)) else 0 in
      Some (of_decimal s (digits_val ds 0) (ex - Z.of_nat (length fp)))
  | ds, [] => Some (of_decimal s (digits_val ds 0) (- Z.of_nat (length fp)))
  end.

(** base.c 880-901, [ctr_build_number_from_string]; [mem1], [mem2] are the two blocks of 41
    bytes as they come from the allocator. [None]: a special form of [atof]. *)
Definition number_from_text (intl : bool) (dec_sep tho_sep : text) (mem1 mem2 : text) (t : text)
  : outcome (option num) :=
  do m1 <- write mem1 (firstn 40 t);
  do old <- cstr m1;
  if intl then
    let out := national (length old) dec_sep tho_sep old [] in
    do m2 <- write mem2 out;
    do new <- cstr m2;
    Ok (atof new)
  else Ok (atof old).
