(** Claims about numbers. *)
From Coq Require Import String ZArith NArith List Lia Bool QArith Qabs.
From Verif Require Import Common Txt NumModel NumSpec FloatProofs NumProofs SqrtProofs NumFacts.
Import ListNotations.
Open Scope Z_scope.
Local Notation "'tx' s" := (lit s%string) (at level 8, s at level 0).

(** * C17 *)
Theorem C17_grouping_partial : forall dsep tsep s ip fp n, numeral ip fp -> sep_ok dsep -> sep_ok tsep ->
  exists out, localized dsep tsep s ip fp out /\
    ((length out < n)%nat -> (length out <= 128)%nat -> (length (plain s ip fp) <= 127)%nat ->
     exists q, international dsep tsep (plain s ip fp) (zeros n) = Ok q /\ cstr q = Ok out).
Proof. exact international_ok. Qed.
Print Assumptions C17_grouping_partial.
Example C17_grouping_case : numeral (tx "1234567") (tx "89") /\ sep_ok (tx ",") /\ sep_ok (tx ".") /\
  obind (international (tx ",") (tx ".") (tx "-1234567.89") (zeros 40)) cstr = Ok (tx "-1.234.567,89").
Proof.
  split; [split; [discriminate|split; repeat (constructor; [vm_compute; split; discriminate|]); constructor]|].
  split; [|split]; [| |vm_compute; reflexivity];
    (split; [discriminate|]; split; [intros c [<-|[]]; discriminate|]; split; [intros [H1 H2]; vm_compute in H1, H2; congruence|discriminate]).
Qed.

Theorem C17_separators_removed_partial : forall dsep tsep, sep_ok dsep -> sep_ok tsep -> length dsep = length tsep ->
  dsep <> tsep -> forall s ip fp out, numeral ip fp -> localized dsep tsep s ip fp out ->
  national (length out) dsep tsep out [] = plain s ip fp.
Proof. exact national_localized. Qed.
Print Assumptions C17_separators_removed_partial.
Example C17_separators_removed_case :
  localized (tx "::") (tx "''") true (tx "1234567") (tx "5") (tx "-1''234''567::5") /\
  national 15 (tx "::") (tx "''") (tx "-1''234''567::5") [] = tx "-1234567.5".
Proof.
  split; [|vm_compute; reflexivity]. exists (tx "1''234''567"). split; [|reflexivity].
  change (grouped (tx "''") ((tx "1" ++ tx "234") ++ tx "567") ((tx "1" ++ tx "''" ++ tx "234") ++ tx "''" ++ tx "567")).
  apply grouped_more. apply grouped_more. apply grouped_short; [discriminate|vm_compute; lia].
Qed.

Theorem C17_number_text_partial : forall d t x, finite x -> (Qabs (SF2Q x) <= inject_Z (10 ^ 60))%Q ->
  sep_ok [d] -> sep_ok [t] ->
  exists s ip fp out, numeral ip fp /\ tidy ip fp /\ (length fp <= 10)%nat /\
    (Qabs (numeral_value s ip fp - SF2Q x) <= 1 # 20000000000)%Q /\
    number_raw x = Ok (plain s ip fp) /\ localized [d] [t] s ip fp out /\
    number_to_string [d] [t] (zeros 100) None x = Ok out /\
    (forall ql, (forall c, In c ql -> c <> 0%N) ->
      number_to_string [d] [t] (zeros (100 + length ql)) (Some ql) x = Ok (out ++ 32%N :: ql)).
Proof. exact number_text. Qed.
Print Assumptions C17_number_text_partial.
Example C17_number_text_case :
  number_to_string (tx ",") (tx ".") (zeros 100) None (div64 (of_Z (-98765431)) (of_Z 8)) = Ok (tx "-12.345.678,875") /\
  number_raw (div64 (of_Z (-98765431)) (of_Z 8)) = Ok (tx "-12345678.875") /\
  number_to_string (tx ".") (tx ",") (zeros 105) (Some (tx "miles")) (of_Z 1500) = Ok (tx "1,500 miles").
Proof. split; [|split]; vm_compute; reflexivity. Qed.

(** Separators of unequal length: the rest of the longer one stays in the text. *)
Theorem C17_unequal_separators_refuted : exists dsep tsep s ip fp out,
  sep_ok dsep /\ sep_ok tsep /\ dsep <> tsep /\ numeral ip fp /\ localized dsep tsep s ip fp out /\
  national (length out) dsep tsep out [] <> plain s ip fp.
Proof.
  exists (tx "::"), (tx "'"), false, (tx "1234"), (tx "5"), (tx "1'234::5").
  split; [|split; [|split; [|split; [|split]]]].
  - split; [discriminate|]; split; [intros c [<-|[<-|[]]]; discriminate|]; split; [intros [H1 H2]; vm_compute in H1, H2; congruence|discriminate].
  - split; [discriminate|]; split; [intros c [<-|[]]; discriminate|]; split; [intros [H1 H2]; vm_compute in H1, H2; congruence|discriminate].
  - discriminate.
  - split; [discriminate|split; repeat (constructor; [vm_compute; split; discriminate|]); constructor].
  - exists (tx "1'234"). split; [|reflexivity].
    change (grouped (tx "'") (tx "1" ++ tx "234") (tx "1" ++ tx "'" ++ tx "234")).
    apply grouped_more. apply grouped_short; [discriminate|vm_compute; lia].
  - vm_compute. discriminate.
Qed.
Print Assumptions C17_unequal_separators_refuted.

(** A number of 78 digits needs more than the 100 bytes set aside for its text. *)
Theorem C17_large_number_refuted : exists x, finite x /\
  number_to_string (tx ",") (tx ".") (zeros 100) None x = UB.
Proof. exists (of_Z (10 ^ 77)). split; [|vm_compute; reflexivity]. vm_compute; split; congruence. Qed.
Print Assumptions C17_large_number_refuted.

(** The localized text has no terminator of its own: in a block that is not cleared, older bytes follow it. *)
Theorem C17_reused_block_refuted : exists mem, length mem = 100%nat /\
  number_to_string (tx ",") (tx ".") mem None (of_Z 5) = Ok (tx "59").
Proof. exists (tx "99" ++ zeros 98). split; vm_compute; reflexivity. Qed.
Print Assumptions C17_reused_block_refuted.

(** * C18 *)
Theorem C18_between_partial : forall rand lo hi a b, (forall i, 0 <= rand i <= RAND_MAX) -> finite lo -> finite hi ->
  is_round (SF2Q lo) a -> is_round (SF2Q hi) b -> int_range a -> int_range b -> Z.abs (a - b) <= 2147483647 ->
  exists r z, number_between rand lo hi = Ok r /\ finite r /\ (SF2Q r == inject_Z z)%Q /\
    Z.min a b <= z <= Z.max a b.
Proof. exact between_in_range. Qed.
Print Assumptions C18_between_partial.
Theorem C18_between_onto : forall lo hi a b z, finite lo -> finite hi ->
  is_round (SF2Q lo) a -> is_round (SF2Q hi) b -> int_range a -> int_range b -> Z.abs (a - b) <= 2147483647 ->
  Z.min a b <= z <= Z.max a b ->
  exists rand r, (forall i, 0 <= rand i <= RAND_MAX) /\ number_between rand lo hi = Ok r /\ (SF2Q r == inject_Z z)%Q.
Proof. exact between_onto. Qed.
Print Assumptions C18_between_onto.
Example C18_between_case :
  number_between (fun _ => 2147483646) (of_Z 6) (of_Z 1) = Ok (of_Z 1) /\
  number_between (fun _ => 5) (of_Z (-3)) (of_Z 3) = Ok (of_Z 2) /\
  number_between (fun _ => 1) (div64 (of_Z 1) (of_Z 2)) (of_Z 2) = Ok (of_Z 2).
Proof. split; [|split]; vm_compute; reflexivity. Qed.
(** Bounds further apart than an int can hold. *)
Theorem C18_overflow_refuted : exists rand lo hi a b, (forall i, 0 <= rand i <= RAND_MAX) /\ finite lo /\ finite hi /\
  is_round (SF2Q lo) a /\ is_round (SF2Q hi) b /\ int_range a /\ int_range b /\ number_between rand lo hi = UB.
Proof.
  exists (fun _ => 0), (of_Z (-2000000000)), (of_Z 2000000000), (-2000000000), 2000000000.
  split; [intros i; vm_compute; split; congruence|].
  split; [vm_compute; split; congruence|]. split; [vm_compute; split; congruence|].
  split; [|split; [|split; [unfold int_range; lia|split; [unfold int_range; lia|vm_compute; reflexivity]]]].
  - destruct (of_Z_ok (-2000000000) ltac:(lia)) as [_ V]. apply is_round_whole_eq, V.
  - destruct (of_Z_ok 2000000000 ltac:(lia)) as [_ V]. apply is_round_whole_eq, V.
Qed.
Print Assumptions C18_overflow_refuted.

(** * C19 *)
Theorem C19_division_by_zero : forall a b,
  (forall s, b = S754_zero s ->
     number_divide a b = mkN a None true /\ number_div a b = mkN a None true /\ number_modulo a b = mkN a None true) /\
  ((forall s, b <> S754_zero s) ->
     n_err (number_divide a b) = false /\ n_err (number_div a b) = false /\ n_err (number_modulo a b) = false /\
     n_self (number_divide a b) = a /\ n_self (number_modulo a b) = a).
Proof. exact div_zero. Qed.
Print Assumptions C19_division_by_zero.
Example C19_division_case :
  number_divide (of_Z 7) (S754_zero true) = mkN (of_Z 7) None true /\
  n_ans (number_divide (of_Z 7) (of_Z 2)) = Some (S754_finite false 7881299347898368 (-51)) /\
  n_ans (number_modulo (of_Z (-7)) (div64 (of_Z 1) (of_Z 2))) = Some (S754_zero true).
Proof. split; [|split]; vm_compute; reflexivity. Qed.

(** * C20 *)
Theorem C20_order_is_rational_order : forall a b, finite a -> finite b ->
  (number_lt a b = true <-> SF2Q a < SF2Q b)%Q /\ (number_le a b = true <-> SF2Q a <= SF2Q b)%Q /\
  (number_gt a b = true <-> SF2Q b < SF2Q a)%Q /\ (number_ge a b = true <-> SF2Q b <= SF2Q a)%Q /\
  (number_eq a b = true <-> SF2Q a == SF2Q b)%Q /\ (number_neq a b = true <-> ~ SF2Q a == SF2Q b)%Q /\
  (number_positive a = true <-> 0 < SF2Q a)%Q /\ (number_negative a = true <-> SF2Q a < 0)%Q.
Proof. exact order_Q. Qed.
Print Assumptions C20_order_is_rational_order.
(** Infinite results of an overflow included. *)
Theorem C20_trichotomy_partial : forall a b, a <> S754_nan -> b <> S754_nan ->
  one_of (number_lt a b) (number_eq a b) (number_gt a b) /\
  number_le a b = negb (number_gt a b) /\ number_ge a b = negb (number_lt a b) /\
  number_neq a b = negb (number_eq a b) /\
  one_of (number_positive a) (number_negative a) (number_eq a zero64).
Proof. exact trichotomy. Qed.
Print Assumptions C20_trichotomy_partial.
Theorem C20_parity_partial : forall x z, finite x -> is_trunc (SF2Q x) z -> int_range z ->
  number_odd x = Ok (Z.odd z) /\ number_even x = Ok (Z.even z).
Proof. exact parity. Qed.
Print Assumptions C20_parity_partial.
Example C20_cases :
  number_lt (of_Z (-3)) (div64 (of_Z 1) (of_Z 3)) = true /\ number_eq zero64 (S754_zero true) = true /\
  number_odd (of_Z (-7)) = Ok true /\ number_even (of_Z (-7)) = Ok false /\
  number_even (div64 (of_Z 29) (of_Z 10)) = Ok true.
Proof. repeat split; vm_compute; reflexivity. Qed.
(** The square root of a negative number is neither positive nor negative nor zero, and not equal to itself. *)
Theorem C20_nan_refuted : exists x, finite x /\ let r := number_sqrt x in
  number_positive r = false /\ number_negative r = false /\ number_eq r zero64 = false /\
  number_lt r r = false /\ number_eq r r = false /\ number_gt r r = false.
Proof. exists (of_Z (-1)). split; [vm_compute; split; congruence|]. repeat split; vm_compute; reflexivity. Qed.
Print Assumptions C20_nan_refuted.
Theorem C20_parity_overflow_refuted : exists x, finite x /\ number_odd x = UB /\ number_even x = UB.
Proof. exists (of_Z 3000000000). split; [vm_compute; split; congruence|]. split; vm_compute; reflexivity. Qed.
Print Assumptions C20_parity_overflow_refuted.

(** * C58 *)
Theorem C58_arithmetic_rounds : forall a b, finite a -> finite b ->
  (below (SF2Q a + SF2Q b) -> exists r, number_add a b = mkN a (Some r) false /\ number_inc a b = mkN r None false /\
     rounded r (SF2Q a + SF2Q b)) /\
  (below (SF2Q a - SF2Q b) -> exists r, number_minus a b = mkN a (Some r) false /\ number_dec a b = mkN r None false /\
     rounded r (SF2Q a - SF2Q b)) /\
  (below (SF2Q a * SF2Q b) -> exists r, number_multiply a b = mkN a (Some r) false /\ number_mul a b = mkN r None false /\
     rounded r (SF2Q a * SF2Q b)) /\
  (~ (SF2Q b == 0)%Q -> below (SF2Q a / SF2Q b) -> exists r, number_divide a b = mkN a (Some r) false /\ number_div a b = mkN r None false /\
     rounded r (SF2Q a / SF2Q b)).
Proof. exact arith_rounded. Qed.
Print Assumptions C58_arithmetic_rounds.
Theorem C58_whole_numbers_exact : forall x y, Z.abs x <= 2 ^ 53 -> Z.abs y <= 2 ^ 53 ->
  (Z.abs (x + y) <= 2 ^ 53 -> exists r, n_ans (number_add (of_Z x) (of_Z y)) = Some r /\ (SF2Q r == inject_Z (x + y))%Q) /\
  (Z.abs (x - y) <= 2 ^ 53 -> exists r, n_ans (number_minus (of_Z x) (of_Z y)) = Some r /\ (SF2Q r == inject_Z (x - y))%Q) /\
  (Z.abs (x * y) <= 2 ^ 53 -> exists r, n_ans (number_multiply (of_Z x) (of_Z y)) = Some r /\ (SF2Q r == inject_Z (x * y))%Q) /\
  (y <> 0 -> (y | x) -> exists r, n_ans (number_divide (of_Z x) (of_Z y)) = Some r /\ (SF2Q r == inject_Z (x / y))%Q).
Proof. exact arith_whole. Qed.
Print Assumptions C58_whole_numbers_exact.
Theorem C58_square_root : forall x, finite x -> (0 <= SF2Q x)%Q -> root_of (number_sqrt x) (SF2Q x).
Proof. exact sqrt_spec. Qed.
Print Assumptions C58_square_root.
Theorem C58_perfect_squares : forall z, 0 <= z -> z * z <= 2 ^ 53 -> (SF2Q (number_sqrt (of_Z (z * z))) == inject_Z z)%Q.
Proof. exact sqrt_square. Qed.
Print Assumptions C58_perfect_squares.
Example C58_cases :
  n_ans (number_add (of_Z 9007199254740991) (of_Z 1)) = Some (of_Z 9007199254740992) /\
  n_ans (number_add (of_Z 9007199254740992) (of_Z 1)) = Some (of_Z 9007199254740992) /\
  n_self (number_mul (of_Z 6) (of_Z 7)) = of_Z 42 /\
  number_sqrt (of_Z 144) = of_Z 12 /\
  number_sqrt (of_Z 2) = S754_finite false 6369051672525773 (-52).
Proof. repeat split; vm_compute; reflexivity. Qed.

(** * C59 *)
Theorem C59_reading_partial : forall d t s ip fp, numeral ip fp -> (length (plain s ip fp) <= 40)%nat ->
  exists r, number_from_text false d t (zeros 41) (zeros 41) (plain s ip fp) = Ok (Some r) /\
    rounded r (numeral_value s ip fp).
Proof. exact read_numeral. Qed.
Print Assumptions C59_reading_partial.
Theorem C59_reading_localized_partial : forall d t s ip fp out, numeral ip fp -> sep_ok d -> sep_ok t -> length d = length t -> d <> t ->
  localized d t s ip fp out -> (length out <= 40)%nat ->
  exists r, number_from_text true d t (zeros 41) (zeros 41) out = Ok (Some r) /\
    rounded r (numeral_value s ip fp).
Proof. exact read_local. Qed.
Print Assumptions C59_reading_localized_partial.
Theorem C59_writing_partial : forall x, finite x -> (Qabs (SF2Q x) <= inject_Z (10 ^ 60))%Q ->
  exists s ip fp, number_raw x = Ok (plain s ip fp) /\ numeral ip fp /\ tidy ip fp /\
    (length fp <= 10)%nat /\ (length ip <= 61)%nat /\
    (Qabs (numeral_value s ip fp - SF2Q x) <= 1 # 20000000000)%Q.
Proof. exact written. Qed.
Print Assumptions C59_writing_partial.
Example C59_cases :
  number_from_text false [] [] (zeros 41) (zeros 41) (tx "-0012.50") = Ok (Some (div64 (of_Z (-25)) (of_Z 2))) /\
  number_from_text true (tx ",") (tx ".") (zeros 41) (zeros 41) (tx "1.234,5") = Ok (Some (div64 (of_Z 2469) (of_Z 2))) /\
  number_raw (div64 (of_Z 2) (of_Z 3)) = Ok (tx "0.6666666667").
Proof. repeat split; vm_compute; reflexivity. Qed.
(** Only the first forty bytes of a text are read. *)
Theorem C59_long_text_refuted : exists ip, numeral ip [] /\ length ip = 41%nat /\
  exists r, number_from_text false [] [] (zeros 41) (zeros 41) ip = Ok (Some r) /\
    (10 * SF2Q r <= numeral_value false ip [])%Q.
Proof.
  exists (tx "10000000000000000000000000000000000000000"). split; [|split; [reflexivity|]].
  - split; [discriminate|split; repeat (constructor; [vm_compute; split; discriminate|]); constructor].
  - eexists. split; [vm_compute; reflexivity|]. vm_compute. congruence.
Qed.
Print Assumptions C59_long_text_refuted.
(** The text of a whole number of 98 digits ending in zeros: the decimal point is cut off and the
    zeros in front of it are dropped as if they were decimals. *)
Theorem C59_large_number_refuted : exists x, finite x /\ (SF2Q x == inject_Z (5 ^ 22 * 2 ^ 273))%Q /\
  exists ds, number_raw x = Ok ds /\ length ds = 76%nat.
Proof.
  exists (of_Z (5 ^ 22 * 2 ^ 273)). split; [vm_compute; split; congruence|].
  split; [vm_compute; reflexivity|]. eexists. split; [vm_compute; reflexivity|]. reflexivity.
Qed.
Print Assumptions C59_large_number_refuted.
(** The block the text is copied to is not terminated either. *)
Theorem C59_reused_block_refuted : exists mem, length mem = 41%nat /\
  number_from_text false [] [] mem (zeros 41) (tx "1") = Ok (Some (of_Z 13)).
Proof. exists (tx "23" ++ zeros 39). split; vm_compute; reflexivity. Qed.
Print Assumptions C59_reused_block_refuted.

(** * C60 *)
Theorem C60_whole_number_text_number : forall d t z, Z.abs z <= 2 ^ 53 -> sep_ok [d] -> sep_ok [t] -> d <> t ->
  exists out, number_to_string [d] [t] (zeros 100) None (of_Z z) = Ok out /\
    number_from_text true [d] [t] (zeros 41) (zeros 41) out = Ok (Some (of_Z z)).
Proof. exact whole_there_and_back. Qed.
Print Assumptions C60_whole_number_text_number.
Theorem C60_whole_number_digits : forall z, Z.abs z <= 2 ^ 53 ->
  exists ip, number_raw (of_Z z) = Ok (plain (z <? 0) ip []) /\ numeral ip [] /\ tidy ip [] /\ dvalue ip = Z.abs z.
Proof. exact whole_raw. Qed.
Print Assumptions C60_whole_number_digits.
Theorem C60_text_number_text : forall d t s ip fp out,
  numeral ip fp -> tidy ip fp -> (length fp <= 10)%nat -> dvalue ip < 2 ^ 19 ->
  sep_ok [d] -> sep_ok [t] -> d <> t -> localized [d] [t] s ip fp out ->
  exists r, number_from_text true [d] [t] (zeros 41) (zeros 41) out = Ok (Some r) /\
    number_to_string [d] [t] (zeros 100) None r = Ok out /\
    number_from_text false [d] [t] (zeros 41) (zeros 41) (plain s ip fp) = Ok (Some r) /\
    number_raw r = Ok (plain s ip fp).
Proof. exact numeral_back. Qed.
Print Assumptions C60_text_number_text.
Example C60_cases :
  number_to_string (tx ",") (tx ".") (zeros 100) None (of_Z (-9007199254740991)) = Ok (tx "-9.007.199.254.740.991") /\
  number_from_text true (tx ",") (tx ".") (zeros 41) (zeros 41) (tx "-9.007.199.254.740.991") = Ok (Some (of_Z (-9007199254740991))) /\
  obind (number_from_text false (tx ",") (tx ".") (zeros 41) (zeros 41) (tx "524287.0000000001"))
        (fun r => match r with Some r => number_raw r | None => UB end) = Ok (tx "524287.0000000001").
Proof. repeat split; vm_compute; reflexivity. Qed.

(** * C61 *)
Theorem C61_floor : forall x, finite x -> finite (number_floor x) /\ exists z, (SF2Q (number_floor x) == inject_Z z)%Q /\ is_floor (SF2Q x) z.
Proof. exact c_floor_spec. Qed.
Print Assumptions C61_floor.
Theorem C61_ceil : forall x, finite x -> finite (number_ceil x) /\ exists z, (SF2Q (number_ceil x) == inject_Z z)%Q /\ is_ceil (SF2Q x) z.
Proof. exact c_ceil_spec. Qed.
Print Assumptions C61_ceil.
Theorem C61_round : forall x, finite x -> finite (number_round x) /\ exists z, (SF2Q (number_round x) == inject_Z z)%Q /\ is_round (SF2Q x) z.
Proof. exact c_round_spec. Qed.
Print Assumptions C61_round.
Theorem C61_abs : forall x, finite x -> finite (number_abs x) /\ (SF2Q (number_abs x) == Qabs (SF2Q x))%Q.
Proof. exact abs_spec. Qed.
Print Assumptions C61_abs.
Example C61_cases : let h := div64 (of_Z (-5)) (of_Z 2) in
  number_floor h = of_Z (-3) /\ number_ceil h = of_Z (-2) /\ number_round h = of_Z (-3) /\ number_abs h = div64 (of_Z 5) (of_Z 2).
Proof. repeat split; vm_compute; reflexivity. Qed.

(** * C62 *)
Theorem C62_truth_partial : forall x z, finite x -> (SF2Q x == inject_Z z)%Q -> int_range z ->
  (number_to_boolean x = Ok true <-> ~ SF2Q x == 0)%Q /\ (number_to_boolean x = Ok false <-> SF2Q x == 0)%Q.
Proof. exact truth_whole. Qed.
Print Assumptions C62_truth_partial.
Theorem C62_truth_is_truncated : forall x z, finite x -> is_trunc (SF2Q x) z -> int_range z ->
  number_to_boolean x = Ok (negb (z =? 0)).
Proof. exact truth. Qed.
Print Assumptions C62_truth_is_truncated.
Example C62_cases : number_to_boolean (of_Z (-1)) = Ok true /\ number_to_boolean zero64 = Ok false.
Proof. split; reflexivity. Qed.
Theorem C62_fraction_refuted : exists x, finite x /\ ~ (SF2Q x == 0)%Q /\ number_to_boolean x = Ok false.
Proof. exists (div64 (of_Z 1) (of_Z 2)). split; [vm_compute; split; congruence|]. split; vm_compute; congruence. Qed.
Print Assumptions C62_fraction_refuted.
Theorem C62_large_refuted : exists x, finite x /\ number_to_boolean x = UB.
Proof. exists (of_Z 2147483648). split; [vm_compute; split; congruence|]. vm_compute. reflexivity. Qed.
Print Assumptions C62_large_refuted.

(** * C63 *)
Theorem C63_modulo : forall a b, finite a -> finite b -> ~ (SF2Q b == 0)%Q ->
  exists r, number_modulo a b = mkN a (Some r) false /\ finite r /\
    (exists q, SF2Q a == inject_Z q * SF2Q b + SF2Q r)%Q /\ (Qabs (SF2Q r) < Qabs (SF2Q b))%Q /\ (0 <= SF2Q r * SF2Q a)%Q.
Proof. exact modulo_spec. Qed.
Print Assumptions C63_modulo.
Example C63_cases : n_ans (number_modulo (of_Z (-7)) (of_Z 3)) = Some (of_Z (-1)) /\
  n_ans (number_modulo (of_Z 7) (div64 (of_Z (-3)) (of_Z 2))) = Some (of_Z 1).
Proof. split; vm_compute; reflexivity. Qed.

(** * C64 *)
Theorem C64_bits_partial : forall a b x y, finite a -> finite b -> is_trunc (SF2Q a) x -> is_trunc (SF2Q b) y -> int_range x -> int_range y ->
  exists r1 r2 r3, number_bit_and a b = Ok r1 /\ number_bit_or a b = Ok r2 /\ number_bit_xor a b = Ok r3 /\
  exists z1 z2 z3, (SF2Q r1 == inject_Z z1)%Q /\ (SF2Q r2 == inject_Z z2)%Q /\ (SF2Q r3 == inject_Z z3)%Q /\
    int_range z1 /\ int_range z2 /\ int_range z3 /\
    forall i, 0 <= i -> Z.testbit z1 i = Z.testbit x i && Z.testbit y i /\
                        Z.testbit z2 i = Z.testbit x i || Z.testbit y i /\
                        Z.testbit z3 i = xorb (Z.testbit x i) (Z.testbit y i).
Proof. exact bit_ops. Qed.
Print Assumptions C64_bits_partial.
Example C64_cases : number_bit_and (of_Z (-4)) (of_Z 7) = Ok (of_Z 4) /\ number_bit_or (of_Z 12) (of_Z 10) = Ok (of_Z 14) /\
  number_bit_xor (of_Z 12) (of_Z 10) = Ok (of_Z 6).
Proof. repeat split; vm_compute; reflexivity. Qed.
Theorem C64_bits_refuted : exists a b, finite a /\ finite b /\ number_bit_or a b = UB.
Proof. exists (of_Z 4294967295), (of_Z 0). split; [vm_compute; split; congruence|]. split; [exact I|vm_compute; reflexivity]. Qed.
Print Assumptions C64_bits_refuted.
