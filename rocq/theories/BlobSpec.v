(** Words for blocks of bytes and for the native types of the Media plug-in, independent of the code. *)
From Coq Require Import QArith String.
From Verif Require Import Common FloatSpec.
Local Open Scope Z_scope.

(** [x] is the number [z] *)
Definition is_number (x : SpecFloat.spec_float) (z : Z) : Prop := finite x /\ (SF2Q x == inject_Z z)%Q.

(** The byte [b] (0 to 255) is written -128 to 127 *)
Definition signed_byte (b : N) (z : Z) : Prop := (b < 256)%N /\ -128 <= z <= 127 /\ (z mod 256 = Z.of_N b).

(** [bs] are the bytes of [z] in [List.length bs] bytes, the lowest first; negative numbers as two's complement *)
Fixpoint value_of (bs : list N) : Z :=
  match bs with [] => 0 | b :: r => Z.of_N b + 256 * value_of r end.
Definition bytes_for (z : Z) (bs : list N) : Prop :=
  Forall (fun b => (b < 256)%N) bs /\ z mod 256 ^ Z.of_nat (List.length bs) = value_of bs.

(** The whole number types of C on a 64-bit Linux: name, lowest, highest, bytes *)
Definition c_types : list (string * (Z * Z * nat)) :=
  [ ("uint8_t"%string,  (0, 255, 1%nat));           ("int8_t"%string,  (-128, 127, 1%nat));
    ("uchar"%string,    (0, 255, 1%nat));           ("char"%string,    (-128, 127, 1%nat));
    ("uint16_t"%string, (0, 65535, 2%nat));         ("int16_t"%string, (-32768, 32767, 2%nat));
    ("ushort"%string,   (0, 65535, 2%nat));         ("short"%string,   (-32768, 32767, 2%nat));
    ("uint32_t"%string, (0, 4294967295, 4%nat));    ("int32_t"%string, (-2147483648, 2147483647, 4%nat));
    ("uint"%string,     (0, 4294967295, 4%nat));    ("int"%string,     (-2147483648, 2147483647, 4%nat));
    ("uint64_t"%string, (0, 18446744073709551615, 8%nat)); ("int64_t"%string, (-9223372036854775808, 9223372036854775807, 8%nat));
    ("ulong"%string,    (0, 18446744073709551615, 8%nat)); ("long"%string,    (-9223372036854775808, 9223372036854775807, 8%nat)) ].
Definition real_types : list string := [ "float"%string; "double"%string ].
Definition other_types : list string := [ "void"%string; "pointer"%string ].

(** A number a [float] can hold: at most 24 binary digits *)
Definition float_holds (x : SpecFloat.spec_float) : Prop :=
  finite x /\ exists z e, Z.abs z < 2 ^ 24 /\ -149 <= e <= 104 /\ (SF2Q x == QZ z e)%Q.
