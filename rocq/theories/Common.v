(** Shared vocabulary of the models.

    A byte is an [N]; a text is the list of the [vlen] bytes of a [ctr_string]
    (citrine.h 151-156: [char* value; ctr_size vlen]).  Undefined behaviour of
    the C code is the distinct outcome [UB]. *)
From Coq Require Export List NArith ZArith Arith Lia Bool.
Export ListNotations.

Notation byte := N (only parsing).
Notation text := (list N) (only parsing).

Inductive outcome (A : Type) : Type :=
| Ok (a : A)
| UB.
Arguments Ok {A} a.
Arguments UB {A}.

Definition obind {A B} (o : outcome A) (f : A -> outcome B) : outcome B :=
  match o with Ok a => f a | UB => UB end.

Notation "'do' x <- o ; f" := (obind o (fun x => f))
  (at level 200, x pattern, o at level 100, f at level 200, right associativity).

(** Wrap-around of [size_t] / [uint64_t] and range of [long] (LP64). *)
Definition W64 : Z := 18446744073709551616%Z.
Definition wrap64 (z : Z) : Z := Z.modulo z W64.
Definition LONG_MAX : Z := 9223372036854775807%Z.
Definition in_long (z : Z) : bool := ((- LONG_MAX - 1 <=? z) && (z <=? LONG_MAX))%Z.

(** Bounds-checked read of the buffer of a text. *)
Definition rd (s : text) (i : nat) : outcome N :=
  match nth_error s i with Some c => Ok c | None => UB end.

(** [memcpy] out of a text: [n] bytes starting at [off]; UB if it leaves the buffer. *)
Definition slice (s : text) (off n : nat) : outcome text :=
  if (off + n <=? length s)%nat then Ok (firstn n (skipn off s)) else UB.

Fixpoint text_eqb (a b : text) : bool :=
  match a, b with
  | [], [] => true
  | x :: a', y :: b' => N.eqb x y && text_eqb a' b'
  | _, _ => false
  end.
