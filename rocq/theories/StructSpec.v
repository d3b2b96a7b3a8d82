(** How C lays out structures on a 64-bit Linux, independent of the code. *)
From Coq Require Import String.
From Verif Require Import Common Txt.
Local Open Scope Z_scope.

(** A type: the name of a simple one, or a structure with its fields in order *)
Inductive ctype := CName (d : text) | CStruct (fields : list ctype).

(** The simple types that can be fields, and their size; each is aligned to its size *)
Definition simple_types : list (text * Z) :=
  map (fun e => (lit (fst e), snd e))
  [ ("uint8_t"%string, 1); ("int8_t"%string, 1); ("uchar"%string, 1); ("char"%string, 1);
    ("uint16_t"%string, 2); ("int16_t"%string, 2); ("ushort"%string, 2); ("short"%string, 2);
    ("uint32_t"%string, 4); ("int32_t"%string, 4); ("uint"%string, 4); ("int"%string, 4); ("float"%string, 4);
    ("uint64_t"%string, 8); ("int64_t"%string, 8); ("ulong"%string, 8); ("long"%string, 8); ("double"%string, 8); ("pointer"%string, 8) ].

(** [o] is the first multiple of [a] that is not below [x] *)
Definition first_multiple (a x o : Z) : Prop := (a | o) /\ x <= o < x + a.

(** [laid c size align offs]: a [c] takes [size] bytes, begins at multiples of [align], and its fields begin at [offs].
    [placed start fs offs end align]: the fields [fs] one after the other, from [start]. *)
Inductive laid : ctype -> Z -> Z -> list Z -> Prop :=
| laid_name d k : In (d, k) simple_types -> laid (CName d) k k []
| laid_struct fs offs e size align : fs <> [] -> placed 0 fs offs e align -> first_multiple align e size -> laid (CStruct fs) size align offs
with placed : Z -> list ctype -> list Z -> Z -> Z -> Prop :=
| placed_nil s : placed s [] [] s 1
| placed_cons s c r size align offs o os e a : laid c size align offs -> first_multiple align s o -> placed (o + size) r os e a ->
    placed s (c :: r) (o :: os) e (Z.max align a).

(** Types that C knows: simple types and structures with at least one field *)
Fixpoint proper (c : ctype) : Prop :=
  match c with
  | CName d => In d (map fst simple_types)
  | CStruct fs => fs <> [] /\ (fix all (l : list ctype) : Prop := match l with [] => True | x :: r => proper x /\ all r end) fs
  end.
