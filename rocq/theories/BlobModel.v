(** Blobs and the native types of the Media plug-in (plugins/media/media.c 3338-3781).

    Memory is a list of blocks; a block that was freed is [None].  Every block starts with the eight bytes in which the
    allocator keeps its width.  Pointers kept in memory are pieces of an abstract address; [addr] tells what number an
    address is.  Pools are off, so fresh memory is zero.  Objects: numbers, Nil, Blobs and others, of which only the number
    they are converted to counts. Structures ([Blob struct:]) are in StructModel. *)
From Coq Require Import String.
From Verif Require Import Common Txt NumModel ListModel.
Local Open Scope Z_scope.

Inductive ptr := PNull | PAddr (b : nat) (off : Z) | PWild.
Inductive mval := Byte (n : N) | Frag (p : ptr) (k : nat).
Definition mem := list (option (list mval)).
(** [blobs]: where each Blob points; [None] is a Blob without a resource *)
Record st := mkS { s_mem : mem; s_blobs : list (option ptr) }.

Inductive arg := ANum (x : num) | ANil | ABlob (id : nat) | AObj (x : num).
(** world.c 313-315, [ctr_tonum]; base.c 126-128 for objects of their own, 218-220 *)
Definition tonum (a : arg) : num :=
  match a with ANum x => x | ANil => of_Z 0 | ABlob _ => of_Z 1 | AObj x => x end.

Definition load (m : mem) (p : ptr) : outcome mval :=
  match p with
  | PAddr b off =>
      match nth_error m b with
      | Some (Some l) => if 0 <=? off then match nth_error l (Z.to_nat off) with Some v => Ok v | None => UB end else UB
      | _ => UB
      end
  | _ => UB
  end.
Definition set_nth {A} (l : list A) (i : nat) (x : A) : list A := firstn i l ++ x :: skipn (S i) l.
Definition store (m : mem) (p : ptr) (v : mval) : outcome mem :=
  match p with
  | PAddr b off =>
      match nth_error m b with
      | Some (Some l) => if (0 <=? off) && (off <? Z.of_nat (List.length l))
                         then Ok (set_nth m b (Some (set_nth l (Z.to_nat off) v))) else UB
      | _ => UB
      end
  | _ => UB
  end.
Definition padd (p : ptr) (n : Z) : ptr := match p with PAddr b off => PAddr b (off + n) | _ => PWild end.
Fixpoint load_n (m : mem) (p : ptr) (n : nat) : outcome (list mval) :=
  match n with O => Ok [] | S k => do v <- load m p; do r <- load_n m (padd p 1) k; Ok (v :: r) end.

(** The lowest [k] bytes of [n], the lowest first *)
Fixpoint le_bytes (k : nat) (n : N) : list N :=
  match k with O => [] | S k' => (n mod 256)%N :: le_bytes k' (n / 256)%N end.
Fixpoint le_value (bs : list N) : N := match bs with [] => 0%N | b :: r => (b + 256 * le_value r)%N end.
Definition le_Z (k : nat) (z : Z) : list N := le_bytes k (Z.to_N (z mod 256 ^ Z.of_nat k)).

(** memory.c 49-73, [ctr_heap_allocate], and 353-364, [ctr_pool_bucket] without pools.  [room]: the largest block there
    is room for; [None]: the program ends with a message. *)
Definition bucket (s : Z) : Z := if (s =? 32) || (s =? 64) || (s =? 128) then s + 1 else s.
Definition alloc (room : Z) (m : mem) (n : Z) : option (mem * ptr) :=
  let w := bucket (n + 8) in
  if (2147483647 <? w) || (room <? w) then None
  else Some (m ++ [Some (map Byte (le_Z 8 w) ++ repeat (Byte 0) (Z.to_nat (w - 8)))], PAddr (List.length m) 8).

(** Conversions of a double to a C type: undefined outside its range *)
Definition c_range (lo hi : Z) (x : num) : outcome Z :=
  match trunc x with Some z => if (lo <=? z) && (z <=? hi) then Ok z else UB | None => UB end.
Definition char_value (n : N) : Z := if (n <? 128)%N then Z.of_N n else Z.of_N n - 256.

Section Blobs.
Variable addr : ptr -> N.
Variable room : Z.
Definition byte_of (v : mval) : N :=
  match v with Byte n => n | Frag p k => (addr p / 256 ^ N.of_nat k mod 256)%N end.

Definition blob_ptr (s : st) (b : nat) : outcome ptr :=
  match nth_error (s_blobs s) b with Some (Some p) => Ok p | _ => UB end.

(** media.c 3421-3431, [ctr_blob_new_set]; the answer is the new Blob *)
Definition blob_new (s : st) (a : arg) : outcome (option (st * nat)) :=
  do n <- c_range 0 18446744073709551615 (tonum a);
  Ok match alloc room (s_mem s) n with
     | None => None
     | Some (m, p) => Some (mkS m (s_blobs s ++ [Some p]), List.length (s_blobs s))
     end.

(** media.c 3381-3387, [ctr_blob_fill] (the message [bytes:]): from element 0, whatever the tail is; [n] rounds left *)
Fixpoint fill_loop (m : mem) (p : ptr) (el : list (option arg)) (i : nat) (n : nat) : outcome mem :=
  match n with
  | O => Ok m
  | S k =>
      do a <- rd_cell el i;
      do z <- c_range (-128) 127 (tonum a);
      do m' <- store m (padd p (Z.of_nat i)) (Byte (Z.to_N (z mod 256)));
      fill_loop m' p el (S i) k
  end.
(** The argument: a list, or not *)
Definition blob_fill (s : st) (b : nat) (l : option (@arr arg)) : outcome st :=
  match l with
  | None => UB
  | Some a => if Nat.eqb (a_head a) 0 then Ok s else
              do p <- blob_ptr s b;
              do m <- fill_loop (s_mem s) p (a_el a) 0 (a_head a); Ok (mkS m (s_blobs s))
  end.

(** media.c 3482-3504, [ctr_blob_read] (the message [from:length:]); the answer is the list of numbers *)
Fixpoint read_loop (m : mem) (p : ptr) (i : Z) (n : nat) : outcome (list num) :=
  match n with
  | O => Ok []
  | S k => do v <- load m (padd p (i - 1));
           do r <- read_loop m p (i + 1) k;
           Ok (of_Z (char_value (byte_of v)) :: r)
  end.
Definition blob_read (s : st) (b : nat) (from len : arg) : outcome (list num) :=
  do i <- c_int (tonum from);
  do n <- c_int (tonum len);
  if negb (in_int (i + n)) then UB else
  if n <=? 0 then Ok [] else
  do p <- blob_ptr s b;
  read_loop (s_mem s) p i (Z.to_nat n).

(** media.c 3399-3403, [ctr_blob_free]; memory.c 166-186: nothing for NULL, otherwise the block must be one of the
    allocator, from its start *)
Definition blob_free (s : st) (b : nat) : outcome st :=
  do p <- blob_ptr s b;
  do m <- match p with
          | PNull => Ok (s_mem s)
          | PAddr k 8 => match nth_error (s_mem s) k with
                         | Some (Some _) => Ok (set_nth (s_mem s) k None)
                         | _ => UB
                         end
          | _ => UB
          end;
  Ok (mkS m (set_nth (s_blobs s) b (Some PNull))).

(** media.c 3406-3408, [ctr_blob_tostring]; base.c 1635-1637: up to the first NUL; [n]: the rest of the block *)
Fixpoint str_loop (m : mem) (p : ptr) (n : nat) : outcome text :=
  match n with
  | O => UB
  | S k => do v <- load m p;
           if (byte_of v =? 0)%N then Ok [] else do r <- str_loop m (padd p 1) k; Ok (byte_of v :: r)
  end.
Definition block_size (m : mem) (p : ptr) : nat :=
  match p with PAddr b _ => match nth_error m b with Some (Some l) => S (List.length l) | _ => 1%nat end | _ => 1%nat end.
Definition blob_text (s : st) (b : nat) : outcome text :=
  do p <- blob_ptr s b; str_loop (s_mem s) p (block_size (s_mem s) p).

(** media.c 3443-3453, [ctr_blob_utf8_set]; memory.c 264-281: NUL bytes are left out *)
Fixpoint store_all (m : mem) (p : ptr) (vs : list mval) : outcome mem :=
  match vs with [] => Ok m | v :: r => do m' <- store m p v; store_all m' (padd p 1) r end.
Definition blob_utf8 (s : st) (t : text) : outcome (option (st * nat)) :=
  match alloc room (s_mem s) (Z.of_nat (List.length t) + 1) with
  | None => Ok None
  | Some (m, p) =>
      do m' <- store_all m p (map Byte (filter (fun c => negb (c =? 0)%N) t ++ [0%N]));
      Ok (Some (mkS m' (s_blobs s ++ [Some p]), List.length (s_blobs s)))
  end.

(** ** Native types: media.c 3555-3598, [ctr_internal_media_ffi_map_type].  On a 64-bit Linux libffi has one type for
    [uchar] and [uint8_t], for [long] and [int64_t] and so on. *)
Inductive ffity := FVoid | FInt (signed : bool) (size : nat) | FFloat | FDouble | FPointer.
Local Notation "'tx' s" := (lit s%string) (at level 8, s at level 0).
Definition map_type (d : text) : option ffity :=
  let is s := text_eqb d s in
  if is (tx "void") then Some FVoid else
  if is (tx "uint") then Some (FInt false 4) else if is (tx "int") then Some (FInt true 4) else
  if is (tx "uint8_t") then Some (FInt false 1) else if is (tx "int8_t") then Some (FInt true 1) else
  if is (tx "uint16_t") then Some (FInt false 2) else if is (tx "int16_t") then Some (FInt true 2) else
  if is (tx "uint32_t") then Some (FInt false 4) else if is (tx "int32_t") then Some (FInt true 4) else
  if is (tx "uint64_t") then Some (FInt false 8) else if is (tx "int64_t") then Some (FInt true 8) else
  if is (tx "float") then Some FFloat else if is (tx "double") then Some FDouble else
  if is (tx "ushort") then Some (FInt false 2) else if is (tx "short") then Some (FInt true 2) else
  if is (tx "uchar") then Some (FInt false 1) else if is (tx "char") then Some (FInt true 1) else
  if is (tx "pointer") then Some FPointer else
  if is (tx "ulong") then Some (FInt false 8) else if is (tx "long") then Some (FInt true 8) else None.
(** The size of the type in libffi *)
Definition fsize (t : ffity) : nat :=
  match t with FVoid => 1 | FInt _ k => k | FFloat => 4 | FDouble => 8 | FPointer => 8 end%nat.

Definition int_lo (signed : bool) (k : nat) : Z := if signed then - 2 ^ (8 * Z.of_nat k - 1) else 0.
Definition int_hi (signed : bool) (k : nat) : Z := if signed then 2 ^ (8 * Z.of_nat k - 1) - 1 else 2 ^ (8 * Z.of_nat k) - 1.

(** IEEE 754 formats of [prec] digits: a number as bits, and bits as a number *)
Definition encode (prec emax : Z) (x : SpecFloat.spec_float) : Z :=
  let top := 2 * emax * 2 ^ (prec - 1) in
  let sg (s : bool) := if s then top else 0 in
  match x with
  | S754_zero s => sg s
  | S754_infinity s => sg s + (2 * emax - 1) * 2 ^ (prec - 1)
  | S754_nan => (2 * emax - 1) * 2 ^ (prec - 1) + 2 ^ (prec - 2)
  | S754_finite s m e =>
      sg s + (if 2 ^ (prec - 1) <=? Zpos m then (e - (3 - emax - prec) + 1) * 2 ^ (prec - 1) + (Zpos m - 2 ^ (prec - 1))
              else Zpos m)
  end.
Definition decode (prec emax : Z) (bits : Z) : SpecFloat.spec_float :=
  let top := 2 * emax * 2 ^ (prec - 1) in
  let s := top <=? bits in
  let r := bits mod top in
  let b := r / 2 ^ (prec - 1) in
  let f := r mod 2 ^ (prec - 1) in
  if b =? 0 then (if f =? 0 then S754_zero s else S754_finite s (Z.to_pos f) (3 - emax - prec))
  else if b =? 2 * emax - 1 then (if f =? 0 then S754_infinity s else S754_nan)
  else S754_finite s (Z.to_pos (f + 2 ^ (prec - 1))) (b - 1 + (3 - emax - prec)).
(** [(float) x], to the nearest; [(double) f], exact *)
Definition to_float (x : num) : SpecFloat.spec_float :=
  match x with S754_finite s m e => SpecFloat.binary_normalize 24 128 (cond_Zopp s (Zpos m)) e s | _ => x end.
Definition of_float (x : SpecFloat.spec_float) : num :=
  match x with S754_finite s m e => SpecFloat.binary_normalize 53 1024 (cond_Zopp s (Zpos m)) e s | _ => x end.

(** A pointer in memory *)
Definition ptr_cells (p : ptr) : list mval :=
  match p with PNull => repeat (Byte 0) 8 | _ => map (Frag p) (seq 0 8) end.
Definition ptr_eqb (p q : ptr) : bool :=
  match p, q with
  | PNull, PNull => true | PWild, PWild => true
  | PAddr b o, PAddr b' o' => Nat.eqb b b' && (o =? o')
  | _, _ => false
  end.
Fixpoint frags (p : ptr) (k : nat) (l : list mval) : bool :=
  match l with
  | [] => true
  | Frag q i :: r => ptr_eqb p q && Nat.eqb i k && frags p (S k) r
  | Byte _ :: _ => false
  end.
Definition is_zero (v : mval) : bool := match v with Byte 0 => true | _ => false end.
Definition cells_ptr (l : list mval) : ptr :=
  if forallb is_zero l then PNull else
  match l with Frag p 0 :: _ => if frags p 0 l then p else PWild | _ => PWild end.

(** media.c 3667-3728, [ctr_internal_media_ffi_convert_value] with an object: the contents of the new block, and whether
    the error about pointers was raised (the block is zero then).  The last branch copies the memory of a Blob. *)
Definition convert_value (s : st) (t : ffity) (a : arg) : outcome (list mval * bool) :=
  match t with
  | FInt sg k => do z <- c_range (int_lo sg k) (int_hi sg k) (tonum a); Ok (map Byte (le_Z k z), false)
  | FFloat => Ok (map Byte (le_Z 4 (encode 24 128 (to_float (tonum a)))), false)
  | FDouble => Ok (map Byte (le_Z 8 (encode 53 1024 (tonum a))), false)
  | FPointer =>
      match a with
      | ANil => Ok (repeat (Byte 0) 8, false)
      | ABlob b => do p <- blob_ptr s b; Ok (ptr_cells p, false)
      | _ => Ok (repeat (Byte 0) 8, true)
      end
  | FVoid => match a with ABlob b => do p <- blob_ptr s b; do l <- load_n (s_mem s) p 1; Ok (l, false) | _ => UB end
  end.

(** media.c 3730-3781, [ctr_internal_media_ffi_convert_value_back] *)
Inductive back := BNil | BNum (x : num) | BBlob (p : ptr).
Definition cells_value (l : list mval) : Z := Z.of_N (le_value (map byte_of l)).
Definition as_signed (k : nat) (n : Z) : Z := if n <? 2 ^ (8 * Z.of_nat k - 1) then n else n - 2 ^ (8 * Z.of_nat k).
Definition convert_back (t : ffity) (l : list mval) : outcome back :=
  if (List.length l <? match t with FVoid => 0 | _ => fsize t end)%nat then UB else
  let c := firstn (fsize t) l in
  Ok match t with
     | FVoid => BNil
     | FInt true k => BNum (of_Z (as_signed k (cells_value c)))
     | FInt false k => BNum (of_Z (cells_value c))
     | FFloat => BNum (of_float (decode 24 128 (cells_value c)))
     | FDouble => BNum (decode 53 1024 (cells_value c))
     | FPointer => BBlob (cells_ptr c)
     end.

(** media.c 3455-3470, [ctr_blob_new_set_type]; the type is a text.  The answer is the new Blob and whether the error
    was raised. *)
Definition blob_new_type (s : st) (a : arg) (d : text) : outcome (option (st * nat * bool)) :=
  match map_type (filter (fun c => negb (c =? 0)%N) d) with
  | None => Ok (Some (mkS (s_mem s) (s_blobs s ++ [None]), List.length (s_blobs s), false))
  | Some t =>
      do (cells, err) <- convert_value s t a;
      match alloc room (s_mem s) (Z.of_nat (fsize t)) with
      | None => Ok None
      | Some (m, p) => do m' <- store_all m p cells;
                       Ok (Some (mkS m' (s_blobs s ++ [Some p]), List.length (s_blobs s), err))
      end
  end.

(** media.c 3366-3369, [ctr_blob_deref] *)
Definition blob_deref (s : st) (b : nat) : outcome st :=
  do p <- blob_ptr s b;
  do l <- load_n (s_mem s) p 8;
  Ok (mkS (s_mem s) (set_nth (s_blobs s) b (Some (cells_ptr l)))).
End Blobs.
