(** Structures as native types (plugins/media/media.c 3600-3665, and their part in 3455-3470, 3667-3728, 3898-4033).

    Blobs and their memory as in BlobModel; besides them a table of the [ffi_type]s that [struct:] makes.  What libffi does
    with such a type when a signature is checked ([initialize_aggregate]) is written down here as its manual and source
    say; a signature it refuses leaves the sizes of its types half done, and nothing is said of what follows.
    Sizes do not wrap around.  Pools are off, so a field that is not written is zero. *)
From Coq Require Import String.
From Verif Require Import Common Txt NumModel ListModel BlobModel FfiModel.
Local Open Scope Z_scope.

(** A pointer to an [ffi_type]: one of libffi's own, one of the table, or what is none at all *)
Inductive tref := TPrim (t : ffity) | TStruct (id : nat) | TData (p : ptr).
(** [elements]: NULL, an array up to and with the NULL written last, or an array that was freed *)
Inductive elems := NoElems | Elems (l : list (option tref)) | FreedElems.
Record cstruct := mkC { c_size : Z; c_align : Z; c_elems : elems }.
Definition structs := list (option cstruct).
(** What a Blob has: the [ptr] of its resource; [None]: no resource *)
Inductive res := RStruct (id : nat) | RData (p : ptr).
Record state := mkT { t_mem : mem; t_structs : structs; t_blobs : list (option res) }.

(** Objects given as types: texts, Blobs, and all others *)
Inductive tobj := OText (d : text) | OBlob (b : nat) | OOther.

(** media.c 3600-3610, [ctr_internal_media_ffi_map_type_obj]; [Ok None] is NULL.  Other objects have no resource. *)
Definition map_type_obj (s : state) (o : tobj) : outcome (option tref) :=
  match o with
  | OText d => Ok (option_map TPrim (map_type (cstring d)))
  | OBlob b => match nth_error (t_blobs s) b with
               | Some (Some (RStruct id)) => Ok (Some (TStruct id))
               | Some (Some (RData PNull)) => Ok None
               | Some (Some (RData p)) => Ok (Some (TData p))
               | _ => UB
               end
  | OOther => UB
  end.

(** media.c 3634-3639: the elements from number [i] on, whatever the tail is *)
Fixpoint map_elems (s : state) (el : list (option tobj)) (i n : nat) : outcome (list (option tref)) :=
  match n with
  | O => Ok [None]
  | S k => do o <- rd_cell el i; do t <- map_type_obj s o; do r <- map_elems s el (S i) k; Ok (t :: r)
  end.
(** media.c 3622-3643, [ctr_blob_new_struct] (the message [struct:]); [None]: the argument is not a list *)
Definition blob_struct (s : state) (l : option (@arr tobj)) : outcome (state * nat) :=
  do e <- match l with None => Ok NoElems | Some a => do es <- map_elems s (a_el a) 0 (a_head a); Ok (Elems es) end;
  Ok (mkT (t_mem s) (t_structs s ++ [Some (mkC 0 0 e)]) (t_blobs s ++ [Some (RStruct (List.length (t_structs s)))]), List.length (t_blobs s)).

(** media.c 3656-3665, [ctr_blob_free_struct] (the message [structfree]); the prototype is no resource and is left alone
    ([None]).  The memory of a Blob that is no structure is read as one. *)
Definition blob_free_struct (s : state) (b : option nat) : outcome state :=
  match b with
  | None => Ok s
  | Some b =>
      match nth_error (t_blobs s) b with
      | Some (Some (RStruct id)) =>
          match nth_error (t_structs s) id with
          | Some (Some c) =>
              match c_elems c with
              | NoElems => Ok s
              | Elems _ => Ok (mkT (t_mem s) (set_nth (t_structs s) id (Some (mkC (c_size c) (c_align c) FreedElems))) (t_blobs s))
              | FreedElems => UB
              end
          | _ => UB
          end
      | _ => UB
      end
  end.
(** media.c 3399-3403, [ctr_blob_free] for a Blob with a structure *)
Definition blob_free_type (s : state) (b : nat) : outcome state :=
  match nth_error (t_blobs s) b with
  | Some (Some (RStruct id)) =>
      match nth_error (t_structs s) id with
      | Some (Some _) => Ok (mkT (t_mem s) (set_nth (t_structs s) id None) (set_nth (t_blobs s) b (Some (RData PNull))))
      | _ => UB
      end
  | _ => UB
  end.

(** ** libffi *)
(** [FFI_ALIGN] *)
Definition ffi_align (v a : Z) : Z := Z.lor (v - 1) (a - 1) + 1.
(** Size and alignment of a type; those of the simple types are equal on this machine *)
Definition type_size (ss : structs) (t : tref) : outcome (Z * Z) :=
  match t with
  | TPrim t => Ok (Z.of_nat (fsize t), Z.of_nat (fsize t))
  | TStruct id => match nth_error ss id with Some (Some c) => Ok (c_size c, c_align c) | _ => UB end
  | TData _ => UB
  end.
(** The loop over the elements, which ends with NULL; [Ok None]: the definition is bad *)
Fixpoint agg_loop (ensure : structs -> tref -> outcome (option structs)) (ss : structs) (l : list (option tref)) (sz al : Z)
  : outcome (option (structs * Z * Z)) :=
  match l with
  | [] => UB
  | None :: _ => Ok (Some (ss, sz, al))
  | Some t :: r =>
      do e <- ensure ss t;
      match e with
      | None => Ok None
      | Some ss' => do (s, a) <- type_size ss' t; agg_loop ensure ss' r (ffi_align sz a + s) (Z.max al a)
      end
  end.
(** [initialize_aggregate], for types whose size is 0; [n] bounds the depth *)
Fixpoint init_agg (n : nat) (ss : structs) (id : nat) : outcome (option structs) :=
  match n with
  | O => UB
  | S k =>
      match nth_error ss id with
      | Some (Some c) =>
          match c_elems c with
          | NoElems => Ok None
          | FreedElems => UB
          | Elems l =>
              do r <- agg_loop (fun ss' t =>
                        do (s, _) <- type_size ss' t;
                        if s =? 0 then match t with TStruct i => init_agg k ss' i | _ => UB end else Ok (Some ss')) ss l 0 0;
              Ok match r with
                 | None => None
                 | Some (ss', sz, al) =>
                     let size := ffi_align sz al in
                     if size =? 0 then None else Some (set_nth ss' id (Some (mkC size al (Elems l))))
                 end
          end
      | _ => UB
      end
  end.
Definition ensure (n : nat) (ss : structs) (t : tref) : outcome (option structs) :=
  do (s, _) <- type_size ss t;
  if s =? 0 then match t with TStruct i => init_agg n ss i | _ => UB end else Ok (Some ss).
(** [ffi_prep_cif]: the types of the arguments are laid out, unless they were before *)
Fixpoint prep_types (n : nat) (ss : structs) (ts : list tref) : outcome (option structs) :=
  match ts with
  | [] => Ok (Some ss)
  | t :: r => do e <- ensure n ss t; match e with None => Ok None | Some ss' => prep_types n ss' r end
  end.

(** ** Linking *)
(** media.c 4006-4014: the types of the arguments; [Ok None]: one is NULL *)
Fixpoint arg_types (s : state) (el : list (option tobj)) (i n : nat) : outcome (option (list tref)) :=
  match n with
  | O => Ok (Some [])
  | S k => do o <- rd_cell el i; do t <- map_type_obj s o;
           match t with None => Ok None | Some t => do r <- arg_types s el (S i) k; Ok (option_map (cons t) r) end
  end.
(** The text of a Blob: the memory of a structure begins with its size, eight bytes, the lowest first; they are read up to
    the first zero *)
Fixpoint upto_zero (l : text) : text := match l with [] => [] | c :: r => if (c =? 0)%N then [] else c :: upto_zero r end.
Inductive rtype := RetText (d : text) | RetStruct (b : nat).
Definition ret_text (s : state) (r : rtype) : outcome text :=
  match r with
  | RetText d => Ok (cstring d)
  | RetStruct b => match nth_error (t_blobs s) b with
                   | Some (Some (RStruct id)) => match nth_error (t_structs s) id with
                                                 | Some (Some c) => Ok (upto_zero (le_Z 8 (c_size c)))
                                                 | _ => UB end
                   | _ => UB end
  end.
(** media.c 3995-4033: the types of the arguments (at most 20), the type of the answer, the check of libffi, which also
    has to like the rest of the signature ([likes]) *)
Inductive linked := LErr (e : ffi_error) | LOk (s : state) (args : list tref) (ret : ffity).
Definition link_types (likes : list tref -> ffity -> bool) (s : state) (a : @arr tobj) (r : rtype) : outcome linked :=
  if (20 <? a_head a)%nat then Ok (LErr TooMany) else
  do ts <- arg_types s (a_el a) 0 (a_head a);
  match ts with
  | None => Ok (LErr BadType)
  | Some ts =>
      do d <- ret_text s r;
      match map_type d with
      | None => Ok (LErr BadReturn)
      | Some ret =>
          do p <- prep_types (S (List.length (t_structs s))) (t_structs s) ts;
          Ok match p with
             | None => LErr BadSignature
             | Some ss => if likes ts ret then LOk (mkT (t_mem s) ss (t_blobs s)) ts ret else LErr BadSignature
             end
      end
  end.

(** ** Values *)
(** Blobs as BlobModel has them; where a structure is kept is not told *)
Definition as_st (s : state) : st :=
  mkS (t_mem s) (map (option_map (fun r => match r with RStruct _ => PWild | RData p => p end)) (t_blobs s)).
(** media.c 3667-3728, [ctr_internal_media_ffi_convert_value] with an object: a structure is copied from the memory of a
    Blob *)
Definition convert_type (s : state) (t : tref) (a : arg) : outcome (list mval * bool) :=
  match t with
  | TPrim p => convert_value (as_st s) p a
  | _ => do (n, _) <- type_size (t_structs s) t;
         match a with
         | ABlob b => do p <- blob_ptr (as_st s) b; do l <- load_n (t_mem s) p (Z.to_nat n); Ok (l, false)
         | _ => UB
         end
  end.
Fixpoint convert_all (s : state) (ts : list tref) (l : list arg) : outcome (list (list mval)) :=
  match ts, l with
  | [], [] => Ok []
  | t :: ts, a :: r => do (c, _) <- convert_type s t a; do cs <- convert_all s ts r; Ok (c :: cs)
  | _, _ => UB
  end.
(** [ffi_call] looks at the elements of a structure again *)
Fixpoint readable (n : nat) (ss : structs) (t : tref) : bool :=
  match t with
  | TPrim _ => true
  | TData _ => false
  | TStruct id =>
      match n with
      | O => false
      | S k => match nth_error ss id with
               | Some (Some (mkC _ _ (Elems l))) =>
                   (fix all (l : list (option tref)) : bool :=
                      match l with Some t :: r => readable k ss t && all r | None :: _ => true | [] => false end) l
               | _ => false
               end
      end
  end.
(** What a native function is given, when as many values are given as the signature has (see FfiModel for the rest) *)
Definition given (s : state) (ts : list tref) (l : list arg) : outcome (list (list mval)) :=
  do cs <- convert_all s ts l;
  if forallb (readable (S (List.length (t_structs s))) (t_structs s)) ts then Ok cs else UB.

(** media.c 3455-3470, [ctr_blob_new_set_type], with a structure as the type *)
Definition blob_new_of_struct (room : Z) (s : state) (a : arg) (o : tobj) : outcome (option (state * nat)) :=
  do t <- map_type_obj s o;
  match t with
  | None => Ok (Some (mkT (t_mem s) (t_structs s) (t_blobs s ++ [None]), List.length (t_blobs s)))
  | Some t =>
      do (n, _) <- type_size (t_structs s) t;
      match alloc room (t_mem s) n with
      | None => Ok None
      | Some (m, p) =>
          do (cells, _) <- convert_type s t a;
          do m' <- store_all m p cells;
          Ok (Some (mkT m' (t_structs s) (t_blobs s ++ [Some (RData p)]), List.length (t_blobs s)))
      end
  end.

(** A program: structures are made and functions are linked.  [None]: something was refused. *)
Inductive op := Make (l : option (@arr tobj)) | Link (a : @arr tobj) (r : rtype).
Fixpoint run (likes : list tref -> ffity -> bool) (s : state) (ops : list op) : outcome (option state) :=
  match ops with
  | [] => Ok (Some s)
  | Make l :: r => do (s', _) <- blob_struct s l; run likes s' r
  | Link a t :: r => do x <- link_types likes s a t; match x with LErr _ => Ok None | LOk s' _ _ => run likes s' r end
  end.
