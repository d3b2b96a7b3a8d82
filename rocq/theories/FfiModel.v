(** Native functions (plugins/media/media.c 3783-4102): [Media link:] and the calls of what was linked.

    The loader ([dlopen], [dlsym]), libffi's check of a signature and the native functions themselves are given.  A native
    function gets the memory and the values of its arguments, and answers the memory and at least eight bytes.
    Structures as types are in StructModel; here the types are texts.  Properties are looked up by name (see MapModel). *)
From Coq Require Import String.
From Verif Require Import Common Txt NumModel ListModel BlobModel.
Local Open Scope Z_scope.
Local Notation "'tx' s" := (lit s%string) (at level 8, s at level 0).

(** media.c 3525-3533, [struct CtrMediaFFI]; an entry of [f_args] that was never written is NULL *)
Record ffi := mkF { f_handle : option nat; f_symbol : nat; f_args : list (option ffity); f_rtype : ffity; f_nargs : nat; f_owner : nat }.

(** The entries of a specification: Nil, a list of types (texts), a number, or something else with its text *)
Inductive item := INil | ITypes (l : @arr text) | INum (x : num) (t : text) | IText (t : text).
(** [ctr_internal_cast2string]; [w_nil]: the text of Nil; a list is shown in a way that plays no role here *)
Definition item_text (nil_text list_text : text) (i : item) : text :=
  match i with INil => nil_text | ITypes _ => list_text | INum _ t => t | IText t => t end.

(** The Blobs and memory, the objects of the world (newest first), the properties of the bridge objects, the entry that was
    made last, and what is linked as the package of assets. *)
Inductive package := NoPackage | PackageAt (path : text) | NotAPackage.
Record world := mkW {
  w_objects : list (text * nat); w_owners : list (list (text * ffi)); w_prev : option ffi; w_package : package }.

Inductive ffi_error := TooFew | NoHandle | NotOpened | NoSymbolBefore | NotFound | NoArguments | TooMany | BadType | BadReturn
  | BadSignature | NoBridge | NoMessage | NotAnAssetPackage.

Definition cstring (t : text) : text := filter (fun c => negb (c =? 0)%N) t.
Fixpoint find {A} (l : list (text * A)) (k : text) : option A :=
  match l with [] => None | (k', v) :: r => if text_eqb k' k then Some v else find r k end.

Section Ffi.
Variable addr : ptr -> N.
Variables (nil_text list_text : text).
Variable dlopen : text -> option nat.
Variable dlsym : option nat -> text -> option nat.
(** [ffi_prep_cif], [ffi_prep_cif_var] *)
Variable prep : option Z -> nat -> list (option ffity) -> ffity -> bool.
Variable native : nat -> mem -> list (list mval) -> outcome (mem * list mval).

(** media.c 4007-4014: the types of the arguments; [None]: one is not known *)
Fixpoint map_args (l : @arr text) (i n : nat) : outcome (option (list (option ffity))) :=
  match n with
  | O => Ok (Some [])
  | S k => do d <- rd_cell (a_el l) i;
           match map_type (cstring d) with
           | None => Ok None
           | Some t => do r <- map_args l (S i) k; Ok (option_map (cons (Some t)) r)
           end
  end.

Definition text_of := item_text nil_text list_text.
(** media.c 3936-3964: the library *)
Definition get_handle (w : world) (a : item) : ffi_error + option nat :=
  match a with
  | INil => match w_prev w with Some f => inr (f_handle f) | None => inl NoHandle end
  | _ => let path := cstring (text_of a) in
         if text_eqb path (tx "@structtest") then inr None
         else match dlopen path with Some h => inr (Some h) | None => inl NotOpened end
  end.
(** media.c 3965-3994: the function; [@structtest] is a function of the plug-in itself, number 0 *)
Definition get_symbol (w : world) (h : option nat) (a : item) : ffi_error + nat :=
  match a with
  | INil => match w_prev w with Some f => inr (f_symbol f) | None => inl NoSymbolBefore end
  | _ => let name := cstring (text_of a) in
         if text_eqb name (tx "@structtest") then inr 0%nat
         else match dlsym h name with Some s => inr s | None => inl NotFound end
  end.
(** media.c 3995-4014: the arguments, in an array of 20 *)
Definition get_args (a : item) : outcome (ffi_error + list (option ffity) * nat) :=
  match a with
  | ITypes l =>
      if (20 <? a_head l)%nat then Ok (inl TooMany) else
      do ts <- map_args l 0 (a_head l);
      Ok match ts with
         | None => inl BadType
         | Some ts => inr (ts ++ repeat None (20 - a_head l), a_head l)
         end
  | _ => Ok (inl NoArguments)
  end.
(** media.c 4035-4052: the object, new unless Nil is given *)
Definition get_owner (w : world) (a : item) : ffi_error + world * nat :=
  match a with
  | INil => match w_prev w with Some f => inr (w, f_owner f) | None => inl NoBridge end
  | _ => let o := List.length (w_owners w) in
         inr (mkW ((text_of a, o) :: w_objects w) (w_owners w ++ [[]]) (w_prev w) (w_package w), o)
  end.
(** media.c 4058-4074; world.c 264-267: the property of the object, which replaces one of the same name *)
Definition set_message (w : world) (name : text) (f : ffi) : world :=
  let props := match nth_error (w_owners w) (f_owner f) with Some p => p | None => [] end in
  mkW (w_objects w) (set_nth (w_owners w) (f_owner f) ((name, f) :: filter (fun kv => negb (text_eqb (fst kv) name)) props))
      (Some f) (w_package w).
(** media.c 4025-4030: the number of fixed arguments, of a seventh entry that is read as a number *)
Definition fixed_args (a : option item) : outcome (option Z) :=
  match a with None => Ok None | Some (INum x _) => do z <- c_int x; Ok (Some z) | Some _ => UB end.

(** media.c 3898-4075, [ctr_internal_media_ffi] *)
Definition media_ffi (w : world) (spec : @arr item) : outcome (ffi_error * world + world) :=
  let err (e : ffi_error) : outcome (ffi_error * world + world) := Ok (inl (e, w)) in
  if (a_head spec <? 6)%nat then err TooFew else
  do a1 <- rd_cell (a_el spec) 0; do a2 <- rd_cell (a_el spec) 1; do a3 <- rd_cell (a_el spec) 2;
  do a4 <- rd_cell (a_el spec) 3; do a5 <- rd_cell (a_el spec) 4; do a6 <- rd_cell (a_el spec) 5;
  do a7 <- (if Nat.eqb (a_head spec) 7 then do x <- rd_cell (a_el spec) 6; Ok (Some x) else Ok None);
  match get_handle w a1 with inl e => err e | inr h =>
  match get_symbol w h a2 with inl e => err e | inr sym =>
  do ga <- get_args a3;
  match ga with inl e => err e | inr (args, n) =>
  match map_type (cstring (text_of a4)) with None => err BadReturn | Some r =>
  do v <- fixed_args a7;
  if negb (prep v n args r) then err BadSignature else
  match get_owner w a5 with inl e => err e | inr (w1, owner) =>
  match a6 with
  | INil => Ok (inl (NoMessage, w1))
  | _ => Ok (inr (set_message w1 (cstring (text_of a6)) (mkF h sym args r n owner)))
  end end end end end end.

(** media.c 4090-4102, [ctr_media_link_package]: what is linked becomes the package of assets in any case *)
Inductive linkable := LSpec (l : @arr item) | LPackage (path : text) | LOther.
Definition media_link (w : world) (x : linkable) : outcome (world * option ffi_error) :=
  match x with
  | LSpec l => do r <- media_ffi w l;
               let '(w1, e) := match r with inl (e, w1) => (w1, Some e) | inr w1 => (w1, None) end in
               Ok (mkW (w_objects w1) (w_owners w1) (w_prev w1) NotAPackage, e)
  | LPackage p => Ok (mkW (w_objects w) (w_owners w) (w_prev w) (PackageAt p), None)
  | LOther => Ok (mkW (w_objects w) (w_owners w) (w_prev w) NotAPackage, Some NotAnAssetPackage)
  end.

(** media.c 2105-2109, the beginning of [ctr_internal_media_load_asset]: the file that an asset is read from.  Something
    that is not a package has no path; that is Nil, which is read as a text (a NULL pointer). *)
Definition asset_file (w : world) (name : text) : outcome text :=
  match w_package w with NoPackage => Ok name | PackageAt p => Ok (cstring p) | NotAPackage => UB end.

(** ** Calls.  The values that were filled in; an entry of [values] that was not is not initialised. *)
Definition slot (v : list (option (list mval))) (i : nat) : outcome (list mval) :=
  match nth_error v i with Some (Some c) => Ok c | _ => UB end.
(** What [ffi_call] reads: the first [nargs] entries *)
Fixpoint gather (v : list (option (list mval))) (i n : nat) : outcome (list (list mval)) :=
  match n with O => Ok [] | S k => do c <- slot v i; do r <- gather v (S i) k; Ok (c :: r) end.
(** media.c 3667-3677: the value for argument [i] *)
Definition convert_arg (s : st) (f : ffi) (i : nat) (a : arg) : outcome (list mval * bool) :=
  match nth_error (f_args f) i with Some (Some t) => convert_value s t a | _ => UB end.
(** media.c 3811-3813: the call, and the answer *)
Definition finish (s : st) (f : ffi) (v : list (option (list mval))) (err : bool) : outcome (st * back * bool) :=
  do args <- gather v 0 (f_nargs f);
  do (m, c) <- native (f_symbol f) (s_mem s) args;
  do b <- convert_back addr (f_rtype f) c;
  Ok (mkS m (match b with BBlob p => s_blobs s ++ [Some p] | _ => s_blobs s end), b, err).
(** media.c 3854-3857: at most [n] entries from the start of the list; it stops after [nargs + 1] of them *)
Fixpoint fill_values (s : st) (f : ffi) (el : list (option arg)) (i n : nat) : outcome (list (option (list mval)) * bool) :=
  match n with
  | O => Ok ([], false)
  | S k => if (f_nargs f <? i)%nat then Ok ([], false) else
           do a <- rd_cell el i;
           do (c, e) <- convert_arg s f i a;
           do (r, e') <- fill_values s f el (S i) k;
           Ok (Some c :: r, e || e')
  end.

(** media.c 3800-3819, 3821-3838, 3840-3875, 3877-3889, the four [ctr_media_ffi_respond_to].  The answer of a call: the
    new state, what is answered, and whether an error was raised on the way. *)
Inductive params := P0 | P1 (a : arg) | PList (l : @arr arg) | P2 (a b : arg) | P3 (a b c : arg).
Inductive reply := Unknown | TooManyParameters | Answer (s : st) (b : back) (err : bool).
Definition answer (o : outcome (st * back * bool)) : outcome reply := do (s, b, e) <- o; Ok (Answer s b e).
Definition respond (s : st) (props : list (text * ffi)) (msg : text) (ps : params) : outcome reply :=
  match find props msg with
  | None => Ok Unknown
  | Some f =>
      match ps with
      | P0 => answer (finish s f [] false)
      | P1 a => do (c, e) <- convert_arg s f 0 a; answer (finish s f [Some c] e)
      | PList l => if (20 <? a_head l)%nat then Ok TooManyParameters else
                   do (v, e) <- fill_values s f (a_el l) 0 (a_head l); answer (finish s f v e)
      | P2 a b => do (c, e) <- convert_arg s f 0 a; do (d, e') <- convert_arg s f 1 b;
                  answer (finish s f [Some c; Some d] (e || e'))
      | P3 a b c => do (x, e) <- convert_arg s f 0 a; do (y, e') <- convert_arg s f 1 b;
                    do (z, e'') <- convert_arg s f 2 c; answer (finish s f [Some x; Some y; Some z] (e || e' || e''))
      end
  end.
End Ffi.
