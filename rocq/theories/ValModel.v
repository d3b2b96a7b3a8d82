(** Values of different kinds: conversion, equality and truth (base.c, world.c 417-490).

    The built-in kinds of values, and objects, of which only the identity counts and what they answer to the messages
    that convert them. Memory is cleared (pools off). *)
From Coq Require Import String.
From Verif Require Import Common Txt NumModel TextModel.

Inductive value :=
| VNil
| VBool (b : bool)
| VNum (x : num) (qual : option text)   (* a number and its qualification *)
| VTxt (t : text)
| VObj (id : nat).

(** The words of the language, the answers of objects ([None]: something of another kind, which is an error) and the
    special forms of [atof] (infinity, hexadecimal). *)
Record env := {
  dsep : text; tsep : text;
  w_nil : text; w_true : text; w_false : text;
  obj_num : nat -> option num; obj_txt : nat -> option text; obj_bool : nat -> option bool;
  special : text -> num }.
(** base.c 218-244: objects that do not answer these messages themselves *)
Definition plain_objects (word : text) (e : env) : env :=
  {| dsep := dsep e; tsep := tsep e; w_nil := w_nil e; w_true := w_true e; w_false := w_false e;
     obj_num := fun _ => Some (of_Z 1); obj_txt := fun _ => Some word; obj_bool := fun _ => Some true; special := special e |}.

Definition zs (n : nat) : text := repeat 0%N n.
(** Conversions answer the value, and whether an error was raised.
    world.c 436-439, [ctr_internal_cast2number]; base.c 126-128, 851-853, 2215-2217 *)
Definition cast2number (e : env) (v : value) : outcome (num * bool) :=
  match v with
  | VNum x _ => Ok (x, false)
  | VNil => Ok (of_Z 0, false)
  | VBool b => Ok (of_Z (if b then 1 else 0), false)
  | VTxt t => do r <- number_from_text true (dsep e) (tsep e) (zs 41) (zs 41) t;
              Ok (match r with Some x => x | None => special e t end, false)
  | VObj i => Ok (match obj_num e i with Some x => (x, false) | None => (of_Z 0, true) end)
  end.
(** world.c 448-451, [ctr_internal_cast2string]; base.c 114-116, 649-655, 1577-1579 *)
Definition cast2string (e : env) (v : value) : outcome (text * bool) :=
  match v with
  | VTxt t => Ok (t, false)
  | VNil => Ok (w_nil e, false)
  | VBool b => Ok (if b then w_true e else w_false e, false)
  | VNum x q => do t <- number_to_string (dsep e) (tsep e) (zs (100 + match q with Some s => length s | None => 0 end)) q x; Ok (t, false)
  | VObj i => Ok (match obj_txt e i with Some t => (t, false) | None => ([63%N], true) end)
  end.
(** world.c 479-490, [ctr_internal_cast2bool]; base.c 138-140, 1606-1608, 2233-2236 *)
Definition cast2bool (e : env) (v : value) : outcome (bool * bool) :=
  match v with
  | VBool b => Ok (b, false)
  | VNil => Ok (false, false)
  | VNum x _ => do b <- number_to_boolean x; Ok (b, false)
  | VTxt t => Ok (string_to_boolean (build_string t), false)
  | VObj i => Ok (match obj_bool e i with Some b => (b, false) | None => (false, true) end)
  end.

(** The message =: base.c 261-265 [ctr_object_equals], 623-625 [ctr_bool_eq], 983-986 [ctr_number_eq],
    1707-1713 [ctr_string_eq] *)
Definition equals (e : env) (v w : value) : outcome (bool * bool) :=
  match v with
  | VNil => Ok (match w with VNil => true | _ => false end, false)
  | VObj i => Ok (match w with VObj j => Nat.eqb i j | _ => false end, false)
  | VBool b => do (c, f) <- cast2bool e w; Ok (Bool.eqb c b, f)
  | VNum x _ => do (y, f) <- cast2number e w; Ok (number_eq x y, f)
  | VTxt t => do (s, f) <- cast2string e w; do r <- string_eq (build_string t) (build_string s); Ok (r, f)
  end.
(** The message ≠: base.c 282-286 [ctr_object_unequals], 637-639 [ctr_bool_neq], 998-1001 [ctr_number_neq],
    1725-1731 [ctr_string_neq] *)
Definition unequals (e : env) (v w : value) : outcome (bool * bool) :=
  match v with
  | VNil => Ok (match w with VNil => false | _ => true end, false)
  | VObj i => Ok (match w with VObj j => negb (Nat.eqb i j) | _ => true end, false)
  | VBool b => do (c, f) <- cast2bool e w; Ok (negb (Bool.eqb c b), f)
  | VNum x _ => do (y, f) <- cast2number e w; Ok (number_neq x y, f)
  | VTxt t => do (s, f) <- cast2string e w; do r <- string_neq (build_string t) (build_string s); Ok (r, f)
  end.

(** base.c 776-779, [ctr_bool_not] *)
Definition bool_not (b : bool) : bool := if b then false else true.
(** base.c 809-813, [ctr_bool_and] *)
Definition bool_and (e : env) (b : bool) (v : value) : outcome (bool * bool) :=
  do (c, f) <- cast2bool e v; Ok (if b then (if c then true else false) else false, f).
(** base.c 838-841, [ctr_bool_or] *)
Definition bool_or (e : env) (b : bool) (v : value) : outcome (bool * bool) :=
  do (c, f) <- cast2bool e v; Ok (if b then true else c, f).
(** base.c 825-828, [ctr_bool_nor] *)
Definition bool_nor (e : env) (b : bool) (v : value) : outcome (bool * bool) :=
  do (c, f) <- cast2bool e v; Ok (if b then false else if c then false else true, f).
(** base.c 791-797, [ctr_bool_either_or] *)
Definition either_or (b : bool) (v w : value) : value := if b then v else w.
(** base.c 851-853, [ctr_bool_to_number] *)
Definition bool_to_number (b : bool) : num := of_Z (if b then 1 else 0).

(** base.c 168-184, [ctr_object_type] *)
Inductive kind := KNil | KBool | KNum | KTxt | KObj.
Definition type_of (v : value) : kind :=
  match v with VNil => KNil | VBool _ => KBool | VNum _ _ => KNum | VTxt _ => KTxt | VObj _ => KObj end.
