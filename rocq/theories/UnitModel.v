(** Model of numbers with a unit: the private property "qualifier" of a number, the messages numbers
    answer, and messages nobody answers (base.c, world.c).
    Simplified: a number is its value and that property (the text object it names, not the text); a
    text is its bytes; contexts, garbage collection and chain mode are left out, the message stack is
    that of a program without methods of its own. *)
From Coq Require Import NArith ZArith List String Arith.
From Verif Require Import Common Fuel Txt NumModel RegTable RegModel UnitSpec.
Import ListNotations.
Open Scope list_scope.
Open Scope nat_scope.

Record number := mkNumber { n_value : num; n_unit : option nat }.
Record heap := mkHeap { h_nums : list number; h_texts : list text }.
Inductive arg : Type := GNumber (n : nat) | GText (a : nat).
(** What a message answers: an object. *)
Inductive ans : Type := RNumber (n : nat) | RText (a : nat) | RNil.

Definition set_nth {A} (l : list A) (i : nat) (x : A) : list A := firstn i l ++ x :: skipn (S i) l.
Definition new_text (h : heap) (t : text) : heap * nat := (mkHeap (h_nums h) (h_texts h ++ [t]), List.length (h_texts h)).
(** base.c 1345-1347 and others, [ctr_build_number_from_float]: a number without properties *)
Definition new_number (h : heap) (x : num) (u : option nat) : heap * nat :=
  (mkHeap (h_nums h ++ [mkNumber x u]) (h_texts h), List.length (h_nums h)).
Definition number_at (h : heap) (n : nat) : outcome number := match nth_error (h_nums h) n with Some r => Ok r | None => UB end.
Definition text_at (h : heap) (a : nat) : outcome text := match nth_error (h_texts h) a with Some t => Ok t | None => UB end.

Section Numbers.
Variables (dec_sep tho_sep : text).   (* CTR_NUM_DEC_SEP, CTR_NUM_THO_SEP *)
(** base.c 1524-1563, [ctr_internal_number_to_string] with [flat = 0] of a number and its unit *)
Definition shown (h : heap) (r : number) : outcome text :=
  match n_unit r with
  | None => number_to_string dec_sep tho_sep (repeat 0%N 100) None (n_value r)
  | Some a => do q <- text_at h a; number_to_string dec_sep tho_sep (repeat 0%N (100 + List.length q)) (Some q) (n_value r)
  end.
(** The text of an argument, world.c 448-451, [ctr_internal_cast2string]: a text is that object
    itself, a number is written to a new text. *)
Definition cast2string (h : heap) (g : arg) : outcome (heap * nat) :=
  match g with
  | GText a => do _ <- text_at h a; Ok (h, a)
  | GNumber n => do r <- number_at h n; do t <- shown h r; Ok (new_text h t)
  end.
(** base.c 1355-1358, [ctr_number_qualify] *)
Definition number_qualify (h : heap) (n : nat) (g : arg) : outcome (heap * ans) :=
  do r <- number_at h n;
  do ha <- cast2string h g;
  Ok (mkHeap (set_nth (h_nums (fst ha)) n (mkNumber (n_value r) (Some (snd ha)))) (h_texts (fst ha)), RNumber n).
(** base.c 1368-1372, [ctr_number_qualification] *)
Definition number_qualification (h : heap) (n : nat) : outcome (heap * ans) :=
  do r <- number_at h n; Ok (h, match n_unit r with Some a => RText a | None => RNil end).
(** base.c 364-371, [ctr_number_copy] *)
Definition number_copy (h : heap) (n : nat) : outcome (heap * ans) :=
  do r <- number_at h n; let '(h', m) := new_number h (n_value r) (n_unit r) in Ok (h', RNumber m).
(** base.c 1077-1097, [ctr_number_add], the argument being a number *)
Definition number_add (h : heap) (n m : nat) : outcome (heap * ans) :=
  do r <- number_at h n; do s <- number_at h m;
  let '(h', k) := new_number h (add64 (n_value r) (n_value s)) None in Ok (h', RNumber k).
(** base.c 1108-1112, [ctr_number_inc], the argument being a number *)
Definition number_inc (h : heap) (n m : nat) : outcome (heap * ans) :=
  do r <- number_at h n; do s <- number_at h m;
  Ok (mkHeap (set_nth (h_nums h) n (mkNumber (add64 (n_value r) (n_value s)) (n_unit r))) (h_texts h), RNumber n).
(** base.c 1577-1579 and 1593-1595, [ctr_number_to_string] and [ctr_number_to_string_flat] *)
Definition number_text (h : heap) (n : nat) (flat : bool) : outcome (heap * ans) :=
  do r <- number_at h n;
  do t <- (if flat then number_raw (n_value r) else shown h r);
  let '(h', a) := new_text h t in Ok (h', RText a).

(** The functions registered for numbers, by name; others are not modelled here. *)
Definition called (f : string) (h : heap) (n : nat) (args : list arg) : option (outcome (heap * ans)) :=
  match args with
  | [] =>
      if String.eqb f "ctr_number_qualification" then Some (number_qualification h n)
      else if String.eqb f "ctr_number_copy" then Some (number_copy h n)
      else if String.eqb f "ctr_number_to_string" then Some (number_text h n false)
      else if String.eqb f "ctr_number_to_string_flat" then Some (number_text h n true)
      else None
  | g :: _ =>
      if String.eqb f "ctr_number_qualify" then Some (number_qualify h n g)
      else if String.eqb f "ctr_object_respond_and" || String.eqb f "ctr_object_respond_and_and"
              || String.eqb f "ctr_object_respond_and_and_and" then Some (do _ <- number_at h n; Ok (h, RNumber n))  (* base.c 531-552 *)
      else match g with
           | GNumber m =>
               if String.eqb f "ctr_number_add" then Some (number_add h n m)
               else if String.eqb f "ctr_number_inc" then Some (number_inc h n m)
               else None
           | GText _ => None
           end
  end%bool.
Variable method : text -> option string.  (* the function found for a message to a number *)
Variable respond : nat -> text.           (* CTR_DICT_RESPOND_TO, ..._AND, ..._AND_AND, ..._AND_AND_AND *)
(** world.c 1052-1158, [ctr_send_message] to the number [n]: an unknown message is sent again as the
    first argument of "respond" with as many arguments, up to three (1093-1114). *)
Definition send (h : heap) (n : nat) (name : text) (args : list arg) : option (outcome (heap * ans)) :=
  match method name with
  | Some f => called f h n args
  | None =>
      let count := Nat.min (List.length args) 4 in
      let '(h1, a) := new_text h name in
      let again := if (count =? 0) || (3 <? count) then respond 0 else respond count in
      match method again with
      | Some f => called f h1 n (GText a :: args)
      | None => None       (* sent again for ever *)
      end
  end%bool.
End Numbers.

(** Programs. *)
Inductive op : Type :=
| ONew (x : num)
| OText (t : text)
| OSend (n : nat) (name : text) (args : list arg)
| OAppend (a : nat) (t : text).      (** base.c 1794-1812, [ctr_string_append] of a text *)
Section Run.
Variables (dec_sep tho_sep : text) (method : text -> option string) (respond : nat -> text).
Definition step (h : heap) (o : op) : option (outcome (heap * option ans)) :=
  match o with
  | ONew x => let '(h', n) := new_number h x None in Some (Ok (h', Some (RNumber n)))
  | OText t => Some (Ok (fst (new_text h t), None))
  | OSend n name args =>
      match send dec_sep tho_sep method respond h n name args with
      | Some o => Some (do r <- o; Ok (fst r, Some (snd r)))
      | None => None
      end
  | OAppend a t => Some (do s <- text_at h a; Ok (mkHeap (h_nums h) (set_nth (h_texts h) a (s ++ t)), None))
  end.
End Run.
(** What a program sees of an answer at that moment; [ask] tells a unit from another text. *)
Definition look (ask : bool) (h : heap) (r : option ans) : outcome seen :=
  match r with
  | Some (RNumber n) => Ok (SNumber n)
  | Some (RText a) => do t <- text_at h a; Ok (if ask then SUnit (Some t) else SText t)
  | Some RNil => Ok (SUnit None)
  | None => Ok SNone
  end.
(** The messages in a language ([ws]: its dictionary, RegTable.v). *)
Section Language.
Variables (d : LexModel.dict) (ws : list string) (method : text -> option string).
Definition word_of (m : string) : text := key_text d ws (Dict m).
(** world.c 1108-1114 *)
Definition respond_word (k : nat) : text :=
  match k with
  | 0 => word_of "RESPOND_TO"
  | 1 => word_of "RESPOND_TO_AND"
  | 2 => word_of "RESPOND_TO_AND_AND"
  | _ => word_of "RESPOND_TO_AND_AND_AND"
  end.
Definition code (a : act) : op :=
  match a with
  | ANew x => ONew x
  | AText t => OText t
  | AWord n w => OSend n w []
  | AUnknown n w args => OSend n w (map GNumber args)
  | AQualify n a => OSend n (word_of "QUALIFIER_SET") [GText a]
  | AAsk n => OSend n (word_of "QUALIFIER") []
  | ACopy n => OSend n (word_of "COPY") []
  | APlus n m => OSend n (word_of "PLUS") [GNumber m]
  | AAdd n m => OSend n (word_of "ADD_SET") [GNumber m]
  | ARaw n => OSend n (word_of "RAW") []
  | AShow n => OSend n (word_of "TOSTRING") []
  | AAppend a t => OAppend a t
  end.
Definition asking (a : act) : bool := match a with AAsk _ => true | _ => false end.
Definition perform (h : heap) (a : act) : option (outcome (heap * seen)) :=
  match step (LexModel.d_dec d) (LexModel.d_tho d) method respond_word h (code a) with
  | Some o => Some (do r <- o; do s <- look (asking a) (fst r) (snd r); Ok (fst r, s))
  | None => None
  end.
Fixpoint run (h : heap) (acts : list act) : option (outcome (heap * list seen)) :=
  match acts with
  | [] => Some (Ok (h, []))
  | a :: acts =>
      match perform h a with
      | Some (Ok (h1, s)) =>
          match run h1 acts with
          | Some (Ok (h2, ss)) => Some (Ok (h2, s :: ss))
          | o => o
          end
      | Some UB => Some UB
      | None => None
      end
  end.
End Language.
(** The function found for a message to a number in a language; [method_in] of a world. *)
Definition method_in (hash : text -> Z) (w : world) (name : text) : option string :=
  match find_method hash 300 w ONumber name with Ret r => r | _ => None end.
