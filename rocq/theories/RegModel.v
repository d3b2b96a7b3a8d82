(** Model of the start of the world (world.c 639-1042) in every language, and of the search for the
    method of a message (world.c 1070-1098).

    Simplifications: natives are named by their C function; each object has its own list of methods
    (MapModel); the message stack (world.c 1083-1093) only ever holds World and blocks, so it never
    hides a native and is left out; [hash] is the keyed hash. *)
From Coq Require Import List String NArith.
From Verif Require Import Common Fuel Txt LexModel MapModel RegTable MsgDicts1 MsgDicts2 MsgDicts3 MsgDicts4.
Import ListNotations.
Open Scope nat_scope.

(** i18n/*/dictionary.h: the words of each language, in the order of [macros]. *)
Definition dictionaries : list (string * list string) :=
  dictionaries1 ++ dictionaries2 ++ dictionaries3 ++ dictionaries4.
Fixpoint find_macro (ms ws : list string) (m : string) : string :=
  match ms, ws with
  | m' :: ms, w :: ws => if String.eqb m' m then w else find_macro ms ws m
  | _, _ => EmptyString
  end.
(** The text passed to [ctr_build_string_from_cstring] (world.c 654-1042) when compiled for the
    language with signs [d] and words [ws]. *)
Definition key_text (d : dict) (ws : list string) (k : key) : text :=
  match k with
  | Dict m => lit (find_macro macros ws m)
  | Lit t => lit t
  | LitPrefix t => (lit t ++ [d_prefix d])%list
  end.

Definition std_eq_dec (a b : std) : {a = b} + {a <> b}. Proof. decide equality. Defined.
Record world := mkWorld { w_methods : std -> @pmap string; w_names : @pmap std }.
Section Run.
Variable hash : text -> Z.
(** world.c 404-408, [ctr_internal_create_func] *)
Definition create_func (w : world) (o : std) (name : text) (f : string) : res world :=
  let! m := add_property hash (w_methods w o) name f in
  Ret (mkWorld (fun x => if std_eq_dec x o then m else w_methods w x) (w_names w)).
(** world.c 226-255 on CtrStdWorld *)
Definition create_name (w : world) (name : text) (o : std) : res world :=
  let! m := add_property hash (w_names w) name o in Ret (mkWorld (w_methods w) m).
Fixpoint create_funcs (d : dict) (ws : list string) (rs : list (std * key * string)) (w : world) : res world :=
  match rs with
  | [] => Ret w
  | (o, k, f) :: rs => let! w1 := create_func w o (key_text d ws k) f in create_funcs d ws rs w1
  end.
Fixpoint create_names (d : dict) (ws : list string) (gs : list (key * std)) (w : world) : res world :=
  match gs with
  | [] => Ret w
  | (k, o) :: gs => let! w1 := create_name w (key_text d ws k) o in create_names d ws gs w1
  end.
(** world.c 639-1042, [ctr_initialize_world]; the two kinds of registrations are interleaved there
    but go to different lists. *)
Definition initialize (d : dict) (ws : list string) : res world :=
  let! w1 := create_funcs d ws registrations (mkWorld (fun _ => map_new) map_new) in
  create_names d ws globals w1.

(** world.c 1070-1098: the receiver first, then along the links. *)
Fixpoint find_method (fuel : nat) (w : world) (o : std) (name : text) : res (option string) :=
  match fuel with
  | O => NoFuel
  | S n =>
      let! r := find_property hash fuel (w_methods w o) name in
      match r with
      | Some f => Ret (Some f)
      | None => match link o with None => Ret None | Some p => find_method n w p name end
      end
  end.
(** world.c 541: a name that no context knows is looked up in World. *)
Definition find_name (fuel : nat) (w : world) (name : text) : res (option std) :=
  find_property hash fuel (w_names w) name.
End Run.
