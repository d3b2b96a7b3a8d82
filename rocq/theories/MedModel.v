(** Model of the start of the media plugin (plugins/media/media.c 4429-4584) in every language it is
    translated to, on top of the start of the world (RegModel), and of the search for the method of a
    message to one of its objects.

    Simplifications: as in RegModel; the objects of the plugin start with empty lists of methods, which is
    what [ctr_media_new] and its kin make; opening the window and the like (media.c 4434-4435) is left out. *)
From Coq Require Import List String NArith.
From Verif Require Import Common Fuel Txt LexModel MapModel RegTable RegModel MedTable MedSpec.
Import ListNotations.
Open Scope nat_scope.

(** The text passed to [ctr_build_string_from_cstring] (media.c 4439-4583) when compiled for the language
    with signs [d], words [ws] and words [ms] of the plugin. *)
Definition mkey_text (d : dict) (ws ms : list string) (k : mkey) : text :=
  match k with Core k => key_text d ws k | Plug m => lit (find_macro mmacros ms m) end.

Definition mobj_eq_dec (a b : mobj) : {a = b} + {a <> b}. Proof. decide equality. Defined.
(** The main program, the methods of the objects of the plugin and the names in World. *)
Record mworld := mkMW { mw_core : world; mw_methods : mobj -> @pmap string; mw_names : @pmap thing }.
Section Run.
Variable hash : text -> Z.
(** world.c 404-408, [ctr_internal_create_func] *)
Definition mcreate_func (w : mworld) (o : mobj) (name : text) (f : string) : res mworld :=
  let! m := add_property hash (mw_methods w o) name f in
  Ret (mkMW (mw_core w) (fun x => if mobj_eq_dec x o then m else mw_methods w x) (mw_names w)).
Fixpoint mcreate_funcs (d : dict) (ws ms : list string) (rs : list (mobj * mkey * string)) (w : mworld) : res mworld :=
  match rs with
  | [] => Ret w
  | (o, k, f) :: rs => let! w1 := mcreate_func w o (mkey_text d ws ms k) f in mcreate_funcs d ws ms rs w1
  end.
(** world.c 226-255 on CtrStdWorld, whose list holds the names of the main program (world.c 679-1034) and of
    the plugin (media.c 4563-4583). *)
Fixpoint mcreate_names (d : dict) (ws ms : list string) (gs : list (mkey * thing)) (m : @pmap thing) : res (@pmap thing) :=
  match gs with
  | [] => Ret m
  | (k, o) :: gs => let! m1 := add_property hash m (mkey_text d ws ms k) o in mcreate_names d ws ms gs m1
  end.
(** world.c 639-1042, [ctr_initialize_world], then media.c 4429-4584, [begin] *)
Definition begin (d : dict) (ws ms : list string) : res mworld :=
  let! w := initialize hash d ws in
  let! names := mcreate_names d ws ms (map (fun g => (Core (fst g), OfCore (snd g))) globals) map_new in
  let! w1 := mcreate_funcs d ws ms mregistrations (mkMW w (fun _ => map_new) names) in
  let! names1 := mcreate_names d ws ms (map (fun g => (fst g, OfPlugin (snd g))) mglobals) (mw_names w1) in
  Ret (mkMW (mw_core w1) (mw_methods w1) names1).

(** The assignments to [link] (media.c 4438-4567). *)
Definition mlink (o : mobj) : thing :=
  match o with
  | MSound => OfPlugin MAudio                          (* 4541 *)
  | MMusic => OfPlugin MAudio                          (* 4545 *)
  | _ => OfCore OObject
  end.
(** world.c 1070-1098: the receiver first, then along the links. *)
Fixpoint mfind_method (fuel : nat) (w : mworld) (o : mobj) (name : text) : res (option string) :=
  match fuel with
  | O => NoFuel
  | S n =>
      let! r := find_property hash fuel (mw_methods w o) name in
      match r with
      | Some f => Ret (Some f)
      | None =>
          match mlink o with
          | OfPlugin p => mfind_method n w p name
          | OfCore p => find_method hash n (mw_core w) p name
          end
      end
  end.
(** world.c 541: a name that no context knows is looked up in World. *)
Definition mfind_name (fuel : nat) (w : mworld) (name : text) : res (option thing) :=
  find_property hash fuel (mw_names w) name.
End Run.
