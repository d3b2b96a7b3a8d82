(** What users of the media plugin rely on about its objects and messages, independent of lists of methods. *)
From Coq Require Import List String NArith.
From Verif Require Import Common RegTable RegSpec MedTable.
Import ListNotations.

(** An object a name can stand for: one of the main program or one of the plugin. *)
Inductive thing := OfCore (o : std) | OfPlugin (m : mobj).
(** The object an object of the plugin is derived from: sounds and pieces of music are audio, everything
    else is just an object. *)
Definition derived (o : mobj) : thing :=
  match o with MSound | MMusic => OfPlugin MAudio | _ => OfCore OObject end.
(** [mean o k f]: the message [k] sent to [o] is meant to run [f]: the function [o] itself has for it, and
    otherwise the one of the object it is derived from. *)
Inductive mean : mobj -> mkey -> string -> Prop :=
| mean_own o k f : In (o, k, f) mregistrations -> mean o k f
| mean_plugin o p k f : (forall g, ~ In (o, k, g) mregistrations) -> derived o = OfPlugin p -> mean p k f -> mean o k f
| mean_core o p k f : (forall g, ~ In (o, Core k, g) mregistrations) -> derived o = OfCore p ->
    understands p k f -> mean o (Core k) f.
