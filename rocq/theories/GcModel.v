(** The garbage collector (system.c 14-163) over an abstract object graph.

    An object is named by a number; the heap is the list of all objects in the order of
    the [gnext] chain (citrine.h 216, world.c 57-60).  Only what the collector looks at is
    kept of an object: its mark and sticky bits, the elements of a list, the key and value
    objects of its properties and methods, its prototype [link], and the rest of its contents
    as an opaque payload.  Freeing the storage of a swept object (system.c 92-127) is
    represented by the object no longer being in the heap. *)
From Verif Require Import Common.

Definition oid := nat.

Record obj := {
  o_array : bool;              (* info.type == CTR_OBJECT_TYPE_OTARRAY *)
  o_elems : list oid;          (* value.avalue->elements[0 .. head-1] *)
  o_props : list (oid * oid);  (* properties: key object, value object *)
  o_meths : list (oid * oid);  (* methods: key object, value object *)
  o_link : option oid;         (* link *)
  o_sticky : bool;             (* info.sticky *)
  o_mark : bool;               (* info.mark *)
  o_data : N                   (* everything else *)
}.

Definition heap := list (oid * obj).

Fixpoint get (h : heap) (i : oid) : option obj :=
  match h with
  | [] => None
  | (j, o) :: r => if Nat.eqb i j then Some o else get r i
  end.

Definition with_mark (o : obj) (b : bool) : obj :=
  {| o_array := o_array o; o_elems := o_elems o; o_props := o_props o; o_meths := o_meths o;
     o_link := o_link o; o_sticky := o_sticky o; o_mark := b; o_data := o_data o |}.

(** [x->info.mark = b] *)
Fixpoint put_mark (h : heap) (i : oid) (b : bool) : heap :=
  match h with
  | [] => []
  | (j, o) :: r => if Nat.eqb i j then (j, with_mark o b) :: r else (j, o) :: put_mark r i b
  end.

(** What ctr_gc_mark touches, in order: [Follow x] for elements and values, [Touch k] for
    keys, which only get their mark bit set (system.c 32-33, 44-45). *)
Inductive edge := Follow (x : oid) | Touch (k : oid).
Definition target (e : edge) : oid := match e with Follow x => x | Touch k => k end.
Definition edges (o : obj) : list edge :=
  (if o_array o then map Follow (o_elems o) else []) ++
  flat_map (fun kv => [Touch (fst kv); Follow (snd kv)]) (o_props o) ++
  flat_map (fun kv => [Touch (fst kv); Follow (snd kv)]) (o_meths o).

(** Outcome of the marking: an access to an object that is not there is undefined
    behaviour; [GFuel] is the model's own bound on the recursion. *)
Inductive gres := GOk (h : heap) | GBad | GFuel.

(** One pass over the edges of an object, given the recursive call. *)
Fixpoint visit (rec : heap -> oid -> gres) (h : heap) (es : list edge) : gres :=
  match es with
  | [] => GOk h
  | Touch k :: r =>
      match get h k with
      | None => GBad
      | Some _ => visit rec (put_mark h k true) r
      end
  | Follow x :: r =>
      match get h x with
      | None => GBad
      | Some o =>
          if o_mark o then visit rec h r
          else match rec (put_mark h x true) x with
               | GOk h' => visit rec h' r
               | e => e
               end
      end
  end.

(** system.c 14-51, [ctr_gc_mark] *)
Fixpoint gc_mark (fuel : nat) (h : heap) (i : oid) : gres :=
  match fuel with
  | O => GFuel
  | S f => match get h i with
           | None => GBad
           | Some o => visit (gc_mark f) h (edges o)
           end
  end.

(** system.c 58-141, [ctr_gc_sweep] *)
Definition gc_sweep (all : bool) (h : heap) : heap :=
  flat_map (fun io => let o := snd io in
    if (negb (o_mark o) && negb (o_sticky o)) || all then []
    else [(fst io, with_mark o false)]) h.

(** system.c 154-160: the contexts are marked from the top of the stack down. *)
Fixpoint mark_roots (fuel : nat) (h : heap) (roots : list oid) : gres :=
  match roots with
  | [] => GOk h
  | c :: r => match gc_mark fuel h c with
              | GOk h' => mark_roots fuel h' r
              | e => e
              end
  end.

(** system.c 147-163, [ctr_gc_internal_collect].  The read of [ctr_contexts[-1]] after the
    last round (159), whose value is never used, is left out. *)
Definition gc_collect (fuel : nat) (h : heap) (roots : list oid) : gres :=
  match mark_roots fuel h roots with
  | GOk h' => GOk (gc_sweep false h')
  | e => e
  end.
