(** Reachability in an object graph: what a collection has to preserve. *)
From Verif Require Import Common GcModel.

Definition is_key (o : obj) (k : oid) : Prop :=
  exists v, In (k, v) (o_props o) \/ In (k, v) (o_meths o).
Definition is_value (o : obj) (v : oid) : Prop :=
  exists k, In (k, v) (o_props o) \/ In (k, v) (o_meths o).
Definition is_element (o : obj) (x : oid) : Prop := o_array o = true /\ In x (o_elems o).

(** [o] refers to [x] as a list element, or as key or value of a property or method. *)
Definition points (o : obj) (x : oid) : Prop := is_element o x \/ is_key o x \/ is_value o x.

(** Referred to, directly or not, by one of the scopes. *)
Inductive reach (h : heap) (roots : list oid) : oid -> Prop :=
| reach_root c o x : In c roots -> get h c = Some o -> points o x -> reach h roots x
| reach_step y o x : reach h roots y -> get h y = Some o -> points o x -> reach h roots x.

(** The same, also through prototypes. *)
Inductive reach_link (h : heap) (roots : list oid) : oid -> Prop :=
| rl_root c o x : In c roots -> get h c = Some o -> (points o x \/ o_link o = Some x) ->
    reach_link h roots x
| rl_step y o x : reach_link h roots y -> get h y = Some o ->
    (points o x \/ o_link o = Some x) -> reach_link h roots x.

(** A sound heap: every scope and everything reachable is there, and no mark is set. *)
Record sound (h : heap) (roots : list oid) : Prop := {
  s_roots : forall c, In c roots -> exists o, get h c = Some o /\ o_sticky o = true;
  s_reach : forall x, reach h roots x -> exists o, get h x = Some o;
  s_marks : forall i o, In (i, o) h -> o_mark o = false;
  s_ids : NoDup (map fst h)
}.

(** Objects used as keys refer to nothing themselves. *)
Definition plain_keys (h : heap) (roots : list oid) : Prop :=
  forall x o k ok y, (In x roots \/ reach h roots x) -> get h x = Some o -> is_key o k ->
    get h k = Some ok -> ~ points ok y.
