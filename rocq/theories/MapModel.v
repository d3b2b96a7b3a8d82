(** Model of property lists (world.c 81-267) and of the map methods (collections.c 758-1046).

    The items of a property list are cells of a heap, linked in both directions; a cell that was
    freed (or never allocated) is [None] and touching it is [Bad].
    Simplifications: every list has its own address space and freed addresses are not handed out
    again; keys are texts (the map methods convert every key with [string] first and store a
    fresh copy, collections.c 795-805); [hash] stands for the keyed hash of the text, values are opaque. *)
From Verif Require Import Common Fuel TextModel MapSpec.

Section Maps.
Context {V : Type} (hash : text -> Z).

(** citrine.h 171-178 *)
Record item := mkI { i_hash : Z; i_key : text; i_val : V; i_prev : option nat; i_next : option nat }.
Definition heap := nat -> option item.
Definition upd (h : heap) (a : nat) (o : option item) : heap := fun b => if (b =? a)%nat then o else h b.
(** citrine.h 162-166; [m_brk] is the next address handed out by the allocator. *)
Record pmap := mkM { m_heap : heap; m_brk : nat; m_head : option nat; m_size : nat }.

Definition deref (h : heap) (a : nat) : res item := match h a with Some it => Ret it | None => Bad end.
Definition set_next (h : heap) (a : nat) (n : option nat) : res heap :=
  let! it := deref h a in Ret (upd h a (Some (mkI (i_hash it) (i_key it) (i_val it) (i_prev it) n))).
Definition set_prev (h : heap) (a : nat) (p : option nat) : res heap :=
  let! it := deref h a in Ret (upd h a (Some (mkI (i_hash it) (i_key it) (i_val it) p (i_next it)))).

(** collections.c 758-762, [ctr_map_new] *)
Definition map_new : pmap := mkM (fun _ => None) 0 None 0.

(** world.c 81-111, [ctr_internal_object_is_equal] on two texts: same length and [memcmp] *)
Definition key_eq (a b : text) : bool := (length a =? length b)%nat && text_eqb a b.

(** The loops of world.c 148-153 and 180-215: the address of the first item with the given key. *)
Fixpoint scan (fuel : nat) (h : heap) (p : option nat) (hk : Z) (key : text) : res (option nat) :=
  match fuel with
  | O => NoFuel
  | S f =>
      match p with
      | None => Ret None
      | Some a =>
          let! it := deref h a in
          if (hk =? i_hash it)%Z && key_eq (i_key it) key then Ret (Some a)
          else scan f h (i_next it) hk key
      end
  end.

(** world.c 133-155, [ctr_internal_object_find_property] *)
Definition find_property (fuel : nat) (m : pmap) (key : text) : res (option V) :=
  let hk := hash key in
  if (m_size m =? 0)%nat then Ret None else
  let! r := scan fuel (m_heap m) (m_head m) hk key in
  match r with None => Ret None | Some a => let! it := deref (m_heap m) a in Ret (Some (i_val it)) end.

Definition opt_eqb (p q : option nat) : bool :=
  match p, q with Some a, Some b => (a =? b)%nat | None, None => true | _, _ => false end.

(** world.c 165-217, [ctr_internal_object_delete_property] *)
Definition delete_property (fuel : nat) (m : pmap) (key : text) : res pmap :=
  let hk := hash key in
  if (m_size m =? 0)%nat then Ret m else
  let! r := scan fuel (m_heap m) (m_head m) hk key in
  match r with
  | None => Ret m
  | Some a =>
      let! it := deref (m_heap m) a in
      let! h1 :=
        (match i_next it, i_prev it with
         | Some n, Some p =>
             let! h' := set_prev (m_heap m) n (Some p) in set_next h' p (Some n)
         | _, _ =>
             let! h' := (match i_next it with Some n => set_prev (m_heap m) n None | None => Ret (m_heap m) end) in
             match i_prev it with Some p => set_next h' p None | None => Ret h' end
         end) in
      let head' := if opt_eqb (m_head m) (Some a) then i_next it else m_head m in
      Ret (mkM (upd h1 a None) (m_brk m) head' (m_size m - 1))
  end.

(** world.c 226-255, [ctr_internal_object_add_property] *)
Definition add_property (m : pmap) (key : text) (v : V) : res pmap :=
  let a := m_brk m in
  if (m_size m =? 0)%nat then
    Ret (mkM (upd (m_heap m) a (Some (mkI (hash key) key v None None))) (S a) (Some a) (m_size m + 1))
  else
    match m_head m with
    | None => Bad                                     (* current_head->prev with current_head == NULL *)
    | Some c =>
        let! h1 := set_prev (m_heap m) c (Some a) in
        Ret (mkM (upd h1 a (Some (mkI (hash key) key v None (Some c)))) (S a) (Some a) (m_size m + 1))
    end.

(** world.c 264-267, [ctr_internal_object_set_property] *)
Definition set_property (fuel : nat) (m : pmap) (key : text) (v : V) : res pmap :=
  let! m1 := delete_property fuel m key in add_property m1 key v.

(** collections.c 785-808, [ctr_map_put] *)
Definition map_put (fuel : nat) (m : pmap) (v : V) (key : text) : res pmap :=
  let! m1 := delete_property fuel m key in add_property m1 key v.

(** collections.c 823-833, [ctr_map_key_value]: [m aaa: x]; [msg] is the message text with its colon. *)
Definition map_key_value (fuel : nat) (m : pmap) (msg : text) (v : V) : res pmap :=
  map_put fuel m v (if (1 <? length msg)%nat then firstn (length msg - 1) msg else msg).

(** collections.c 845-848, [ctr_map_delete] *)
Definition map_delete (fuel : nat) (m : pmap) (key : text) : res pmap := delete_property fuel m key.

(** collections.c 912-936, [ctr_map_get]; [None] is Nil *)
Definition map_get (fuel : nat) (m : pmap) (key : text) : res (option V) := find_property fuel m key.

(** collections.c 950-952, [ctr_map_count] *)
Definition map_count (m : pmap) : nat := m_size m.

(** The loops over all items from the head (collections.c 858-873, 884-899). *)
Fixpoint items (fuel : nat) (h : heap) (p : option nat) : res (list item) :=
  match fuel with
  | O => NoFuel
  | S f => match p with
           | None => Ret []
           | Some a => let! it := deref h a in let! l := items f h (i_next it) in Ret (it :: l)
           end
  end.
(** collections.c 859-873, [ctr_map_keys] *)
Definition map_keys (fuel : nat) (m : pmap) : res (list text) :=
  let! l := items fuel (m_heap m) (m_head m) in Ret (map i_key l).
(** collections.c 884-898, [ctr_map_values] *)
Definition map_values (fuel : nat) (m : pmap) : res (list V) :=
  let! l := items fuel (m_heap m) (m_head m) in Ret (map i_val l).

(** collections.c 954-970, [ctr_map_copy]: reads an item, puts it into the copy, goes on. *)
Fixpoint copy_loop (fuel fuel' : nat) (h : heap) (p : option nat) (c : pmap) : res pmap :=
  match fuel with
  | O => NoFuel
  | S f => match p with
           | None => Ret c
           | Some a => let! it := deref h a in
                       let! c' := map_put fuel' c (i_val it) (i_key it) in
                       copy_loop f fuel' h (i_next it) c'
           end
  end.
Definition map_copy (fuel : nat) (m : pmap) : res pmap := copy_loop fuel fuel (m_heap m) (m_head m) map_new.

(** collections.c 981-1015, [ctr_map_each] with a block.  The block is an arbitrary function of the
    world state [W]: it is given the key, the value and the copy over which the loop runs (the third
    block parameter), and may change both the world and that copy; it answers how it ended. *)
Inductive flow := FNone | FContinue | FBreak | FError.
Fixpoint each_loop {W} (blk : W -> text -> V -> pmap -> W * pmap * flow) (fuel : nat)
  (w : W) (c : pmap) (p : option nat) : res (W * flow) :=
  match fuel with
  | O => NoFuel
  | S f =>
      match p with
      | None => Ret (w, FNone)
      | Some a =>
          let! it := deref (m_heap c) a in
          let '(w', c', fl) := blk w (i_key it) (i_val it) c in
          let! it' := deref (m_heap c') a in                   (* m = m->next *)
          match fl with
          | FNone | FContinue => each_loop blk f w' c' (i_next it')
          | FBreak => Ret (w', FNone)
          | FError => Ret (w', FError)
          end
      end
  end.
Definition map_each {W} (blk : W -> text -> V -> pmap -> W * pmap * flow) (fuel : nat) (w : W) (m : pmap) : res (W * flow) :=
  let! c := map_copy fuel m in each_loop blk fuel w c (m_head c).

(** collections.c 1028-1046, [ctr_map_has]; [str] is the text of a value *)
Fixpoint has_loop (str : V -> text) (l : list item) (needle : text) (found : bool) : outcome bool :=
  match l with
  | [] => Ok found
  | it :: l' =>
      do hit <- (if (length (str (i_val it)) =? length needle)%nat
                 then do r <- strncmp (str (i_val it)) needle (length needle); Ok (r =? 0)%Z
                 else Ok false);
      has_loop str l' needle (if hit then true else found)
  end.
Definition map_has (str : V -> text) (fuel : nat) (m : pmap) (needle : text) : res bool :=
  let! l := items fuel (m_heap m) (m_head m) in
  match has_loop str l needle false with Ok b => Ret b | UB => Bad end.

(** ** A map in a variable and the messages sent to it *)
Definition map_step (fuel : nat) (m : pmap) (o : mop V) : res (pmap * mans V) :=
  match o with
  | MPut v k => let! m' := map_put fuel m v k in Ret (m', MSame)
  | MMsg msg v => let! m' := map_key_value fuel m msg v in Ret (m', MSame)
  | MDel k => let! m' := map_delete fuel m k in Ret (m', MSame)
  | MAt k => let! r := map_get fuel m k in Ret (m, MVal r)
  | MCount => Ret (m, MNum (map_count m))
  | MKeys => let! l := map_keys fuel m in Ret (m, MTexts l)
  | MValues => let! l := map_values fuel m in Ret (m, MVals l)
  end.
Fixpoint map_run (fuel : nat) (m : pmap) (os : list (mop V)) : res (pmap * list (mans V)) :=
  match os with
  | [] => Ret (m, [])
  | o :: os' => let! (m1, r) := map_step fuel m o in let! (m2, rs) := map_run fuel m1 os' in Ret (m2, r :: rs)
  end.
End Maps.
Arguments pmap : clear implicits.
Arguments item : clear implicits.
