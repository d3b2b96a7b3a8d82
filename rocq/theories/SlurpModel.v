(** Model of the objects Path, Command and Slurp (system.c), which turn the messages they
    do not know into a text.

    Texts live in a store because the text of such an object is shared with whoever asked
    for it.  Simplified: the conversion of other objects to a text has no effects besides
    its answer; user programs do not add methods to these objects or touch their private
    properties "command" and "glue"; allocation succeeds. *)
From Verif Require Import Common.
Local Open Scope nat_scope.

(** A slurp object: its glue, if set, and the text collected so far, if any (the private
    properties "glue" and "command"). *)
Record slurp := mkSlurp { glue : option text; command : option nat }.
Record world := mkWorld { texts : list text; slurps : list slurp }.

(** Receivers and arguments: a text in the store, a slurp object, the objects Path and
    Command, or any other object, given by the text it converts to. *)
Inductive value := VText (r : nat) | VSlurp (i : nat) | VPath | VCommand | VOther (t : text).

Definition put {A} (l : list A) (i : nat) (x : A) : list A := firstn i l ++ x :: skipn (S i) l.
Definition new_text (w : world) (t : text) : world * nat :=
  (mkWorld (texts w ++ [t]) (slurps w), length (texts w)).
Definition new_slurp (w : world) (g : option text) : world * nat :=
  (mkWorld (texts w) (slurps w ++ [mkSlurp g None]), length (slurps w)).

Section Slurp.
(** The byte ending the parts of keyword messages, the separator of paths, and the messages
    found in Slurp, Path, Command or Object. *)
Variables (colon : N) (dirsep : text) (known : text -> bool).
(** The texts of Path and Command themselves. *)
Variables (path_text command_text : text).

(** system.c 1656-1666, [ctr_slurp_obtain]: the text itself, not a copy.  A new empty text
    if there is none. *)
Definition slurp_obtain (w : world) (i : nat) : outcome (world * nat) :=
  match nth_error (slurps w) i with
  | None => UB
  | Some s => match command s with Some r => Ok (w, r) | None => Ok (new_text w []) end
  end.
(** system.c 1678-1684, [ctr_slurp_to_string].  The text always is a text. *)
Definition slurp_to_string := slurp_obtain.

(** world.c 448-451, [ctr_internal_cast2string], with world.c 460-470,
    [ctr_internal_copy2string] *)
Definition cast2string (w : world) (v : value) : outcome (world * nat) :=
  match v with
  | VText r => if r <? length (texts w) then Ok (w, r) else UB
  | VSlurp i => slurp_to_string w i
  | VPath => Ok (new_text w path_text)
  | VCommand => Ok (new_text w command_text)
  | VOther t => Ok (new_text w t)
  end.

(** base.c 1794-1813, [ctr_string_append], on the text [r] *)
Definition string_append (w : world) (r : nat) (v : value) : outcome world :=
  do (w1, r2) <- cast2string w v;
  match nth_error (texts w1) r, nth_error (texts w1) r2 with
  | Some a, Some b => Ok (mkWorld (put (texts w1) r (a ++ b)) (slurps w1))
  | _, _ => UB
  end.

(** system.c 1528-1548, [ctr_slurp_respond_to].  Without a glue a null pointer is passed to
    [ctr_string_append], which reads through it. *)
Definition slurp_respond_to (w : world) (i : nat) (v : value) : outcome world :=
  match nth_error (slurps w) i with
  | None => UB
  | Some s =>
      match command s with
      | None =>
          let (w1, r) := new_text w [] in
          string_append (mkWorld (texts w1) (put (slurps w1) i (mkSlurp (glue s) (Some r)))) r v
      | Some r =>
          match glue s with
          | None => UB
          | Some g => do w1 <- string_append w r (VOther g); string_append w1 r v
          end
      end
  end.

(** system.c 1588-1607, [ctr_slurp_respond_to_and] *)
Definition slurp_respond_to_and (w : world) (i : nat) (v v' : value) : outcome world :=
  do (w1, r) <- cast2string w v;
  match nth_error (texts w1) r with
  | None => UB
  | Some t =>
      do w2 <- (if (0 <? length t) && (nth (length t - 1) t 0 =? colon)%N
                then let (w1', r') := new_text w1 (firstn (length t - 1) t) in
                     slurp_respond_to w1' i (VText r')
                else slurp_respond_to w1 i v);
      slurp_respond_to w2 i v'
  end.

(** system.c 1555-1560, [ctr_path_respond_to], system.c 1562-1567, [ctr_path_respond_to_and],
    system.c 1569-1574, [ctr_shellcommand_respond_to] and system.c 1576-1581,
    [ctr_shellcommand_respond_to_and]; [None] is another receiver *)
Definition start (w : world) (v : value) : option (world * nat) :=
  match v with
  | VPath => Some (new_slurp w (Some dirsep))
  | VCommand => Some (new_slurp w (Some [32%N]))
  | VSlurp i => Some (w, i)
  | _ => None
  end.

(** What a message comes to. *)
Inductive sent := SDone (w : world) (v : value) | SElsewhere.

(** world.c 1052-1151, [ctr_send_message], as far as these receivers and the methods below
    are concerned.  One or no argument reaches them.  With two or three arguments the
    methods of Object answer the receiver (base.c 546-548 and 550-552), and with four or
    more the arguments are dropped.  [SElsewhere]: another method or another receiver. *)
Definition send (w : world) (rcv : value) (name : text) (args : list value) : outcome sent :=
  if known name then Ok SElsewhere
  else
    match rcv with
    | VText _ | VOther _ => Ok SElsewhere
    | _ =>
        let (w1, m) := new_text w name in
        match args with
        | [_; _] | [_; _; _] => Ok (SDone w1 rcv)
        | [a] =>
            match start w1 rcv with
            | None => Ok SElsewhere
            | Some (w2, i) => do w3 <- slurp_respond_to_and w2 i (VText m) a; Ok (SDone w3 (VSlurp i))
            end
        | _ =>
            match start w1 rcv with
            | None => Ok SElsewhere
            | Some (w2, i) => do w3 <- slurp_respond_to w2 i (VText m); Ok (SDone w3 (VSlurp i))
            end
        end
    end.

(** The message "new", base.c 150-155, [ctr_object_make]: a slurp object with neither glue nor text of
    its own. *)
Definition make (w : world) : world * nat := new_slurp w None.

(** A chain: every message is sent to the answer of the one before
    (walker.c 36-177, [ctr_cwlk_message]). *)
Fixpoint chain (w : world) (rcv : value) (ms : list (text * list value)) : outcome sent :=
  match ms with
  | [] => Ok (SDone w rcv)
  | (n, args) :: ms' =>
      do r <- send w rcv n args;
      match r with SDone w' rcv' => chain w' rcv' ms' | SElsewhere => Ok SElsewhere end
  end.
End Slurp.

(** The world at the start: Slurp is the first slurp object (world.c 1009-1016). *)
Definition world0 : world := mkWorld [] [mkSlurp None None].
