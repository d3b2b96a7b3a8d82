(** The Regex plug-in (plugins/regex/regex.c).

    The matcher of the C library is a parameter: [comp pattern newline icase] is what [regcomp] makes of a pattern ([None]: an
    error), a compiled pattern is a function from the text (at [haystack + offset]) to the answer of [regexec].
    Positions are [regoff_t]s in the code ([int]: texts below 2^31 bytes). *)
From Verif Require Import Common Fuel SipModel.
Local Open Scope N_scope.

Definition span : Type := nat * nat.   (* rm_so, rm_eo *)
Inductive eres :=
| EMatch (whole : span) (groups : list (option span))   (* matches[0], and matches[1 ...]; [None]: -1 *)
| ENoMatch
| EFail.                                                (* another error, as REG_ESPACE *)
Definition matcher := text -> eres.
Definition compiler := text -> bool -> bool -> option matcher.

(** memory.c 264-281, a C string without its NUL *)
Definition dropped (t : text) : text := filter (fun c => negb (c =? 0)) t.
Fixpoint cstr (b : text) : outcome text :=
  match b with [] => UB | c :: r => if c =? 0 then Ok [] else do s <- cstr r; Ok (c :: s) end.
(** regex.c 93-104, the groups.  [fresh n]: what is in a block of [n] bytes that was just allocated; the copy has no NUL
    of its own *)
Definition group (fresh : nat -> text) (h : text) (s : span) : outcome text :=
  if (fst s <=? snd s)%nat then
    do g <- slice h (fst s) (snd s - fst s);
    cstr (g ++ skipn (length g) (fresh (length g + 1)%nat))
  else UB.
Fixpoint groups_of (fresh : nat -> text) (h : text) (l : list (option span)) : outcome (list text) :=
  match l with
  | Some s :: r => do g <- group fresh h s; do gs <- groups_of fresh h r; Ok (g :: gs)
  | _ => Ok []
  end.

(** regex.c 85-138.  [h]: the haystack from [offset] on.  The block: from the state of the program and the
    groups, the new state and the answer as a text. *)
Fixpoint process_loop {S : Type} (fuel : nat) (fresh : nat -> text) (exec : matcher) (blk : S -> list text -> S * text)
  (st : S) (h out : text) : res (S * text) :=
  match fuel with
  | O => NoFuel
  | Datatypes.S k =>
      match exec h with
      | ENoMatch | EFail => Ret (st, out ++ h)
      | EMatch w gs =>
          match groups_of fresh h (firstn 255 (Some w :: gs)) with
          | UB => Bad
          | Ok groups =>
              let '(st', r) := blk st groups in
              process_loop k fresh exec blk st' (skipn (snd w) h) (out ++ firstn (fst w) h ++ r)
          end
      end
  end.

(** The haystack: a text, or something else, whose bytes are not a text (no cast here). *)
Inductive hay := HText (t : text) | HOther.
Inductive reply := RMyself | RNil | RText (t : text).
(** regex.c 49-64, the options: the length is a [uint8_t] *)
Definition options_of (o : text) : text := let s := dropped o in firstn (length s mod 256)%nat s.
Definition has (c : N) (o : text) : bool := existsb (N.eqb c) (options_of o).
(** regex.c 33-145, [process:do:options:]; [blk = None]: the argument is not a block.  The last component: an error was raised *)
Definition process_options {S : Type} (fuel : nat) (fresh : nat -> text) (comp : compiler) (pattern : text) (h : hay)
  (blk : option (S -> list text -> S * text)) (o : text) (st : S) : res (S * reply * bool) :=
  match blk with
  | None => Ret (st, RMyself, true)
  | Some b =>
      match comp (dropped pattern) (has 110 o) (has 105 o) with
      | None => Ret (st, RNil, true)
      | Some exec =>
          match h with
          | HOther => Bad
          | HText t =>
              if has 33 o then Ret (st, RText (dropped t), false)
              else let! (st', out) := process_loop fuel fresh exec b st (dropped t) [] in Ret (st', RText out, false)
          end
      end
  end.
(** regex.c 147-154, [process:do:] *)
Definition process {S : Type} fuel fresh comp pattern h (blk : option (S -> list text -> S * text)) (st : S) :=
  process_options fuel fresh comp pattern h blk [] st.

Inductive verdict := VTrue | VFalse | VNil.
(** regex.c 157-191, [matches:]; the text of the argument *)
Definition matches (comp : compiler) (pattern t : text) : verdict * bool :=
  match comp (dropped pattern) false false with
  | None => (VNil, true)
  | Some exec => match exec (dropped t) with EMatch _ _ => (VTrue, false) | ENoMatch => (VFalse, false) | EFail => (VNil, true) end
  end.

(** base.h and memory.c: a block that is fresh from [calloc] *)
Definition zeroed (n : nat) : text := repeat 0 n.
(** regex.c 13: the pattern of [Regex new] *)
Definition default_pattern : text := [46; 43].

(** The loop once more, with blocks that may end in an error.  An answer of a block run: a text, or an error [e] and no answer. *)
Inductive answer := AText (t : text) | AError (e : text).
Section Flow.
Context {S : Type}.
(** the text of CTR_ERR_RSTR (i18n/en/msg.h 45) *)
Variable rstr : text.
(** regex.c 122-133, base.c 2448-2510 [ctr_block_run] without a catch, world.c 460-470 [ctr_internal_copy2string].  With an error
    pending all messages are ignored (world.c 1069): [quiet] is the text that the block answers then without sending any, if it does.
    A block without an answer gives itself; with an error pending it cannot be made a text, this replaces the error. *)
Definition run_block (blk : S -> list text -> S * answer) (quiet : list text -> option text) (st : S) (flow : option text) (gs : list text) : S * option text * text :=
  match flow with
  | None => match blk st gs with (st', AText r) => (st', None, r) | (st', AError e) => (st', Some rstr, [63]) end
  | Some e => match quiet gs with Some r => (st, Some e, r) | None => (st, Some rstr, [63]) end
  end.
(** regex.c 85-138 *)
Fixpoint flow_loop (fuel : nat) (fresh : nat -> text) (exec : matcher) blk quiet (st : S) (flow : option text) (h out : text) : res (S * option text * text) :=
  match fuel with
  | O => NoFuel
  | Datatypes.S k =>
      match exec h with
      | ENoMatch | EFail => Ret (st, flow, out ++ h)
      | EMatch w gs =>
          match groups_of fresh h (firstn 255 (Some w :: gs)) with
          | UB => Bad
          | Ok groups =>
              let '(st', flow', r) := run_block blk quiet st flow groups in
              flow_loop k fresh exec blk quiet st' flow' (skipn (snd w) h) (out ++ firstn (fst w) h ++ r)
          end
      end
  end.
End Flow.
