(** Listeners on a screen: who hears what, independent of the code.

    A screen is an object with parents.  A listener is a block that an object has for a message; of several for the same
    message the latest counts, and an object's own comes before that of its parents.  What happens on the screen stands for
    messages; the listener of a message hears it, with its arguments. *)
From Coq Require Import ZArith.
From Verif Require Import Common CodecSpec.

Inductive kind := Step | Timer | KeyUp | KeyDown | Click | PadDown | PadUp.
Inductive arg := ANum (z : Z) | AText (t : text).
(** Block [who] heard message [what] *)
Record heard := mkH { who : nat; what : text; args : list arg }.
(** How an object answers a message: a block of the program, nothing at all, or by leaving the screen *)
Inductive method := User (b : nat) | Idle | Ends.
Definition table := list (nat * text * method).
Definition same (o o' : nat) (n n' : text) : bool := Nat.eqb o o' && if list_eq_dec N.eq_dec n n' then true else false.
Definition own (ms : table) (o : nat) (n : text) : option method :=
  match filter (fun e => same (fst (fst e)) o (snd (fst e)) n) ms with [] => None | e :: _ => Some (snd e) end.
Definition answer (ms : table) (chain : list nat) (n : text) : option method :=
  match flat_map (fun o => match own ms o n with Some m => [m] | None => [] end) chain with [] => None | m :: _ => Some m end.

(** What a program does in a listener: give an object a block for a message, leave the screen, raise an error, ask for
    the buttons A, B, X and Y to count as up as well, or do something while errors are caught *)
Inductive listener := Block (b : nat) | Nothing | Thing.
Inductive cmd := OnDo (o : nat) (n : text) (is_text : bool) (l : listener) | Leave | Raise | Remap (v : Z) | Caught (c : cmd).

(** What happens on a screen *)
Inductive happening := KeyUpped (k : text) | KeyDowned (k : text) | Clicked (lft : bool) (times : nat) (x y : Z)
  | PadDowned (b : nat) | PadUpped (b : nat) | Quitted | Other.
(** A frame: the timers that are found due at the start, then what happens, each with the timers found due before it *)
Record frame := mkF { due : list Z; happened : list (list Z * happening) }.

Section Spec.
Variables (names : kind -> text) (ending : text) (chain proto : list nat) (react : list heard -> nat -> list cmd).
(** Names of buttons, and whether they are A, B, X or Y; the name of up *)
Variables (button : nat -> text) (abxy : nat -> bool) (up : text).

(** The messages that something stands for *)
Definition timers_messages (l : list Z) : list (text * list arg) := map (fun i => (names Timer, [ANum i])) l.
Definition messages (remap : bool) (h : happening) : list (text * list arg) :=
  match h with
  | KeyUpped k => [(names KeyUp, [AText k])]
  | KeyDowned k => [(names KeyDown, [AText k])]
  | Clicked lft times x y => if lft && Nat.eqb times 1 then [(names Click, [ANum x; ANum y])] else []
  | PadDowned b => (names PadDown, [AText (button b)]) :: if remap && abxy b then [(names PadDown, [AText up])] else []
  | PadUpped b => (names PadUp, [AText (button b)]) :: if remap && abxy b then [(names PadUp, [AText up])] else []
  | Quitted | Other => []
  end.
Definition frame_messages (remap : bool) (f : frame) : list (text * list arg) :=
  (names Step, []) :: timers_messages (due f) ++ flat_map (fun p => timers_messages (fst p) ++ messages remap (snd p)) (happened f).
(** The same with the message that closing the window stands for, and the buttons remapped *)
Definition stands (h : happening) : list (text * list arg) := match h with Quitted => [(ending, [])] | _ => messages true h end.
Definition may (f : frame) : list (text * list arg) :=
  (names Step, []) :: timers_messages (due f) ++
  flat_map (fun p => timers_messages (fst p) ++ stands (snd p)) (happened f).
Definition hears (ms : table) (m : text * list arg) : list heard :=
  match answer ms chain (fst m) with Some (User b) => [mkH b (fst m) (snd m)] | _ => [] end.

(** *** With listeners that do things: the table, whether there is an error, whether the screen is to be left, the
    remapping, and what was heard, the latest first *)
Record scene := mkS { table_of : table; failed : bool; leaving : bool; remapped : Z; log : list heard }.
Fixpoint does (s : scene) (c : cmd) : scene :=
  if failed s then s
  else match c with
       | OnDo o n true (Block b) => mkS ((o, n, User b) :: table_of s) false (leaving s) (remapped s) (log s)
       | OnDo _ _ _ _ | Raise => mkS (table_of s) true (leaving s) (remapped s) (log s)
       | Leave => mkS (table_of s) false true (remapped s) (log s)
       | Remap v => mkS (table_of s) false (leaving s) v (log s)
       | Caught c => let s1 := does s c in mkS (table_of s1) false (leaving s1) (remapped s1) (log s1)
       end.
Definition say (c : list nat) (s : scene) (m : text * list arg) : scene :=
  if failed s then s
  else match answer (table_of s) c (fst m) with
       | Some (User b) =>
           fold_left does (react (log s) b)
             (mkS (table_of s) false (leaving s) (remapped s) (mkH b (fst m) (snd m) :: log s))
       | Some Ends => mkS (table_of s) false true (remapped s) (log s)
       | Some Idle | None => s
       end.
Definition says (s : scene) (l : list (text * list arg)) : scene := fold_left (say chain) l s.
(** [true]: the screen is left *)
Fixpoint goes (s : scene) (l : list (list Z * happening)) : scene * bool :=
  match l with
  | [] => (s, false)
  | (d, h) :: r =>
      let s1 := says s (timers_messages d) in
      match h with
      | Quitted => let s2 := say proto s1 (ending, []) in (mkS (table_of s2) true false 0 (log s2), true)
      | PadDowned b | PadUpped b =>
          (* the remapping may change while the first message is heard *)
          let s2 := says s1 (messages false h) in
          goes (says s2 (skipn 1 (messages (remapped s2 =? 1)%Z h))) r
      | _ => goes (says s1 (messages false h)) r
      end
  end.
Definition goes_on (s : scene) (f : frame) : scene * bool :=
  if failed s then (s, true)
  else
    let s1 := says s [(names Step, [])] in
    if leaving s1 then (mkS (table_of s1) (failed s1) false (remapped s1) (log s1), true)
    else goes (says s1 (timers_messages (due f))) (happened f).
Fixpoint shows (s : scene) (l : list frame) : scene * bool :=
  match l with [] => (s, false) | f :: r => let (s1, q) := goes_on s f in if q then (s1, true) else shows s1 r end.
End Spec.

(** Some of a list, in its order, each at most as often as there *)
Inductive among {A} : list A -> list A -> Prop :=
  | among_nil : forall l, among [] l
  | among_take : forall x l m, among l m -> among (x :: l) (x :: m)
  | among_skip : forall x l m, among l m -> among l (x :: m).

(** Names of the seven messages that can be told apart *)
Definition told_apart (names : kind -> text) : Prop := forall k k', names k = names k' -> k = k'.
(** A program that plays by the rules: it does not take away a listener in a way that raises an error it catches, and
    gives listeners for the messages of the screen only to objects of the Media kind *)
Fixpoint plain (names : kind -> text) (media : nat -> bool) (chain : list nat) (c : cmd) : Prop :=
  match c with
  | OnDo o n _ _ => media o = true \/ ~ In o chain \/ forall k, n <> names k
  | Caught (OnDo _ n _ Nothing) => forall k, n <> names k
  | Caught c => plain names media chain c
  | _ => True
  end.
