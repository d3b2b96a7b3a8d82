(** What an editable text does, in terms of characters, lines and a cursor between
    characters; independent of buffers and byte positions. *)
From Verif Require Import Common.
Local Open Scope N_scope.

(** A unit is what the cursor moves over in one step: a character (a byte that is not a
    continuation byte of UTF-8, with the continuation bytes that follow it), or a line end. *)
Definition trails (c : N) : Prop := 128 <= c < 192.
Definition leads (c : N) : Prop := (1 <= c < 128 /\ c <> 10 /\ c <> 13) \/ 192 <= c < 256.
Definition eol : text := [13; 10].
Inductive unit_ : text -> Prop :=
| u_char c cs : leads c -> Forall trails cs -> unit_ (c :: cs)
| u_eol : unit_ eol.
Definition units (us : list text) : Prop := Forall unit_ us.

(** A document with its cursor: the units before the cursor, nearest first, and the units after it. *)
Definition doc := (list text * list text)%type.
Definition before (d : doc) : text := concat (rev (fst d)).
Definition after (d : doc) : text := concat (snd d).
Definition content (d : doc) : text := before d ++ after d.
Definition all (d : doc) : list text := rev (fst d) ++ snd d.

Definition ordinary (u : text) : bool := negb (text_eqb u eol).
Fixpoint span {A} (p : A -> bool) (l : list A) : list A * list A :=
  match l with
  | [] => ([], [])
  | x :: r => if p x then let (s, t) := span p r in (x :: s, t) else ([], l)
  end.

Definition left (d : doc) : doc := match d with (u :: b, a) => (b, u :: a) | _ => d end.
Definition right (d : doc) : doc := match d with (b, u :: a) => (u :: b, a) | _ => d end.
(** to the begin and to the end of the line *)
Definition home (d : doc) : doc := let (l, b) := span ordinary (fst d) in (b, rev l ++ snd d).
Definition ending (d : doc) : doc := let (l, a) := span ordinary (snd d) in (rev l ++ fst d, a).
(** number of characters between the begin of the line and the cursor *)
Definition column (d : doc) : nat := length (fst (span ordinary (fst d))).
(** [n] characters to the right, but not beyond the end of the line *)
Fixpoint along (n : nat) (d : doc) : doc :=
  match n, d with
  | S k, (b, u :: a) => if ordinary u then along k (u :: b, a) else d
  | _, _ => d
  end.
(** One line up or down in the same column, or at the end of a line that is shorter.  On the
    first line, up does nothing; on the last line, down goes to the end of the text. *)
Definition up (d : doc) : doc :=
  match fst (home d) with
  | [] => d
  | _ => along (column d) (home (left (home d)))
  end.
Definition down (d : doc) : doc :=
  match snd (ending d) with
  | [] => ending d
  | _ => along (column d) (right (ending d))
  end.
Fixpoint repeatedly {A} (n : nat) (f : A -> A) (d : A) : A := match n with O => d | S k => repeatedly k f (f d) end.

(** Editing: text is put in before the cursor; the character before or after it is removed. *)
Definition insert (us : list text) (d : doc) : doc := (rev us ++ fst d, snd d).
Definition backspace (d : doc) : doc := match d with (_ :: b, a) => (b, a) | _ => d end.
Definition delete (d : doc) : doc := match d with (b, _ :: a) => (b, a) | _ => d end.

(** What is between two positions of the same document, [m] and [n] units from its begin,
    is removed; the cursor is where it was. *)
Definition erase (us : list text) (m n : nat) : doc :=
  (rev (firstn (min m n) us), skipn (max m n) us).

Inductive move := MLeft | MRight | MUp | MDown | MHome | MEnd | MPageUp | MPageDown.
Definition moved (m : move) : doc -> doc :=
  match m with
  | MLeft => left | MRight => right | MUp => up | MDown => down | MHome => home | MEnd => ending
  | MPageUp => repeatedly 10 up | MPageDown => repeatedly 10 down
  end.

(** Line endings: every tab becomes a space, every line end (CR LF, CR alone, LF alone) CR LF;
    only a CR at the very end of the text is left alone. *)
Fixpoint lines_normal (s : text) : text :=
  match s with
  | [] => []
  | 13 :: 10 :: r => 13 :: 10 :: lines_normal r
  | [13] => [13]
  | 13 :: r => 13 :: 10 :: lines_normal r
  | 10 :: r => 13 :: 10 :: lines_normal r
  | 9 :: r => 32 :: lines_normal r
  | c :: r => c :: lines_normal r
  end.

(** Position of a character: how many characters are before it (CR and LF count one each). *)
Definition chars (t : text) : nat := length (filter (fun c => negb ((128 <=? c) && (c <? 192))) t).

(** A word is a longest run of bytes other than blanks and line ends. *)
Definition blank (c : N) : Prop := c = 10 \/ c = 13 \/ c = 32.
Definition word_free (w : text) : Prop := Forall (fun c => ~ blank c) w.

(** Text without its NUL bytes; a text that does not end in the middle of a line end. *)
Definition without_zero (t : text) : text := filter (fun c => negb (c =? 0)) t.
Definition ends_well (t : text) : Prop := ~ exists p, t = p ++ [13].

(** The mouse: the begin of a line, counted from 0 (the end of the text if there are not so
    many); the line that begins at the cursor; the nearest of its gaps between characters. *)
Definition next_line (d : doc) : doc := match snd (ending d) with [] => ending d | _ => right (ending d) end.
Definition line_at (n : nat) (us : list text) : doc := repeatedly n next_line ([], us).
Definition the_line (d : doc) : list text := fst (span ordinary (snd d)).
Definition gap (width : text -> Z) (l : list text) (j : nat) : Z := width (concat (firstn j l)).
Definition nearest (width : text -> Z) (l : list text) (x : Z) (j : nat) : Prop :=
  (j <= length l)%nat /\ forall i, (i <= length l)%nat -> (Z.abs (gap width l j - x) <= Z.abs (gap width l i - x))%Z.
Definition widening (width : text -> Z) (l : list text) : Prop :=
  forall i j, (i <= j <= length l)%nat -> (gap width l i <= gap width l j)%Z.
