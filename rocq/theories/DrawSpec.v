(** How a text on an image is shown, independent of the code. *)
From Verif Require Import Common.
Local Open Scope nat_scope.

(** A picture of a text: in one colour, or in one colour on another *)
Inductive picture := Plain (font : nat) (ink : N) (t : text) | Shaded (font : nat) (ink back : N) (t : text).
(** A picture and where it is put *)
Definition placed : Type := picture * Z * Z.
(** The looks of an image: font, colour of the text, colour of highlighted text *)
Record look := mkLook { l_font : nat; l_ink : N; l_high : N }.
(** Selected text is shown with the colours exchanged. *)
Definition show (k : look) (selected : bool) (t : text) : picture :=
  if selected then Shaded (l_font k) (l_high k) (l_ink k) t else Plain (l_font k) (l_ink k) t.

(** A text of lines *)
Fixpoint joined (ls : list text) : text := match ls with [] => [] | [l] => l | l :: r => (l ++ [13; 10]%N ++ joined r)%list end.
(** A line that begins at position [s], cut where the selection from [b] to [e] begins and ends *)
Definition nonempty (p : bool * text) : bool := negb (length (snd p) =? 0).
Definition pieces (b e s : nat) (l : text) : list (bool * text) :=
  filter nonempty (if b =? e then [(false, l)] else [(false, firstn (b - s) l); (true, skipn (b - s) (firstn (e - s) l)); (false, skipn (e - s) l)]).
(** The pieces next to each other *)
Fixpoint place (k : look) (width : nat -> text -> Z) (x y : Z) (ps : list (bool * text)) : list placed :=
  match ps with [] => [] | (f, t) :: r => (show k f t, x, y) :: place k width (x + width (l_font k) t) y r end.
(** Where the text begins, the height of a line, and which lines are in view: from [offset] on [most] lines and one *)
Record page := mkPage { padx : Z; pady : Z; height : Z; offset : nat; most : nat }.
Definition in_view (g : page) (n : nat) : bool := (offset g <=? n) && (n <=? offset g + most g).
Fixpoint drawn (k : look) (width : nat -> text -> Z) (g : page) (b e n s : nat) (ls : list text) : list placed :=
  match ls with
  | [] => []
  | l :: r => ((if in_view g n then place k width (padx g) (pady g + height g * Z.of_nat (n - offset g)) (pieces b e s l) else [])
              ++ drawn k width g b e (S n) (s + length l + 2) r)%list
  end.

(** ** The cursor *)
(** The cursor stands behind [before]: the last line of it, and the number of lines before that one *)
Fixpoint last_line (ls : list text) : text := match ls with [] => [] | [l] => l | _ :: r => last_line r end.

(** ** Several images *)
(** What a program does with its images: colour, highlight, font, the selection, and writing lines on an image *)
Inductive act := Ink (i : nat) (c : N) | Highlight (i : nat) (c : N) | Font (i f : nat) | Select (b e : nat) | Write (i : nat) (ls : list text).
Definition set {A : Type} (f : nat -> A) (i : nat) (x : A) : nat -> A := fun j => if j =? i then x else f j.
Definition looks_after (a : act) (ks : nat -> look) : nat -> look :=
  match a with
  | Ink i c => set ks i (mkLook (l_font (ks i)) c (l_high (ks i)))
  | Highlight i c => set ks i (mkLook (l_font (ks i)) (l_ink (ks i)) c)
  | Font i f => set ks i (mkLook f (l_ink (ks i)) (l_high (ks i)))
  | _ => ks
  end.
(** What is seen of each writing: the lines in the looks that the image has then *)
Fixpoint seen (width : nat -> text -> Z) (g : nat -> page) (ks : nat -> look) (sel : nat * nat) (l : list act) : list (list placed) :=
  match l with
  | [] => []
  | Write i ls :: r => drawn (ks i) width (g i) (fst sel) (snd sel) 0 0 ls :: seen width g ks sel r
  | Select b e :: r => seen width g ks (b, e) r
  | a :: r => seen width g (looks_after a ks) sel r
  end.
(** Between two writings with different looks a colour is set. *)
Fixpoint steady (ks : nat -> look) (last : option look) (l : list act) : Prop :=
  match l with
  | [] => True
  | Write i _ :: r => (last = None \/ last = Some (ks i)) /\ steady ks (Some (ks i)) r
  | Ink i c :: r => steady (looks_after (Ink i c) ks) None r
  | a :: r => steady (looks_after a ks) last r
  end.
Definition proper (a : act) : Prop :=
  match a with Write _ ls => ls <> [] /\ Forall (fun l => ~ In 13%N l) ls | Select b e => b <= e | _ => True end.

(** Lines separated by newlines, as programs write them; tabs become spaces. *)
Fixpoint newlines (ls : list text) : text := match ls with [] => [] | [l] => l | l :: r => (l ++ 10%N :: newlines r)%list end.
Definition no_tabs (l : text) : text := map (fun c => if (c =? 9)%N then 32%N else c) l.
Definition one_line (l : text) : Prop := ~ In 0%N l /\ ~ In 10%N l /\ ~ In 13%N l.
