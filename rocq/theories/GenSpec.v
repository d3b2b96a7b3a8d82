(** Headers and dictionary files, independent of the code. *)
From Verif Require Import Common Txt.
From Coq Require Import String.
Local Open Scope N_scope.

(** A row of a header: [#define KEY "value"], and behind // a modifier *)
Record row := mkRow { key : text; value : text; modifier : option text }.
Definition is_blank (c : N) : Prop := c = 32 \/ 9 <= c <= 13.
Definition blanks (t : text) : Prop := t <> [] /\ Forall is_blank t.
Definition solid (t : text) : Prop := t <> [] /\ Forall (fun c => ~ is_blank c) t /\ (List.length t < 180)%nat.
Definition quotable (t : text) : Prop := t <> [] /\ Forall (fun c => c <> 34) t.
Definition row_ok (r : row) : Prop :=
  solid (key r) /\ quotable (value r) /\ (List.length (value r) < 180)%nat /\ forall m, modifier r = Some m -> solid m.
(** The text of a row, with any blanks between its parts *)
Inductive written_row (r : row) : text -> Prop :=
| w_plain a b z : modifier r = None -> blanks a -> blanks b -> blanks z ->
    written_row r (lit "#define" ++ a ++ key r ++ b ++ [34] ++ value r ++ [34] ++ z)
| w_modified m a b c z : modifier r = Some m -> blanks a -> blanks b -> Forall is_blank c -> blanks z ->
    written_row r (lit "#define" ++ a ++ key r ++ b ++ [34] ++ value r ++ [34] ++ c ++ lit "//" ++ m ++ z).
Definition header (rs : list row) (f : text) : Prop := exists ts, Forall2 written_row rs ts /\ f = List.concat ts.

(** The text [t] contains [s]. *)
Definition contains (s t : text) : bool := existsb (fun i => text_eqb s (firstn (List.length s) (skipn i t))) (seq 0 (S (List.length t))).
Definition begins_with (s t : text) : bool := text_eqb s (firstn (List.length s) t).
(** Rows that are not for translation *)
Definition internal (k : text) : bool := contains (lit "_CODEGEN_") k.

(** The lines of a dictionary: a type, a word, its translation *)
Definition line : Type := N * text * text.
Definition line_type (k : text) : N :=
  if begins_with (lit "CTR_DICT_NUM_DEC_SEP") k then 100 else if begins_with (lit "CTR_DICT_NUM_THO_SEP") k then 120 else 116.
Definition modified (r : row) : text := match modifier r with Some m => m | None => [] end ++ value r.
(** The line for a row [a] and the same row [b] of the other language; with a key of texts [ks] also one for texts *)
Definition lines_for (ks : list text) (a b : row) : list line :=
  if internal (key a) then []
  else let ty := line_type (key a) in
       if ty =? 116 then (116, value a, modified b) :: (if existsb (fun s => contains s (key a)) ks then [(115, value a, value b)] else [])
       else [(ty, value a, value b)].
Fixpoint lines_of (ks : list text) (ra rb : list row) : list line :=
  match ra, rb with a :: ra', b :: rb' => lines_for ks a b ++ lines_of ks ra' rb' | _, _ => [] end.
(** The file: [t "word" "translation"] *)
Definition file_line (l : line) : text := let '(ty, w, t) := l in ([ty; 32; 34] ++ w ++ [34; 32; 34] ++ t ++ [34; 10])%list.
Definition file_of (ls : list line) : text := List.concat (map file_line ls).
(** The keys of the rows agree, as far as both headers go. *)
Fixpoint agree (ra rb : list row) : Prop :=
  match ra, rb with a :: ra', b :: rb' => key a = key b /\ agree ra' rb' | _, _ => True end.
(** No row that is not for translation has a modifier. *)
Definition fine (rb : list row) : Prop := Forall (fun b => internal (key b) = true -> modifier b = None) rb.
(** One key for texts, or none *)
Definition text_keys (o : option text) (ks : list text) : Prop :=
  (o = None /\ ks = []) \/ exists s, o = Some s /\ s <> [] /\ Forall (fun c => c <> 44) s /\ ks = [s].

(** ** Files that can be read *)
(** How far the first # moves the beginning of a translation *)
Fixpoint moved (t : text) : nat :=
  match t with [] => 0 | c :: r => if c =? 35 then 1 else match moved r with O => 0 | n => S n end end.
(** The buffer for translations has 5000 bytes; every modifier takes its bytes away from the lines behind it. *)
Fixpoint room (n : nat) (ls : list line) : Prop :=
  match ls with [] => True | (_, _, t) :: r => (n + List.length t < 5000)%nat /\ room (n + moved t) r end.
Definition line_ok (l : line) : Prop := let '(ty, w, t) := l in ~ is_blank ty /\ quotable w /\ quotable t /\ (List.length w <= 4999)%nat.
(** Lines of a dictionary that can be used: types t, s, d, x; words of at most 180 bytes, except in texts; no modifiers *)
Definition usable (l : line) : Prop :=
  let '(ty, w, t) := l in In ty [116; 115; 100; 120] /\ (ty = 115 \/ (List.length w <= 180 /\ List.length t <= 180)%nat) /\
  w <> [] /\ t <> [] /\ ~ In 35 w /\ ~ In 35 t.
(** Two lines of one type have different words and different translations. *)
Definition unlike (a b : line) : Prop := let '(ty, w, t) := a in let '(ty', w', t') := b in ty = ty' -> In ty [116; 115] -> w <> w' /\ t <> t'.
