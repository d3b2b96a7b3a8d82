(** Commands for the shell, replies from the network, the command line; independent of the code. *)
From Verif Require Import Common Txt.
From Coq Require Import String.
Local Open Scope N_scope.

(** The words of a line of the shell: separated by spaces, single quotes take everything literally.  [q]: within quotes; [w]: the word
    so far, if one has begun. *)
Definition so_far (w : option text) : text := match w with Some u => u | None => [] end.
Fixpoint words_from (q : bool) (w : option text) (t : text) : list text :=
  match t with
  | [] => match w with Some u => [u] | None => [] end
  | c :: r =>
      if q then if c =? 39 then words_from false w r else words_from true (Some (so_far w ++ [c])) r
      else if c =? 32 then match w with Some u => u :: words_from false None r | None => words_from false None r end
      else if c =? 39 then words_from true (Some (so_far w)) r
      else words_from false (Some (so_far w ++ [c])) r
  end.
Definition shell_words : text -> list text := words_from false None.
Definition unquoted (t : text) : Prop := Forall (fun c => c <> 39) t.

(** The terminal with the command as one word in quotes; the command alone; without TERMINAL there is a usual one.  Both lines are
    limited to 499 bytes, their patterns included. *)
Definition quoted_line (t c : text) : text := (t ++ [32; 39] ++ c ++ [39])%list.
Definition plain_line (c : text) : text := (32 :: c).
Definition terminal_of (t : option text) : text := match t with Some t => t | None => lit "/usr/bin/x-terminal-emulator -e" end.
Definition fits1 (t c : text) : bool := negb (500 <=? 7 + List.length t + List.length c)%nat.
Definition fits2 (c : text) : bool := negb (500 <=? 5 + List.length c)%nat.

(** What a command line asks for; [program] is the name Citrine was called by. *)
Inductive wish := Welcome | Run (file : text) | Guarded (file : text) | Tree (file : text) | Translate (dict file : text) | Dictionary (f1 f2 : text)
  | Usage_translate | Usage_dictionary.
Definition option_like (t : text) : Prop := exists c r, t = 45 :: c :: r /\ In c [120; 103; 116; 115].
Inductive asks : list text -> wish -> Prop :=
| a_none p : asks [p] Welcome
| a_run p f r : ~ option_like f -> asks (p :: f :: r) (Run f)
| a_guarded p f r : asks (p :: [45; 115] :: f :: r) (Guarded f)
| a_tree p f r : asks (p :: [45; 120] :: f :: r) (Tree f)
| a_translate p d f r : asks (p :: [45; 116] :: d :: f :: r) (Translate d f)
| a_dictionary p f1 f2 r : asks (p :: [45; 103] :: f1 :: f2 :: r) (Dictionary f1 f2)
| a_usage_t p r : (List.length r < 2)%nat -> asks (p :: [45; 116] :: r) Usage_translate
| a_usage_g p r : (List.length r < 2)%nat -> asks (p :: [45; 103] :: r) Usage_dictionary.

(** small letters, for the letters A to Z *)
Definition small (c d : N) : Prop := (65 <= c <= 90 /\ d = c + 32) \/ (~ 65 <= c <= 90 /\ d = c).
