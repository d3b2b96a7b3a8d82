(** Independent specification of text operations: nothing here mentions the model. *)
From Verif Require Import Common.

(** One UTF-8 character: a lead byte announcing k continuation bytes, followed by exactly
    k bytes in 0x80..0xBF. *)
Definition cont (b : N) : Prop := (128 <= b <= 191)%N.
Inductive is_char : text -> Prop :=
| ch1 b : (b < 128)%N -> is_char [b]
| ch2 b c1 : (192 <= b <= 223)%N -> cont c1 -> is_char [b; c1]
| ch3 b c1 c2 : (224 <= b <= 239)%N -> cont c1 -> cont c2 -> is_char [b; c1; c2]
| ch4 b c1 c2 c3 : (240 <= b <= 247)%N -> cont c1 -> cont c2 -> cont c3 ->
    is_char [b; c1; c2; c3].

(** A text is well formed if it is a sequence of characters. *)
Definition chars_of (t : text) (cs : list text) : Prop := Forall is_char cs /\ t = concat cs.

Definition is_ascii (t : text) : Prop := Forall (fun b => (b < 128)%N) t.
Definition no_nul (t : text) : Prop := Forall (fun b => b <> 0%N) t.

(** [p] occurs in [t] at byte offset [i]. *)
Definition occurs_at (t p : text) (i : nat) : Prop :=
  exists pre post, t = pre ++ p ++ post /\ length pre = i.
Definition occurs (t p : text) : Prop := exists i, occurs_at t p i.
Definition first_at (t p : text) (i : nat) : Prop :=
  occurs_at t p i /\ forall j, occurs_at t p j -> i <= j.
Definition last_at (t p : text) (i : nat) : Prop :=
  occurs_at t p i /\ forall j, occurs_at t p j -> j <= i.

(** Replacing the leftmost non-overlapping occurrences of [p] by [r]. *)
Inductive replaced (p r : text) : text -> text -> Prop :=
| repl_done t : ~ occurs t p -> replaced p r t t
| repl_step pre post out :
    first_at (pre ++ p ++ post) p (length pre) ->
    replaced p r post out ->
    replaced p r (pre ++ p ++ post) (pre ++ r ++ out).

(** Parts joined by a separator. *)
Fixpoint joined (d : text) (parts : list text) : text :=
  match parts with
  | [] => []
  | [p] => p
  | p :: ps => p ++ d ++ joined d ps
  end.

(** White space. *)
Definition ws (c : N) : Prop := In c [9; 10; 11; 12; 13; 32]%N.
Definition trimmed (t s : text) : Prop :=
  (exists l r, t = l ++ s ++ r /\ Forall ws l /\ Forall ws r) /\
  (forall c s', s = c :: s' -> ~ ws c) /\
  (forall c s', s = s' ++ [c] -> ~ ws c).

(** Case conversion of a single byte. *)
Definition upper_of (c d : N) : Prop :=
  ((97 <= c <= 122)%N /\ (d + 32 = c)%N) \/ (~ (97 <= c <= 122)%N /\ d = c).
Definition lower_of (c d : N) : Prop :=
  ((65 <= c <= 90)%N /\ (d = c + 32)%N) \/ (~ (65 <= c <= 90)%N /\ d = c).

(** Lexicographic order on byte strings. *)
Fixpoint lex (a b : text) : comparison :=
  match a, b with
  | [], [] => Eq
  | [], _ => Lt
  | _, [] => Gt
  | x :: a', y :: b' => match N.compare x y with Eq => lex a' b' | c => c end
  end.

(** A text that fits in memory: its byte count is a non-negative [long]. *)
Definition fits (t : text) : Prop := (Z.of_nat (length t) <= LONG_MAX)%Z.

(** The bytes in front of the first NUL. *)
Fixpoint upto_nul (t : text) : text :=
  match t with [] => [] | c :: t' => if (c =? 0)%N then [] else c :: upto_nul t' end.

(** The sequence of characters [ps] occurs in [cs] behind the first [k] characters. *)
Definition chars_at (cs ps : list text) (k : nat) : Prop :=
  exists pre post, cs = pre ++ ps ++ post /\ length pre = k.

(** Cutting a sequence of characters at every occurrence of the character [d]. *)
Fixpoint split_chars (d : text) (cs : list text) (cur : list text) : list (list text) :=
  match cs with
  | [] => [cur]
  | c :: cs' => if text_eqb c d then cur :: split_chars d cs' [] else split_chars d cs' (cur ++ [c])
  end.

(** The sign that goes with a comparison. *)
Definition sgn_of (c : comparison) : Z := match c with Eq => 0 | Lt => -1 | Gt => 1 end%Z.

(** what [strncmp] over equal lengths compares: the bytes up to the first NUL *)
Definition same_text (s t : text) : Prop := length s = length t /\ upto_nul s = upto_nul t.
