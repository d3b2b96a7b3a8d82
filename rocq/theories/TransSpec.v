(** Specification of translation: a program is a sequence of pieces, each with the white space and the comments before it
    and with the corresponding piece of the other language. *)
From Verif Require Import Common TextModel NumModel LexModel TransModel.
Open Scope nat_scope.

(** Every piece with its two texts: the one of this language and the one of the other. *)
Inductive piece :=
| Word (w w' : text)                                  (* a name or a message without arguments *)
| Key (k k' : text)                                   (* a part of a message with arguments *)
| Param (w w' : text)                                 (* a parameter of a block *)
| Text (s s' : text)                                  (* a text between quotation marks *)
| Num (n n' : text)                                   (* a number *)
| Open | Close | BOpen | BClose | Dot | Chain | Assign | Return.
Definition program : Type := list (text * piece).

(** The program in the language [d]. *)
Definition render_piece (d : dict) (p : piece) : text :=
  match p with
  | Word w _ => w
  | Key k _ => k ++ [d_prefix d]
  | Param w _ => d_prefix d :: w
  | Text s _ => d_qo d ++ s ++ d_qc d
  | Num n _ => n
  | Open => [40%N] | Close => [41%N] | BOpen => [123%N] | BClose => [125%N]
  | Dot => d_eol d | Chain => d_chain d | Assign => d_assign d | Return => d_return d
  end.
Fixpoint render (d : dict) (l : program) : text :=
  match l with [] => [] | (ws, p) :: l' => ws ++ render_piece d p ++ render d l' end.
(** The same program seen from the other language. *)
Definition mirror_piece (p : piece) : piece :=
  match p with
  | Word w w' => Word w' w | Key k k' => Key k' k | Param w w' => Param w' w
  | Text s s' => Text s' s | Num n n' => Num n' n | _ => p
  end.
Definition mirror (l : program) : program := map (fun '(ws, p) => (ws, mirror_piece p)) l.
(** The layout the translator writes: nothing before dots and commas, one space before the signs for assignment, return
    and parameter. *)
Definition tidy_space (p : piece) (ws : text) : text :=
  match p with Dot | Chain => [] | Assign | Return | Param _ _ => [32%N] | _ => ws end.
Definition tidy (l : program) : program := map (fun '(ws, p) => (tidy_space p ws, p)) l.

(** ** Messages *)
(** The parts of the message in progress that still follow, at the same level, up to the end of the expression. *)
Fixpoint later (n : nat) (l : program) : list (text * text) :=
  match l with
  | [] => []
  | (_, p) :: l' =>
      match p with
      | Key k k' => if n =? 0 then (k, k') :: later n l' else later n l'
      | Dot | Chain => if n =? 0 then [] else later n l'
      | Close | BClose => if n =? 0 then [] else later (n - 1) l'
      | Open | BOpen => later (S n) l'
      | _ => later n l'
      end
  end.
Definition whole (c : N) (ks : list text) : text := concat (map (fun k => k ++ [c]) ks).

(** Levels of brackets: the kind (true for a parenthesis), and whether a message with arguments is in progress. *)
Definition levels : Type := list (bool * bool).
Definition in_message (st : levels) : bool := match st with (_, f) :: _ => f | [] => false end.
Definition next (st : levels) (p : piece) : option levels :=
  match p, st with
  | (Dot | Chain), (b, _) :: st' => Some ((b, false) :: st')
  | Key _ _, (b, _) :: st' => Some ((b, true) :: st')
  | Open, _ => Some ((true, false) :: st)
  | BOpen, _ => Some ((false, false) :: st)
  | Close, (true, _) :: ((_ :: _) as st') => Some st'
  | BClose, (false, false) :: ((_ :: _) as st') => Some st'
  | (Assign | Return | Param _ _), (_, false) :: _ => Some st
  | (Word _ _ | Text _ _ | Num _ _), _ :: _ => Some st
  | _, _ => None
  end.

(** ** Languages *)
Definition among (c : N) (l : list N) : bool := existsb (N.eqb c) l.
Definition digit (c : N) : bool := ((48 <=? c) && (c <=? 57))%N.
Definition bracket (c : N) : bool := among c [40; 41; 123; 125]%N.
(** Neither text begins with the other. *)
Fixpoint distinct (a b : text) : bool :=
  match a, b with x :: a, y :: b => if (x =? y)%N then distinct a b else true | _, _ => false end.
(** Bytes that begin no sign of a language. *)
Definition plain (c : N) : bool := negb (among c [32; 9; 13; 10; 35; 45; 92; 0]%N || bracket c || digit c).
Fixpoint tails (t : text) : list text := match t with [] => [] | _ :: r => t :: tails r end.
(** Inside of [m] there is no bracket, no digit and no opening quotation mark. *)
Definition inert (d : dict) (m : text) : bool :=
  forallb (fun t => negb (bracket (hd 0%N t)) && negb (digit (hd 0%N t)) && distinct t (d_qo d)) (tails m).
(** And nothing that ends an expression. *)
Definition silent (d : dict) (m : text) : bool :=
  inert d m && forallb (fun t => distinct t (d_eol d) && distinct t (d_chain d) && negb (hd 0%N t =? d_prefix d)%N) (tails m).
Definition lang_ok (d : dict) : bool :=
  forallb (fun m => plain (hd 0%N m)) [d_eol d; d_chain d; d_assign d; d_return d; d_qo d]
  && plain (d_prefix d) && (2 <=? length (d_assign d))
  && (1 <=? length (d_qo d)) && (length (d_qo d) <=? 10) && (1 <=? length (d_qc d)) && (length (d_qc d) <=? 10)
  && forallb (fun m => negb (hd 0%N m =? d_prefix d)%N) [d_eol d; d_chain d; d_qo d; d_return d]
  && distinct (d_chain d) (d_eol d)
  && forallb (distinct (d_assign d)) [d_eol d; d_chain d]
  && forallb (distinct (d_return d)) [d_eol d; d_chain d; d_assign d; [58; 61]%N]
  && forallb (distinct (d_qo d)) [d_eol d; d_chain d; d_assign d; [58; 61]%N; d_return d]
  && forallb (inert d) [d_eol d; d_chain d; d_assign d; d_return d] && silent d (tl (d_qc d)) && silent d (tl (d_eol d)) && silent d (tl (d_chain d))
  && forallb (fun m => negb (last m 0 =? d_prefix d)%N) [d_eol d; d_chain d; d_assign d; d_return d; d_qc d]
  && (match d_dec d, d_tho d with
      | [x], [y] => forallb (fun c => negb (bracket c) && negb (digit c) && negb (c =? 45)%N && negb (c =? d_prefix d)%N && negb (c =? hd 0 (d_qo d))%N) [x; y] && negb (x =? y)%N
      | _, _ => false
      end).
(** The second language calls the signs by other names; in both, the signs contain no prefix. *)
Definition known (T : tdict) (ty : N) (w w' : text) : bool :=
  existsb (fun e => (e_type e =? ty)%N && text_eqb (e_word e) w && text_eqb (e_trans e) w') (t_entries T).
Definition no_prefix (d : dict) (m : text) : bool := negb (among (d_prefix d) (tl m)).
Definition marks (d : dict) : list text := [d_eol d; d_chain d; d_assign d; d_return d; d_qo d; d_qc d; [d_prefix d]].
Definition dict_ok (d d' : dict) (T : tdict) : bool :=
  forallb (fun '(m, m') => known T ty_t m m' && no_prefix d m && no_prefix d' m') (combine (marks d) (marks d'))
  && text_eqb (e_word (t_dec T)) (d_dec d) && text_eqb (e_trans (t_dec T)) (d_dec d')
  && text_eqb (e_word (t_tho T)) (d_tho d) && text_eqb (e_trans (t_tho T)) (d_tho d')
  && (t_prefix T =? d_prefix d')%N.
(** No two entries of one type for the same word. *)
Fixpoint unambiguous (es : list entry) : bool :=
  match es with
  | [] => true
  | e :: es' => forallb (fun e' => negb ((e_type e =? e_type e')%N && text_eqb (e_word e) (e_word e'))) es' && unambiguous es'
  end.

(** ** Pieces, followed by [rest] *)
(** Where no sign of the language begins. *)
Definition sign (d : dict) (code : text) : bool :=
  existsb (fun m => starts m code) [d_eol d; d_chain d; d_assign d; d_qo d]
  || among (hd 0%N code) [32; 9; 13; 10; 40; 41; d_prefix d]%N.
Definition clear (d : dict) (code : text) : bool := negb (sign d code || starts [58; 61]%N code).
Definition word_ok (d : dict) (w rest : text) : bool :=
  (1 <=? length w) && (length w <=? 255)
  && forallb (fun i => clear d (skipn i w ++ rest)) (seq 0 (length w))
  && forallb (fun c => negb (among c [35; 123; 125]%N)) w
  && negb (digit (hd 0%N w)) && negb ((hd 0 w =? 45)%N && digit (hd 0%N (tl (w ++ rest))))
  && negb (starts (d_return d) (w ++ rest) && (hd 0 (skipn (length (d_return d)) (w ++ rest)) =? 32)%N)
  && ((length rest =? 0) || sign d rest).
Definition text_ok (d : dict) (s rest : text) : bool :=
  negb (among 92%N s)
  && forallb (fun i => let t := skipn i s ++ d_qc d ++ rest in negb (starts (d_qo d) t) && negb (starts (d_qc d) t)) (seq 0 (length s))
  && forallb (fun t => negb (starts (d_qc d) (t ++ s ++ d_qc d ++ rest))) (tails (tl (d_qo d))).
(** A number: digits, separated by [y] in the whole part, and after [x] more digits. *)
Definition begins_digit (t : text) : bool := match t with c :: _ => digit c | [] => false end.
Fixpoint fraction_ok (n : text) : bool := match n with [] => true | c :: r => digit c && fraction_ok r end.
Fixpoint whole_ok (x y : N) (n : text) : bool :=
  match n with
  | [] => true
  | c :: r => if digit c then whole_ok x y r
              else if (c =? y)%N then begins_digit r && whole_ok x y r
              else (c =? x)%N && begins_digit r && fraction_ok r
  end.
Definition begins (c : N) (t : text) : bool := match t with x :: _ => (x =? c)%N | [] => false end.
Definition unsigned (n : text) : text := match n with c :: r => if (c =? 45)%N then r else n | [] => n end.
Definition num_ok (d : dict) (n rest : text) : bool :=
  match d_dec d, d_tho d with
  | [x], [y] =>
      (length n <=? 255) && begins_digit (unsigned n) && whole_ok x y (unsigned n) && negb (begins_digit rest)
      && negb ((begins x rest || begins y rest) && begins_digit (tl rest))
  | _, _ => false
  end.
(** Every separator is followed by two digits. *)
Fixpoint wide (n : text) : bool :=
  match n with
  | [] => true
  | c :: r => (digit c || (c =? 45)%N || (begins_digit r && begins_digit (tl r))) && wide r
  end.
(** The second byte behind a sign that ends an expression is not a digit, if the sign is a separator. *)
Definition calm (d : dict) (code : text) : bool :=
  negb (existsb (fun s => starts s code) [d_dec d; d_tho d] && (2 <? length code) && digit (nth 2 code 0%N)).
(** The number in the other language. *)
Definition translate_byte (d d' : dict) (c : N) : text :=
  if starts (d_dec d) [c] then d_dec d' else if starts (d_tho d) [c] then d_tho d' else [c].

Definition parts_of (k : text * text) (l : program) : list (text * text) := k :: later 0 l.
Definition piece_ok (d d' : dict) (T : tdict) (st : levels) (ws : text) (p : piece) (l : program) (rest : text) : bool :=
  match p with
  | Word w w' => word_ok d w rest && negb (begins (d_prefix d) rest) && known T ty_t w w' && no_prefix d' w'
  | Param w w' =>
      word_ok d w rest && negb (begins (d_prefix d) rest) && known T ty_t w w' && no_prefix d' w'
      && negb (starts (d_assign d) (d_prefix d :: w ++ rest)) && negb (starts [58; 61]%N (d_prefix d :: w ++ rest))
  | Key k k' =>
      word_ok d k (d_prefix d :: rest)
      && negb (starts (d_assign d) (d_prefix d :: rest)) && negb (starts [58; 61]%N (d_prefix d :: rest))
      && among (last ws 0%N) [32; 9; 10]%N && (1 <=? length k') && negb (among (d_prefix d') k')
      && (length (whole (d_prefix d) (map fst (parts_of (k, k') l))) <=? 180)
      && (in_message st
          || known T ty_t (whole (d_prefix d) (map fst (parts_of (k, k') l))) (whole (d_prefix d') (map snd (parts_of (k, k') l)))
             && (length (whole (d_prefix d') (map snd (parts_of (k, k') l))) <=? 180))
  | Text s s' =>
      text_ok d s rest
      && (if 100 <? length s then text_eqb s' s
          else known T ty_s s s'
               || text_eqb s' s && forallb (fun e => negb ((e_type e =? ty_s)%N && text_eqb (e_word e) s)) (t_entries T))
  | Num n n' =>
      num_ok d n rest && text_eqb n' (flat_map (translate_byte d d') n)
      && forallb (fun c => negb (starts (d_dec d) [c]) && negb (starts (d_tho d) [c])) ws
      && (negb (in_message st) || wide n)
  | Dot => negb (in_message st) || calm d (d_eol d ++ rest)
  | Chain => negb (in_message st) || calm d (d_chain d ++ rest)
  | Return => begins 32%N rest
  | _ => true
  end.
Definition space (c : N) : bool := among c [32; 9; 13; 10]%N.
(** White space and comments; [note] tells that the text begins inside of a comment, which a new line ends. *)
Fixpoint blank (note : bool) (t : text) : bool :=
  match t with
  | [] => negb note
  | c :: r => if note then blank (negb (c =? 10)%N) r else if (c =? 35)%N then blank true r else space c && blank false r
  end.
(** While parts of a message may follow, a comment contains no bracket and no opening quotation mark, and at the level of
    the message nothing that ends an expression or a part. *)
Definition discreet (d : dict) (t : text) : bool := forallb (fun t => negb (bracket (hd 0%N t)) && distinct t (d_qo d)) (tails t).
Definition endless (d : dict) (t : text) : bool :=
  forallb (fun t => distinct t (d_eol d) && distinct t (d_chain d) && negb (hd 0%N t =? d_prefix d)%N) (tails t).
Definition unnoticed (d : dict) (st : levels) (t : text) : bool :=
  (negb (existsb snd st) || discreet d t) && (negb (in_message st) || endless d t).
(** The program [l], followed by [trail], is written properly in the language [d], and all its words occur in the
    dictionary.  A comment at the end needs no new line. *)
Fixpoint well_formed (d d' : dict) (T : tdict) (st : levels) (l : program) (trail : text) : bool :=
  match l with
  | [] => (length st =? 1) && blank false (trail ++ [10%N]) && unnoticed d st trail
  | (ws, p) :: l' =>
      blank false ws && unnoticed d st ws && piece_ok d d' T st ws p l' (render d l' ++ trail)
      && match next st p with Some st' => well_formed d d' T st' l' trail | None => false end
  end.

(** ** Lines of dictionaries *)
(** No modifiers. *)
Definition plain_line (l : N * text * text) : bool := let '(_, w, t) := l in negb (among 35 w) && negb (among 35 t).
(** A modifier, which ends in #, in front of the translation. *)
Definition bare (t w : text) : Prop := t = w /\ ~ In 35%N t \/ exists m, t = m ++ 35%N :: w /\ ~ In 35%N m.
Definition entry_of (l : N * text * text) : entry := let '(ty, w, t) := l in mkEntry ty w t.
Definition is_word (l : N * text * text) : bool := let '(ty, _, _) := l in ((ty =? ty_t) || (ty =? ty_s))%N.
(** The entries for words and texts. *)
Definition words_of (ls : list (N * text * text)) : list entry := map entry_of (filter is_word ls).
Definition ends_in_word (ls : list (N * text * text)) : bool := match rev ls with l :: _ => is_word l | [] => false end.
(** The reverse dictionary. *)
Definition swap (l : N * text * text) : N * text * text := let '(ty, w, t) := l in (ty, t, w).
Definition backwards (ls : list (N * text * text)) : list (N * text * text) := map swap ls.
(** Texts fit for both sides of a line. *)
Definition short_line (l : N * text * text) : bool := let '(_, w, t) := l in (1 <=? length w) && (1 <=? length t).
