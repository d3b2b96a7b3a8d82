(** The lexer (lexer.c).

    A program is the list of its bytes up to [ctr_eofcode]; it is followed by a NUL
    (world.c 68, memory.c 279).  The code pointer is modelled by the bytes
    between it and the end.  Line numbers are left out: they only appear in messages.
    [starts sep code] is [strncmp (code, sep, strlen (sep)) == 0] ([LexProofs.starts_strncmp]);
    [isdigit] of a byte above 127 is taken to be false. *)
From Verif Require Import Common TextModel NumModel.
Open Scope nat_scope.

(** The words of a language (i18n/xx/dictionary.h 6, 179-190 and so on). *)
Record dict := mkDict {
  d_eol : text; d_chain : text; d_assign : text; d_return : text;
  d_qo : text; d_qc : text; d_dec : text; d_tho : text; d_prefix : N;
  d_my : text; d_var : text }.

(** What the lexer does: a result, the end of the process by [exit (1)], or undefined
    behaviour. *)
Inductive lres (A : Type) := LOk (a : A) | LExit | LUB.
Arguments LOk {A} a. Arguments LExit {A}. Arguments LUB {A}.
Definition lbind {A B} (o : lres A) (f : A -> lres B) : lres B :=
  match o with LOk a => f a | LExit => LExit | LUB => LUB end.
Notation "'lx' x <- o ; f" := (lbind o (fun x => f))
  (at level 200, x pattern, o at level 100, f at level 200, right associativity).

(** citrine.h 58-73 (token kinds the lexer produces) *)
Inductive token := TREF | TQUOTE | TNUMBER | TPAROPEN | TPARCLOSE | TBLOCKOPEN | TBLOCKCLOSE
  | TCOLON | TDOT | TCHAIN | TASSIGN | TRET | TFIN.

(** lexer.c 3: size of the token buffer *)
Definition bflmt : nat := 255.

(** lexer.c 61-63, [_isspace] *)
Definition isspace (c : N) : bool := ((c =? 32) || (c =? 9) || (c =? 13) || (c =? 10))%N.
(** [*(code + k)]; the NUL behind the program can be read, nothing behind it *)
Definition peek (code : text) (k : nat) : N := nth k code 0%N.

(** [strncmp (code, ":=", n)] for the given [n] *)
Definition colon_eq (n : nat) (code : text) : bool :=
  match n with
  | 0 => true
  | 1 => starts [58%N] code
  | 2 => starts [58%N; 61%N] code
  | _ => starts [58%N; 61%N] code && (peek code 2 =? 0)%N
  end.
(** lexer.c 74-100, [ctr_clex_is_delimiter] *)
Definition is_delimiter (d : dict) (code : text) : bool :=
  starts (d_eol d) code || starts (d_qo d) code || starts (d_assign d) code
  || colon_eq (length (d_assign d)) code || starts (d_chain d) code
  || (let c := peek code 0 in
      (c =? 40) || (c =? 41) || (c =? d_prefix d) || (c =? 32) || (c =? 10) || (c =? 9) || (c =? 13))%N.

(** lexer.c 239-253: white space and comments; [comment] tells that the inner loop over a
    comment is running *)
Fixpoint skip (comment : bool) (code : text) : text :=
  match code with
  | [] => []
  | c :: r =>
      if comment then (if (c =? 10)%N then skip false r else skip true r)
      else if isspace c then skip false r
      else if (c =? 35)%N then skip true r
      else code
  end.

(** One byte into the token buffer. *)
Definition put (out : text) (c : N) : lres text :=
  if (length out <? bflmt)%nat then LOk (out ++ [c]) else LUB.

(** lexer.c 296-313: the digits of the whole part, thousands separators left out.  [code] is
    at a digit or behind the digits; [fuel] is the number of bytes left. *)
Fixpoint num_whole (d : dict) (fuel : nat) (code out : text) : lres (text * text) :=
  match fuel, code with
  | S f, c :: r =>
      if isdigit c then
        lx out' <- put out c;
        let r' := if starts (d_tho d) r && (length (d_tho d) + 1 <=? length r)
                     && isdigit (peek r (length (d_tho d)))
                  then skipn (length (d_tho d)) r else r in
        num_whole d f r' out'
      else LOk (out, code)
  | _, _ => LOk (out, code)
  end.
(** lexer.c 329-334 *)
Fixpoint num_frac (code out : text) : lres (text * text) :=
  match code with
  | c :: r => if isdigit c then lx out' <- put out c; num_frac r out' else LOk (out, code)
  | [] => LOk (out, code)
  end.
(** lexer.c 289-336: a number *)
Definition lex_number (d : dict) (code : text) : lres (text * text) :=
  lx (code, out) <- (match code with
                     | c :: r => if (c =? 45)%N then lx o <- put [] c; LOk (r, o) else LOk (code, [])
                     | [] => LOk (code, [])
                     end);
  lx (out, code) <- num_whole d (length code) code out;
  if starts (d_eol d) code && (length (d_eol d) <=? length code)
     && negb (isdigit (peek code (length (d_eol d))))
  then LOk (out, code)
  else
    lx (out, code) <- (if (length (d_dec d) + 1 <=? length code)
                          && isdigit (peek code (length (d_dec d))) && starts (d_dec d) code
                       then lx o <- put out 46%N; LOk (o, skipn 1 code)
                       else LOk (out, code));
    num_frac code out.

(** lexer.c 337-350: a reference.  A [#] inside sets the index back to 0 after having been
    written, so that the first byte stays in the buffer. *)
Fixpoint lex_ref (d : dict) (code out : text) : lres (text * text) :=
  match code with
  | [] => LOk (out, code)
  | c :: r =>
      if is_delimiter d code then LOk (out, code)
      else
        lx out1 <- put out c;
        let out2 := if (c =? 35)%N && (0 <? length out)%nat then firstn 1 out1 else out1 in
        if (bflmt <? length out2)%nat then LExit else lex_ref d r out2
  end.

(** lexer.c 230-352, [ctr_clex_tok]: the token, its value and the code behind it *)
Definition tok (d : dict) (code : text) : lres (token * text * text) :=
  let code := skip false code in
  match code with
  | [] => LOk (TFIN, [], [])
  | c :: r =>
      if (c =? 40)%N then LOk (TPAROPEN, [], r)
      else if (c =? 41)%N then LOk (TPARCLOSE, [], r)
      else if (c =? 123)%N then LOk (TBLOCKOPEN, [], r)
      else if (c =? 125)%N then LOk (TBLOCKCLOSE, [], r)
      else if starts (d_eol d) code then LOk (TDOT, [], skipn (length (d_eol d)) code)
      else if starts (d_chain d) code then LOk (TCHAIN, [], skipn (length (d_chain d)) code)
      else if starts (d_assign d) code then LOk (TASSIGN, [], skipn (length (d_assign d)) code)
      else if starts [58%N; 61%N] code then LOk (TASSIGN, [], skipn 2 code)
      else if (c =? d_prefix d)%N then LOk (TCOLON, [], r)
      else if starts (d_return d) code && (peek code (length (d_return d)) =? 32)%N
      then LOk (TRET, [], skipn (length (d_return d)) code)
      else if starts (d_qo d) code then LOk (TQUOTE, [], skipn (length (d_qo d)) code)
      else if ((c =? 45)%N && (2 <=? length code) && isdigit (peek code 1)) || isdigit c
      then lx (v, rest) <- lex_number d code; LOk (TNUMBER, v, rest)
      else lx (v, rest) <- lex_ref d code []; LOk (TREF, v, rest)
  end.

(** ** Text literals *)
(** lexer.c 394-448: the byte an escape sequence stands for *)
Definition unescape (c : N) : N :=
  if (c =? 110)%N then 10%N        (* n *)
  else if (c =? 114)%N then 13%N   (* r *)
  else if (c =? 116)%N then 9%N    (* t *)
  else if (c =? 118)%N then 11%N   (* v *)
  else if (c =? 98)%N then 8%N     (* b *)
  else if (c =? 97)%N then 7%N     (* a *)
  else if (c =? 102)%N then 12%N   (* f *)
  else if (c =? 48)%N then 0%N     (* 0 *)
  else c.
(** UTF-8 of the signs for a new line and a tab (lexer.c 450, 456) *)
Definition newline_sign : text := [226; 134; 181]%N.
Definition tab_sign : text := [226; 135; 191]%N.

(** Bytes appended to the growing buffer of [block] bytes; UB beyond it. *)
Definition emit (out : text) (block : nat) (s : text) : lres text :=
  if (length out + length s <=? block)%nat then LOk (out ++ s) else LUB.
(** lexer.c 483-491 *)
Definition grow (out : text) (block : nat) : nat :=
  if (block <=? length out + 10)%nat then block + 100 else block.

(** lexer.c 376-493, the loop of [ctr_clex_readstr]; [verb] is [ctr_clex_ignore_modes]
    (verbatim copy for the translator), [nest] is a [size_t]. *)
Fixpoint str_loop (d : dict) (verb : bool) (fuel : nat) (code : text) (out : text) (block : nat)
                  (nest : Z) (esc : bool) : lres (text * text) :=
  match fuel, code with
  | S f, c :: r =>
      if (length code <=? length (d_qc d))%nat then LOk (out, code)
      else if starts (d_qc d) code && (nest =? 0)%Z && negb esc then LOk (out, code)
      else if (c =? 92)%N && negb esc then
        lx out1 <- (if verb then emit out block [92%N] else LOk out);
        str_loop d verb f r out1 block nest true
      else
        let next code' s nest' :=
          lx out1 <- emit out block s;
          str_loop d verb f code' out1 (grow out1 block) nest' false in
        if esc then next r [unescape c] nest
        else if negb verb && starts newline_sign code then next (skipn 3 code) [10%N] nest
        else if negb verb && starts tab_sign code then next (skipn 3 code) [9%N] nest
        else if starts (d_qc d) code then
          next (skipn (length (d_qc d)) code) (d_qc d) (if verb then nest else wrap64 (nest - 1))
        else if starts (d_qo d) code then
          next (skipn (length (d_qo d)) code) (d_qo d) (if verb then nest else wrap64 (nest + 1))
        else next r [c] nest
  | _, _ => LOk (out, code)
  end.
(** lexer.c 363-498, [ctr_clex_readstr]: the contents and the code behind the literal *)
Definition readstr (d : dict) (verb : bool) (code : text) : lres (text * text) :=
  lx (out, code) <- str_loop d verb (length code) code [] 100 0 false;
  LOk (out, if (length (d_qc d) <=? length code)%nat then skipn (length (d_qc d)) code else code).

(** base.c 1830-1863, [ctr_string_to_code].  The text buffer [t] has no terminator: a
    comparison that does not end inside it is [UB].  [quotes] holds [char]s. *)
Definition schar (i : Z) : Z := let m := (i mod 256)%Z in if (m <? 128)%Z then m else (m - 256)%Z.
(** base.c 1838-1847 *)
Fixpoint find_quotes (d : dict) (t : text) (i : Z) : outcome (list Z) :=
  match t with
  | [] => Ok []
  | _ :: r =>
      do a <- strncmp t (d_qo d) (length (d_qo d));
      do hit <- (if (a =? 0)%Z then Ok true
                 else do b <- strncmp t (d_qc d) (length (d_qc d)); Ok (b =? 0)%Z);
      do rest <- find_quotes d r (i + 1)%Z;
      Ok (if hit then schar i :: rest else rest)
  end.
(** base.c 1851-1857; [i == quotes[j]] compares a [size_t] with a sign-extended [char] *)
Fixpoint mark_quotes (t : text) (i : Z) (quotes : list Z) : text :=
  match t with
  | [] => []
  | c :: r =>
      match quotes with
      | q :: qs => if (i =? wrap64 q)%Z then 92%N :: c :: mark_quotes r (i + 1) qs
                   else c :: mark_quotes r (i + 1) quotes
      | [] => c :: mark_quotes r (i + 1) []
      end
  end.
(** The answer is built from a C string: it ends at the first NUL. *)
Fixpoint upto_nul (t : text) : text :=
  match t with [] => [] | c :: r => if (c =? 0)%N then [] else c :: upto_nul r end.
Definition string_to_code (d : dict) (t : text) : outcome text :=
  do qs <- find_quotes d t 0;
  Ok (upto_nul (d_qo d ++ mark_quotes t 0 qs ++ d_qc d)).
