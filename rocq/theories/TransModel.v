(** Model of the translator (translator.c) with the two scans it uses (lexer.c).

    Positions are offsets into the program.  The output is what is written to stdout; warnings
    (stderr) are left out.  A dictionary file is given as the list of its lines, as read by
    [fscanf] (translator.c 300): a type, a word and a translation, neither of them empty.  Neither the program nor the
    lines contain NULs. *)
From Verif Require Import Common TextModel NumModel LexModel.
Open Scope nat_scope.

(** translator.c 3, [CTR_TRANSLATE_MAX_WORD_LEN] *)
Definition max_word : nat := 180.
(** translator.c 13-20 *)
Record entry := mkEntry { e_type : N; e_word : text; e_trans : text }.
(** The loaded dictionary: the entries, newest first; [ctr_trans_d], [ctr_trans_x] and
    [ctr_clex_param_prefix_char_translation] *)
Record tdict := mkTdict { t_entries : list entry; t_dec : entry; t_tho : entry; t_prefix : N }.

(** The bytes that are types: t, s, d, x *)
Definition ty_t : N := 116. Definition ty_s : N := 115. Definition ty_d : N := 100. Definition ty_x : N := 120.
Definition has (c : N) (t : text) : bool := existsb (N.eqb c) t.
(** [strchr (t, '#') + 1] *)
Fixpoint after_hash (t : text) : option text :=
  match t with [] => None | c :: r => if (c =? 35)%N then Some r else after_hash r end.

(** translator.c 350-371: the test for ambiguous entries *)
Definition clash (modified : bool) (new old : entry) : bool :=
  (e_type old =? e_type new)%N &&
  (text_eqb (e_word old) (e_word new) || (negb modified && text_eqb (e_trans old) (e_trans new))).

(** translator.c 300-372, one line.  [last] is the variable [entry], [es] the list
    [previousEntry]. *)
Record loading := mkLoading { l_es : list entry; l_last : list entry; l_dec : option entry; l_tho : option entry; l_prefix : N }.
Definition load_line (d : dict) (s : loading) (l : N * text * text) : lres loading :=
  let '(ty, word, translation) := l in
  if negb ((ty =? ty_t) || (ty =? ty_s) || (ty =? ty_d) || (ty =? ty_x))%N then LExit
  else if has 35 word then LExit
  else
    let modified := has 35 translation in
    let tr := match after_hash translation with Some r => r | None => translation end in
    if negb (ty =? ty_s)%N && ((max_word <? length word) || (max_word <? length tr)) then LExit
    else
      let e := mkEntry ty word tr in
      if (ty =? ty_d)%N then LOk (mkLoading (l_es s) [e] (Some e) (l_tho s) (l_prefix s))
      else if (ty =? ty_x)%N then LOk (mkLoading (l_es s) [e] (l_dec s) (Some e) (l_prefix s))
      else
        lx pre <- (if starts [d_prefix d] word
                   then match tr with c :: _ => LOk c | [] => LUB end else LOk (l_prefix s));
        if existsb (clash modified e) (l_es s) then LExit
        else LOk (mkLoading (e :: l_es s) (e :: l_es s) (l_dec s) (l_tho s) pre).
Fixpoint load_lines (d : dict) (s : loading) (ls : list (N * text * text)) : lres loading :=
  match ls with [] => LOk s | l :: ls' => lx s' <- load_line d s l; load_lines d s' ls' end.
(** translator.c 283-383, [ctr_translate_load_dictionary]: the answer is the last entry read with those
    linked to it, which for the types d and x are none. *)
Definition load_dictionary (d : dict) (ls : list (N * text * text)) : lres tdict :=
  lx s <- load_lines d (mkLoading [] [] None None 0) ls;
  match l_dec s, l_tho s with
  | Some de, Some th => LOk (mkTdict (l_last s) de th (l_prefix s))
  | _, _ => LExit
  end.

(** translator.c 415-474, [ctr_translate_translate]: [None] if not found; otherwise the bytes written and
    what is copied to [remainder].  [room] tells that [remainder] is not a null pointer. *)
Fixpoint find_entry (es : list entry) (ty : N) (v : text) : option entry :=
  match es with
  | [] => None
  | e :: es' => if text_eqb (e_word e) v && (e_type e =? ty)%N then Some e else find_entry es' ty v
  end.
Definition colons (c : N) (t : text) : nat := count_occ N.eq_dec (tl t) c.
(** Up to the first [c], and the rest. *)
Fixpoint upto (c : N) (t : text) : text * text :=
  match t with
  | [] => ([], [])
  | x :: r => if (x =? c)%N then ([x], r) else let (a, b) := upto c r in (x :: a, b)
  end.
(** The first byte is not looked at (translator.c 437-446). *)
Definition split_tail (c : N) (t : text) : text * text :=
  match t with [] => ([], []) | x :: r => let (a, b) := upto c r in (x :: a, b) end.
Definition translate (d : dict) (T : tdict) (v : text) (ty : N) (room : bool) : lres (option (text * text)) :=
  match find_entry (t_entries T) ty v with
  | Some e =>
      if (ty =? ty_t)%N then
        if negb (colons (d_prefix d) (e_word e) =? colons (t_prefix T) (e_trans e)) then LExit
        else
          let (a, b) := split_tail (t_prefix T) (e_trans e) in
          match b with
          | [] => LOk (Some (a, []))
          | _ => if max_word <? S (length b) then LExit else if room then LOk (Some (a, b)) else LUB
          end
      else LOk (Some (e_trans e, []))
  | None =>
      if (ty =? ty_t)%N && has (d_prefix d) v then
        if negb room then LUB
        else if max_word <=? length v then LUB
        else LOk (Some (upto (d_prefix d) v))
      else LOk None
  end.
(** What is written for a mark of the language, without [remainder]. *)
Definition translate_mark (d : dict) (T : tdict) (v : text) : lres text :=
  lx r <- translate d T v ty_t false; LOk match r with Some (a, _) => a | None => [] end.

(** lexer.c 508-571, [ctr_clex_forward_scan], for a language with ")" as closing
    parenthesis.  The variable [escape] is set back before it is looked at, so it has no effect.  The
    answer is the number of bytes up to the place found. *)
Fixpoint forward_scan (d : dict) (code : text) (nesting blocks : nat) (quote number : bool) : option nat :=
  match code with
  | [] => None
  | c :: r =>
      let sep s := (length s + 1 <? length code) && starts s code && isdigit (peek code (length s + 1)) in
      let number := number && (isdigit c || sep (d_dec d) || sep (d_tho d)) in
      let next n b q nu := match forward_scan d r n b q nu with Some k => Some (S k) | None => None end in
      if negb quote && (c =? 40)%N then next (S nesting) blocks quote number
      else if negb quote && negb (nesting =? 0) && (c =? 41)%N then next (nesting - 1) blocks quote number
      else if negb quote && (c =? 123)%N then next nesting (S blocks) quote number
      else if negb quote && negb (blocks =? 0) && (c =? 125)%N then next nesting (blocks - 1) quote number
      else if negb quote && starts (d_qo d) code then next nesting blocks true number
      else if quote && starts (d_qc d) code then next nesting blocks false number
      else if quote && (c =? 92)%N then next nesting blocks quote number
      else if negb number && isdigit c then next nesting blocks quote true
      else if (nesting =? 0) && negb quote && (blocks =? 0) && negb number &&
              (starts (d_chain d) code || starts (d_eol d) code || (c =? 41)%N || (c =? d_prefix d)%N)
      then Some 0
      else next nesting blocks quote number
  end.
(** lexer.c 573-590, [ctr_clex_backward_scan]: how far before [pos] there is white space or a closing
    bracket, at most [limit] bytes away *)
Fixpoint backward_scan (prg : text) (pos q limit : nat) : option nat :=
  match limit with
  | O => None
  | S limit' =>
      if pos <? q then None
      else
        let c := nth (pos - q) prg 0%N in
        if ((c =? 10) || (c =? 9) || (c =? 32) || (c =? 41) || (c =? 125))%N then Some q
        else backward_scan prg pos (S q) limit'
  end.

(** A note: the position it is attached to, the text attached, the mark
    (translator.c 33-38); the notebook, oldest first. *)
Record note := mkNote { n_at : option nat; n_text : text; n_mark : option nat }.
(** translator.c 106-112, [ctr_notebook_clear_marks] *)
Definition clear_marks (b : list note) : list note := map (fun n => mkNote (n_at n) (n_text n) None) b.
(** translator.c 88-97, [ctr_notebook_remove] *)
Definition notebook_remove (b : list note) : list note :=
  map (fun n => match n_mark n with Some _ => mkNote None (n_text n) None | None => n end) b.
(** translator.c 137-145, [ctr_notebook_search] *)
Definition notebook_search (b : list note) (pos : nat) : option note :=
  find (fun n => match n_at n with Some k => k =? pos | None => false end) b.
(** translator.c 155-167, [ctr_note_grab], with translator.c 121-127, [ctr_note_attach]: the first
    note with the mark; without one the process ends *)
Fixpoint attach (b : list note) (mark : nat) (t : text) : lres (list note) :=
  match b with
  | [] => LExit
  | n :: b' =>
      match n_mark n with
      | Some m => if m =? mark then LOk (mkNote (n_at n) (t ++ skipn (length t) (n_text n)) None :: b')
                  else lx b2 <- attach b' mark t; LOk (n :: b2)
      | None => lx b2 <- attach b' mark t; LOk (n :: b2)
      end
  end.
(** translator.c 180-200, [ctr_note_collect] *)
Fixpoint note_collect (c : N) (b : list note) (mark : nat) (buff rest : text) : lres (list note) :=
  match rest with
  | [] => LOk b
  | x :: r =>
      if (x =? c)%N then lx b' <- attach b mark (buff ++ [x]); note_collect c b' (S mark) [] r
      else note_collect c b mark (buff ++ [x]) r
  end.

(** translator.c 532-555: the loop over the parts of a keyword message.  [i] is relative to
    [e]; [msg] is the message so far. *)
Fixpoint parts (d : dict) (prg : text) (e : nat) (fuel i : nat) (b : list note) (count : nat) (msg : text) : lres (list note * nat * text) :=
  match fuel with
  | O => LUB
  | S f =>
      match forward_scan d (skipn (e + i) prg) 0 0 false false with
      | None => LOk (b, count, msg)
      | Some k =>
          let i := i + k in
          let code := skipn (e + i) prg in
          if ((length (d_eol d) <? length code) && starts (d_eol d) code)
             || ((length (d_chain d) <? length code) && starts (d_chain d) code) || (peek code 0 =? 41)%N
          then LOk (b, count, msg)
          else if (peek code 0 =? d_prefix d)%N then
            match backward_scan prg (e + i) 0 max_word with
            | None => LExit
            | Some q =>
                if max_word <? length msg + q then LExit
                else parts d prg e f (S i) (b ++ [mkNote (Some (e + i)) [] (Some count)]) (S count)
                       (msg ++ firstn q (skipn (e + i - q + 1) prg))
            end
          else parts d prg e f (S i) b count msg
      end
  end.

(** translator.c 503-572, [ctr_translate_ref]: the token [v] ends at [e].  Answer: the new [p], the notebook, the bytes
    written. *)
Definition sub (prg : text) (p e : nat) : text := firstn (e - p) (skipn p prg).
Definition translate_ref (d : dict) (T : tdict) (prg : text) (p e : nat) (v : text) (b : list note) : lres (nat * list note * text) :=
  let l := length v in
  if e - l <? p then LUB
  else
    let before := sub prg p (e - l) in
    let raw := sub prg (e - l) e in
    lx (b, count, msg, skip) <-
      (if (peek (skipn e prg) 0 =? d_prefix d)%N && (e <? length prg) then
         if max_word <? l + 1 then LExit
         else lx (b', count, msg) <- parts d prg e (S (length prg)) 1 (clear_marks b) 0 (raw ++ [d_prefix d]);
              LOk (b', count, msg, 1)
       else LOk (b, 0, v, 0));
    match notebook_search b e with
    | Some n => LOk (e + skip, b, before ++ n_text n)
    | None =>
        lx r <- translate d T msg ty_t true;
        match r with
        | None => LOk (e, notebook_remove b, before ++ raw)
        | Some (a, rest) =>
            lx b' <- (if 0 <? count then note_collect (t_prefix T) b 0 [] rest else LOk b);
            LOk (e + skip, b', before ++ a)
        end
    end.

(** translator.c 479-498, [ctr_translate_string]; [e] is behind the opening quotation mark *)
Definition translate_string (d : dict) (T : tdict) (prg : text) (p e : nat) : lres (nat * text) :=
  lx (s, rest) <- readstr d true (skipn e prg);
  lx qo <- translate_mark d T (d_qo d);
  lx body <- (if 100 <? length s then LOk s
              else lx r <- translate d T s ty_s false; LOk match r with Some (a, _) => a | None => s end);
  lx qc <- translate_mark d T (d_qc d);
  LOk (length prg - length rest, sub prg p (e - length (d_qo d)) ++ qo ++ body ++ qc).

(** translator.c 622-646, [ctr_translate_number], on the bytes from [p] to [e] *)
Fixpoint translate_number (T : tdict) (fuel : nat) (t : text) : text :=
  match fuel, t with
  | S f, c :: r =>
      if starts (e_word (t_dec T)) t then e_trans (t_dec T) ++ translate_number T f (skipn (length (e_word (t_dec T))) t)
      else if starts (e_word (t_tho T)) t then e_trans (t_tho T) ++ translate_number T f (skipn (length (e_word (t_tho T))) t)
      else c :: translate_number T f r
  | _, _ => []
  end.

(** translator.c 665-714, [ctr_translate_program], with translator.c 578-585, [ctr_translate_rest], translator.c 592-595,
    [ctr_translate_dot], and the like.  [pos] is the code pointer of the lexer.  The byte before the program belongs to the
    width of its block of memory (memory.c 67-71) and is 0. *)
Fixpoint program_loop (d : dict) (T : tdict) (prg : text) (fuel pos p : nat) (b : list note) : lres text :=
  match fuel with
  | O => LUB
  | S f =>
      lx (t, v, rest) <- tok d (skipn pos prg);
      let e := length prg - length rest in
      let mark w sp := lx a <- translate_mark d T w; lx o <- program_loop d T prg f e e b; LOk (sp ++ a ++ o) in
      match t with
      | TFIN => LOk (sub prg p e)
      | TRET => mark (d_return d) [32%N]
      | TQUOTE => lx (e', a) <- translate_string d T prg p e; lx o <- program_loop d T prg f e' e' b; LOk (a ++ o)
      | TREF => lx (p', b', a) <- translate_ref d T prg p e v b; lx o <- program_loop d T prg f e p' b'; LOk (a ++ o)
      | TDOT => mark (d_eol d) []
      | TASSIGN => mark (d_assign d) [32%N]
      | TCHAIN => mark (d_chain d) []
      | TCOLON =>
          if (p =? 0) || negb (nth (p - 1) prg 0 =? d_prefix d)%N then mark [d_prefix d] [32%N]
          else program_loop d T prg f e p b
      | TNUMBER => lx o <- program_loop d T prg f e e b; LOk (translate_number T (e - p) (sub prg p e) ++ o)
      | _ => lx o <- program_loop d T prg f e e b; LOk (sub prg p e ++ o)
      end
  end.
Definition translate_program (d : dict) (T : tdict) (prg : text) : lres text :=
  program_loop d T prg (S (length prg)) 0 0 [].
