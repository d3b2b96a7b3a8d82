(** The text editor of the Media plug-in (plugins/media/media.c): the buffer of an image
    with text, the cursor and the selection (global variables), the keys, the mouse and the
    messages [write:], [text], [append:], [cut], [selected] and [clipboard].

    The block that holds a text is the list of its usable bytes.  Indices are [int]s and
    lengths [size_t]s in the code; here both are integers, comparisons between them are
    made as in C (a negative index counts as larger than any length), and texts are
    taken to be shorter than 2^31 bytes, so that no conversion changes a value.
    Drawing ([ctr_internal_img_render_text]) has no effect on this state.

    Two things are parameters: the blocks handed out by the memory manager (size and
    content), and whether [memcpy] between overlapping areas, which ISO C leaves undefined,
    behaves like [memmove]. *)
From Verif Require Import Common SipModel.
Local Open Scope Z_scope.

Record mach := { alloc : nat -> text;   (* block for n bytes *)
                 laps : bool }.         (* overlapping memcpy works like memmove *)

(** memory.c 353-365 and 370-371 with the pools switched off: [calloc], and one more byte when
    the size with its 8-byte header is 32, 64 or 128 *)
Definition calloc (n : nat) : text :=
  repeat 0%N (if Nat.eqb n 24 || Nat.eqb n 56 || Nat.eqb n 120 then n + 1 else n)%nat.

(** memory.c 196-239, [ctr_heap_reallocate]: the same block if it is large enough *)
Definition realloc (M : mach) (b : text) (n : nat) : text :=
  let b' := alloc M n in
  if (length b' <=? length b)%nat then b else b ++ skipn (length b) b'.

(** media.c 102-120 ([text], [textlength], [textbuffer]) and 52, 92 *)
Record img := { tx : option text; ln : Z; cp : Z }.
Record glob := { ix : Z;       (* CtrMediaInputIndex *)
                 sb : Z;       (* CtrMediaSelectBegin *)
                 se : Z;       (* CtrMediaSelectEnd *)
                 sh : bool }.  (* CtrMediaSelectStart *)
Definition with_ix (g : glob) (i : Z) : glob := {| ix := i; sb := sb g; se := se g; sh := sh g |}.
Definition with_sel (g : glob) (b e : Z) : glob := {| ix := ix g; sb := b; se := e; sh := sh g |}.
Definition with_sh (g : glob) (s : bool) : glob := {| ix := ix g; sb := sb g; se := se g; sh := s |}.

(** Access to a block by index; [memcpy] within a block or from elsewhere; [memset] to 0. *)
Definition rdz (b : text) (i : Z) : outcome N := if i <? 0 then UB else rd b (Z.to_nat i).
Definition fits (b : text) (i n : Z) : bool := (0 <=? i) && (0 <=? n) && (i + n <=? Z.of_nat (length b)).
Definition put (b : text) (i : Z) (s : text) : outcome text :=
  if fits b i (Z.of_nat (length s))
  then Ok (firstn (Z.to_nat i) b ++ s ++ skipn (Z.to_nat i + length s) b) else UB.
Definition memcpy (M : mach) (b : text) (dst src n : Z) : outcome text :=
  if fits b src n && (laps M || (n =? 0) || (n <=? Z.abs (dst - src)))
  then put b dst (firstn (Z.to_nat n) (skipn (Z.to_nat src) b)) else UB.
Definition zeros (n : Z) : text := repeat 0%N (Z.to_nat n).
Definition memset0 (b : text) (i n : Z) : outcome text := if n <? 0 then UB else put b i (zeros n).

(** comparison of an [int] with a [size_t] *)
Definition ltu (i n : Z) : bool := (0 <=? i) && (i <? n).
Definition gtu (i n : Z) : bool := (i <? 0) || (n <? i).

(** media.c 378-379, [(c & 0x80) != 0x00 && (c & 0xC0) != 0xC0] *)
Definition contb (c : N) : bool := negb (N.land c 128 =? 0)%N && negb (N.land c 192 =? 192)%N.
(** media.c 352 and 469-470, [(c & 0x80) == 0x00 || (c & 0xC0) == 0xC0] *)
Definition leadb (c : N) : bool := (N.land c 128 =? 0)%N || (N.land c 192 =? 192)%N.

(** media.c 336-344, [ctr_internal_media_get_selection] *)
Definition get_selection (g : glob) : Z * Z := if se g <? sb g then (se g, sb g) else (sb g, se g).
(** media.c 366-368, [ctr_internal_media_reset_selection] *)
Definition reset_selection (g : glob) : glob := with_sel g (se g) (se g).
(** media.c 198, [ctr_internal_media_has_selection] *)
Definition has_selection (g : glob) : bool := negb (sb g =? se g).

(** The loops below go through the block in one direction and read a byte in every round,
    so that they end, or leave the block (UB), within [rounds] steps. *)
Definition rounds (b : text) : nat := length b + 3.

(** media.c 346-356, [ctr_internal_media_bytepos2utf8pos] *)
Fixpoint charpos (f : nat) (b : text) (i pos : Z) (chars : Z) : outcome Z :=
  match f with
  | O => UB
  | S f' => if i <? pos then do c <- rdz b i; charpos f' b (i + 1) pos (if leadb c then chars + 1 else chars)
            else Ok chars
  end.
Definition bytepos2utf8pos (b : text) (pos : Z) : outcome Z := charpos (rounds b) b 0 pos 0.

(** media.c 375-379, the loop over continuation bytes *)
Fixpoint skip_right (f : nat) (b : text) (len i : Z) : outcome Z :=
  match f with
  | O => UB
  | S f' => if ltu i len then do c <- rdz b i; if contb c then skip_right f' b len (i + 1) else Ok i
            else Ok i
  end.
(** media.c 370-390, [ctr_internal_media_move_cursor_right] *)
Fixpoint move_right (steps : nat) (jump : bool) (b : text) (len i : Z) : outcome Z :=
  match steps with
  | O => Ok i
  | S k => if i =? len then Ok i else
           do i1 <- skip_right (rounds b) b len (i + 1);
           do c <- rdz b i1;
           if N.eqb c 10 then Ok (if jump then i1 + 1 else i1 - 1) else move_right k jump b len i1
  end.
(** the number of steps is converted to [size_t]: a negative one is larger than any text *)
Definition steps_of (b : text) (n : Z) : nat := if n <? 0 then rounds b else Z.to_nat n.

(** media.c 397-401, the loop over continuation bytes *)
Fixpoint skip_left (f : nat) (b : text) (i : Z) : outcome Z :=
  match f with
  | O => UB
  | S f' => if 0 <? i then do c <- rdz b i; if contb c then skip_left f' b (i - 1) else Ok i
            else Ok i
  end.
(** media.c 396-410, the rounds of [ctr_internal_media_move_cursor_left] *)
Fixpoint left_rounds (steps : nat) (jump : bool) (b : text) (i : Z) : outcome Z :=
  match steps with
  | O => Ok i
  | S k => do i1 <- skip_left (rounds b) b i;
           do c <- rdz b i1;
           if N.eqb c 10 then Ok (if jump then i1 - 1 else i1 + 1) else left_rounds k jump b i1
  end.
(** media.c 392-411, [ctr_internal_media_move_cursor_left] *)
Definition move_left (steps : nat) (jump : bool) (b : text) (i : Z) : outcome Z :=
  if i =? 0 then Ok i else left_rounds steps jump b (i - 1).

(** media.c 414-417 and 421-424, the loop to the end of a line: the index, and whether a CR was found *)
Fixpoint to_cr (f : nat) (b : text) (len i : Z) : outcome (Z * bool) :=
  match f with
  | O => UB
  | S f' => do c <- rdz b i;
            if N.eqb c 13 then Ok (i, true) else if i =? len then Ok (i, false) else to_cr f' b len (i + 1)
  end.
(** media.c 413-418, [ctr_internal_media_move_cursor_to_end_of_cur_line] *)
Definition to_end (b : text) (len i : Z) : outcome Z := do (i', _) <- to_cr (rounds b) b len i; Ok i'.
(** media.c 420-426, [ctr_internal_media_move_cursor_to_last_char_of_cur_line] *)
Definition to_last (b : text) (len i : Z) : outcome Z :=
  do (i', found) <- to_cr (rounds b) b len i; Ok (if found : bool then i' - 1 else i').
(** media.c 428-434, [ctr_internal_media_move_cursor_to_first_char_of_cur_line] *)
Fixpoint to_first_loop (f : nat) (b : text) (i : Z) : outcome Z :=
  match f with
  | O => UB
  | S f' => do c <- rdz b i;
            if N.eqb c 10 then Ok (i + 1) else if i =? 0 then Ok i else to_first_loop f' b (i - 1)
  end.
Definition to_first (b : text) (i : Z) : outcome Z := to_first_loop (rounds b) b i.
(** media.c 436-440, [ctr_internal_media_move_cursor_to_last_char_of_prev_line] *)
Definition to_last_prev (b : text) (i : Z) : outcome Z :=
  do i1 <- to_first b i; Ok (if i1 =? 0 then i1 else i1 - 3).
(** media.c 442-446, [ctr_internal_media_move_cursor_to_first_char_of_next_line] *)
Definition to_first_next (b : text) (len i : Z) : outcome Z :=
  do i1 <- to_last b len i; Ok (if i1 =? len then i1 else i1 + 3).
(** media.c 448-451, [ctr_internal_media_move_cursor_to_first_char_of_prev_line] *)
Definition to_first_prev (b : text) (i : Z) : outcome Z := do i1 <- to_last_prev b i; to_first b i1.

(** media.c 465-476, [ctr_internal_media_get_current_char_line] *)
Fixpoint char_line_loop (f : nat) (b : text) (i chars : Z) : outcome Z :=
  match f with
  | O => UB
  | S f' => do c <- rdz b i;
            if negb (N.eqb c 10) && (0 <? i)
            then char_line_loop f' b (i - 1) (if leadb c then chars + 1 else chars)
            else Ok (if 0 <? i then chars - 1 else chars)
  end.
Definition char_line (b : text) (i : Z) : outcome Z := char_line_loop (rounds b) b i 0.

(** media.c 478-495, [ctr_internal_media_select_word] *)
Definition breaks (c : N) : bool := N.eqb c 10 || N.eqb c 13 || N.eqb c 32.
Fixpoint word_left (f : nat) (b : text) (i : Z) : outcome Z :=
  match f with
  | O => UB
  | S f' => if 0 <=? i - 1 then do c <- rdz b (i - 1); if breaks c then Ok i else word_left f' b (i - 1)
            else Ok i
  end.
Fixpoint word_right (f : nat) (b : text) (len i : Z) : outcome Z :=
  match f with
  | O => UB
  | S f' => if ltu i len then do c <- rdz b i; if breaks c then Ok i else word_right f' b len (i + 1)
            else Ok i
  end.
Definition select_word (b : text) (len : Z) (g : glob) : outcome glob :=
  do l <- word_left (rounds b) b (ix g);
  do r <- word_right (rounds b) b len (ix g);
  Ok (with_sel g l r).

(** media.c 498-532, [ctr_internal_media_textinsert]; [t] is the C string without its NUL *)
Definition textinsert (M : mach) (m : img) (g : glob) (t : text) : outcome (img * glob) :=
  match tx m with
  | None => Ok (m, g)
  | Some b =>
      let n := Z.of_nat (length t) in
      let g := reset_selection g in
      let i := ix g in
      if text_eqb t [8%N] then
        if i =? 0 then Ok (m, g) else
        do i1 <- move_left 1 true b i;
        do b1 <- memcpy M b i1 i (ln m - i);
        do b2 <- memset0 b1 (ln m - (i - i1)) (i - i1);
        Ok ({| tx := Some b2; ln := ln m - (i - i1); cp := cp m |}, with_ix g i1)
      else if text_eqb t [127%N] then
        if i =? ln m then Ok (m, g) else
        do i1 <- move_right 1 true b (ln m) i;
        do b1 <- memcpy M b i i1 (ln m - i1);
        do b2 <- put b1 (ln m - (i1 - i)) [0%N];
        Ok ({| tx := Some b2; ln := ln m - (i1 - i); cp := cp m |}, g)
      else
        let len := ln m + n in
        let '(b0, cap) := if cp m <? len + 1 then (realloc M b (Z.to_nat (len + 500 + 1)), len + 500) else (b, cp m) in
        do b1 <- memcpy M b0 (i + n) i (len - i - n);
        do b2 <- put b1 i t;
        do b3 <- put b2 (len + 1) [0%N];
        Ok ({| tx := Some b3; ln := len; cp := cap |}, with_ix g (i + n))
  end.

(** media.c 544-559, [ctr_img_text_del] (the message [cut]) *)
Definition cut (M : mach) (m : img) (g : glob) : outcome (img * glob) :=
  let '(b, e) := get_selection g in
  do m' <- (if e - b =? 0 then Ok m else
            match tx m with
            | None => UB
            | Some s =>
                do s1 <- memcpy M s b e (ln m - e);
                do s2 <- memset0 s1 (ln m - (e - b)) (e - b);
                Ok {| tx := Some s2; ln := ln m - (e - b); cp := cp m |}
            end);
  Ok (m', reset_selection (with_ix g b)).

(** media.c 571-586, [ctr_img_text_ins] (the message [append:]) *)
Definition append (M : mach) (m : img) (g : glob) (t : text) : outcome (img * glob) :=
  let '(b, e) := get_selection g in
  let t' := filter (fun c => negb (N.eqb c 0)) t in
  if b <? e then do (m1, g1) <- cut M m g; textinsert M m1 (with_ix g1 b) t'
  else textinsert M m g t'.

(** media.c 615-636, [ctr_internal_cursormove], without its last two lines *)
Definition cursormove1 (b : text) (len : Z) (x y : Z) (i : Z) : outcome Z :=
  do i <- (if y =? -1 then do o <- char_line b i; do i1 <- to_first_prev b i; move_right (steps_of b o) false b len i1
           else Ok i);
  do i <- (if y =? 1 then do o <- char_line b i; do i1 <- to_first_next b len i; move_right (steps_of b o) false b len i1
           else Ok i);
  do i <- (if x =? -1 then move_left 1 true b i else Ok i);
  do i <- (if x =? 1 then move_right 1 true b len i else Ok i);
  do i <- (if x =? -2 then to_first b i else Ok i);
  if x =? 2 then to_end b len i else Ok i.
Fixpoint times (n : nat) (f : Z -> outcome Z) (i : Z) : outcome Z :=
  match n with O => Ok i | S k => do i1 <- f i; times k f i1 end.
(** media.c 615-636, [ctr_internal_cursormove] *)
Definition cursormove (m : img) (x y : Z) (i : Z) : outcome Z :=
  match tx m with
  | None => Ok i
  | Some b =>
      do i <- cursormove1 b (ln m) x y i;
      do i <- (if y =? 2 then times 10 (cursormove1 b (ln m) 0 1) i else Ok i);
      if y =? -2 then times 10 (cursormove1 b (ln m) 0 (-1)) i else Ok i
  end.

(** media.c 453-463, [ctr_internal_media_arrowkey_selection] *)
Definition arrowkey_selection (g : glob) : glob :=
  if sh g then with_sel g (sb g) (ix g) else with_sel g (ix g) (ix g).

(** Keys, text input, and the drawing of the cursor that follows the events of a frame. *)
Inductive event :=
| KShift | KShiftUp
| KLeft | KRight | KUp | KDown | KHome | KEnd | KPageUp | KPageDown
| KReturn | KTab | KBackspace | KDelete
| KText (t : text)
| Frame.

(** media.c 857-867, 892-910, 932-950: left, down, up.  media.c 1645-1682: home, end, page up, page down *)
Definition move_sel (m : img) (g : glob) (x y : Z) : outcome glob :=
  do i <- cursormove m x y (ix g);
  let g := with_ix g i in
  Ok (if sh g then with_sel g (sb g) i else g).
(** media.c 1580-1705 and 2926-2928: what an event does when an editable image has the focus *)
Definition step (M : mach) (m : img) (g : glob) (e : event) : outcome (img * glob) :=
  match e with
  | KShift => Ok (m, with_sh (with_sel g (ix g) (se g)) true)
  | KShiftUp => Ok (m, with_sh g false)
  | KLeft => do g <- move_sel m (arrowkey_selection g) (-1) 0; Ok (m, g)
  | KUp => do g <- move_sel m (arrowkey_selection g) 0 (-1); Ok (m, g)
  | KDown => do g <- move_sel m (arrowkey_selection g) 0 1; Ok (m, g)
  | KRight =>
      do g <- move_sel m (arrowkey_selection g) 1 0;
      Ok (m, if sh g then g else with_sel g 0 0)
  | KHome => do g <- move_sel m g (-2) 0; Ok (m, g)
  | KEnd => do g <- move_sel m g 2 0; Ok (m, g)
  | KPageUp => do g <- move_sel m g 0 (-2); Ok (m, g)
  | KPageDown => do g <- move_sel m g 0 2; Ok (m, g)
  | KReturn => textinsert M m g [13; 10]%N
  | KTab => textinsert M m g [32; 32; 32; 32]%N
  | KBackspace => if has_selection g then cut M m g else textinsert M m g [8%N]
  | KDelete => if has_selection g then cut M m g else textinsert M m g [127%N]
  | KText t => let g := reset_selection g in
               match t with [] => Ok (m, g) | _ => textinsert M m g t end
  | Frame => match tx m with
             | None => Ok (m, g)
             | Some _ => let z i := if gtu i (ln m) then 0 else i in
                         Ok (m, {| ix := z (ix g); sb := z (sb g); se := z (se g); sh := sh g |})
             end
  end.
Fixpoint run (M : mach) (m : img) (g : glob) (es : list event) : outcome (img * glob) :=
  match es with [] => Ok (m, g) | e :: r => do (m', g') <- step M m g e; run M m' g' r end.

(** [strlen] and the text up to the first NUL; UB if there is none in the block *)
Fixpoint cstr (b : text) : outcome text :=
  match b with
  | [] => UB
  | c :: r => if N.eqb c 0 then Ok [] else do s <- cstr r; Ok (c :: s)
  end.

(** media.c 3075-3092, the loop of [ctr_internal_media_normalize_line_endings] *)
Fixpoint norm_loop (M : mach) (len : nat) (o : text) (prev : N) (i d : nat) (b : text) : outcome text :=
  match o with
  | [] => Ok b
  | c :: r =>
      let cur := if N.eqb c 9 then 32%N else c in
      do (b, d) <- (if N.eqb cur 10 && negb (N.eqb prev 13)
                    then do b <- put b (Z.of_nat (d + i)) [13%N]; Ok (realloc M b (len + (d + 1) + 1), (d + 1)%nat)
                    else Ok (b, d));
      do (b, d) <- (if N.eqb prev 13 && negb (N.eqb cur 10)
                    then do b <- put b (Z.of_nat (d + i)) [10%N]; Ok (realloc M b (len + (d + 1) + 1), (d + 1)%nat)
                    else Ok (b, d));
      do b <- put b (Z.of_nat (d + i)) [cur];
      norm_loop M len r cur (i + 1) d b
  end.
(** media.c 3067-3095, [ctr_internal_media_normalize_line_endings]: the new block *)
Definition normalize (M : mach) (original : text) : outcome text :=
  do o <- cstr original;
  norm_loop M (length o) o 0%N 0 0 (alloc M (length o + 1)).

(** media.c 3107-3120, [ctr_img_text] (the message [write:]) *)
Definition write (M : mach) (t : text) : outcome img :=
  do b <- normalize M (cstring t);
  do s <- cstr b;
  let n := Z.of_nat (length s) in
  Ok {| tx := Some b; ln := n; cp := n |}.
(** media.c 3196-3202, [ctr_img_text_get] (the message [text]) *)
Definition text_get (m : img) : outcome text := match tx m with None => Ok [] | Some b => cstr b end.

(** media.c 3213-3233, [ctr_media_clipboard]; [s] is what SDL answers *)
Definition clipboard (M : mach) (s : option text) : outcome text :=
  match s with
  | None => Ok []
  | Some t =>
      do copy <- put (alloc M (length t)) 0 t;
      do b <- normalize M copy;
      cstr b
  end.
(** media.c 3262-3278, [ctr_media_select] (the message [selected]), when an image has the focus *)
Definition selected (m : img) (g : glob) : outcome (Z * Z) :=
  let '(b, e) := get_selection g in
  let pos p := match tx m with
               | None => if 0 <? p then UB else Ok 0
               | Some s => bytepos2utf8pos s p
               end in
  do p <- pos b; do q <- pos e; Ok (p + 1, q + 1).

(** media.c 659-690, the loop that looks for the character under the mouse; [width] is
    [TTF_SizeUTF8]; [line] is the text of the line, [start] its position *)
Fixpoint infer_loop (f : nat) (width : text -> Z) (relx : Z) (b : text) (len start i : Z) (line : text) (segment last : Z)
  : outcome Z :=
  match f with
  | O => UB
  | S f' =>
      if start <? i then
        let last := segment in
        let segment := width line in
        if segment <? relx then
          if last - relx <? relx - segment then move_right 1 false b len i else Ok i
        else
          do i <- move_left 1 false b i;
          if i <? start then UB else
          infer_loop f' width relx b len start i (firstn (Z.to_nat (i - start)) line) segment last
      else Ok i
  end.
(** media.c 638-690, [ctr_internal_media_infercursorpos]; [relx] is the distance from the left of
    the text (media.c 644), [line] the number of the line (media.c 649) *)
Definition infer (m : img) (width : text -> Z) (relx line : Z) : outcome Z :=
  if ln m =? 0 then Ok 0 else
  match tx m with
  | None => UB
  | Some b =>
      do start <- times (Z.to_nat line) (to_first_next b (ln m)) 0;
      do stop <- to_end b (ln m) start;
      if start =? stop then Ok stop else
      do buf <- (if stop <? start then UB else slice b (Z.to_nat start) (Z.to_nat (stop - start)));
      let total := width buf in
      if total <? relx then to_end b (ln m) stop
      else infer_loop (rounds b) width relx b (ln m) start stop buf total total
  end.
Record geometry := { g_x : Z; g_y : Z; g_padx : Z; g_pady : Z; g_lineheight : Z; g_offset : Z }.
(** media.c 644-649: position of the mouse within the text *)
Definition infercursorpos (G : geometry) (m : img) (width : text -> Z) (x y : Z) : outcome Z :=
  infer m width (x - g_x G - g_padx G) (g_offset G + Z.quot (y - g_y G - g_pady G) (g_lineheight G)).

(** media.c 1466-1473, release of the mouse button; the focus is [None] if no text was clicked *)
Definition mouse_up (G : geometry) (m : option img) (g : glob) (width : text -> Z) (x y : Z) : outcome glob :=
  if sh g then
    match m with
    | None => UB
    | Some m => do i <- infercursorpos G m width x y;
                Ok {| ix := i; sb := sb g; se := i; sh := false |}
    end
  else Ok g.
(** media.c 829-844, a click on an editable image; [double]: same place, within a second *)
Definition mouse_down (G : geometry) (m : img) (g : glob) (width : text -> Z) (double : bool) (x y : Z) : outcome glob :=
  do i <- infercursorpos G m width x y;
  let g := {| ix := i; sb := i; se := i; sh := true |} in
  if double then
    match tx m with
    | None => if 0 <=? i - 1 then UB else Ok (with_sh g false)
    | Some b => do g <- select_word b (ln m) g; Ok (with_sh g false)
    end
  else Ok g.
