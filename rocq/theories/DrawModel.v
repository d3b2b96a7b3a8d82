(** Drawing the text of an image and its cursor (plugins/media/media.c 2921-3061).

    Pictures of texts that SDL_ttf makes are values (DrawSpec.picture); [width]: TTF_SizeUTF8.  Positions and lengths are numbers without
    bounds; SDL_BlitSurface is assumed not to change the position, which holds if it is not negative. *)
From Verif Require Import Common Fuel DrawSpec.
Local Open Scope nat_scope.

(** media.c 87-93, [CtrMediaEdCache] *)
Record cell := mkCell { c_surface : option picture; c_text : option text; c_state : bool }.
Definition cache : Type := nat -> cell.
(** media.c 215-224, [ctr_internal_media_clear_edcache] *)
Definition clear_edcache : cache := fun _ => mkCell None None false.
Definition put (c : cache) (q : nat) (x : cell) : cache := fun i => if i =? q then x else c i.

(** [TTF_RenderUTF8_Shaded], [TTF_RenderUTF8_Blended] (media.c 3030-3034): NULL for an empty text *)
Definition render_utf8 (k : look) (state : bool) (t : text) : option picture :=
  match t with [] => None | _ => Some (if state then Shaded (l_font k) (l_high k) (l_ink k) t else Plain (l_font k) (l_ink k) t) end.
(** [image->text], [image->textlength], and the selection as media.c 336-344 gives it *)
Record area := mkArea { a_text : text; a_len : nat; a_begin : nat; a_end : nat }.
Definition has_len (a : area) : bool := negb (a_begin a =? a_end a).
(** media.c 3006, the inner loop *)
Fixpoint scan_to (fuel : nat) (a : area) (state : bool) (i : nat) : res nat :=
  match fuel with
  | O => NoFuel
  | S k =>
      match nth_error (a_text a) i with
      | None => Bad
      | Some c =>
          if negb (c =? 13)%N && (i <? a_len a) &&
             (negb (has_len a) || ((negb (i =? a_begin a) || state) && (negb (i =? a_end a) || negb state)))
          then scan_to k a state (S i) else Ret i
      end
  end.
Record pen := mkPen { at_ : nat; state : bool; line : nat; px : Z; py : Z; ed : cache; out : list placed }.
(** media.c 3013-3043, one piece in view *)
Definition draw_piece (k : look) (width : nat -> text -> Z) (g : page) (buff : text) (p : pen) : res pen :=
  let q := offset g mod 200 + (line p - offset g) in
  if 400 <=? q then Bad
  else
    let c := ed p q in
    let! hit := match c_surface c with
                | None => Ret None
                | Some s => if Bool.eqb (c_state c) (state p)
                            then match c_text c with
                                 | None => Bad
                                 | Some t => Ret (if (length t =? length buff) && text_eqb t buff then Some s else None)
                                 end
                            else Ret None
                end in
    let '(s, ed') := match hit with
                     | Some s => (Some s, ed p)
                     | None => let s := render_utf8 k (state p) buff in (s, put (ed p) q (mkCell s (Some buff) (state p)))
                     end in
    Ret (mkPen (at_ p) (state p) (line p) (px p + width (l_font k) buff) (py p) ed'
              (out p ++ match s with Some s => [(s, px p, py p)] | None => [] end)).
(** media.c 3002-3058, the loop *)
Fixpoint text_loop (fuel : nat) (k : look) (width : nat -> text -> Z) (g : page) (a : area) (p : pen) : res pen :=
  match fuel with
  | O => NoFuel
  | S f =>
      if a_len a <=? at_ p then Ret p
      else
        let i := at_ p in
        let st := if a_end a <=? i then false else if a_begin a <=? i then true else state p in
        let! j := scan_to (S (a_len a)) a st i in
        let too_low := offset g + most g <? line p in
        let too_high := line p <? offset g in
        let in_view := negb too_low && negb too_high in
        let p := mkPen j st (line p) (px p) (py p) (ed p) (out p) in
        let! p := if in_view then draw_piece k width g (firstn (j - i) (skipn i (a_text a))) p else Ret p in
        let h := if in_view then height g else 0%Z in
        match nth_error (a_text a) j with
        | None => Bad
        | Some c =>
            if (c =? 13)%N then text_loop f k width g a (mkPen (j + 2) st (S (line p)) (padx g) (py p + h) (ed p) (out p))
            else if has_len a && negb st && (j =? a_begin a) then text_loop f k width g a p
            else if has_len a && st && (j =? a_end a) then text_loop f k width g a p
            else text_loop f k width g a (mkPen (S j) st (line p) (px p) (py p) (ed p) (out p))
        end
  end.
Inductive shown := Unchanged | Fatal | Shown (l : list placed) (c : cache).
(** media.c 2974-3061, [ctr_internal_img_render_text]; [surface], [font]: whether the image has them *)
Definition render_text (surface font : bool) (k : look) (width : nat -> text -> Z) (g : page) (a : area) (c : cache) : res shown :=
  if negb surface then Ret Unchanged
  else if negb font then Ret Fatal
  else let! p := text_loop (2 * a_len a + 2) k width g a (mkPen 0 false 0 (padx g) (pady g) c []) in Ret (Shown (out p) (ed p)).

(** ** Colours and fonts *)
(** An image as far as it matters here, with a surface *)
Record picture_of := mkImage { i_look : look; i_hasfont : bool }.
(** media.c 2845-2855, [ctr_img_color]: clears the cache *)
Definition img_color (c : N) (m : picture_of) (ca : cache) : picture_of * cache := (mkImage (mkLook (l_font (i_look m)) c (l_high (i_look m))) (i_hasfont m), clear_edcache).
(** media.c 2868-2877, [ctr_img_background_color], and 2742-2748, [ctr_img_font]: do not *)
Definition img_background (c : N) (m : picture_of) (ca : cache) : picture_of * cache := (mkImage (mkLook (l_font (i_look m)) (l_ink (i_look m)) c) (i_hasfont m), ca).
Definition img_font (f : nat) (m : picture_of) (ca : cache) : picture_of * cache := (mkImage (mkLook f (l_ink (i_look m)) (l_high (i_look m))) true, ca).

(** ** The cursor *)
(** media.c 2933-2942, the loop: characters of the line, lines, the last newline *)
Fixpoint cursor_scan (t : text) (i : nat) (y1 beginline : nat) : nat * nat :=
  match t with
  | [] => (y1, beginline)
  | c :: r => if (c =? 13)%N then cursor_scan r (S i) (S y1) beginline
              else if (c =? 10)%N then cursor_scan r (S i) y1 i
              else cursor_scan r (S i) y1 beginline
  end.
(** media.c 2921-2972, [ctr_internal_img_render_cursor]: the text measured, the line it is drawn on, and the new offset; [t]: the text
    before the cursor *)
Definition render_cursor (t : text) (off most : nat) : text * Z * nat :=
  let '(y1, beginline) := cursor_scan t 0 0 0 in
  let beginline := if 0 <? y1 then S beginline else beginline in
  let off1 := if off + most <=? y1 then S off else off in
  let off2 := if (y1 <? off1) && (0 <? off1) then off1 - 1 else off1 in
  (skipn beginline t, Z.of_nat y1 - Z.of_nat off2, off2)%Z.

(** ** Several images *)
(** Each image has its own looks, the cache and the selection are shared (media.c 48-55 and 93).  Setters as above; [Write] is [write:]
    (media.c 3107-3120) after the line endings are made (EditModel.normalize) *)
Definition act_step (width : nat -> text -> Z) (g : nat -> page) (a : act) (w : (nat -> picture_of) * (nat * nat) * cache) : res ((nat -> picture_of) * (nat * nat) * cache * option shown) :=
  let '(ms, sel, c) := w in
  match a with
  | Ink i x => let '(m, c) := img_color x (ms i) c in Ret (set ms i m, sel, c, None)
  | Highlight i x => let '(m, c) := img_background x (ms i) c in Ret (set ms i m, sel, c, None)
  | Font i f => let '(m, c) := img_font f (ms i) c in Ret (set ms i m, sel, c, None)
  | Select b e => Ret (ms, (b, e), c, None)
  | Write i ls =>
      let! s := render_text true (i_hasfont (ms i)) (i_look (ms i)) width (g i) (mkArea (joined ls ++ [0%N]) (length (joined ls)) (fst sel) (snd sel)) c in
      Ret (ms, sel, match s with Shown _ c => c | _ => c end, Some s)
  end.
Fixpoint acts_run (width : nat -> text -> Z) (g : nat -> page) (l : list act) (w : (nat -> picture_of) * (nat * nat) * cache) : res (list shown) :=
  match l with
  | [] => Ret []
  | a :: r => let! x := act_step width g a w in
              let '(w, s) := x in
              let! rest := acts_run width g r w in
              Ret (match s with Some s => s :: rest | None => rest end)
  end.
(** The frames while nothing is typed: the offset after [n] of them *)
Fixpoint frames (n : nat) (t : text) (off most : nat) : nat := match n with O => off | S n => frames n t (snd (render_cursor t off most)) most end.
(** media.c 53 and 242, [CtrMediaMaxLines] before an editable image is clicked (648), whatever the height of the image *)
Definition default_rows : nat := 30.
