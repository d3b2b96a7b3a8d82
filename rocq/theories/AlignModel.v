(** Model of the place of a text on an image (plugins/media/media.c 109-117, 638-650, 2366-2373, 2889-2920, 2957-2971, 2993-2994).

    The position of the image is a double, the padding a size_t, lines and columns are ints; the width of a text is that of TTF_SizeUTF8.
    [long] is not involved; a size_t too large for an int wraps (implementation-defined, as gcc does it). *)
From Coq Require Import ZArith.
From Verif Require Import Common NumModel EditModel AlignSpec.
Local Open Scope Z_scope.

(** [x], [y], [paddingx], [paddingy], [lineheight] *)
Record box := mkB { bx : num; by_ : num; padx : Z; pady : Z; lh : Z }.
(** media.c 2366-2373 *)
Definition made (x y : num) : box := mkB x y 0 0 10.
(** int to size_t *)
Definition to_size (z : Z) : Z := z mod 2 ^ 64.
(** media.c 2889-2896, [ctr_img_text_align] *)
Definition text_align (b : box) (a1 a2 : num) : outcome box :=
  do p <- c_int a1; do q <- c_int a2; Ok (mkB (bx b) (by_ b) (to_size p) (to_size q) (lh b)).
(** media.c 2908-2920, [ctr_img_lineheight] *)
Definition lineheight (b : box) (a : num) : outcome box :=
  do z <- c_int a; Ok (mkB (bx b) (by_ b) (padx b) (pady b) (if z <? 1 then 1 else if 100 <? z then 100 else z)).
(** A setting, 2889-2920 *)
Definition set (b : box) (s : setting) : outcome box := match s with Align a1 a2 => text_align b a1 a2 | Height a => lineheight b a end.
(** The settings of an image, the latest first (2889-2920) *)
Fixpoint sets (b : box) (l : list setting) : outcome box := match l with [] => Ok b | s :: r => do b1 <- sets b r; set b1 s end.

(** size_t to int *)
Definition size_int (z : Z) : Z := (z + 2 ^ 31) mod 2 ^ 32 - 2 ^ 31.
(** int or size_t to double *)
Definition dbl (z : Z) : num := of_Z z.
(** media.c 2993-2994: where the first line is drawn, within the image *)
Definition pen (b : box) : Z * Z := (size_int (padx b), size_int (pady b)).
(** Sums and products of ints as in 649 and 2969 *)
Definition int_of (z : Z) : outcome Z := if NumModel.in_int z then Ok z else UB.
(** media.c 644, 645, 649: column in pixels and line of a click; [off] is [CtrMediaCursorOffsetY] *)
Definition spot (b : box) (off x y : Z) : outcome (Z * Z) :=
  do relx <- c_int (sub64 (sub64 (dbl x) (bx b)) (dbl (padx b)));
  do rely <- c_int (sub64 (sub64 (dbl y) (by_ b)) (dbl (pady b)));
  if lh b =? 0 then UB
  else do q <- int_of (Z.quot rely (lh b)); do line <- int_of (off + q); Ok (relx, line).
(** media.c 638-690, [ctr_internal_media_infercursorpos] *)
Definition click (b : box) (off : Z) (m : img) (width : text -> Z) (x y : Z) : outcome Z :=
  if ln m =? 0 then Ok 0 else do s <- spot b off x y; infer m width (fst s) (snd s).
(** media.c 2957-2969: the line that shows the cursor behind [w] pixels of text in row [r] *)
Definition cursor (b : box) (w r : Z) : outcome (Z * Z * (Z * Z)) :=
  do top <- int_of (r * lh b); do bottom <- int_of (top + lh b);
  do x1 <- c_int (add64 (add64 (bx b) (dbl w)) (dbl (padx b)));
  do y1 <- c_int (add64 (add64 (by_ b) (dbl top)) (dbl (pady b)));
  do y2 <- c_int (add64 (add64 (by_ b) (dbl bottom)) (dbl (pady b)));
  Ok (x1, y1, (x1, y2)).
