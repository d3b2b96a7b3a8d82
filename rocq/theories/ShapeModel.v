(** Points, lines, colours and drawing on images in the Media plug-in (plugins/media/media.c 1771-1866, 1983-2029, 3132-3180).

    Objects are kept in a store and referred to by their place in it, because lines and colours refer to objects that may change later.
    SDL draws: commands are recorded with the place they go to.  The list to be drawn is given by the references it holds.
    Left out: [y?] under another name (1804-1808, not registered), properties of these names that a program gives to other objects,
    images without data, and the texture that is not released (3149).
    [wide]: how conversions of doubles to [char] (3154-3156) that do not fit are compiled: undefined in ISO C ([false]), or through int
    as compilers for x86 do it ([true]). *)
From Coq Require Import SpecFloat.
From Verif Require Import Common NumModel ShapeSpec.
Local Open Scope Z_scope.

Inductive obj :=
| ONil | ONum (v : num)
| OText (v : num)             (* a text and the number it is read as *)
| OPoint (x y : num) | OLine (f t : nat) | OColor (r g b a : nat)
| OThing.                     (* any other object *)
Definition store := list obj.
Definition get (st : store) (r : nat) : outcome obj := match nth_error st r with Some o => Ok o | None => UB end.
Definition put (st : store) (r : nat) (o : obj) : store := firstn r st ++ o :: skipn (S r) st.
Definition add_obj (st : store) (o : obj) : store * nat := (st ++ [o], length st).

(** world.c 436-439, [ctr_internal_cast2number]: numbers are passed on, of others there is a new number
    (base.c 126-128 for Nil, 230-232 for objects) *)
Definition as_number (o : obj) : num :=
  match o with ONil => of_Z 0 | ONum v => v | OText v => v | _ => of_Z 1 end.
Definition cast2number (st : store) (r : nat) : outcome (store * nat) :=
  do o <- get st r; Ok (match o with ONum _ => (st, r) | _ => add_obj st (ONum (as_number o)) end).
(** world.c 313-315, [ctr_tonum] *)
Definition tonum (st : store) (r : nat) : outcome num := do o <- get st r; Ok (as_number o).

(** media.c 1771-1777, [ctr_point_new] *)
Definition point_new (st : store) : store * nat := add_obj st (OPoint (of_Z 0) (of_Z 0)).
(** media.c 1789-1792, [ctr_point_x] *)
Definition point_x (st : store) (p : nat) : outcome Z :=
  do o <- get st p; match o with OPoint x _ => c_int x | _ => UB end.
(** media.c 1810-1813, [ctr_point_y] *)
Definition point_y (st : store) (p : nat) : outcome Z :=
  do o <- get st p; match o with OPoint _ y => c_int y | _ => UB end.
(** media.c 1825-1831, [ctr_point_xyset] *)
Definition point_xyset (st : store) (p a b : nat) : outcome store :=
  do x <- tonum st a; do x <- c_int x; do y <- tonum st b; do y <- c_int y;
  do o <- get st p; match o with OPoint _ _ => Ok (put st p (OPoint (of_Z x) (of_Z y))) | _ => UB end.
(** media.c 1833-1839, [ctr_line_new]; [nl]: the reference to Nil *)
Definition line_new (st : store) (nl : nat) : store * nat := add_obj st (OLine nl nl).
(** media.c 1853-1857, [ctr_line_from_to] *)
Definition line_from_to (st : store) (l a b : nat) : outcome store :=
  do _ <- get st a; do _ <- get st b; do o <- get st l; match o with OLine _ _ => Ok (put st l (OLine a b)) | _ => UB end.
(** media.c 1859-1865, [ctr_line_start], [ctr_line_end] *)
Definition line_start (st : store) (l : nat) : outcome nat := do o <- get st l; match o with OLine f _ => Ok f | _ => UB end.
Definition line_end (st : store) (l : nat) : outcome nat := do o <- get st l; match o with OLine _ t => Ok t | _ => UB end.
(** media.c 1983-1991, [ctr_color_new] *)
Definition color_new (st : store) : store * nat :=
  let n := length st in (st ++ [ONum (of_Z 0); ONum (of_Z 0); ONum (of_Z 0); ONum (of_Z 0); OColor n (n + 1) (n + 2) (n + 3)], (n + 4)%nat).
(** media.c 2004-2009, [ctr_color_rgb_set] *)
Definition color_rgb_set (st : store) (c a b d : nat) : outcome store :=
  do (st, r) <- cast2number st a; do (st, g) <- cast2number st b; do (st, u) <- cast2number st d;
  do o <- get st c; match o with OColor _ _ _ t => Ok (put st c (OColor r g u t)) | _ => UB end.
(** media.c 2011-2013, [ctr_color_a_set] *)
Definition color_a_set (st : store) (c a : nat) : outcome store :=
  do (st, t) <- cast2number st a;
  do o <- get st c; match o with OColor r g b _ => Ok (put st c (OColor r g b t)) | _ => UB end.
(** media.c 2015-2029, [ctr_color_r], [ctr_color_g], [ctr_color_b], [ctr_color_a] *)
Definition color_r (st : store) (c : nat) : outcome nat := do o <- get st c; match o with OColor r _ _ _ => Ok r | _ => UB end.
Definition color_g (st : store) (c : nat) : outcome nat := do o <- get st c; match o with OColor _ g _ _ => Ok g | _ => UB end.
Definition color_b (st : store) (c : nat) : outcome nat := do o <- get st c; match o with OColor _ _ b _ => Ok b | _ => UB end.
Definition color_a (st : store) (c : nat) : outcome nat := do o <- get st c; match o with OColor _ _ _ a => Ok a | _ => UB end.
(** base.c 1108-1112, [ctr_number_inc] *)
Definition number_inc (st : store) (n a : nat) : outcome store :=
  do w <- tonum st a; do o <- get st n; match o with ONum v => Ok (put st n (ONum (add64 v w))) | _ => UB end.

(** world.c 281-303, [ctr_internal_object_property] of the names x, y, r, g, b, and [ctr_tonum] of it: Nil when there is no such property *)
Definition prop_x (o : obj) : num := match o with OPoint x _ => x | _ => of_Z 0 end.
Definition prop_y (o : obj) : num := match o with OPoint _ y => y | _ => of_Z 0 end.
Definition prop_rgb (st : store) (o : obj) : outcome (num * num * num) :=
  match o with
  | OColor r g b _ => do r <- tonum st r; do g <- tonum st g; do b <- tonum st b; Ok (r, g, b)
  | _ => Ok (of_Z 0, of_Z 0, of_Z 0)
  end.
(** [(char) x], then to [Uint8] *)
Definition c_char (wide : bool) (x : num) : outcome Z :=
  if wide then do z <- c_int x; Ok (z mod 256)
  else match trunc x with Some z => if (-128 <=? z) && (z <=? 127) then Ok (z mod 256) else UB | None => UB end.

(** A texture that can be drawn on, one that cannot, or none *)
Inductive texture := NoTexture | Plain | Drawable.
(** Where strokes go; [Copied]: to a new texture with a copy of the picture *)
Inductive target := OnPicture | Copied | OnScreen.
(** media.c 3144-3150; [made]: whether the texture could be made *)
Definition choose_target (made : bool) (t : texture) : target * texture :=
  match t with
  | NoTexture => (OnScreen, NoTexture)
  | Drawable => (OnPicture, Drawable)
  | Plain => if made then (Copied, Drawable) else (OnScreen, NoTexture)
  end.
(** media.c 3158-3176, one element of the list *)
Definition draw_shape (st : store) (o : obj) : outcome (list stroke) :=
  match o with
  | OPoint x y => do x <- c_int x; do y <- c_int y; Ok [SPoint x y]
  | OLine f t =>
      do f <- get st f; do t <- get st t;
      do x1 <- c_int (prop_x f); do y1 <- c_int (prop_y f); do x2 <- c_int (prop_x t); do y2 <- c_int (prop_y t); Ok [SLine x1 y1 x2 y2]
  | _ => Ok []
  end.
Fixpoint draw_shapes (st : store) (l : list nat) : outcome (list stroke) :=
  match l with
  | [] => Ok []
  | r :: l' =>
      do o <- get st r;
      match o with ONil => Ok [] | _ => do s <- draw_shape st o; do s' <- draw_shapes st l'; Ok (s ++ s') end
  end.
Record drawing := mkD { on : target; colour : Z * Z * Z; strokes : list stroke }.
(** media.c 3132-3180, [ctr_img_draw]; [None]: not a list, whose memory is read as if it were one (collections.c 246-259) *)
Definition img_draw (wide made : bool) (st : store) (t : texture) (l : option (list nat)) (c : nat) : outcome (drawing * texture) :=
  let (tg, t') := choose_target made t in
  do co <- get st c; do (rg, b) <- prop_rgb st co; let (r, g) := rg in
  do r <- c_char wide r; do g <- c_char wide g; do b <- c_char wide b;
  match l with
  | None => UB
  | Some l => do s <- draw_shapes st l; Ok (mkD tg (r, g, b) s, t')
  end.

(** The messages *)
Inductive op :=
| NewPoint | NewLine (nl : nat) | NewColor
| PointXY (p a b : nat) | LineFromTo (l a b : nat) | ColorRgb (c a b d : nat) | ColorA (c a : nat) | NumberInc (n a : nat).
Definition step (st : store) (o : op) : outcome store :=
  match o with
  | NewPoint => Ok (fst (point_new st))
  | NewLine nl => Ok (fst (line_new st nl))
  | NewColor => Ok (fst (color_new st))
  | PointXY p a b => point_xyset st p a b
  | LineFromTo l a b => line_from_to st l a b
  | ColorRgb c a b d => color_rgb_set st c a b d
  | ColorA c a => color_a_set st c a
  | NumberInc n a => number_inc st n a
  end.
Fixpoint run (st : store) (os : list op) : outcome store :=
  match os with [] => Ok st | o :: os' => do st <- step st o; run st os' end.
