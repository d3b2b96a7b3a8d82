(** Files that are included or used as a canvas, independent of the code. *)
From Verif Require Import Common.
Local Open Scope N_scope.

(** RFC 2083: the signature, then the chunk IHDR of 13 bytes.  A JPEG file starts with the marker SOI, and another marker follows. *)
Definition png_signature : text := [137; 80; 78; 71; 13; 10; 26; 10].
Definition is_png (f : text) : Prop := exists r, f = png_signature ++ [0; 0; 0; 13; 73; 72; 68; 82] ++ r.
Definition is_jpeg (f : text) : Prop := exists r, f = [255; 216; 255] ++ r.
(** what can be told from a file that is neither *)
Definition starts_with (p f : text) : Prop := exists r, f = p ++ r.
