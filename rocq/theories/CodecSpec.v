(** Codes for texts and bytes: the code of addresses, base64, hexadecimal digits and the entities of HTML, independent of how they are
    computed. *)
From Coq Require Import String.
From Verif Require Import Common Txt ReqSpec.
Local Open Scope N_scope.
Local Notation "'tx' s" := (lit s%string) (at level 8, s at level 0).

(** ** Addresses: [encodes] and [unescaped] of ReqSpec *)
Definition plain (c : N) : Prop := 48 <= c <= 57 \/ 65 <= c <= 90 \/ 97 <= c <= 122.
Definition bytes (t : text) : Prop := Forall (fun c => c < 256) t.
(** Letters that a caller may ask to be left as they are *)
Definition harmless (keep : text) : Prop := forall c, In c keep -> ~ In c [0; 37; 38; 43; 61].
(** Letters that are written as they are *)
Definition raw_of (keep : option text) (c : N) : Prop := plain c \/ match keep with Some k => In c k | None => False end.
Definition safe_keep (keep : option text) : Prop := match keep with Some k => harmless k | None => True end.
(** Names and values in turn *)
Definition flat (fs : fields) : list text := flat_map (fun f => [fst f; snd f]) fs.
(** Fields that a query string can carry, and lists of variables with all their values *)
Definition good_field (f : text * text) : Prop := fst f <> [] /\ no_zero (fst f) /\ no_zero (snd f) /\ bytes (fst f) /\ bytes (snd f).
Definition good_vars (v : list (text * list text)) : Prop := NoDup (map fst v) /\ Forall (fun e => snd e <> [] /\ Forall (fun x => good_field (fst e, x)) (snd e)) v.
Definition listed (v : list (text * list text)) : fields := flat_map (fun e => map (fun x => (fst e, x)) (snd e)) v.
(** Room for all of it *)
Definition sizes (fs : fields) : nat := fold_right (fun f n => (3 * List.length (fst f) + 3 * List.length (snd f) + 2 + n)%nat) 0%nat fs.
Definition in_int (n : nat) : Prop := (Z.of_nat n <= 2147483647)%Z.

(** ** Base64 (RFC 4648, section 4) *)
Definition alphabet : text := tx "ABCDEFGHIJKLMNOPQRSTUVWXYZabcdefghijklmnopqrstuvwxyz0123456789+/".
Definition sym (v : N) : N := nth (N.to_nat v) alphabet 0.
Fixpoint base64 (b : text) : text :=
  match b with
  | [] => []
  | [x] => [sym (x / 4); sym (x mod 4 * 16); 61; 61]
  | [x; y] => [sym (x / 4); sym (x mod 4 * 16 + y / 16); sym (y mod 16 * 4); 61]
  | x :: y :: z :: r => sym (x / 4) :: sym (x mod 4 * 16 + y / 16) :: sym (y mod 16 * 4 + z / 64) :: sym (z mod 64) :: base64 r
  end.
Fixpoint place (c : N) (t : text) (v : N) : option N := match t with [] => None | d :: r => if c =? d then Some v else place c r (v + 1) end.
Definition sextets (t : text) : list N := flat_map (fun c => match place c alphabet 0 with Some v => [v] | None => [] end) t.
Fixpoint unsixed (s : list N) : text :=
  match s with
  | a :: b :: c :: d :: r => a * 4 + b / 16 :: b mod 16 * 16 + c / 4 :: c mod 4 * 64 + d :: unsixed r
  | [a; b; c] => [a * 4 + b / 16; b mod 16 * 16 + c / 4]
  | [a; b] => [a * 4 + b / 16]
  | _ => []
  end.

(** ** Hexadecimal *)
Inductive hexed : text -> text -> Prop :=
| hx_nil : hexed [] []
| hx_byte c t e x y l r : is_hex x l -> is_hex y r -> c = 16 * l + r -> hexed t e -> hexed (c :: t) (x :: y :: e).

(** ** HTML: what the letters with a meaning are written as, and how a browser reads it *)
Definition entities : list (N * text) :=
  [(60, tx "&lt;"); (62, tx "&gt;"); (38, tx "&amp;"); (34, tx "&quot;"); (39, tx "&#39;"); (10, tx "&#10;"); (13, tx "&#13;")].
Fixpoint entity_of (c : N) (l : list (N * text)) : option text := match l with [] => None | (d, e) :: r => if c =? d then Some e else entity_of c r end.
Fixpoint html (t : text) : text := match t with [] => [] | c :: r => match entity_of c entities with Some e => e | None => [c] end ++ html r end.
(** [shown t e]: a browser shows the letters [e] as the text [t]. *)
Inductive shown : text -> text -> Prop :=
| sh_nil : shown [] []
| sh_entity c n t e : In (c, n) entities -> shown t e -> shown (c :: t) (n ++ e)
| sh_letter c t e : ~ In c [60; 62; 38; 34; 39; 10; 13] -> shown t e -> shown (c :: t) (c :: e).
