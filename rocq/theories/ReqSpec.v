(** Specification of forms, cookies and uploads: what the fields of a request are, independently of how they are read. *)
From Coq Require Import String.
From Verif Require Import Common Txt.
Local Open Scope N_scope.
Local Notation "'tx' s" := (lit s%string) (at level 8, s at level 0).

(** ** Fields in the order in which they were sent *)
Definition fields := list (text * text).
(** the values that were sent under a name *)
Definition values_of (n : text) (fs : fields) : list text :=
  map snd (filter (fun f => text_eqb (fst f) n) fs).
Definition value_of (n : text) (fs : fields) : option text := hd_error (values_of n fs).

(** ** Query strings *)
Definition is_hex (c : N) (d : N) : Prop :=
  (48 <= c <= 57 /\ d = c - 48) \/ (65 <= c <= 70 /\ d = c - 55) \/ (97 <= c <= 102 /\ d = c - 87).
(** [encodes raw t e]: the letters [e] stand for the text [t]; the bytes that satisfy [raw] may stand for themselves. *)
Inductive encodes (raw : N -> Prop) : text -> text -> Prop :=
| enc_nil : encodes raw [] []
| enc_raw c t e : raw c -> encodes raw t e -> encodes raw (c :: t) (c :: e)
| enc_space t e : encodes raw t e -> encodes raw (32 :: t) (43 :: e)
| enc_hex c t e x y l r : is_hex x l -> is_hex y r -> c = 16 * l + r -> encodes raw t e -> encodes raw (c :: t) (37 :: x :: y :: e).
(** bytes with a meaning of their own in names, and in values *)
Definition raw_name (c : N) : Prop := ~ In c [0; 37; 38; 43; 61].
Definition raw_value (c : N) : Prop := ~ In c [0; 37; 38; 43].
Definition no_zero (t : text) : Prop := ~ In 0 t.
(** a field as it is written in a query string; the sign of equality may be left out if there is no value *)
Inductive written_field : text * text -> text -> Prop :=
| wf_both n x en ex : n <> [] -> no_zero n -> no_zero x -> encodes raw_name n en -> encodes raw_value x ex ->
    written_field (n, x) (en ++ 61 :: ex)
| wf_alone n en : n <> [] -> no_zero n -> encodes raw_name n en -> written_field (n, []) en.
Fixpoint joined_by (sep : text) (ts : list text) : text :=
  match ts with [] => [] | [t] => t | t :: r => t ++ sep ++ joined_by sep r end.
Definition query_of (fs : fields) (q : text) : Prop :=
  exists ws, Forall2 written_field fs ws /\ q = joined_by [38] ws.

(** *** Every query string, well-formed or not *)
Fixpoint split_on (c : N) (t : text) : list text :=
  match t with
  | [] => [[]]
  | d :: r => if d =? c then [] :: split_on c r
              else match split_on c r with s :: ss => (d :: s) :: ss | [] => [[d]] end
  end.
Definition hex_digit (c : N) : option N :=
  if (48 <=? c) && (c <=? 57) then Some (c - 48)
  else if (65 <=? c) && (c <=? 70) then Some (c - 55)
  else if (97 <=? c) && (c <=? 102) then Some (c - 87) else None.
Fixpoint unescaped (t : text) : text :=
  match t with
  | [] => []
  | c :: r =>
      if c =? 43 then 32 :: unescaped r
      else if c =? 37 then
        match r with
        | x :: (y :: r') => match hex_digit x, hex_digit y with
                            | Some l, Some h => (16 * l + h) :: unescaped r'
                            | _, _ => c :: unescaped r
                            end
        | _ => c :: unescaped r
        end
      else c :: unescaped r
  end.
Fixpoint no_leading (c : N) (t : text) : text := match t with d :: r => if d =? c then no_leading c r else t | [] => [] end.
Fixpoint before_after (c : N) (t : text) : text * option text :=
  match t with
  | [] => ([], None)
  | d :: r => if d =? c then ([], Some r) else let '(a, b) := before_after c r in (d :: a, b)
  end.
Fixpoint to_zero (t : text) : text := match t with [] => [] | c :: r => if c =? 0 then [] else c :: to_zero r end.
(** one part between ampersands; what follows a NUL byte is lost *)
Definition field_of (s : text) : fields :=
  match no_leading 61 s with
  | [] => []
  | s' => match before_after 61 s' with
          | (n, None) => [(to_zero (unescaped n), [])]
          | (n, Some x) => [(to_zero (unescaped n), to_zero (unescaped x))]
          end
  end.
Definition query_fields (q : text) : fields := flat_map field_of (split_on 38 q).

(** ** Cookies as browsers send them *)
Definition cookie_name (n : text) : Prop := n <> [] /\ ~ In 61 n /\ ~ In 0 n /\ (forall c r, n = c :: r -> c <> 32 /\ c <> 9).
Definition quotes : list N := [34; 39; 96].
Definition plain_value (x : text) : Prop :=
  (forall c, In c [0; 59; 32; 9; 13; 10] -> ~ In c x) /\ (forall c r, x = c :: r -> ~ In c quotes).
(** a cookie, quoted ([Some q]) or not *)
Definition cookie_ok (k : text * text * option N) : Prop :=
  let '(n, x, q) := k in
  cookie_name n /\ match q with None => plain_value x | Some c => In c quotes /\ ~ In c x /\ ~ In 0 x end.
Definition cookie_text (k : text * text * option N) : text :=
  let '(n, x, q) := k in
  match q with None => n ++ [61] ++ x | Some c => n ++ [61; c] ++ x ++ [c] end.
Definition cookies_text (ks : list (text * text * option N)) : text := joined_by [59; 32] (map cookie_text ks).
Definition cookie_fields (ks : list (text * text * option N)) : fields := map fst ks.

(** ** Forms with uploads *)
Definition crlf : text := [13; 10].
Inductive part :=
| Field (name value : text)
| Upload (name filename : text) (ctype : option text) (content : text).
Definition part_head (p : part) : text :=
  match p with
  | Field n _ => tx "Content-Disposition: form-data; name=""" ++ n ++ tx """" ++ crlf ++ crlf
  | Upload n f ct _ =>
      tx "Content-Disposition: form-data; name=""" ++ n ++ tx """; filename=""" ++ f ++ tx """" ++ crlf ++
      match ct with None => [] | Some t => tx "Content-Type: " ++ t ++ crlf end ++ crlf
  end.
Definition part_body (p : part) : text := match p with Field _ x => x | Upload _ _ _ x => x end.
Fixpoint form_parts (b : text) (ps : list part) : text :=
  match ps with
  | [] => tx "--" ++ crlf
  | p :: r => crlf ++ part_head p ++ part_body p ++ crlf ++ tx "--" ++ b ++ form_parts b r
  end.
Definition form_body (b : text) (ps : list part) : text := tx "--" ++ b ++ form_parts b ps.
(** [t] occurs in [s] *)
Definition occurs_in (t s : text) : Prop := exists u v, s = u ++ t ++ v.
Definition quotable (t : text) : Prop := forall c, In c [0; 10; 34] -> ~ In c t.
Definition part_ok (b : text) (p : part) : Prop :=
  ~ occurs_in (crlf ++ tx "--" ++ b) (part_body p) /\
  match p with
  | Field n x => quotable n /\ no_zero x
  | Upload n f ct x => quotable n /\ quotable f /\ (forall t, ct = Some t -> ~ In 10 t /\ ~ In 0 t)
  end.
Definition boundary_ok (b : text) : Prop :=
  b <> [] /\ (forall c, In c b -> 0 < c < 128 /\ ~ In c [13; 10; 9; 32; 59; 34; 39; 96]).

(** the types of the content *)
Definition form_urlencoded : text := tx "application/x-www-form-urlencoded".
(** with uploads; with the boundary in quotation marks or not *)
Definition form_type (b : text) (q : bool) : text :=
  if q then tx "multipart/form-data; boundary=""" ++ b ++ tx """" else tx "multipart/form-data; boundary=" ++ b.
Definition part_name (p : part) : text := match p with Field n _ => n | Upload n _ _ _ => n end.
(** uploads that carry the name of a file: a file is made for each *)
Definition is_upload (p : part) : bool := match p with Upload _ (_ :: _) _ _ => true | _ => false end.
Definition uploads (ps : list part) : nat := List.length (filter is_upload ps).

(** What a form does: fields are added, uploads are stored in new files.  [names k] is the name of the [k]-th new file, if it can be created. *)
Fixpoint form_fields (names : nat -> option text) (k : nat) (ps : list part) : fields * list (text * text) :=
  match ps with
  | [] => ([], [])
  | Field n x :: r => let '(fs, ups) := form_fields names k r in ((n, x) :: fs, ups)
  | Upload n f _ x :: r =>
      if match f with [] => true | _ => false end then form_fields names k r else
      let '(fs, ups) := form_fields names (S k) r in
      match names k with
      | Some path => ((n, path) :: (n, f) :: fs, (path, x) :: ups)
      | None => (fs, ups)
      end
  end.
