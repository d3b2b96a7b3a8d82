(** Three small plug-ins: PostgreSQL (plugins/experimental/pg/pg.c), passwords (plugins/experimental/crypt/crypt.c) and
    the percolator (plugins/mock/percolator/percolator.c). *)
From Coq Require Import ZArith SpecFloat.
From Verif Require Import Common CodecSpec NumModel PlugSpec RegexModel.

(** ** PostgreSQL.  The server is any function from a command and its parameters to a result; a command that fails has
    a result without columns and rows (libpq: PQntuples, PQnfields are 0).  Values of the program are their texts. *)

(** collections.c 246-259, [ctr_array_get], for the live elements of a list and a whole number: [None] is Nil *)
Definition array_get (l : list text) (q : Z) : option text :=
  let i := (q - 1)%Z in
  if (Z.of_nat (length l) <=? i)%Z || (i <? 0)%Z then None else nth_error l (Z.to_nat i).
(** pg.c 64-70: the values of parameters; [nil] is the text of Nil *)
Fixpoint param_values (nil : text) (l : list text) (k : nat) (q : Z) : list text :=
  match k with
  | O => []
  | S k' => dropped (match array_get l q with Some t => t | None => nil end) :: param_values nil l k' (q + 1)
  end.

(** libpq, PQfnumber: the name is taken like an identifier of SQL, small letters outside quotes, then the first column of that
    name; -1 if there is none.  PQfname gives the name itself. *)
Definition lower (c : N) : N := if ((65 <=? c) && (c <=? 90))%N then (c + 32)%N else c.
Fixpoint fold_name (quoted : bool) (t : text) : text :=
  match t with
  | [] => []
  | c :: r =>
      if quoted then
        if (c =? 34)%N then match r with d :: r' => if (d =? 34)%N then 34%N :: fold_name true r' else fold_name false r | [] => [] end
        else c :: fold_name true r
      else if (c =? 34)%N then fold_name true r else lower c :: fold_name false r
  end.
Fixpoint first_column (cols : list text) (n : text) (i : nat) : option nat :=
  match cols with [] => None | c :: r => if text_eqb c n then Some i else first_column r n (S i) end.
Definition fnumber (cols : list text) (n : text) : option nat := first_column cols (fold_name false n) 0.

(** A map, the latest key first; collections.c, [ctr_map_put]: a key that is there is replaced *)
Definition put (m : list (text * text)) (k v : text) : list (text * text) :=
  (k, v) :: filter (fun e => negb (text_eqb (fst e) k)) m.
Fixpoint get (m : list (text * text)) (k : text) : option text :=
  match m with [] => None | (k', v) :: r => if text_eqb k' k then Some v else get r k end.

(** pg.c 84-92: the cells of a row; PQgetvalue is NULL for a column -1, and then strlen of NULL (base.c 1636) *)
Fixpoint row_map (cols : list text) (row : list (option text)) (todo : list text) (m : list (text * text)) : outcome (list (text * text)) :=
  match todo with
  | [] => Ok m
  | f :: r =>
      match fnumber cols f with
      | None => UB
      | Some j => match nth_error row j with None => UB | Some v => row_map cols row r (put m f (written v)) end
      end
  end.
(** pg.c 82-96 *)
Fixpoint rows_maps (cols : list text) (rows : list (list (option text))) : outcome (list (list (text * text))) :=
  match rows with
  | [] => Ok []
  | row :: r => do m <- row_map cols row cols []; do ms <- rows_maps cols r; Ok (m :: ms)
  end.
(** What a query answers: itself without a connection, or a list of maps *)
Inductive reply := Itself | Rows (l : list (list (text * text))).
(** pg.c 44-102, [ctr_pg_query]; [conn]: [rvalue] is there *)
Definition pg_query (server : text -> list text -> result) (nil : text) (conn : bool) (command : text) (params : list text) : outcome reply :=
  if conn then
    let r := server (dropped command) (param_values nil params (length params) 0) in
    do l <- rows_maps (columns r) (cells r); Ok (Rows l)
  else Ok Itself.
(** pg.c 109-117, [ctr_pg_close]; how often PQfinish is called *)
Definition pg_close (conn : bool) (finished : nat) : bool * nat := if conn then (false, S finished) else (conn, finished).

(** ** Passwords.  The texts of the program are in a store; a password has the place of its text, or none (the prototype). *)
Definition store := list text.
Inductive given := AText (r : nat) | AThing.
(** crypt.c 18-31, [ctr_hash_new]; a new text of 128 bytes in the store, filled by the library; [ok]: the library succeeded,
    otherwise there is an error (and the bytes are whatever was on the stack) *)
Definition password_new (hash : text -> text -> text) (salt pw : text) (s : store) : store * nat := (s ++ [hash salt pw], length s).
(** crypt.c 92-97, [ctr_password_from_hash]: the object given, not a copy; what is no text is taken for one *)
Definition from_hash (g : given) : given := g.
(** A C string: without a zero it is read beyond its end; a text without bytes is the literal "" (world.c 381) *)
Fixpoint c_string (t : text) : outcome text :=
  match t with [] => UB | c :: r => if (c =? 0)%N then Ok [] else do x <- c_string r; Ok (c :: x) end.
Definition c_text (t : text) : outcome text := match t with [] => Ok [] | _ => c_string t end.
(** crypt.c 55-63, [ctr_password_verify] *)
Definition password_verify (check : text -> text -> bool) (s : store) (p : option given) (pw : text) : outcome bool :=
  match p with
  | None => Ok (check [] pw)
  | Some AThing => UB
  | Some (AText r) => match nth_error s r with None => UB | Some t => do c <- c_text t; Ok (check c pw) end
  end.
(** crypt.c 79-83, [ctr_password_to_string]; [None] is Nil *)
Definition password_string (p : option given) : option given := p.

(** ** The percolator.  Numbers are objects in a store; a percolator has two of them. *)
Definition numbers := list num.
Record percolator := mkP { coffee : nat; water : nat }.
Definition number_at (s : numbers) (r : nat) : outcome num := match nth_error s r with Some v => Ok v | None => UB end.
Definition set_number (s : numbers) (r : nat) (v : num) : numbers := firstn r s ++ v :: skipn (S r) s.
(** percolator.c 135-153, [ctr_percolator_new] *)
Definition percolator_new (s : numbers) : numbers * percolator :=
  (s ++ [of_Z 0; of_Z 0], mkP (length s) (S (length s))).
(** percolator.c 105-122, [ctr_percolator_add_coffee_water]: the number objects given *)
Definition pour (c w : nat) : percolator := mkP c w.
Inductive drink := Coffee | NoCoffee | NoWater.
(** percolator.c 38-95, [ctr_percolator_brew] *)
Definition brew (s : numbers) (p : percolator) : outcome (numbers * drink) :=
  do c <- number_at s (coffee p);
  do w <- number_at s (water p);
  if SFltb c (of_Z 1) then Ok (s, NoCoffee)
  else if SFltb w (of_Z 2) then Ok (s, NoWater)
  else
    let s1 := set_number s (coffee p) (sub64 c (of_Z 1)) in
    do w1 <- number_at s1 (water p);
    Ok (set_number s1 (water p) (sub64 w1 (of_Z 2)), Coffee).
Fixpoint brews (n : nat) (s : numbers) (p : percolator) : outcome (numbers * list drink) :=
  match n with
  | O => Ok (s, [])
  | S n' => do x <- brew s p; do y <- brews n' (fst x) p; Ok (fst y, snd x :: snd y)
  end.
