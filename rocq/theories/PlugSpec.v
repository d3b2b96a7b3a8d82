(** A database, passwords and a percolator, independent of the code. *)
From Coq Require Import ZArith.
From Verif Require Import Common CodecSpec.

(** ** A table: names of columns and rows of values, some of them missing *)
Record result := mkR { columns : list text; cells : list (list (option text)) }.
Definition shaped (r : result) : Prop := Forall (fun l => length l = length (columns r)) (cells r).
(** A map tells a row: each column has its value, nothing else is there *)
Definition tells (get : text -> option text) (cols : list text) (row : list (option text)) (written : option text -> text) : Prop :=
  (forall j c v, nth_error cols j = Some c -> nth_error row j = Some v -> get c = Some (written v)) /\
  (forall n, ~ In n cols -> get n = None).
(** A missing value is written as a text without characters *)
Definition written (v : option text) : text := match v with Some t => t | None => [] end.
(** Names that stay as they are in SQL: no capitals, no quotes *)
Definition plain_name (t : text) : Prop := Forall (fun c => ~ (65 <= c <= 90)%N /\ c <> 34%N) t.

(** ** Passwords: what a hashing library promises *)
Definition until_zero (t : text) : text := (fix go (t : text) := match t with [] => [] | c :: r => if (c =? 0)%N then [] else c :: go r end) t.
Definition hashing (hash : text -> text -> text) (check : text -> text -> bool) : Prop :=
  (forall salt p, length (hash salt p) = 128 /\ In 0%N (hash salt p)) /\
  (forall salt p, check (until_zero (hash salt p)) p = true) /\
  (forall p, check [] p = false).

(** ** A percolator: a cup takes a spoon of coffee and two cups of water (in units of 2^-20) *)
Definition unit : Z := 1048576.
Definition cups (coffee water : Z) : nat := Z.to_nat (Z.min (coffee / unit) (water / (2 * unit))).
