(** Model of the list methods of collections.c (lines 18-744).

    [A] is the type of object references and [nil] is the object Nil.  The element
    buffer is a list of cells of the allocated size; a cell that was never written is
    [None] and reading it is UB, as is any access outside the buffer.
    Simplification: the capacity is a [nat], so [length * 3] does not wrap around
    (the allocator gives up long before). *)
From Verif Require Import Common TextModel.

Definition INT_MAX : Z := 2147483647%Z.
Definition in_int (z : Z) : bool := ((- INT_MAX - 1 <=? z) && (z <=? INT_MAX))%Z.

Section Lists.
Context {A : Type} (nil : A).

(** citrine.h 163-168, [ctr_collection] *)
Record arr := mkA { a_len : nat; a_head : nat; a_tail : nat; a_el : list (option A) }.

Definition rd_cell (el : list (option A)) (i : nat) : outcome A :=
  match nth_error el i with Some (Some x) => Ok x | _ => UB end.
Definition wr_cell (el : list (option A)) (i : nat) (x : A) : outcome (list (option A)) :=
  if (i <? length el)%nat then Ok (firstn i el ++ Some x :: skipn (S i) el) else UB.
(** [ctr_heap_reallocate] keeps the contents and never shrinks (memory.c 196-239). *)
Definition grow (n : nat) (el : list (option A)) : list (option A) :=
  el ++ repeat None (n - length el).

(** collections.c 18-27, [ctr_array_new] *)
Definition array_new : arr := mkA 1 0 0 [None].

(** collections.c 53-65, [ctr_array_push] *)
Definition array_push (a : arr) (x : A) : outcome arr :=
  let '(len, el) := if (a_len a <=? a_head a + 1)%nat
                    then (a_len a * 3, grow (a_len a * 3) (a_el a)) else (a_len a, a_el a) in
  do el' <- wr_cell el (a_head a) x;
  Ok (mkA len (a_head a + 1) (a_tail a) el').

(** collections.c 166-169, [ctr_array_new_and_push] *)
Definition array_new_and_push (x : A) : outcome arr := array_push array_new x.

(** [memmove(elements + 1, elements, n * sizeof)] *)
Definition move_up (el : list (option A)) (n : nat) : outcome (list (option A)) :=
  if (n + 1 <=? length el)%nat then Ok (firstn 1 el ++ firstn n el ++ skipn (S n) el) else UB.
(** collections.c 181-195, [ctr_array_unshift] *)
Definition array_unshift (a : arr) (x : A) : outcome arr :=
  match a_tail a with
  | S t => do el' <- wr_cell (a_el a) t x; Ok (mkA (a_len a) (a_head a) t el')
  | O =>
      let '(len, el) := if (a_len a <=? a_head a + 1)%nat
                        then (a_len a * 3, grow (a_len a * 3) (a_el a)) else (a_len a, a_el a) in
      do el1 <- move_up el (a_head a + 1);
      do el2 <- wr_cell el1 0 x;
      Ok (mkA len (a_head a + 1) 0 el2)
  end.

(** collections.c 246-259, [ctr_array_get] with a whole number argument.
    [head <= i + tail] is a [size_t] comparison; for negative [i] the answer is Nil either way. *)
Definition array_get (a : arr) (n : Z) : outcome A :=
  if negb (in_int n && in_int (n - 1)) then UB else
  let i := (n - 1)%Z in
  if (Z.of_nat (a_head a) <=? wrap64 (wrap64 i + Z.of_nat (a_tail a)))%Z || (i <? 0)%Z then Ok nil
  else rd_cell (a_el a) (a_tail a + Z.to_nat i).

(** collections.c 271-316: [first], [last], [second last]; the length is [head - tail] in [size_t]. *)
Definition alen (a : arr) : Z := wrap64 (Z.of_nat (a_head a) - Z.of_nat (a_tail a)).
Definition array_first (a : arr) : outcome A :=
  if (alen a <? 1)%Z then Ok nil else rd_cell (a_el a) (a_tail a).
Definition array_last (a : arr) : outcome A :=
  if (alen a <? 1)%Z then Ok nil else rd_cell (a_el a) (a_tail a + Z.to_nat (alen a - 1)).
Definition array_second_last (a : arr) : outcome A :=
  if (alen a <? 2)%Z then Ok nil else rd_cell (a_el a) (a_tail a + Z.to_nat (alen a - 2)).

Fixpoint push_n (a : arr) (x : A) (n : nat) : outcome arr :=
  match n with O => Ok a | S k => do a' <- array_push a x; push_n a' x k end.
(** collections.c 353-358: [for(j = tail; j > put; j--) elements[j] = Nil]; [n = tail - put]. *)
Fixpoint clear_down (el : list (option A)) (put n : nat) : outcome (list (option A)) :=
  match n with O => Ok el | S k => do el' <- wr_cell el (put + n) nil; clear_down el' put k end.
(** collections.c 328-364, [ctr_array_put] with a whole number position; the boolean tells
    whether the bounds error was raised. *)
Definition array_put (a : arr) (x : A) (n : Z) : outcome (arr * bool) :=
  if (n <? 1)%Z then Ok (a, true) else
  if (W64 <=? n)%Z then UB else
  let put := Z.to_nat (n - 1) in
  let head := a_head a in
  let tail := a_tail a in
  do a1 <- (if (head <=? put)%nat
            then do b <- push_n a nil (put + 1 - head); Ok (mkA (a_len b) (put + 1) (a_tail b) (a_el b))
            else Ok a);
  do a2 <- (if (put <? tail)%nat
            then do el <- clear_down (a_el a1) put (tail - put); Ok (mkA (a_len a1) (a_head a1) put el)
            else Ok a1);
  do el <- wr_cell (a_el a2) put x;
  Ok (mkA (a_len a2) (a_head a2) (a_tail a2) el, false).

(** collections.c 376-382, [ctr_array_pop] *)
Definition array_pop (a : arr) : outcome (A * arr) :=
  if (a_head a <=? a_tail a)%nat then Ok (nil, a)
  else do x <- rd_cell (a_el a) (a_head a - 1); Ok (x, mkA (a_len a) (a_head a - 1) (a_tail a) (a_el a)).

(** collections.c 394-402, [ctr_array_shift] *)
Definition array_shift (a : arr) : outcome (A * arr) :=
  if (a_head a <=? a_tail a)%nat then Ok (nil, a)
  else do x <- rd_cell (a_el a) (a_tail a); Ok (x, mkA (a_len a) (a_head a) (a_tail a + 1) (a_el a)).

(** collections.c 412-416, [ctr_array_count]: a subtraction of doubles. *)
Definition array_count (a : arr) : Z := (Z.of_nat (a_head a) - Z.of_nat (a_tail a))%Z.

(** collections.c 427-448, [ctr_array_from_length]: [n] remaining rounds, position [i]. *)
Fixpoint get_push (src dst : arr) (i : Z) (n : nat) : outcome arr :=
  match n with
  | O => Ok dst
  | S k => do x <- array_get src i; do d <- array_push dst x; get_push src d (i + 1)%Z k
  end.
Definition array_from_length (a : arr) (start len : Z) : outcome arr :=
  if negb (in_int start && in_int len && in_int (start + len)) then UB else
  get_push a array_new start (Z.to_nat len).

(** collections.c 513-540, [ctr_array_add]: positions [tail + 1 .. head] of both lists
    are fetched with [ctr_array_get], which adds [tail] once more. *)
Definition copy_into (src dst : arr) : outcome arr :=
  get_push src dst (Z.of_nat (a_tail src) + 1) (a_head src - a_tail src).
Definition array_add (a b : arr) : outcome arr :=
  do r <- copy_into a array_new; copy_into b r.

(** collections.c 586-599, [ctr_array_copy] *)
Definition array_copy (a : arr) : outcome arr := copy_into a array_new.

(** collections.c 460-501, [ctr_array_splice] with whole numbers and a list as replacement. *)
Definition array_splice (a : arr) (from len : Z) (r : arr) : outcome arr :=
  do n1 <- array_from_length a 1 (from - 1);
  do n2 <- array_add n1 r;
  let start := (from + len)%Z in
  if (start <=? array_count a)%Z
  then do rest <- array_from_length a start (1 + array_count a - start); array_add n2 rest
  else Ok n2.

(** collections.c 702-717, [ctr_array_fill] with a whole number. *)
Definition array_fill (a : arr) (n : Z) (x : A) : outcome arr :=
  if (n <? 1)%Z then Ok a else if (W64 <=? n)%Z then UB else push_n a x (Z.to_nat n).

(** collections.c 76-89, [ctr_array_min]; 100-113, [ctr_array_max].  [num] is the numeric value of an
    element; [V] stands for [double] restricted to comparable values, [zero] is [0.0]. *)
Fixpoint min_loop {V} (ltb : V -> V -> bool) (num : A -> V) (el : list (option A)) (i n : nat) (best : V) : outcome V :=
  match n with
  | O => Ok best
  | S k => do x <- rd_cell el i;
      min_loop ltb num el (i + 1) k (if (i =? 0)%nat || ltb (num x) best then num x else best)
  end.
Definition array_min {V} (ltb : V -> V -> bool) (zero : V) (num : A -> V) (a : arr) : outcome V :=
  min_loop ltb num (a_el a) 0 (a_head a) zero.
Definition array_max {V} (ltb : V -> V -> bool) (zero : V) (num : A -> V) (a : arr) : outcome V :=
  min_loop (fun x y => ltb y x) num (a_el a) 0 (a_head a) zero.

(** collections.c 728-744, [ctr_array_index_of]; [str] is the text of an element
    ([ctr_internal_cast2string]).  The answer is [found + 1], [None] is Nil.
    Simplification: [found] is an [int]; lists of more than 2^31 - 1 elements are not considered. *)
Fixpoint find_loop (str : A -> text) (el : list (option A)) (needle : text) (i n : nat) : outcome (option Z) :=
  match n with
  | O => Ok None
  | S k => do x <- rd_cell el i;
      do hit <- (if (length (str x) =? length needle)%nat
                 then do r <- strncmp (str x) needle (length needle); Ok (r =? 0)%Z
                 else Ok false);
      if hit then Ok (Some (Z.of_nat i + 1)%Z) else find_loop str el needle (i + 1) k
  end.
Definition array_index_of (str : A -> text) (a : arr) (needle : text) : outcome (option Z) :=
  find_loop str (a_el a) needle (a_tail a) (a_head a - a_tail a).

(** collections.c 205-233, [ctr_array_join]: the bytes of the result. *)
Fixpoint join_loop (str : A -> text) (glue : text) (el : list (option A)) (tail i n : nat) (acc : text) : outcome text :=
  match n with
  | O => Ok acc
  | S k => do x <- rd_cell el i;
      join_loop str glue el tail (i + 1) k
        (if (i =? tail)%nat then str x else acc ++ glue ++ str x)
  end.
Definition array_join (str : A -> text) (a : arr) (glue : text) : outcome text :=
  join_loop str glue (a_el a) (a_tail a) (a_tail a) (a_head a - a_tail a) [].

End Lists.
Arguments arr : clear implicits.

(** ** A list in a variable and the messages sent to it *)
From Verif Require Import ListSpec.
Section Run.
Context {A : Type} (nil : A).
Definition list_step (a : arr A) (o : lop (A := A)) : outcome (arr A * lans (A := A)) :=
  match o with
  | LPush x => do a' <- array_push a x; Ok (a', Same)
  | LUnshift x => do a' <- array_unshift a x; Ok (a', Same)
  | LPop => do (x, a') <- array_pop nil a; Ok (a', Elem x)
  | LShift => do (x, a') <- array_shift nil a; Ok (a', Elem x)
  | LAt n => do x <- array_get nil a n; Ok (a, Elem x)
  | LFirst => do x <- array_first nil a; Ok (a, Elem x)
  | LLast => do x <- array_last nil a; Ok (a, Elem x)
  | LSecondLast => do x <- array_second_last nil a; Ok (a, Elem x)
  | LCount => Ok (a, Num (array_count a))
  | LFill n x => do a' <- array_fill a n x; Ok (a', Same)
  end.
Fixpoint list_run (a : arr A) (os : list (lop (A := A))) : outcome (arr A * list (lans (A := A))) :=
  match os with
  | [] => Ok (a, [])
  | o :: os' => do (a1, r) <- list_step a o; do (a2, rs) <- list_run a1 os'; Ok (a2, r :: rs)
  end.
End Run.
