(** Model of the messages of lists that run a block or build a map: [each:], [sort:] and [by:]
    (collections.c 125-152, 552-574, 607-651).

    A block is an arbitrary function of the state [W] of the rest of the world.  An object of the list is an
    element of [A]. *)
From Coq Require Import SpecFloat.
From Verif Require Import Common Fuel MapSpec MapModel ListModel NumModel IterSpec.

Section Iter.
Context {A : Type} (nil : A).

(** collections.c 125-156, [ctr_array_map]: the block is given the round, the element and the list, which it may
    change; [head] and the elements are read anew in each round.  [flow] is [CtrStdFlow] after the block.
    The number of rounds is bounded by [fuel] only. *)
Fixpoint map_loop {W} (blk : W -> Z -> A -> arr A -> W * arr A * flow) (fuel : nat)
  (w : W) (a : arr A) (i : nat) (j : Z) : res (W * arr A * flow) :=
  match fuel with
  | O => NoFuel
  | S f =>
      if (i <? a_head a)%nat then
        match rd_cell (a_el a) i with
        | UB => Bad
        | Ok x =>
            let '(w', a', fl) := blk w (j + 1)%Z x a in
            match fl with
            | FNone | FContinue => map_loop blk f w' a' (i + 1) (j + 1)%Z
            | FBreak => Ret (w', a', FNone)
            | FError => Ret (w', a', FError)
            end
        end
      else Ret (w, a, FNone)
  end.
(** [blk] is [None] if the argument is not a block. *)
Definition array_map {W} (blk : option (W -> Z -> A -> arr A -> W * arr A * flow)) (fuel : nat) (w : W) (a : arr A)
  : res (W * arr A * flow) :=
  match blk with None => Ret (w, a, FError) | Some b => map_loop b fuel w a (a_tail a) 0%Z end.

(** collections.c 609-626, [ctr_sort_cmp].  [run b] is [ctr_block_run] of the block [b], with the number that its answer
    is cast to; the state of the world includes the global [temp_sorter], which a [sort:] inside of the block sets. *)
Definition sort_cmp {W B} (run : B -> W * B -> A -> A -> (W * B) * num) (g : W * B) (x y : A) : outcome ((W * B) * Z) :=
  let '(g', v) := run (snd g) g x y in
  do c <- c_int v; Ok (g', c).
Fixpoint qrun {W B} (run : B -> W * B -> A -> A -> (W * B) * num) (g : W * B) (t : qtree A) : outcome ((W * B) * list A) :=
  match t with
  | QDone r => Ok (g, r)
  | QAsk x y k => do (g', c) <- sort_cmp run g x y; qrun run g' (k c)
  | QWild => UB
  end.
Fixpoint rd_cells (el : list (option A)) (i n : nat) : outcome (list A) :=
  match n with O => Ok [] | S k => do x <- rd_cell el i; do r <- rd_cells el (i + 1) k; Ok (x :: r) end.
(** collections.c 637-647, [ctr_array_sort] with a block [b]: [qs] is [qsort], applied to the cells [tail..head).
    Simplification: the block does not change the list that is being sorted. *)
Definition array_sort {W B} (run : B -> W * B -> A -> A -> (W * B) * num) (qs : list A -> qtree A)
  (g : W * B) (b : B) (a : arr A) : outcome ((W * B) * arr A) :=
  do xs <- rd_cells (a_el a) (a_tail a) (a_head a - a_tail a);
  do (g', r) <- qrun run (fst g, b) (qs xs);
  Ok (g', mkA (a_len a) (a_head a) (a_tail a) (firstn (a_tail a) (a_el a) ++ map Some r ++ skipn (a_head a) (a_el a))).

(** collections.c 552-573, [ctr_array_combine].  [is_nil] tells the object Nil, [str] is the text of an object;
    [ctr_map_put] takes the value first and the key second, so that the elements of the receiver become the values.
    The argument is [None] if it is not a list. *)
Definition of_outcome {B} (o : outcome B) : res B := match o with Ok x => Ret x | UB => Bad end.
Fixpoint combine_loop (hash : text -> Z) (is_nil : A -> bool) (str : A -> text) (fuel : nat)
  (a b : arr A) (i n : nat) (m : pmap A) : res (pmap A) :=
  match n with
  | O => Ret m
  | S k =>
      let! own := of_outcome (array_get nil a (Z.of_nat i + 1)) in
      let! other := of_outcome (array_get nil b (Z.of_nat i + 1)) in
      if is_nil other then combine_loop hash is_nil str fuel a b (i + 1) k m
      else let! m' := map_put hash fuel m own (str other) in combine_loop hash is_nil str fuel a b (i + 1) k m'
  end.
Definition array_combine (hash : text -> Z) (is_nil : A -> bool) (str : A -> text) (fuel : nat) (a : arr A) (b : option (arr A))
  : res (pmap A) :=
  match b with
  | None => Ret map_new
  | Some b' => combine_loop hash is_nil str fuel a b' (a_tail a) (a_head a - a_tail a) map_new
  end.
End Iter.
