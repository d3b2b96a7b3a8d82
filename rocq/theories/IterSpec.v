(** Specification of going through a list, of putting it in order and of pairing two lists. *)
From Coq Require Import Permutation Sorted.
From Verif Require Import Common Fuel MapSpec MapModel.

Section S.
Context {A : Type}.

(** ** [each:] *)
(** The block is run with position and element, in order; it may break off or fail. *)
Fixpoint visits {W} (blk : W -> Z -> A -> W * flow) (w : W) (j : Z) (l : list A) : W * flow :=
  match l with
  | [] => (w, FNone)
  | x :: r =>
      let '(w', fl) := blk w j x in
      match fl with FNone | FContinue => visits blk w' (j + 1) r | FBreak => (w', FNone) | FError => (w', FError) end
  end.
(** The same when the block may change the sequence as well: round [k] (from 0) looks at the element that
    stands at that place then. *)
Fixpoint visits_live {W} (blk : W -> Z -> A -> list A -> W * list A * flow) (fuel : nat) (w : W) (l : list A) (k : nat)
  : res (W * list A * flow) :=
  match fuel with
  | O => NoFuel
  | S f =>
      match nth_error l k with
      | None => Ret (w, l, FNone)
      | Some x =>
          let '(w', l', fl) := blk w (Z.of_nat k + 1)%Z x l in
          match fl with
          | FNone | FContinue => visits_live blk f w' l' (S k)
          | FBreak => Ret (w', l', FNone)
          | FError => Ret (w', l', FError)
          end
      end
  end.

(** ** [sort:] *)
(** What ISO C (7.22.5) asks of a comparison on the elements of a list: a total preorder. *)
Definition orders (cmp : A -> A -> Z) (l : list A) : Prop :=
  (forall x y, In x l -> In y l -> Z.sgn (cmp x y) = (- Z.sgn (cmp y x))%Z) /\
  (forall x y z, In x l -> In y l -> In z l -> (cmp x y <= 0)%Z -> (cmp y z <= 0)%Z -> (cmp x z <= 0)%Z).
Definition in_order (cmp : A -> A -> Z) (l : list A) : Prop := StronglySorted (fun x y => (cmp x y <= 0)%Z) l.

(** [qsort] of the C library is not part of the repository.  It is taken to be any procedure that asks for
    comparisons of elements and answers the new contents of the array in the end; [QWild] is undefined behaviour. *)
Inductive qtree := QDone (r : list A) | QAsk (x y : A) (k : Z -> qtree) | QWild.

Fixpoint answer (cmp : A -> A -> Z) (t : qtree) : option (list A) :=
  match t with QDone r => Some r | QAsk x y k => answer cmp (k (cmp x y)) | QWild => None end.
Fixpoint asks (l : list A) (t : qtree) : Prop :=
  match t with QDone _ => True | QAsk x y k => In x l /\ In y l /\ forall c, asks l (k c) | QWild => True end.
(** What ISO C promises about [qsort]: if the comparison orders the elements, then the array is put in order; otherwise nothing. *)
Definition qsort_iso (qs : list A -> qtree) : Prop := forall l, asks l (qs l) /\
  forall cmp, orders cmp l -> exists r, answer cmp (qs l) = Some r /\ Permutation r l /\ in_order cmp r.

(** ** [by:] *)
(** Each element of the second list that is not Nil, as a text, becomes the key of the element beside it;
    later pairs replace earlier ones. *)
Definition paired (is_nil : A -> bool) (str : A -> text) (l ks : list A) : list (text * A) :=
  fold_left (fun bs xk => if is_nil (snd xk) then bs else with_binding bs (str (snd xk)) (fst xk)) (combine l ks) [].
End S.
Arguments qtree : clear implicits.
