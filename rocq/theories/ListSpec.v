(** Specification of lists: a mathematical sequence and operations on it. *)
From Verif Require Import Common.

Section Seq.
Context {A : Type} (nil : A).

(** one-based access, [nil] outside *)
Definition seq_at (l : list A) (n : Z) : A :=
  if (n <? 1)%Z then nil else match nth_error l (Z.to_nat (n - 1)) with Some x => x | None => nil end.
Definition seq_last (l : list A) : A := seq_at l (Z.of_nat (length l)).
Definition seq_second_last (l : list A) : A := seq_at l (Z.of_nat (length l) - 1).
(** the sequence with position [n] (>= 1) set to [x], padded with [nil] *)
Definition seq_put (l : list A) (x : A) (n : Z) : list A :=
  let p := Z.to_nat (n - 1) in
  firstn p (l ++ repeat nil (p - length l)) ++ x :: skipn (S p) l.
Definition seq_sub (l : list A) (start len : Z) : list A :=
  map (fun k => seq_at l (start + Z.of_nat k)) (seq 0 (Z.to_nat len)).

Inductive lop :=
| LPush (x : A) | LUnshift (x : A) | LPop | LShift | LAt (n : Z) | LFirst | LLast | LSecondLast | LCount
| LFill (n : Z) (x : A).
Inductive lans := Elem (x : A) | Num (z : Z) | Same.
Definition seq_step (l : list A) (o : lop) : list A * lans :=
  match o with
  | LPush x => (l ++ [x], Same)
  | LUnshift x => (x :: l, Same)
  | LPop => (removelast l, Elem (seq_last l))
  | LShift => (tl l, Elem (seq_at l 1))
  | LAt n => (l, Elem (seq_at l n))
  | LFirst => (l, Elem (seq_at l 1))
  | LLast => (l, Elem (seq_last l))
  | LSecondLast => (l, Elem (seq_second_last l))
  | LCount => (l, Num (Z.of_nat (length l)))
  | LFill n x => (l ++ repeat x (Z.to_nat n), Same)
  end.
Fixpoint seq_run (l : list A) (os : list lop) : list A * list lans :=
  match os with
  | [] => (l, [])
  | o :: os' => let '(l1, r) := seq_step l o in let '(l2, rs) := seq_run l1 os' in (l2, r :: rs)
  end.
End Seq.
