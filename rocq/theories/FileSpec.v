(** What files are expected to do, said without the code. *)
From Verif Require Import Common FileModel.
Local Open Scope nat_scope.

(** A file system as its user sees it: a folder or some bytes behind each place. *)
Inductive thing := AFolder | AFile (t : text).
Definition world := N -> option thing.
Definition change (w : world) (l : N) (x : option thing) : world := fun j => if (j =? l)%N then x else w j.

(** What each message does when it is permitted; [None]: not specified (reading a folder). *)
Definition does (w : world) (l : N) (o : op) : option (world * answer * bool) :=
  match o, w l with
  | ORead, Some (AFile t) => Some (w, AText t, false)
  | ORead, None => Some (w, ANil, true)
  | OWrite t, Some AFolder | OAppend t, Some AFolder => Some (w, ANil, true)
  | OWrite t, _ => Some (change w l (Some (AFile t)), AMe, false)
  | OAppend t, Some (AFile u) => Some (change w l (Some (AFile (u ++ t))), AMe, false)
  | OAppend t, None => Some (change w l (Some (AFile t)), AMe, false)
  | OExists, x => Some (w, ABool (match x with Some _ => true | None => false end), false)
  | ODelete, Some _ => Some (change w l None, AMe, false)
  | ODelete, None => Some (w, ANil, true)
  | OSize, Some (AFile t) => Some (w, ANumber (Z.of_nat (length t)), false)
  | OSize, None => Some (w, ANumber 0, false)
  | _, Some AFolder => None
  end.
Inductive lives (place : text -> option N) : world -> list (text * op) -> world -> list (answer * bool) -> Prop :=
| lives_nil w w' : (forall l, w l = w' l) -> lives place w [] w' []
| lives_cons w p l o w1 a e h w2 r : place p = Some l -> does w l o = Some (w1, a, e) -> lives place w1 h w2 r ->
    lives place w ((p, o) :: h) w2 ((a, e) :: r).

(** The user's view of a file system. *)
Definition view (s : os) : world := fun l =>
  match entry s l with None => None | Some Folder => Some AFolder | Some (Regular i) => Some (AFile (bytes s i)) end.
(** No two places with the same file (no hard links). *)
Definition unshared (s : os) : Prop := forall l l' i, entry s l = Some (Regular i) -> entry s l' = Some (Regular i) -> l = l'.
Definition unused (s : os) (i : N) : Prop := forall l, entry s l <> Some (Regular i).
Definition nul_free (t : text) : Prop := ~ In 0%N t.
(** Sizes of all files fit in an [int]. *)
Definition small (w : world) : Prop := forall l t, w l = Some (AFile t) -> (Z.of_nat (length t) < 2147483648)%Z.
