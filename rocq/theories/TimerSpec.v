(** What a program sees of its timers, in order of time, independent of the code. *)
From Verif Require Import Common.
Local Open Scope Z_scope.

(** [Asked n ms at]: timer [n] was asked to ring [ms] milliseconds after [at]; below zero it is stopped.
    [Rang n at]: the listener of timers got [n].  [Looking at], [Looked at]: the start and the end of a look at the timers. *)
Inductive event := Asked (n ms at_ : Z) | Rang (n at_ : Z) | Looking (at_ : Z) | Looked (at_ : Z).

Definition about (n : Z) (e : event) : Prop :=
  match e with Asked m _ _ => m = n | Rang m _ => m = n | _ => False end.
Definition silent (n : Z) (tr : list event) : Prop := Forall (fun e => ~ about n e) tr.

(** A timer rings after its time and once for every time it was asked. *)
Definition rings_rightly (tr : list event) : Prop :=
  forall pre n now post, tr = pre ++ Rang n now :: post ->
  exists a ms at_ b, pre = a ++ Asked n ms at_ :: b /\ silent n b /\ 0 <= ms /\ at_ + ms < now.

(** A look at the timers leaves none behind that was due. *)
Definition none_missed (tr : list event) : Prop :=
  forall a n ms at_ b now c post, tr = a ++ Asked n ms at_ :: b ++ Looking now :: c ++ Looked now :: post ->
  silent n b -> silent n c -> 0 <= ms -> now <= at_ + ms.

(** During one look the timers ring in the order of their numbers, each at most once. *)
Definition in_order (tr : list event) : Prop :=
  forall a n t1 b m t2 c, tr = a ++ Rang n t1 :: b ++ Rang m t2 :: c -> (forall t, ~ In (Looking t) b) -> n < m.

(** The requests of a trace are within the reach of a 32-bit clock *)
Definition within_reach (tr : list event) : Prop :=
  forall n ms at_, In (Asked n ms at_) tr -> 0 <= at_ /\ (0 <= ms -> at_ + ms <= 2147483647).
