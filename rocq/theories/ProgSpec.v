(** What the Program object is expected to do, stated without the code. *)
From Coq Require Import QArith.
From Verif Require Import Common FloatSpec NumSpec FileSpec.
Local Open Scope Z_scope.

(** The units of memory and their bytes. *)
Inductive unit_bytes : option text -> Z -> Prop :=
| unit_none : unit_bytes None 1
| unit_kb : unit_bytes (Some [75; 66]%N) 1000
| unit_mb : unit_bytes (Some [77; 66]%N) 1000000
| unit_gb : unit_bytes (Some [71; 66]%N) 1000000000.

(** A setting of the environment: a number written in digits. *)
Definition in_digits (t : text) (n : Z) : Prop := t <> [] /\ digits t /\ dvalue t = n.
Definition or_default (t : option text) (d n : Z) : Prop :=
  match t with None => n = d | Some t => in_digits t n end.

(** Names of settings. *)
Definition good_name (n : text) : Prop := n <> [] /\ ~ In 61%N n /\ nul_free n.
(** What a history of settings leaves: the last one counts. *)
Definition store := text -> option text.
Definition stored (s : store) (n : text) (v : option text) : store :=
  fun m => if list_eq_dec N.eq_dec m n then v else s m.
Definition good_setting (nv : text * option text) : Prop :=
  good_name (fst nv) /\ match snd nv with None => True | Some v => nul_free v end.

(** The text without a line feed at its end. *)
Inductive chomped : text -> text -> Prop :=
| chomp_end : forall t, chomped (t ++ [10%N]) t
| chomp_none : forall t, (forall t', t <> t' ++ [10%N]) -> chomped t t.
