(** Messages with places for texts and numbers, independent of the code. *)
From Verif Require Import Common NumSpec.
Local Open Scope N_scope.

Definition percent : N := 37.
(** A message without places is written as it is. *)
Definition no_places (t : text) : Prop := Forall (fun c => c <> percent) t.
(** A message with one place for a text *)
Definition one_place (m a b : text) : Prop := m = a ++ [percent; 115] ++ b /\ no_places a /\ no_places b.
(** A message with places for two texts and a number, in this order *)
Definition three_places (m a b c d : text) : Prop :=
  m = a ++ [percent; 115] ++ b ++ [percent; 115] ++ c ++ [percent; 100] ++ d /\ no_places a /\ no_places b /\ no_places c /\ no_places d.
(** The number as people write it *)
Definition written (z : Z) (ds : text) : Prop := ds <> [] /\ digits ds /\ (ds = [48] \/ hd 48 ds <> 48) /\ dvalue ds = z.
