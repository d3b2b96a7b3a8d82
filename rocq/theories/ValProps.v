(** Property theorems about values of different kinds (C99, C100). *)
From Coq Require Import String SpecFloat QArith.
From Verif Require Import Common Txt NumModel NumSpec NumProofs NumFacts TextModel TextSpec TextProofs ValSpec ValModel ValProofs.
Local Open Scope Z_scope.
Local Notation length := List.length.
Local Notation "'tx' s" := (lit s%string) (at level 8, s at level 0).

(** English words; objects that answer what objects answer by default. *)
Definition english : env := plain_objects (tx "Object")
  {| dsep := tx "."; tsep := tx ","; w_nil := tx "None"; w_true := tx "True"; w_false := tx "False";
     obj_num := fun _ => None; obj_txt := fun _ => None; obj_bool := fun _ => None; special := fun _ => S754_nan |}.

(** * C99: equality *)
(** For every kind of values, = is an equivalence (apart from NaN), and ≠ is its negation, even between kinds. *)
Theorem C99_unequal_is_not_equal : forall e v w, unequals e v w = (do (r, f) <- equals e v w; Ok (negb r, f)).
Proof. exact unequals_ok. Qed.
Print Assumptions C99_unequal_is_not_equal.
Theorem C99_same_kind_partial : forall e,
  reflexive_on not_nan (eqt e) /\
  symmetric_on (fun v w => type_of v = type_of w) (eqt e) /\
  transitive_on (fun u v w => type_of u = type_of v /\ type_of v = type_of w) (eqt e).
Proof.
  intros e. split; [apply equals_refl|]. split; [|apply equals_trans]. intros v w K H. unfold eqt in *. rewrite equals_sym; auto.
Qed.
Print Assumptions C99_same_kind_partial.
(** A text that is equal to a whole number: then the number is equal to the text. *)
Theorem C99_text_number_partial : forall e d t s z, dsep e = [d] -> tsep e = [t] -> sep_ok [d] -> sep_ok [t] -> d <> t -> Z.abs z <= 2 ^ 53 -> no_nul s ->
  eqt e (VTxt s) (VNum (of_Z z) None) -> eqt e (VNum (of_Z z) None) (VTxt s).
Proof. exact text_number. Qed.
Print Assumptions C99_text_number_partial.
Example C99_example : eqt english (VTxt (tx "1,234")) (VNum (of_Z 1234) None) /\ eqt english (VNum (of_Z 1234) None) (VTxt (tx "1,234")) /\
  eqt english (VTxt (tx "3 apples")) (VNum (of_Z 3) (Some (tx "apples"))) /\ unequals english VNil (VObj 3) = Ok (true, false).
Proof. repeat split; vm_compute; reflexivity. Qed.
(** Between any two different kinds (other than Nil and an object) the order matters. *)
Theorem C99_symmetry_refuted : forall k l, k <> l -> ~ (k = KNil /\ l = KObj) -> ~ (k = KObj /\ l = KNil) ->
  exists v w, type_of v = k /\ type_of w = l /\ exists r, equals english v w = Ok (r, false) /\ equals english w v = Ok (negb r, false).
Proof.
  intros k l N1 N2 N3.
  assert (W : exists v w, type_of v = k /\ type_of w = l /\
    match equals english v w, equals english w v with Ok (r, false), Ok (r', false) => Bool.eqb r' (negb r) | _, _ => false end = true).
  { destruct k, l; try (exfalso; now apply N1); try (exfalso; now apply N2); try (exfalso; now apply N3).
    - exists VNil, (VBool false). split; [|split]; vm_compute; reflexivity.
    - exists VNil, (VNum (of_Z 0) None). split; [|split]; vm_compute; reflexivity.
    - exists VNil, (VTxt (tx "None")). split; [|split]; vm_compute; reflexivity.
    - exists (VBool false), VNil. split; [|split]; vm_compute; reflexivity.
    - exists (VBool true), (VNum (of_Z 2) None). split; [|split]; vm_compute; reflexivity.
    - exists (VBool true), (VTxt (tx "x")). split; [|split]; vm_compute; reflexivity.
    - exists (VBool true), (VObj 0). split; [|split]; vm_compute; reflexivity.
    - exists (VNum (of_Z 0) None), VNil. split; [|split]; vm_compute; reflexivity.
    - exists (VNum (of_Z 2) None), (VBool true). split; [|split]; vm_compute; reflexivity.
    - exists (VNum (of_Z 7) None), (VTxt (tx "007")). split; [|split]; vm_compute; reflexivity.
    - exists (VNum (of_Z 1) None), (VObj 0). split; [|split]; vm_compute; reflexivity.
    - exists (VTxt (tx "None")), VNil. split; [|split]; vm_compute; reflexivity.
    - exists (VTxt (tx "x")), (VBool true). split; [|split]; vm_compute; reflexivity.
    - exists (VTxt (tx "007")), (VNum (of_Z 7) None). split; [|split]; vm_compute; reflexivity.
    - exists (VTxt (tx "Object")), (VObj 0). split; [|split]; vm_compute; reflexivity.
    - exists (VObj 0), (VBool true). split; [|split]; vm_compute; reflexivity.
    - exists (VObj 0), (VNum (of_Z 1) None). split; [|split]; vm_compute; reflexivity.
    - exists (VObj 0), (VTxt (tx "Object")). split; [|split]; vm_compute; reflexivity. }
  destruct W as (v & w & K & L & H). exists v, w. split; [exact K|]. split; [exact L|].
  destruct (equals english v w) as [[r []]|]; try discriminate H. destruct (equals english w v) as [[r' []]|]; try discriminate H.
  exists r. split; [reflexivity|]. destruct r, r'; try discriminate H; reflexivity.
Qed.
Print Assumptions C99_symmetry_refuted.
Theorem C99_transitivity_refuted : exists u v w, eqt english u v /\ eqt english v w /\ equals english u w = Ok (false, false).
Proof. exists (VTxt (tx "0")), (VNum (of_Z 0) None), (VTxt (tx "zero")). repeat split; vm_compute; reflexivity. Qed.
Print Assumptions C99_transitivity_refuted.
Theorem C99_nan_refuted : exists x, equals english (VNum x None) (VNum x None) = Ok (false, false).
Proof. exists S754_nan. reflexivity. Qed.
Print Assumptions C99_nan_refuted.

(** * C100: truth *)
Theorem C100_connectives_partial : forall e b v c, has_truth e v c ->
  bool_and e b v = Ok (andb b c, false) /\ bool_or e b v = Ok (orb b c, false) /\ bool_nor e b v = Ok (negb (orb b c), false) /\
  bool_not b = negb b /\ equals e (VBool b) v = Ok (negb (xorb b c), false).
Proof. exact connectives. Qed.
Print Assumptions C100_connectives_partial.
(** There is just one truth of a value, and the connectives follow the laws of logic. *)
Theorem C100_laws_partial : forall e b v c, has_truth e v c ->
  (forall c', has_truth e v c' -> c' = c) /\
  bool_nor e b v = (do (r, f) <- bool_or e b v; Ok (bool_not r, f)) /\
  (do (r, f) <- bool_and e b v; Ok (bool_not r, f)) = bool_or e (bool_not b) (VBool (bool_not c)) /\
  (forall w d, has_truth e w d -> (do (r, f) <- bool_and e b v; bool_and e r w) = (do (r, f) <- bool_and e c w; bool_and e b (VBool r))) /\
  either_or b v (VBool b) = (if b then v else VBool false).
Proof. exact laws. Qed.
Print Assumptions C100_laws_partial.
(** A truth value as a number and back. *)
Theorem C100_number_and_back : forall e b, cast2bool e (VNum (bool_to_number b) None) = Ok (b, false) /\
  cast2number e (VBool b) = Ok (bool_to_number b, false).
Proof. intros e []; split; vm_compute; reflexivity. Qed.
Print Assumptions C100_number_and_back.
(** An object that answers something else than a truth value: an error, and it counts as False. *)
Theorem C100_wrong_answer : forall e b i, obj_bool e i = None -> bool_and e b (VObj i) = Ok (false, true) /\ bool_or e b (VObj i) = Ok (b, true).
Proof. intros e b i H. unfold bool_and, bool_or. cbn [cast2bool]. rewrite H. destruct b; split; reflexivity. Qed.
Print Assumptions C100_wrong_answer.
Example C100_example : has_truth english (VTxt (tx "no")) true /\ has_truth english (VNum (of_Z (-3)) None) true /\ has_truth english VNil false /\
  bool_and english true (VTxt []) = Ok (false, false) /\ bool_nor english false (VNum (of_Z 0) None) = Ok (true, false).
Proof.
  split; [cbn [has_truth]; split; discriminate|]. split; [|repeat split; vm_compute; reflexivity]. cbn [has_truth].
  split; [vm_compute; split; congruence|]. exists (-3). split; [vm_compute; reflexivity|]. split; [vm_compute; split; congruence|reflexivity].
Qed.
(** False as a text is true. *)
Theorem C100_text_and_back_refuted : exists b t, cast2string english (VBool b) = Ok (t, false) /\ cast2bool english (VTxt t) = Ok (negb b, false).
Proof. exists false, (tx "False"). split; reflexivity. Qed.
Print Assumptions C100_text_and_back_refuted.
(** A number that is not zero but false, and one whose truth is undefined. *)
Theorem C100_number_refuted : exists x y, number_neq x (of_Z 0) = true /\ cast2bool english (VNum x None) = Ok (false, false) /\
  finite y /\ cast2bool english (VNum y None) = UB.
Proof.
  exists (div64 (of_Z 1) (of_Z 2)), (of_Z (2 ^ 40)). split; [reflexivity|]. split; [reflexivity|]. split; [vm_compute; split; congruence|reflexivity].
Qed.
Print Assumptions C100_number_refuted.
