(** The English words of the evaluator and the part of the initial state that is modelled;
    for the examples. *)
From Coq Require Import String.
From Verif Require Import Common Txt LexModel ParseModel EvalModel Dicts.
Open Scope nat_scope.
Local Notation "'tx' s" := (lit s%string) (at level 8, s at level 0).

(** i18n/en/dictionary.h 7-14, 21-24, 59-61, 77, 123-124, 176-178; i18n/en/msg.h 20-24, 44-49 *)
Definition words_en : words := mkWords
  (tx "self") (tx "own") (tx "this-task") (tx "number") (tx "text") (tx "bool") (tx "=")
  (tx "respond:") (tx "respond:and:") (tx "respond:and:and:") (tx "respond:and:and:and:")
  (tx "None") (tx "True") (tx "False") (tx "Object") (tx "Task")
  (tx "Key not found: ") (tx "Cannot assign to undefined variable: ") (tx "Too many nested calls.")
  (tx "Must return a number.") (tx "Must return a string.") (tx "Must return a boolean.")
  (tx "Expected block.") (tx "Expected string.") (tx "Division by zero.") (tx "Expected list.") (tx "Syntax error").

(** world.c 639-1042, [ctr_initialize_world]: the methods that are modelled *)
Definition methods_en : list (addr * text * native) := [
  (2, tx "new", NNew); (2, tx "equals:", NEquals); (2, tx "=", NEquals); (2, tx "≠", NUnequals);
  (2, tx "on:do:", NOnDo); (2, tx "respond:", NRespond); (2, tx "respond:and:", NRespond);
  (2, tx "respond:and:and:", NRespond); (2, tx "respond:and:and:and:", NRespond); (2, tx "None?", NIsNil);
  (2, tx "myself", NMyself); (2, tx "do", NDo); (2, tx "done", NDone); (2, tx "false:", NObjFalse);
  (2, tx "true:", NObjTrue); (2, tx "message:arguments:", NMessage); (2, tx "text", NObjText);
  (2, tx "number", NObjNumber); (2, tx "bool", NObjBool); (2, tx "case:do:", NCase);
  (2, tx "learn:means:", NLearn); (2, tx "recursive", NRecursive);
  (3, tx "None?", NNilIsNil); (3, tx "text", NNilText); (3, tx "number", NNilNumber); (3, tx "bool", NNilBool);
  (4, tx "new", NBoolNew); (4, tx "true:", NTrue); (4, tx "false:", NFalse); (4, tx "break", NBreak);
  (4, tx "continue", NContinue); (4, tx "else:", NFalse); (4, tx "not", NNot); (4, tx "and:", NAnd);
  (4, tx "nor:", NNor); (4, tx "or:", NOr); (4, tx "=", NBoolEq); (4, tx "≠", NBoolNeq);
  (4, tx "number", NBoolNumber); (4, tx "text", NBoolText); (4, tx "bool", NMyself);
  (4, tx "either:or:", NEither); (4, tx "copy", NBoolCopy);
  (7, tx "+", NAdd); (7, tx "add:", NInc); (7, tx "<", NLess); (7, tx ">", NMore); (7, tx "=", NNumEq);
  (7, tx "bool", NNumBool); (7, tx "text", NNumText);
  (8, tx "bool", NTextBool); (8, tx "object", NEval);
  (9, tx "start", NRun); (9, tx "apply:", NRun); (9, tx "apply:and:", NRun); (9, tx "apply:and:and:", NRun);
  (9, tx "set:value:", NBlockSet); (9, tx "error:", NError); (9, tx "except:", NCatch); (9, tx "×", NTimes);
  (9, tx "*", NTimes); (9, tx "procedure", NProcedure); (9, tx "while:", NWhile); (9, tx "text", NBlockText);
  (13, tx "end", NExit); (14, tx "new", NArrayNew); (14, tx "add:", NArrayPush)].
Definition heap_std : list obj :=
  let o v l := mkObj v [] [] l false false in
  [ o VObj 0;
    with_props (o VObj 0) [(tx "Sequence", 14); (tx "Program", 13); (tx "Task", 9); (tx "Text", 8); (tx "Number", 7);
      (tx "False", 6); (tx "True", 5); (tx "Boolean", 4); (tx "None", 3); (tx "Object", 2)];
    o VObj 0; o VNil 2; o (VBool false) 2; o (VBool true) 4; o (VBool false) 4; o (VNum NumModel.zero64) 2;
    o (VText []) 2; o (VBlock None) 2; o VObj 0; o VObj 0; o VObj 0; o VObj 2; o (VList []) 2 ].
Definition install (h : list obj) (m : addr * text * native) : list obj :=
  let '(owner, k, f) := m in
  match nth_error h owner with
  | None => h
  | Some o => replace h owner (with_meths o ((k, length h) :: o_meths o)) ++ [mkObj (VNat f) [] [] 0 false false]
  end.
Definition heap_en : list obj := Eval vm_compute in fold_left install methods_en heap_std.
Definition state_en : state := mkS heap_en 0 [a_world] [] 0 0%N [] 0%Z 0%Z false 0%N [].

(** lists, enough for the examples: collections.c 29-40, 90-99 *)
Definition ext_en (p : native) (C : calls) (self : addr) (args : list addr) : M addr :=
  match p with
  | NArrayNew => create (VList []) self
  | NArrayPush =>
      let! x := arg args in
      let! o := deref self in
      match o_val o with
      | VList l => change self (fun o => with_val o (VList (l ++ [x])));; ret self
      | _ => ub BKind
      end
  | _ => ret a_nil
  end.
(** the program is parsed and run *)
Definition program_en (t : string) : list node :=
  match parse dict_en (lit t) [] [] with POk ss _ => ss | _ => [] end.
Definition run_en (n : nat) (t : string) : res bool :=
  run_program dict_en words_en false ext_en n (program_en t) state_en.
(** the value of a variable at the end *)
Definition var_en (t : text) (r : res bool) : option value :=
  match r with
  | Done _ s =>
      match nth_error (heap s) a_world with
      | Some o => match find_prop (o_props o) t with
                  | Some a => option_map o_val (nth_error (heap s) a)
                  | None => None
                  end
      | None => None
      end
  | _ => None
  end.
