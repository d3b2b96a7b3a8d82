(** The evaluator: walker.c, sending of messages and scopes (world.c), and the built-in methods
    of Object, Nil, Boolean and Code that steer the evaluation (base.c).

    An object is named by its address, a position in the list of all objects ever created; the
    address 0 is NULL.  Objects are never taken away: the collector is modelled on its own
    (GcModel), so that the marks, the sticky bits and the entries with an empty name that
    protect temporary objects in a scope (system.c 171-175) are left out.  A property table is
    the list of its names and values, first entry first (MapModel has the linked list).  The
    objects for names of variables and messages are not created.  No plug-ins are found
    (util.c 84-118).  Memory comes zeroed and does not run out. *)
From Verif Require Import Common TextModel NumModel LexModel ParseModel.
Open Scope nat_scope.

Notation addr := nat (only parsing).
Notation null := 0%nat (only parsing).

(** The built-in methods.  The ones from [NExt] on are not modelled: they are described by a
    parameter of the evaluator. *)
Inductive native :=
(* Object *)
| NNew | NEquals | NUnequals | NOnDo | NRespond | NIsNil | NMyself | NDo | NDone
| NObjFalse | NObjTrue | NMessage | NObjText | NObjNumber | NObjBool | NCase | NLearn | NRecursive
(* Nil *)
| NNilIsNil | NNilText | NNilNumber | NNilBool
(* Boolean *)
| NBoolNew | NTrue | NFalse | NBreak | NContinue | NNot | NAnd | NNor | NOr | NBoolEq | NBoolNeq
| NBoolNumber | NBoolText | NEither | NBoolCopy
(* Code *)
| NRun | NBlockSet | NError | NCatch | NTimes | NProcedure | NWhile | NBlockText
(* Number *)
| NAdd | NInc | NLess | NMore | NNumEq | NNumBool
(* String, Program *)
| NEval | NTextBool | NExit
(* not modelled *)
| NArrayPush | NArrayNewPush | NArrayNew | NMapNew | NMapPut | NNumText | NExt (k : nat).

(** citrine.h 158-216: the value of an object, with its type *)
Inductive value :=
| VNil | VBool (b : bool) | VNum (x : num) | VText (t : text)
| VBlock (code : option (list text * list node)) | VNat (f : native) | VList (l : list addr) | VObj.
Record obj := mkObj {
  o_val : value; o_props : list (text * addr); o_meths : list (text * addr); o_link : addr;
  o_self : bool;   (* info.selfbind *)
  o_chain : bool   (* info.chainMode *)
}.

(** The state.  [flow] is [CtrStdFlow]; [ctxs] are the scopes, the current one first;
    [mstack] the running methods; [recur] is [ctr_internal_recursion]; [cs] is
    [ctr_callstack_index], a [uint8_t], and [csw] the slots of [ctr_callstack] that have been
    written; [errs] is [errstack]; [inmsg] is [ctr_in_message]; [restricted] is
    [ctr_deserialize_mode]; [steps] is [ctr_sandbox_steps].  [log] is not in the code: the
    nodes that have been evaluated, the messages that the program has sent and the built-in
    methods that have been run, the last one first. *)
Inductive event := ENode | EMsg | ENative (f : native).
Record state := mkS {
  heap : list obj; flow : addr; ctxs : list addr; mstack : list addr; recur : addr;
  cs : N; csw : list N; errs : Z; inmsg : Z; restricted : bool; steps : N; log : list event
}.
Definition with_heap s h := mkS h (flow s) (ctxs s) (mstack s) (recur s) (cs s) (csw s) (errs s) (inmsg s) (restricted s) (steps s) (log s).
Definition with_flow s f := mkS (heap s) f (ctxs s) (mstack s) (recur s) (cs s) (csw s) (errs s) (inmsg s) (restricted s) (steps s) (log s).
Definition with_ctxs s c := mkS (heap s) (flow s) c (mstack s) (recur s) (cs s) (csw s) (errs s) (inmsg s) (restricted s) (steps s) (log s).
Definition with_mstack s m := mkS (heap s) (flow s) (ctxs s) m (recur s) (cs s) (csw s) (errs s) (inmsg s) (restricted s) (steps s) (log s).
Definition with_recur s r := mkS (heap s) (flow s) (ctxs s) (mstack s) r (cs s) (csw s) (errs s) (inmsg s) (restricted s) (steps s) (log s).
Definition with_cs s c w := mkS (heap s) (flow s) (ctxs s) (mstack s) (recur s) c w (errs s) (inmsg s) (restricted s) (steps s) (log s).
Definition with_errs s e := mkS (heap s) (flow s) (ctxs s) (mstack s) (recur s) (cs s) (csw s) e (inmsg s) (restricted s) (steps s) (log s).
Definition with_inmsg s i := mkS (heap s) (flow s) (ctxs s) (mstack s) (recur s) (cs s) (csw s) (errs s) i (restricted s) (steps s) (log s).
Definition with_restricted s b := mkS (heap s) (flow s) (ctxs s) (mstack s) (recur s) (cs s) (csw s) (errs s) (inmsg s) b (steps s) (log s).
Definition with_steps s n := mkS (heap s) (flow s) (ctxs s) (mstack s) (recur s) (cs s) (csw s) (errs s) (inmsg s) (restricted s) n (log s).
Definition with_log s l := mkS (heap s) (flow s) (ctxs s) (mstack s) (recur s) (cs s) (csw s) (errs s) (inmsg s) (restricted s) (steps s) l.

(** Ends of the process ([HOutside]: leaves the model), and kinds of undefined behaviour.  [Fuel]:
    the evaluation was cut off after a number of levels. *)
Inductive halt := HSteps | HKeys | HAnomaly | HReceiver | HParse | HOutside.
Inductive bad := BNull | BKind | BContexts | BMessages | BTrace | BOther.
Inductive res (A : Type) := Done (a : A) (s : state) | Fuel (s : state) | Halt (h : halt) (s : state) | Bad (b : bad) (s : state).
Arguments Done {A} a s. Arguments Fuel {A} s. Arguments Halt {A} h s. Arguments Bad {A} b s.
Definition M A := state -> res A.
Definition ret {A} (a : A) : M A := fun s => Done a s.
Definition bind {A B} (m : M A) (f : A -> M B) : M B :=
  fun s => match m s with Done a s' => f a s' | Fuel s' => Fuel s' | Halt h s' => Halt h s' | Bad b s' => Bad b s' end.
Notation "'let!' x := m 'in' f" := (bind m (fun x => f))
  (at level 200, x pattern, m at level 100, f at level 200, right associativity).
Notation "m ;; f" := (bind m (fun _ => f)) (at level 199, f at level 200, right associativity).
Definition get : M state := fun s => Done s s.
Definition put (f : state -> state) : M unit := fun s => Done tt (f s).
Definition stop {A} (h : halt) : M A := fun s => Halt h s.
Definition ub {A} (b : bad) : M A := fun s => Bad b s.
Definition nofuel {A} : M A := fun s => Fuel s.

(** The objects made by ctr_initialize_world (world.c 639-1042) that the code refers to. *)
Definition a_world := 1. Definition a_object := 2. Definition a_nil := 3. Definition a_bool := 4.
Definition a_true := 5. Definition a_false := 6. Definition a_number := 7. Definition a_string := 8.
Definition a_block := 9. Definition a_break := 10. Definition a_continue := 11. Definition a_exit := 12.

(** ** Objects *)
Definition deref (a : addr) : M obj := fun s =>
  match a with
  | O => Bad BNull s
  | S _ => match nth_error (heap s) a with Some o => Done o s | None => Bad BNull s end
  end.
Fixpoint replace (h : list obj) (a : addr) (o : obj) : list obj :=
  match h, a with
  | [], _ => []
  | _ :: r, O => o :: r
  | x :: r, S b => x :: replace r b o
  end.
Definition change (a : addr) (f : obj -> obj) : M unit :=
  let! o := deref a in put (fun s => with_heap s (replace (heap s) a (f o))).
(** world.c 364-395, [ctr_internal_create_object], and the link *)
Definition create (v : value) (link : addr) : M addr := fun s =>
  Done (length (heap s)) (with_heap s (heap s ++ [mkObj v [] [] link false false])).
(** base.c 1618-1627, [ctr_build_string]; 2434-2439; 910-915; 607-610 *)
Definition build_text (t : text) : M addr := create (VText t) a_string.
Definition build_block (code : list text * list node) : M addr := create (VBlock (Some code)) a_block.
Definition build_number (x : num) : M addr := create (VNum x) a_number.
Definition build_bool (b : bool) : addr := if b then a_true else a_false.

(** world.c 133-155, 165-217, 226-253, 264-267: properties and methods by name.  The names
    are texts, so that equal names have equal hashes. *)
(* an entry whose value is NULL looks like none *)
Fixpoint find_prop (t : list (text * addr)) (k : text) : option addr :=
  match t with
  | [] => None
  | (k', v) :: r => if text_eqb k' k then (if v =? null then None else Some v) else find_prop r k
  end.
Fixpoint del_prop (t : list (text * addr)) (k : text) : list (text * addr) :=
  match t with [] => [] | (k', v) :: r => if text_eqb k' k then r else (k', v) :: del_prop r k end.
Definition set_prop (t : list (text * addr)) (k : text) (v : addr) := (k, v) :: del_prop t k.
Definition with_props o p := mkObj (o_val o) p (o_meths o) (o_link o) (o_self o) (o_chain o).
Definition with_meths o m := mkObj (o_val o) (o_props o) m (o_link o) (o_self o) (o_chain o).
Definition with_val o v := mkObj v (o_props o) (o_meths o) (o_link o) (o_self o) (o_chain o).
Definition with_self o b := mkObj (o_val o) (o_props o) (o_meths o) (o_link o) b (o_chain o).
Definition with_chain o b := mkObj (o_val o) (o_props o) (o_meths o) (o_link o) (o_self o) b.
Definition set_property (a : addr) (k : text) (v : addr) : M unit :=
  change a (fun o => with_props o (set_prop (o_props o) k v)).
Definition add_method (a : addr) (k : text) (v : addr) : M unit :=
  change a (fun o => with_meths o ((k, v) :: o_meths o)).

Definition is_text (v : value) : bool := match v with VText _ => true | _ => false end.
Definition is_num (v : value) : bool := match v with VNum _ => true | _ => false end.
Definition is_bool (v : value) : bool := match v with VBool _ => true | _ => false end.
Definition is_block (v : value) : bool := match v with VBlock _ => true | _ => false end.
(** [x->value.bvalue] and so on, of an object of that type *)
Definition bvalue (a : addr) : M bool := let! o := deref a in match o_val o with VBool b => ret b | _ => ub BKind end.
Definition nvalue (a : addr) : M num := let! o := deref a in match o_val o with VNum x => ret x | _ => ub BKind end.
Definition svalue (a : addr) : M text := let! o := deref a in match o_val o with VText t => ret t | _ => ub BKind end.

(** ** The flow *)
(** walker.c 60, 70 and so on: no error is pending *)
Definition calm (s : state) : bool :=
  (flow s =? null) || (flow s =? a_continue) || (flow s =? a_break).
(** util.c 148-157, [ctr_error] *)
Definition error (t : text) : M unit :=
  let! e := build_text t in put (fun s => with_errs (with_flow s e) 0%Z).
(** walker.c 60-62, 70-72, and the same elsewhere *)
Definition push_call : M unit := put (fun s =>
  if calm s then with_cs s ((cs s + 1) mod 256)%N (cs s :: csw s) else s).
Definition pop_call : M unit := put (fun s =>
  if calm s then with_cs s ((cs s + 255) mod 256)%N (csw s) else with_errs s (errs s + 1)%Z).
(** [if (CtrStdFlow == x) CtrStdFlow = NULL] *)
Definition consume (x : addr) : M unit := put (fun s => if flow s =? x then with_flow s null else s).

(** Words of the language and texts of errors (i18n/xx/dictionary.h, i18n/xx/msg.h). *)
Record words := mkWords {
  w_me : text; w_my : text; w_task : text; w_number : text; w_text : text; w_bool : text; w_equal : text;
  w_respond : text; w_respond1 : text; w_respond2 : text; w_respond3 : text;
  w_nil : text; w_true : text; w_false : text; w_object : text; w_block : text;
  e_key : text; e_assign : text; e_nesting : text; e_num : text; e_text : text; e_bool : text;
  e_block : text; e_string : text; e_zero : text; e_list : text; e_syntax : text
}.

(** What the built-in methods can call. *)
Record calls := mkCalls {
  c_send : addr -> text -> list addr -> M addr;   (* ctr_send_message *)
  c_run : addr -> list addr -> addr -> M addr;    (* ctr_block_run *)
  c_expr : node -> M (addr * bool)                (* ctr_cwlk_expr *)
}.

Section Evaluator.
Variable d : dict.
Variable w : words.
Variable sandbox : bool.
(** The built-in methods that are not modelled. *)
Variable ext : native -> calls -> addr -> list addr -> M addr.

Definition note (e : event) : M unit := put (fun s => with_log s (e :: log s)).
(** citrine.h 138; walker.c 16, 53, 97, 192, 225 *)
Definition LIMIT : N := 2000%N.
Definition step : M unit := fun s =>
  if sandbox then
    if (LIMIT <? steps s + 1)%N then Halt HSteps s else Done tt (with_steps s (steps s + 1)%N)
  else Done tt s.

(** ** Scopes *)
Definition MAX_CTX : nat := 301.
(** world.c 499-507, [ctr_open_context] *)
Definition open_context : M unit :=
  let! s := get in
  (if (300 <=? length (ctxs s)) then error (e_nesting w) else ret tt);;
  let! c := create VObj null in
  let! s := get in
  if (MAX_CTX <=? length (ctxs s)) then ub BContexts else put (fun s => with_ctxs s (c :: ctxs s)).
(** world.c 516-520, [ctr_close_context] *)
Definition close_context : M unit := put (fun s =>
  match ctxs s with _ :: c :: r => with_ctxs s (c :: r) | _ => s end).
Fixpoint find_in (cx : list addr) (k : text) : M (option (addr * addr)) :=
  match cx with
  | [] => ret None
  | c :: r =>
      let! o := deref c in
      match find_prop (o_props o) k with Some v => ret (Some (c, v)) | None => find_in r k end
  end.
(** world.c 545-559, 576-590, 613-627: the error is not made by ctr_error *)
Definition key_error (m k : text) : M unit :=
  let! e := build_text (m ++ k) in put (fun s => with_flow s e).
(** world.c 530-561, [ctr_find] *)
Definition find (k : text) : M addr :=
  let! s := get in
  if negb (flow s =? null) then ret a_nil
  else
    let! f := find_in (ctxs s) k in
    match f with
    | Some (_, v) => ret v
    | None =>
        let! f := find_in [a_world] k in
        match f with Some (_, v) => ret v | None => key_error (e_key w) k;; ret a_nil end
    end.
(** world.c 570-592, [ctr_find_in_my] *)
Definition find_in_my (k : text) : M addr :=
  let! c := find (w_me w) in
  let! o := deref c in
  let! s := get in
  if negb (flow s =? null) then ret a_nil
  else match find_prop (o_props o) k with
       | Some v => ret v
       | None => key_error (e_key w) k;; ret a_nil
       end.
(** world.c 601-629, [ctr_set] *)
Definition set (k : text) (v : addr) : M unit :=
  let! s := get in
  let! f := find_in (ctxs s) k in
  match f with
  | Some (c, _) => set_property c k v
  | None => key_error (e_assign w) k
  end.
(** world.c 1161-1168, 1178-1186, 1195-1204 *)
Definition assign (k : text) (v : addr) : M addr :=
  let! s := get in
  if negb (flow s =? null) then ret a_nil else set k v;; ret v.
Definition assign_my (k : text) (v : addr) : M addr :=
  let! my := find (w_me w) in
  let! s := get in
  if negb (flow s =? null) then ret a_nil else set_property my k v;; ret v.
Definition assign_local (k : text) (v : addr) : M addr :=
  let! s := get in
  if negb (flow s =? null) then ret a_nil
  else match ctxs s with c :: _ => set_property c k v;; ret v | [] => ub BContexts end.

(** ** Conversions (world.c 417-490) *)
Definition cast2number (C : calls) (a : addr) : M addr :=
  let! o := deref a in
  if is_num (o_val o) then ret a
  else
    let! r := c_send C a (w_number w) [a_nil] in
    let! o := deref r in
    if is_num (o_val o) then ret r else error (e_num w);; build_number zero64.
Definition cast2text (C : calls) (a : addr) : M addr :=
  let! o := deref a in
  if is_text (o_val o) then ret a
  else
    let! r := c_send C a (w_text w) [a_nil] in
    let! o := deref r in
    if is_text (o_val o) then ret r else error (e_text w);; build_text [63%N].
Definition cast2bool (C : calls) (a : addr) : M addr :=
  let! o := deref a in
  if is_bool (o_val o) then ret a
  else
    let! r := c_send C a (w_bool w) [a_nil] in
    let! o := deref r in
    if is_bool (o_val o) then ret r else error (e_bool w);; ret a_false.

(** ** Built-in methods *)
(** [argumentList->object], [argumentList->next->object] *)
Definition arg (args : list addr) : M addr := match args with a :: _ => ret a | [] => ub BNull end.
Definition arg2 (args : list addr) : M addr := match args with _ :: a :: _ => ret a | _ => ub BNull end.

(** base.c 1179-1185: the rounds of a counting loop; [k] rounds are left, the next one has
    number [i + 1] *)
Fixpoint rounds (fuel : nat) (C : calls) (block : addr) (i : Z) (k : nat) : M unit :=
  match fuel with
  | O => nofuel
  | S f =>
      match k with
      | O => ret tt
      | S k =>
          let! x := build_number (of_Z (i + 1)) in
          c_run C block [x] null;;
          consume a_continue;;
          let! s := get in
          if negb (flow s =? null) then ret tt else rounds f C block (i + 1) k
      end
  end.
(** base.c 1170-1191, [ctr_block_times] *)
Definition block_times (fuel : nat) (C : calls) (self : addr) (args : list addr) : M addr :=
  let! a := arg args in
  let! n := cast2number C a in
  let! x := nvalue n in
  match c_int x with
  | UB => ub BOther
  | Ok t => rounds fuel C self 0 (Z.to_nat t);; consume a_break;; ret self
  end.
(** base.c 1209-1221, [ctr_block_procedure] *)
Definition block_procedure (C : calls) (self : addr) : M addr :=
  let! x := build_number (of_Z 1) in
  c_run C self [x] null;;
  consume a_break;;
  ret self.
(** base.c 2531-2536 *)
Fixpoint while_loop (fuel : nat) (C : calls) (self cond : addr) (args : list addr) : M unit :=
  match fuel with
  | O => nofuel
  | S f =>
      let! s := get in
      if negb (flow s =? null) then ret tt
      else
        let! r := c_run C cond args null in
        let! b := cast2bool C r in
        let! v := bvalue b in
        let! s := get in
        if negb v || negb (flow s =? null) then ret tt
        else
          c_run C self args null;;
          consume a_continue;;
          while_loop f C self cond args
  end.
(** base.c 2521-2541, [ctr_block_while_true] *)
Definition block_while (fuel : nat) (C : calls) (self : addr) (args : list addr) : M addr :=
  let! cond := arg args in
  let! o := deref cond in
  (if is_block (o_val o) then ret tt else error (e_block w));;
  while_loop fuel C self cond args;;
  consume a_break;;
  ret self.
(** base.c 2543-2548, [ctr_block_runIt] *)
Definition block_run_it (C : calls) (self : addr) (args : list addr) : M addr :=
  let! r := c_run C self args self in
  consume a_break;;
  consume a_continue;;
  ret r.
(** base.c 701-719, 732-750: [ctr_bool_if_true], [ctr_bool_if_false] *)
Definition bool_branch (C : calls) (want : bool) (self : addr) (args : list addr) : M addr :=
  let! b := bvalue self in
  if Bool.eqb b want then
    let! code := arg args in
    let! o := deref code in
    if is_block (o_val o) then c_run C code [self] null;; ret self
    else error (e_zero w);; ret self
  else consume a_break;; ret self.
(** base.c 390-416, [ctr_object_case_do] *)
Definition object_case (C : calls) (self : addr) (args : list addr) : M addr :=
  let! block := arg2 args in
  let! o := deref block in
  if negb (is_block (o_val o)) then error (e_block w);; ret a_nil
  else
    let! x := arg args in
    let! r := c_send C self (w_equal w) [x] in
    let! b := cast2bool C r in
    let! v := bvalue b in
    (if v then c_run C block [x] null;; consume a_continue;; consume a_break else ret tt);;
    ret self.
(** base.c 427-468, [ctr_object_message] *)
Definition object_message (C : calls) (self : addr) (args : list addr) : M addr :=
  let! x := arg args in
  let! m := cast2text C x in
  let! arr := arg2 args in
  let! o := deref arr in
  match o_val o with
  | VList l =>
      let! t := svalue m in
      c_send C self t (match l with [] => [null] | _ => l ++ [a_nil] end)
  | _ => error (e_list w);; ret a_nil
  end.
(** base.c 485-502, [ctr_object_on_do] *)
Definition object_on_do (self : addr) (args : list addr) : M addr :=
  let! name := arg args in
  let! o := deref name in
  match o_val o with
  | VText t =>
      let! b := arg2 args in
      change b (fun o => with_self o true);;
      let! o := deref b in
      if is_block (o_val o) then add_method self t b;; ret self
      else error (e_block w);; ret self
  | _ => error (e_string w);; ret self
  end.
(** base.c 573-595, [ctr_object_learn_meaning] *)
Definition object_learn (C : calls) (self : addr) (args : list addr) : M addr :=
  let! y := arg2 args in
  let! target := cast2text C y in
  let! target := svalue target in
  let! x := arg args in
  let! alias := cast2text C x in
  let! alias := svalue alias in
  let! o := deref self in
  match find_prop (o_meths o) target with
  | Some m => add_method self alias m;; ret self
  | None => ret self
  end.
(** base.c 2493: the property "catch" *)
Definition CATCH : text := [99; 97; 116; 99; 104]%N.
(** base.c 2594-2599, [ctr_block_catch] *)
Definition block_catch (self : addr) (args : list addr) : M addr :=
  let! h := arg args in set_property self CATCH h;; ret self.
(** base.c 2577-2581, [ctr_block_error] *)
Definition block_error (self : addr) (args : list addr) : M addr :=
  let! e := arg args in deref e;; put (fun s => with_flow s e);; ret self.
(** base.c 2559-2564, [ctr_block_set] *)
Definition block_set (C : calls) (self : addr) (args : list addr) : M addr :=
  let! k := arg args in
  let! k := cast2text C k in
  let! k := svalue k in
  let! v := arg2 args in
  set_property self k v;; ret self.
(** base.c 1664-1693, [ctr_string_eval]; the text of a syntax error is not modelled *)
Definition string_eval (C : calls) (self : addr) : M addr :=
  let! t := svalue self in
  let! old := get in
  let code := filter (fun c => negb (c =? 0)%N) t in
  match expr d (4 * length code + 5) 0 (mkP code [] [] false) with
  | PUB => ub BOther
  | PExit => stop HParse
  | PFuel => nofuel
  | PNull _ => error (e_syntax w);; ret a_nil
  | POk nd s =>
      (if err s then error (e_syntax w) else ret tt);;
      put (fun s => with_restricted s true);;
      let! (r, _) := c_expr C nd in
      put (fun s => with_restricted s false);;
      put (fun s => with_cs s (cs old) (csw s));;
      ret (if r =? null then a_nil else r)
  end.
Definition bool_op (C : calls) (f : bool -> bool -> bool) (self : addr) (args : list addr) : M addr :=
  let! x := arg args in
  let! o := cast2bool C x in
  let! b := bvalue o in
  let! a := bvalue self in
  ret (build_bool (f a b)).
Definition num_op (C : calls) (f : num -> num -> bool) (self : addr) (args : list addr) : M addr :=
  let! x := arg args in
  let! o := cast2number C x in
  let! b := nvalue o in
  let! a := nvalue self in
  ret (build_bool (f a b)).

Definition call_native (fuel : nat) (C : calls) (f : native) (self : addr) (args : list addr) : M addr :=
  match f with
  (* base.c 150-155, 261-265, 282-286, 298-300, 314-317, 328-331, 342-345 *)
  | NNew => create VObj self
  | NEquals => let! x := arg args in ret (build_bool (x =? self))
  | NUnequals => let! x := arg args in ret (build_bool (negb (x =? self)))
  | NMyself => ret self
  | NRecursive => put (fun s => with_recur s self);; ret self
  | NDo => change self (fun o => with_chain o true);; ret self
  | NDone => change self (fun o => with_chain o false);; ret self
  | NOnDo => object_on_do self args
  (* base.c 515-517, 531-533, 546-552, 561-563 *)
  | NRespond => ret self
  | NIsNil => ret a_false
  (* base.c 755-764 *)
  | NObjFalse => let! b := cast2bool C self in bool_branch C false b args
  | NObjTrue => let! b := cast2bool C self in bool_branch C true b args
  | NMessage => object_message C self args
  (* base.c 218-244 *)
  | NObjText => build_text (w_object w)
  | NObjNumber => build_number (of_Z 1)
  | NObjBool => ret a_true
  | NCase => object_case C self args
  | NLearn => object_learn C self args
  (* base.c 102-140 *)
  | NNilIsNil => ret a_true
  | NNilText => build_text (w_nil w)
  | NNilNumber => build_number zero64
  | NNilBool => ret a_false
  (* base.c 612-614, 623-625, 637-639, 649-655, 667-672, 684-689 *)
  | NBoolNew => ret a_false
  | NBoolEq => bool_op C (fun a b => Bool.eqb b a) self args
  | NBoolNeq => bool_op C (fun a b => negb (Bool.eqb b a)) self args
  | NBoolText => let! b := bvalue self in build_text (if b then w_true w else w_false w)
  | NBreak => let! b := bvalue self in (if b then put (fun s => with_flow s a_break) else ret tt);; ret self
  | NContinue => let! b := bvalue self in (if b then put (fun s => with_flow s a_continue) else ret tt);; ret self
  | NTrue => bool_branch C true self args
  | NFalse => bool_branch C false self args
  (* base.c 776-779, 791-797, 809-813, 825-828, 838-841, 851-853, 360-362 *)
  | NNot => let! b := bvalue self in ret (build_bool (negb b))
  | NEither => let! b := bvalue self in if b then arg args else arg2 args
  | NAnd => bool_op C andb self args
  | NNor => bool_op C (fun a b => negb a && negb b) self args
  | NOr => bool_op C orb self args
  | NBoolNumber => let! b := bvalue self in build_number (of_Z (if b then 1 else 0))
  | NBoolCopy => let! b := bvalue self in ret (build_bool b)
  | NRun => block_run_it C self args
  | NBlockSet => block_set C self args
  | NError => block_error self args
  | NCatch => block_catch self args
  | NTimes => block_times fuel C self args
  | NProcedure => block_procedure C self
  | NWhile => block_while fuel C self args
  (* base.c 2609-2611 *)
  | NBlockText => build_text (w_block w)
  (* base.c 1077-1097 with an argument that is not a text, 1108-1112, 953-956, 925-928, 983-986, 1606-1608 *)
  | NAdd =>
      let! x := arg args in
      let! o := deref x in
      if is_text (o_val o) then ext NAdd C self args else
      let! o := cast2number C x in
      let! b := nvalue o in
      let! a := nvalue self in
      build_number (add64 a b)
  | NInc =>
      let! x := arg args in
      let! o := cast2number C x in
      let! b := nvalue o in
      let! a := nvalue self in
      change self (fun o => with_val o (VNum (add64 a b)));; ret self
  | NLess => num_op C number_lt self args
  | NMore => num_op C number_gt self args
  | NNumEq => num_op C number_eq self args
  | NNumBool =>
      let! a := nvalue self in
      match number_to_boolean a with Ok b => ret (build_bool b) | UB => ub BOther end
  | NEval => string_eval C self
  (* base.c 2233-2236 *)
  | NTextBool => let! t := svalue self in ret (build_bool (match t with [] => false | _ => true end))
  (* system.c 490-493 *)
  | NExit => put (fun s => with_flow s a_exit);; ret a_nil
  | f => ext f C self args
  end.

(** world.c 1125-1135: the methods that run while a stored object is read *)
Definition data_method (f : native) : bool :=
  match f with
  | NArrayPush | NArrayNewPush | NMapNew | NMapPut | NArrayNew | NNilText | NBoolText | NNumText | NMyself => true
  | _ => false
  end.

(** world.c 1080-1098: the search for a method; [None] if there is none *)
Fixpoint lookup (fuel : nat) (recv search : addr) (k : text) : M (option addr) :=
  match fuel with
  | O => nofuel
  | S f =>
      let! o := deref search in
      let! m := match find_prop (o_meths o) k with
                | None => ret None
                | Some m =>
                    let! s := get in
                    if existsb (Nat.eqb m) (mstack s) then
                      if negb (recur s =? recv) then ret None
                      else put (fun s => with_recur s null);; ret (Some m)
                    else ret (Some m)
                end in
      match m with
      | Some m => ret (Some m)
      | None => if o_link o =? null then ret None else lookup f recv (o_link o) k
      end
  end.
Definition MAX_MSG : nat := 301.
Definition MAX_KEYS : nat := 40.

(** base.c 2459-2471: parameters get the values of the arguments *)
Fixpoint bind_params (ps : list text) (args : list addr) : M unit :=
  match ps, args with
  | p :: ps, a :: args => (if a =? null then ret tt else assign_local p a;; ret tt);; bind_params ps args
  | _, _ => ret tt
  end.
(** base.c 2491: the flow is an error *)
Definition failed (s : state) : bool :=
  negb (flow s =? null) && negb (flow s =? a_break) && negb (flow s =? a_continue).

Definition names_of (m : msg) : option (text * list node) :=
  match m with
  | MUna n => Some (n, []) | MBin n a => Some (n, [a]) | MKw n args => Some (n, args) | MNone => None
  end.

(** base.c 2450-2453: the code of an object; an object that is not a task has none if its value
    has never been set, otherwise something else is taken for its code *)
Definition code_of (a : addr) : M (option (list text * list node)) :=
  let! o := deref a in
  match o_val o with VBlock c => ret c | VObj | VNil => ret None | _ => ub BKind end.
(** the text of a number in a program: base.c 880-908 *)
Definition literal_number (v : text) : M addr :=
  match number_from_text false [] [] (repeat 0%N 41) (repeat 0%N 41) v with
  | Ok (Some x) => build_number x
  | Ok None => stop HOutside
  | UB => ub BOther
  end.
Definition reference (m : nat) (k : text) : M addr := if m =? 1 then find_in_my k else find k.
(** world.c 1099-1122: the message sent instead of one that is not understood *)
Definition respond_word (args : list addr) : text :=
  match Nat.min 4 (length args - 1) with
  | 1 => w_respond1 w | 2 => w_respond2 w | 3 => w_respond3 w | _ => w_respond w
  end.

(** walker.c 217-309, [ctr_cwlk_expr]: the value, and whether it is returned from the block *)
Fixpoint eval (n : nat) (nd : node) : M (addr * bool) :=
  match n with
  | O => nofuel
  | S f =>
      step;;
      note ENode;;
      match nd with
      | NStr v => let! a := build_text v in ret (a, false)
      | NNum v => let! a := literal_number v in ret (a, false)
      | NBlock ps body => let! a := build_block (ps, body) in ret (a, false)
      | NRef m k => push_call;; let! a := reference m k in pop_call;; ret (a, false)
      | NExpr r ms => let! a := message f r ms in ret (a, false)
      | NAssign r e => let! a := assignment f r e in ret (a, false)
      (* walker.c 12-29, [ctr_cwlk_return] *)
      | NRet e => step;; let! (a, _) := eval f e in ret (a, true)
      | NNested e => eval f e
      end
  end
(** walker.c 36-177, [ctr_cwlk_message] *)
with message (n : nat) (r : node) (ms : list msg) : M addr :=
  match n with
  | O => nofuel
  | S f =>
      step;;
      let! (a, lit) :=
        match r with
        | NRef m k => push_call;; let! a := reference m k in pop_call;; ret (a, false)
        | NStr v => let! a := build_text v in ret (a, true)
        | NNum v => let! a := literal_number v in ret (a, true)
        | NNested e => let! (a, _) := eval f (NNested e) in ret (a, true)
        | NBlock ps body => let! a := build_block (ps, body) in ret (a, true)
        | _ => ret (null, true)
        end in
      let! s := get in
      if negb lit && negb (calm s) then ret a_nil
      else if negb lit && (a =? null) then stop HReceiver
      else
        let level := inmsg s in
        let! x := chain f a lit false ms in
        put (fun s => with_inmsg s (inmsg s - (Z.of_nat (length ms) - 1))%Z);;
        let! s := get in
        if (inmsg s =? level)%Z then ret (match ms with [] => a_nil | _ => x end) else stop HAnomaly
  end
(** walker.c 96-169: the messages of a chain, sent to [r]; [more] is set after the first one *)
with chain (n : nat) (r : addr) (lit more : bool) (ms : list msg) : M addr :=
  match n with
  | O => nofuel
  | S f =>
      match ms with
      | [] => ret r
      | m :: ms =>
          step;;
          note EMsg;;
          (if more then put (fun s => with_inmsg s (inmsg s + 1)%Z) else ret tt);;
          match names_of m with
          | None => ub BOther
          | Some (k, es) =>
              push_call;;
              deref r;;
              let! vs := arguments f (if lit then 1 else 0) es in
              let! x := send f r k (vs ++ [a_nil]) in
              pop_call;;
              chain f x true true ms
          end
      end
  end
(** walker.c 125-147: the arguments of a message; [keys] entries of the table are in use *)
with arguments (n : nat) (keys : nat) (es : list node) : M (list addr) :=
  match n with
  | O => nofuel
  | S f =>
      match es with
      | [] => ret []
      | e :: es =>
          put (fun s => with_inmsg s (inmsg s + 1)%Z);;
          let! (a, _) := eval f e in
          put (fun s => with_inmsg s (inmsg s - 1)%Z);;
          if MAX_KEYS <=? keys + 1 then stop HKeys
          else let! vs := arguments f (keys + 1) es in ret (a :: vs)
      end
  end
(** walker.c 184-210, [ctr_cwlk_assignment] *)
with assignment (n : nat) (r e : node) : M addr :=
  match n with
  | O => nofuel
  | S f =>
      match r with
      | NRef m k =>
          step;;
          push_call;;
          let! (x, _) := eval f e in
          let! a := (if m =? 1 then assign_my k x else if m =? 2 then assign_local k x else assign k x) in
          pop_call;;
          ret a
      | _ => ub BOther
      end
  end
(** world.c 1052-1151, [ctr_send_message] *)
with send (n : nat) (r : addr) (k : text) (args : list addr) : M addr :=
  match n with
  | O => nofuel
  | S f =>
      if r =? null then stop HReceiver
      else
        let! s := get in
        if negb (flow s =? null) then ret a_nil
        else
          let! m := lookup f r r k in
          let! x :=
            match m with
            | None =>
                let! t := build_text k in
                send f r (respond_word args) (t :: args)
            | Some m =>
                let! o := deref m in
                match o_val o with
                | VNat p =>
                    let! s := get in
                    if restricted s && negb (data_method p) then ret a_nil
                    else note (ENative p);;
                         call_native f (mkCalls (send f) (block_run f) (eval f)) p r args
                | VBlock _ =>
                    if o_self o then
                      let! s := get in
                      if MAX_MSG - 1 <=? length (mstack s) then ub BMessages
                      else
                        put (fun s => with_mstack s (m :: mstack s));;
                        let! x := block_run f m args r in
                        put (fun s => with_mstack s (tl (mstack s)));;
                        ret x
                    else block_run f m args null
                | _ => ret a_nil
                end
            end in
          let! o := deref r in
          ret (if o_chain o then r else x)
  end
(** base.c 2448-2510, [ctr_block_run] *)
with block_run (n : nat) (b : addr) (args : list addr) (my : addr) : M addr :=
  match n with
  | O => nofuel
  | S f =>
      let! c := code_of b in
      match c with
      | None => ret a_nil
      | Some (ps, body) =>
          open_context;;
          bind_params ps args;;
          (if my =? null then ret tt
           else assign_local (w_me w) my;; assign_local (w_my w) my;; ret tt);;
          assign_local (w_task w) b;;
          let! x := run f body in
          let x := match x with Some (S x) => S x | _ => if my =? null then b else my end in
          close_context;;
          let! s := get in
          if failed s then
            let! o := deref b in
            match find_prop (o_props o) CATCH with
            | None => ret x
            | Some h =>
                let! e := cast2text (mkCalls (send f) (block_run f) (eval f)) (flow s) in
                put (fun s => with_flow s null);;
                put (fun s => with_errs (with_cs s (Z.to_N ((Z.of_N (cs s) - errs s) mod 256)) (csw s)) 0%Z);;
                block_run f h [e] null;;
                ret b
            end
          else ret x
      end
  end
(** walker.c 316-338, [ctr_cwlk_run]: the returned value, if any *)
with run (n : nat) (body : list node) : M (option addr) :=
  match n with
  | O => nofuel
  | S f =>
      match body with
      | [] => ret None
      | nd :: body =>
          let! (a, r) := eval f nd in
          if r then ret (Some a) else run f body
      end
  end.

(** walker.c 273-302: the end of the program; an error that was not caught is reported with the
    messages on the call stack.  The answer tells whether there was one. *)
Fixpoint trace_ok (written : list N) (i : nat) : bool :=
  match i with O => true | S j => existsb (N.eqb (N.of_nat j)) written && trace_ok written j end.
Definition end_of_program : M bool :=
  step;;
  let! s := get in
  if negb (flow s =? null) && negb (flow s =? a_exit) then
    if trace_ok (csw s) (N.to_nat (cs s)) then ret true else ub BTrace
  else ret false.
(** citrine.c 177: the program; the report is skipped after a return at the top level *)
Definition run_program (n : nat) (prog : list node) : M bool :=
  let! x := run n prog in
  match x with Some _ => ret false | None => end_of_program end.
End Evaluator.
