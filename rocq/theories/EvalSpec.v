(** What the evaluator should do. *)
From Verif Require Import Common TextModel NumModel LexModel ParseModel EvalModel.
Open Scope nat_scope.

(** Trees as the grammar allows them: a message has a simple receiver, a chain is not empty, a
    value is assigned to a name. *)
Inductive simple : node -> Prop :=
| simple_ref m k : simple (NRef m k) | simple_str v : simple (NStr v) | simple_num v : simple (NNum v)
| simple_nested e : simple (NNested e) | simple_block ps b : simple (NBlock ps b).
Inductive wf_node : node -> Prop :=
| wf_ref m k : wf_node (NRef m k)
| wf_str v : wf_node (NStr v)
| wf_num v : wf_node (NNum v)
| wf_nested e : wf_node e -> wf_node (NNested e)
| wf_block ps b : Forall wf_node b -> wf_node (NBlock ps b)
| wf_expr r ms : simple r -> wf_node r -> ms <> [] -> Forall wf_msg ms -> wf_node (NExpr r ms)
| wf_assign m k e : wf_node e -> wf_node (NAssign (NRef m k) e)
| wf_ret e : wf_node e -> wf_node (NRet e)
with wf_msg : msg -> Prop :=
| wf_una k : wf_msg (MUna k)
| wf_bin k e : wf_node e -> wf_msg (MBin k e)
| wf_kw k es : Forall wf_node es -> wf_msg (MKw k es).

(** The code of all tasks is well formed. *)
Definition wf_code (h : list obj) : Prop := forall a o ps b,
  nth_error h a = Some o -> o_val o = VBlock (Some (ps, b)) -> Forall wf_node b.

(** States between two steps: there is a scope for every running method and for the program;
    the last place of the table is only in use while an error is pending. *)
Record good (s : state) : Prop := mkGood {
  g_code : wf_code (heap s);
  g_std : 13 <= length (heap s);
  g_ctx : 1 <= length (ctxs s) <= 301;
  g_full : length (ctxs s) = 301 -> flow s <> null;
  g_msgs : length (mstack s) < length (ctxs s);
  g_scopes : NoDup (ctxs s) /\ Forall (fun c => 0 < c < length (heap s)) (ctxs s)
}.

(** Nothing is left open or closed. *)
Record balanced (s s' : state) : Prop := mkBal {
  b_ctxs : ctxs s' = ctxs s;
  b_mstack : mstack s' = mstack s;
  b_inmsg : inmsg s' = inmsg s;
  b_restricted : restricted s' = restricted s;
  b_heap : length (heap s) <= length (heap s')
}.
(** The process does not end for an unbalanced message level, and no table is overrun. *)
Definition sane_halt (h : halt) : Prop := h <> HAnomaly.
Definition sane_bad (b : bad) : Prop := b <> BContexts /\ b <> BMessages.

(** In error mode: nothing has happened, but for new objects nobody knows, a count of skipped
    messages and the log of nodes. *)
Definition native_of (e : event) : option native := match e with ENative p => Some p | _ => None end.
Definition natives (l : list event) : list native :=
  flat_map (fun e => match e with ENative p => [p] | _ => [] end) l.
Record idle (s s' : state) : Prop := mkIdle {
  i_heap : exists new, heap s' = heap s ++ new;
  i_flow : flow s' = flow s;
  i_ctxs : ctxs s' = ctxs s;
  i_mstack : mstack s' = mstack s;
  i_recur : recur s' = recur s;
  i_cs : (cs s < 256)%N -> cs s' = cs s;
  i_inmsg : inmsg s' = inmsg s;
  i_restricted : restricted s' = restricted s;
  i_log : natives (log s') = natives (log s)
}.

(** A table binds a name to the value of its first entry with that name. *)
Definition binds (t : list (text * addr)) (k : text) (v : addr) : Prop :=
  exists pre post, t = pre ++ (k, v) :: post /\ ~ In k (map fst pre).
Definition object_at (s : state) (a : addr) (o : obj) : Prop := a <> null /\ nth_error (heap s) a = Some o.

(** A built-in method is tame if it does to the state only what the tasks and messages it runs
    do, and apart from that changes nothing but values, properties and methods of objects, the
    pending flow and the object to be used recursively. *)
Definition codes (h h' : list obj) : Prop :=
  length h <= length h' /\
  forall a o' c, nth_error h' a = Some o' -> o_val o' = VBlock (Some c) ->
  exists o, nth_error h a = Some o /\ o_val o = VBlock (Some c).
Record small (s s' : state) : Prop := mkSmall {
  s_heap : codes (heap s) (heap s');
  s_ctxs : ctxs s' = ctxs s;
  s_mstack : mstack s' = mstack s;
  s_inmsg : inmsg s' = inmsg s;
  s_restricted : restricted s' = restricted s;
  s_steps : steps s' = steps s;
  s_log : log s' = log s
}.
(** [Inv] holds wherever the evaluation stops or is cut off, [Q] where it comes to an end. *)
Definition after (Inv : state -> Prop) {A} (r : res A) (Q : A -> state -> Prop) : Prop :=
  match r with
  | Done a s => Q a s
  | Fuel s => Inv s
  | Halt h s => sane_halt h /\ Inv s
  | Bad b s => sane_bad b /\ Inv s
  end.
Definition keeps (Inv P : state -> Prop) {A} (m : M A) : Prop := forall s, P s -> after Inv (m s) (fun _ => P).
Definition tame (m : calls -> addr -> list addr -> M addr) : Prop :=
  forall (Inv P : state -> Prop) C self args,
  (forall s, P s -> Inv s) ->
  (forall s s', P s -> small s s' -> P s') ->
  (forall r k a, keeps Inv P (c_send C r k a)) ->
  (forall b a my, keeps Inv P (c_run C b a my)) ->
  keeps Inv P (m C self args).

(** A property of the history that holds whatever the evaluator does: it depends only on the
    steps that have been counted, the log and the mode. *)
Record steady (sandbox : bool) (Inv : state -> Prop) : Prop := mkSteady {
  v_same : forall s s', Inv s -> restricted s' = restricted s -> steps s' = steps s -> log s' = log s -> Inv s';
  v_step : forall s s', Inv s -> step sandbox s = Done tt s' -> Inv s';
  v_node : forall s s' e, Inv s -> step sandbox s = Done tt s' -> native_of e = None -> Inv (with_log s' (e :: log s'));
  v_native : forall s p, Inv s -> (restricted s = true -> data_method p = true) -> Inv (with_log s (ENative p :: log s));
  v_on : forall s, Inv s -> restricted s = false -> Inv (with_restricted s true);
  v_off : forall s s', Inv s -> restricted s = false -> Inv s' -> Inv (with_restricted s' false)
}.

(** With more fuel an evaluation that was not cut off does the same. *)
Definition le_res {A} (a b : res A) : Prop := match a with Fuel _ => True | _ => a = b end.
Definition le {A} (m m' : M A) : Prop := forall s, le_res (m s) (m' s).
Record calls_le (C C' : calls) : Prop := mkLe {
  le_send : forall r k a, le (c_send C r k a) (c_send C' r k a);
  le_run : forall b a my, le (c_run C b a my) (c_run C' b a my);
  le_expr : forall nd, le (c_expr C nd) (c_expr C' nd)
}.
Definition monotone (ext : native -> calls -> addr -> list addr -> M addr) : Prop :=
  forall p C C' self args, calls_le C C' -> le (ext p C self args) (ext p C' self args).

(** ** Variables
    A scope is an object; its variables are its properties. *)
Definition defines (s : state) (c : addr) (k : text) (v : addr) : Prop :=
  exists o, object_at s c o /\ binds (o_props o) k v /\ v <> null.
Definition lacks (s : state) (c : addr) (k : text) : Prop := forall v, ~ defines s c k v.
(** the first of the scopes [l] that defines the name is [c] *)
Definition innermost (s : state) (l : list addr) (k : text) (c v : addr) : Prop :=
  exists pre post, l = pre ++ c :: post /\ Forall (fun x => lacks s x k) pre /\ defines s c k v.
Definition nowhere (s : state) (l : list addr) (k : text) : Prop := Forall (fun x => lacks s x k) l.
(** everything but the objects is as before *)
Record same_control (s s' : state) : Prop := mkSame {
  sc_flow : flow s' = flow s; sc_ctxs : ctxs s' = ctxs s; sc_mstack : mstack s' = mstack s;
  sc_recur : recur s' = recur s; sc_cs : cs s' = cs s; sc_csw : csw s' = csw s; sc_errs : errs s' = errs s;
  sc_inmsg : inmsg s' = inmsg s; sc_restricted : restricted s' = restricted s;
  sc_steps : steps s' = steps s; sc_log : log s' = log s
}.
(** only the variable [k] of [c] has changed; it is [x] now *)
Record updated (s s' : state) (c : addr) (k : text) (x : addr) : Prop := mkUpd {
  u_control : same_control s s';
  u_length : length (heap s') = length (heap s);
  u_others : forall a, a <> c -> nth_error (heap s') a = nth_error (heap s) a;
  u_object : forall o, object_at s c o -> exists o', object_at s' c o' /\
    o_val o' = o_val o /\ o_meths o' = o_meths o /\ o_link o' = o_link o /\ o_self o' = o_self o /\ o_chain o' = o_chain o /\
    binds (o_props o') k x /\
    forall k' v, k' <> k -> (binds (o_props o') k' v <-> binds (o_props o) k' v)
}.
(** an error with the text [t] is pending; nothing else has changed *)
Record raised (s s' : state) (t : text) : Prop := mkRaised {
  ra_flow : exists o, object_at s' (flow s') o /\ o_val o = VText t;
  ra_new : length (heap s) <= flow s';
  ra_heap : forall a, a < length (heap s) -> nth_error (heap s') a = nth_error (heap s) a;
  ra_ctxs : ctxs s' = ctxs s; ra_mstack : mstack s' = mstack s; ra_log : log s' = log s
}.

(** ** Methods
    [m] is the method of [a] for the message [k], and may run when the receiver is [r]: it is not
    running already, or the receiver has been asked for recursion. *)
Definition understands (s : state) (r a : addr) (k : text) (m : addr) : Prop :=
  exists o, object_at s a o /\ binds (o_meths o) k m /\ m <> null /\ (~ In m (mstack s) \/ recur s = r).
Inductive nearest (s : state) (r : addr) (k : text) : addr -> option addr -> Prop :=
| near_here a m : understands s r a k m -> nearest s r k a (Some m)
| near_up a o x : object_at s a o -> (forall m, ~ understands s r a k m) -> o_link o <> null ->
    nearest s r k (o_link o) x -> nearest s r k a x
| near_top a o : object_at s a o -> (forall m, ~ understands s r a k m) -> o_link o = null -> nearest s r k a None.

(** ** Loops
    [body i s s1]: round [i] of a loop, started in the state [s], ends in [s1]. *)
Inductive counted (body : Z -> state -> state -> Prop) (n : Z) : Z -> state -> state -> Prop :=
| co_end i s : (n < i)%Z -> counted body n i s s
| co_next i s s1 s' : (i <= n)%Z -> body i s s1 -> flow s1 = null \/ flow s1 = a_continue ->
    counted body n (i + 1)%Z (with_flow s1 null) s' -> counted body n i s s'
| co_leave i s s1 : (i <= n)%Z -> body i s s1 -> flow s1 <> null -> flow s1 <> a_continue -> counted body n i s s1.
(** a break is over, anything else stays pending *)
Definition unbroken (s s' : state) : Prop :=
  (flow s = a_break /\ s' = with_flow s null) \/ (flow s <> a_break /\ s' = s).
(** the numbers handed to the rounds are new objects *)
Definition round (C : calls) (block : addr) (i : Z) (s s1 : state) : Prop :=
  exists y, c_run C block [length (heap s)] null
    (with_heap s (heap s ++ [mkObj (VNum (of_Z i)) [] [] a_number false false])) = Done y s1.
(** [test s b s1]: the condition, evaluated in [s], is [b] and leaves [s1]; [body s s1] likewise *)
Inductive repeated (test : state -> bool -> state -> Prop) (body : state -> state -> Prop) : state -> state -> Prop :=
| re_pending s : flow s <> null -> repeated test body s s
| re_false s s1 : flow s = null -> test s false s1 -> repeated test body s s1
| re_error s s1 : flow s = null -> test s true s1 -> flow s1 <> null -> repeated test body s s1
| re_next s s1 s2 s' : flow s = null -> test s true s1 -> flow s1 = null -> body s1 s2 ->
    repeated test body (if Nat.eqb (flow s2) a_continue then with_flow s2 null else s2) s' -> repeated test body s s'.
(** the truth value of an object: its own, or that of its answer to the message [bool] *)
Inductive truth (w : words) (C : calls) (a : addr) : state -> bool -> state -> Prop :=
| tr_own s o b : object_at s a o -> o_val o = VBool b -> truth w C a s b s
| tr_asked s o r s1 o1 b : object_at s a o -> is_bool (o_val o) = false -> c_send C a (w_bool w) [a_nil] s = Done r s1 ->
    object_at s1 r o1 -> o_val o1 = VBool b -> truth w C a s b s1
| tr_none s o r s1 o1 o2 b : object_at s a o -> is_bool (o_val o) = false -> c_send C a (w_bool w) [a_nil] s = Done r s1 ->
    object_at s1 r o1 -> is_bool (o_val o1) = false ->
    let s2 := with_errs (with_flow (with_heap s1 (heap s1 ++ [mkObj (VText (e_bool w)) [] [] a_string false false]))
                                   (length (heap s1))) 0%Z in
    object_at s2 a_false o2 -> o_val o2 = VBool b -> truth w C a s b s2.

(** ** Tasks *)
Definition task_code (s : state) (b : addr) (ps : list text) (body : list node) : Prop :=
  exists o, object_at s b o /\ o_val o = VBlock (Some (ps, body)).
Definition is_error (s : state) : Prop := flow s <> null /\ flow s <> a_break /\ flow s <> a_continue.
(** a task has an error handler if it has a property with the name "catch" *)
Definition handler (s : state) (b h : addr) : Prop := defines s b CATCH h.
(** The variables a task starts with: the parameters that have been given a value, itself, and
    the receiver ([my], unless it is NULL). *)
Definition initial (w : words) (ps : list text) (args : list addr) (my b : addr) (t : list (text * addr)) : Prop :=
  binds t (w_task w) b /\
  (my <> null -> w_task w <> w_me w -> w_my w <> w_me w -> binds t (w_me w) my) /\
  (my <> null -> w_task w <> w_my w -> binds t (w_my w) my) /\
  (forall i p a, nth_error ps i = Some p -> nth_error args i = Some a -> a <> null -> ~ In p (skipn (S i) ps) ->
     p <> w_task w -> p <> w_me w -> p <> w_my w -> binds t p a) /\
  (forall k v, binds t k v -> (k = w_task w /\ v = b) \/ (my <> null /\ (k = w_me w \/ k = w_my w) /\ v = my) \/
     exists i, nth_error ps i = Some k /\ nth_error args i = Some v).

(** the method [m] has been found: the request for recursion is used up if it was needed *)
Definition reused (s : state) (m : addr) (s1 : state) : Prop :=
  (In m (mstack s) /\ s1 = with_recur s null) \/ (~ In m (mstack s) /\ s1 = s).
(** the condition and the body of a while loop *)
Definition tested (C : calls) (w : words) (cond : addr) (args : list addr) (s : state) (b : bool) (s1 : state) : Prop :=
  exists r s0, c_run C cond args null s = Done r s0 /\ truth w C r s0 b s1.
Definition ran (C : calls) (self : addr) (args : list addr) (s s1 : state) : Prop :=
  exists y, c_run C self args null s = Done y s1.

(** ** Limits
    Since the log was [l0], only built-in methods that make data have been run. *)
Definition data_ops : list native :=
  [NArrayNew; NArrayPush; NArrayNewPush; NMapNew; NMapPut; NNilText; NBoolText; NNumText; NMyself].
Definition only_data (l0 : list event) (s : state) : Prop :=
  exists new, natives (log s) = new ++ natives l0 /\ Forall (fun p => In p data_ops) new.
Definition locked (l0 : list event) (s : state) : Prop := restricted s = true /\ only_data l0 s.
(** the number of nodes that were evaluated and of messages that were sent by the program *)
Definition counts (l : list event) : nat :=
  length (List.filter (fun e => match native_of e with None => true | Some _ => false end) l).
Definition metered (s : state) : Prop := (N.of_nat (counts (log s)) <= steps s <= 2000)%N.
