(** Properties of the evaluator. *)
From Coq Require Import String QArith Lia.
From Verif Require Import Common Txt TextModel NumModel LexModel ParseModel Dicts EvalModel EvalSpec EvalParse
  EvalProofs EvalMono EvalFlow EvalTask EvalLimits EvalWorld EvalEndless.
From Verif Require Import FloatSpec NumSpec.
From Verif Require NumProofs.
Local Notation int_range := NumProofs.int_range.
Open Scope nat_scope.
Local Notation "'tx' s" := (lit s%string) (at level 8, s at level 0).

(** ** The examples: the initial state is a good one, and the built-in methods are tame. *)
Definition no_code (o : obj) : bool := match o_val o with VBlock (Some _) => false | _ => true end.
Lemma good_en : good state_en.
Proof.
  split; cbn [state_en heap flow ctxs mstack]; try (vm_compute; lia); try discriminate.
  - intros a o ps b N V. assert (F : forallb no_code heap_en = true) by (vm_compute; reflexivity).
    rewrite forallb_forall in F. apply nth_error_In, F in N. unfold no_code in N. now rewrite V in N.
  - split; [constructor; [intros []|constructor]|]. constructor; [vm_compute; lia|constructor].
Qed.
Lemma tame_en p : tame (ext_en p).
Proof.
  intros Inv P C self args PI PS _ _.
  assert (E : forall v s, (forall c, v <> VBlock (Some c)) -> P s -> P (with_heap s (heap s ++ [mkObj v [] [] self false false]))).
  { intros v s NV H. apply (PS s); auto. split; auto. split; [cbn; rewrite app_length; lia|]. intros a o' c N V. cbn in N.
    destruct (Nat.lt_ge_cases a (List.length (heap s))) as [L|L]; [rewrite nth_error_app1 in N by auto; eauto|].
    rewrite nth_error_app2 in N by auto. destruct (a - List.length (heap s)) as [|[|]]; cbn in N; try discriminate.
    injection N as <-. now apply NV in V. }
  destruct p; intros s H; try exact H.
  - unfold ext_en. unfold arg. destruct args as [|x args]; [cbn; repeat split; auto; discriminate|]. unfold bind at 1, ret. unfold bind at 1.
    unfold deref. destruct self as [|a]; [cbn; repeat split; auto; discriminate|].
    destruct (nth_error (heap s) (S a)) as [o|] eqn:N; [|cbn; repeat split; auto; discriminate].
    destruct (o_val o) eqn:V; try (cbn; repeat split; auto; discriminate). unfold change, bind, deref. rewrite N. cbn [put after].
    apply (PS s); auto. split; auto. split; [cbn; rewrite replace_length; lia|]. intros b o' c N' V'. cbn [heap with_heap] in N'.
    rewrite nth_replace in N'. destruct (Nat.eqb_spec (S a) b) as [E1|NE]; [|eauto]. destruct (_ <? _); [|discriminate]. injection N' as <-. discriminate.
  - cbn. apply E; auto. discriminate.
Qed.
Lemma monotone_en : monotone ext_en.
Proof. intros p C C' self args _. destruct p; apply le_refl. Qed.

Lemma wf_program t : Forall wf_node (program_en t).
Proof.
  unfold program_en. destruct (parse dict_en (lit t) [] []) eqn:E; [exact (parse_program_wf dict_en _ _ _ _ _ E)|constructor..].
Qed.
Lemma good_after n t x s : run dict_en words_en false ext_en n (program_en t) state_en = Done x s -> good s.
Proof. apply (run_good dict_en words_en false ext_en tame_en n (program_en t) state_en x s); [apply wf_program|exact good_en]. Qed.

Lemma endless_metered : exists t, forall n, exists s,
  run_program dict_en words_en true ext_en n (program_en t) state_en = Fuel s /\ metered s.
Proof.
  exists endless. intros n. destruct (endless_run n monotone_en) as (s & E). exists s. split; [exact E|].
  pose proof (program_metered dict_en words_en ext_en tame_en n (program_en endless) state_en (wf_program _) good_en) as H.
  rewrite E in H. apply H. vm_compute. split; discriminate.
Qed.

(** * C21 *)
Definition answer (b : bool) : addr := if b then a_true else a_false.
Theorem C21_binary : forall d w ext n C self a rest s b s1 os x,
  truth w C a s b s1 -> object_at s1 self os -> o_val os = VBool x ->
  let call p := call_native d w ext n C p self (a :: rest) s in
  call NAnd = Done (answer (match x, b with true, true => true | _, _ => false end)) s1 /\
  call NOr = Done (answer (match x, b with false, false => false | _, _ => true end)) s1 /\
  call NNor = Done (answer (match x, b with false, false => true | _, _ => false end)) s1 /\
  call NBoolEq = Done (answer (match x, b with true, true | false, false => true | _, _ => false end)) s1 /\
  call NBoolNeq = Done (answer (match x, b with true, false | false, true => true | _, _ => false end)) s1.
Proof. exact bool_tables. Qed.
Print Assumptions C21_binary.
Theorem C21_unary : forall d w ext n C self s os x a b rest args,
  object_at s self os -> o_val os = VBool x ->
  call_native d w ext n C NNot self args s = Done (answer (match x with true => false | false => true end)) s /\
  call_native d w ext n C NEither self (a :: b :: rest) s = Done (match x with true => a | false => b end) s.
Proof. exact bool_single. Qed.
Print Assumptions C21_unary.
(** the argument is a number: it is asked for its truth value *)
Example C21_example : var_en (tx "x") (run_en 60 ">> x := True and: 0.") = Some (VBool false) /\
  var_en (tx "x") (run_en 60 ">> x := False nor: None.") = Some (VBool true) /\
  var_en (tx "x") (run_en 60 ">> x := (False not) either: 3 or: 4.") = Some (VNum (of_Z 3)).
Proof. vm_compute. auto. Qed.

(** * C22 *)
Theorem C22_times : forall w C n self a rest s r s2 o x t,
  object_at s a o -> o_val o = VNum x -> finite x -> is_trunc (SF2Q x) t -> int_range t ->
  block_times w n C self (a :: rest) s = Done r s2 ->
  r = self /\ exists s1, counted (round C self) t 1 s s1 /\ unbroken s1 s2.
Proof. exact times_sound. Qed.
Print Assumptions C22_times.
Theorem C22_times_complete : forall w C self a rest s s1 s2 o x t,
  object_at s a o -> o_val o = VNum x -> finite x -> is_trunc (SF2Q x) t -> int_range t ->
  counted (round C self) t 1 s s1 -> unbroken s1 s2 ->
  exists n, forall m, n <= m -> block_times w m C self (a :: rest) s = Done self s2.
Proof. exact times_complete. Qed.
Print Assumptions C22_times_complete.
(** rounds 1 and 2 are counted, 3 is skipped, 4 is counted, 5 ends the loop *)
Example C22_example : var_en (tx "x") (run_en 60
  ">> x := 0. { :i (i = 3) continue. (i = 5) break. x add: i. } * 10. x add: 100.") = Some (VNum (of_Z 107)).
Proof. vm_compute. auto. Qed.
(** The count is converted to an [int]; the conversion is undefined for larger numbers. *)
Theorem C22_count_refuted : exists t s, run_en 60 t = Bad BOther s.
Proof. exists "{ :i i. } * 3000000000."%string. eexists. vm_compute. reflexivity. Qed.
Print Assumptions C22_count_refuted.

(** * C23 *)
Theorem C23_while : forall w C n self cond rest s r s2 o,
  object_at s cond o -> is_block (o_val o) = true ->
  block_while w n C self (cond :: rest) s = Done r s2 ->
  r = self /\ exists s1, repeated (tested C w cond (cond :: rest)) (ran C self (cond :: rest)) s s1 /\ unbroken s1 s2.
Proof. exact (fun w C => block_while_repeated C w). Qed.
Print Assumptions C23_while.
Theorem C23_while_complete : forall w C self cond rest s s1 s2 o,
  object_at s cond o -> is_block (o_val o) = true ->
  repeated (tested C w cond (cond :: rest)) (ran C self (cond :: rest)) s s1 -> unbroken s1 s2 ->
  exists n, forall m, n <= m -> block_while w m C self (cond :: rest) s = Done self s2.
Proof. exact (fun w C => repeated_block_while C w). Qed.
Print Assumptions C23_while_complete.
Example C23_example : var_en (tx "x") (run_en 80
  ">> x := 0. >> i := 0. { i add: 1. (i = 2) continue. (i = 5) break. x add: i. } while: { <- i < 9. }. x add: 100.") = Some (VNum (of_Z 108)).
Proof. vm_compute. auto. Qed.
(** [continue] in the condition is not consumed: the loop ends with an error. *)
Theorem C23_condition_refuted : exists t s o, run_en 80 t = Done true s /\ object_at s (flow s) o /\ o_val o = VText (e_bool words_en).
Proof.
  exists ">> i := 0. { i add: 1. } while: { (i = 2) continue. <- i < 9. }."%string. eexists. eexists.
  split; [vm_compute; reflexivity|]. split; [split; [vm_compute; discriminate|vm_compute; reflexivity]|reflexivity].
Qed.
Print Assumptions C23_condition_refuted.

(** A state in the middle of a program: a task [t] with a handler, a method of an object and an
    object with a property. *)
Definition text_mid : string := ">> x := 0. >> t := { :a foo. x := 1. } except: { :e x := e. }. >> o := Object new. o on: ['hi'] do: { :y <- y. }.".
Definition s_mid : state := Eval vm_compute in
  match run dict_en words_en false ext_en 60 (program_en text_mid) state_en with Done _ s => s | _ => state_en end.
Lemma run_mid_ok : run dict_en words_en false ext_en 60 (program_en text_mid) state_en = Done None s_mid.
Proof. vm_compute. reflexivity. Qed.
Lemma good_mid : good s_mid. Proof. exact (good_after 60 text_mid None s_mid run_mid_ok). Qed.

(** * C24 *)
(** While an error is pending, programs do nothing. *)
Theorem C24_skip : forall d w sandbox ext n nd s, (forall p, tame (ext p)) -> wf_node nd -> flow s <> null ->
  after (fun _ => True) (eval d w sandbox ext n nd s) (fun _ => idle s).
Proof. exact (fun d w sandbox ext n nd s _ => eval_idle d w sandbox ext n nd s). Qed.
Print Assumptions C24_skip.
(** What a task does with an error that is pending after its code has been run. *)
Theorem C24_task : forall d w sandbox ext, (forall p, tame (ext p)) -> forall n b args my s ps body r s',
  good s -> flow s = null -> List.length (ctxs s) < 300 -> task_code s b ps body ->
  block_run d w sandbox ext (S n) b args my s = Done r s' ->
  exists vars x s1, initial w ps args my b vars /\
  run d w sandbox ext n body (in_scope s vars) = Done x s1 /\ ctxs s1 = List.length (heap s) :: ctxs s /\
  let s2 := with_ctxs s1 (ctxs s) in
  (~ is_error s2 -> s' = s2 /\ r = result x my b) /\
  (is_error s2 -> (forall h, ~ handler s2 b h) -> s' = s2) /\
  (forall h, is_error s2 -> handler s2 b h -> r = b /\ exists e s3 y,
     block_run d w sandbox ext n h [e] null s3 = Done y s' /\ flow s3 = null /\ errs s3 = 0%Z /\
     ctxs s3 = ctxs s /\ mstack s3 = mstack s2 /\ log s3 = log s2 /\ recur s3 = recur s2 /\
     (forall o t, object_at s2 (flow s2) o -> o_val o = VText t -> e = flow s2 /\ heap s3 = heap s2) /\
     (forall o on, object_at s2 (flow s2) o -> is_text (o_val o) = false -> object_at s2 a_nil on -> is_text (o_val on) = false ->
        exists o', object_at s3 e o' /\ o_val o' = VText [63%N])).
Proof. exact task_runs. Qed.
Print Assumptions C24_task.
(** the second statement of the task is skipped, the handler gets the text of the error, the
    program goes on *)
Example C24_example : exists body r s2,
  good s_mid /\ flow s_mid = null /\ List.length (ctxs s_mid) < 300 /\ task_code s_mid 83 [tx "a"] body /\ handler s_mid 83 84 /\
  block_run dict_en words_en false ext_en 20 83 [] null s_mid = Done r s2 /\ flow s2 = null /\
  var_en (tx "x") (Done true s2) = Some (VText (tx "Key not found: foo")).
Proof.
  do 3 eexists. split; [exact good_mid|]. split; [reflexivity|]. split; [vm_compute; lia|].
  split; [eexists; split; [split; [discriminate|vm_compute; reflexivity]|vm_compute; reflexivity]|].
  split; [eexists; split; [split; [discriminate|vm_compute; reflexivity]|split; [|discriminate]]; exists [], []; split; [vm_compute; reflexivity|intros []]|].
  split; [vm_compute; reflexivity|]. vm_compute. auto.
Qed.
Example C24_skip_example : exists r s2, flow (with_flow s_mid a_exit) <> null /\
  Forall wf_node (program_en "x := 5. t start. foo.") /\
  run dict_en words_en false ext_en 20 (program_en "x := 5. t start. foo.") (with_flow s_mid a_exit) = Done r s2 /\
  var_en (tx "x") (Done true s2) = Some (VNum zero64).
Proof. do 2 eexists. split; [discriminate|]. split; [apply wf_program|]. vm_compute. auto. Qed.
(** The call stack is not restored: every statement that was skipped in the task takes one call
    too many off it.  A later error is reported with calls that have never been made. *)
Theorem C24_stack_refuted : exists t t' s s',
  run_en 80 t = Done false s /\ cs s = 255%N /\ run_en 80 t' = Bad BTrace s'.
Proof.
  exists ">> x := 0. { foo. bar. } except: { :e x := e. }, start."%string,
         ">> x := 0. { foo. bar. baz. } except: { :e x := e. }, start. qux."%string.
  do 2 eexists. vm_compute. auto.
Qed.
Print Assumptions C24_stack_refuted.
(** An error that is not a text is not handed to the handler. *)
Theorem C24_text_refuted : exists t r, run_en 80 t = r /\ var_en (tx "x") r = Some (VText [63%N]).
Proof. exists ">> x := 0. { this-task error: 42. } except: { :e x := e. }, start."%string. eexists. vm_compute. auto. Qed.
Print Assumptions C24_text_refuted.
(** The end of the program is caught as if it were an error. *)
Theorem C24_end_refuted : exists t r, run_en 80 t = r /\ var_en (tx "x") r = Some (VText [63%N]).
Proof. exists ">> x := 0. { Program end. } except: { :e x := e. }, start."%string. eexists. vm_compute. auto. Qed.
Print Assumptions C24_end_refuted.
(** The handler need not be a task: then something else is taken for its code. *)
Theorem C24_handler_refuted : exists t s, run_en 80 t = Bad BKind s.
Proof. exists ">> x := 0. { foo. } except: 4, start."%string. eexists. vm_compute. reflexivity. Qed.
Print Assumptions C24_handler_refuted.

(** * C33 *)
(** the search for a method finds the nearest one and nothing else *)
Theorem C33_search : forall s r k a m,
  (exists n s', lookup n r a k s = Done m s') <-> nearest s r k a m.
Proof. exact lookup_iff. Qed.
Print Assumptions C33_search.
Theorem C33_method : forall d w sandbox ext n r k args s m x s',
  flow s = null -> nearest s r k r (Some m) -> send d w sandbox ext (S n) r k args s = Done x s' ->
  exists s1 om y s2 ro, reused s m s1 /\ object_at s m om /\
  match o_val om with
  | VBlock _ =>
      if o_self om then exists s3, block_run d w sandbox ext n m args r (with_mstack s1 (m :: mstack s)) = Done y s3 /\
                                   s2 = with_mstack s3 (tl (mstack s3))
      else block_run d w sandbox ext n m args null s1 = Done y s2
  | VNat p => if restricted s && negb (data_method p) then y = a_nil /\ s2 = s1
              else call_native d w ext n (mkCalls (send d w sandbox ext n) (block_run d w sandbox ext n) (eval d w sandbox ext n))
                     p r args (with_log s1 (ENative p :: log s)) = Done y s2
  | _ => y = a_nil /\ s2 = s1
  end /\ s' = s2 /\ object_at s' r ro /\ x = (if o_chain ro then r else y).
Proof. exact send_method. Qed.
Print Assumptions C33_method.
Theorem C33_unknown : forall d w sandbox ext n r k args s x s',
  flow s = null -> nearest s r k r None -> send d w sandbox ext (S n) r k args s = Done x s' ->
  exists y ro, send d w sandbox ext n r
    (match List.length args - 1 with 1 => w_respond1 w | 2 => w_respond2 w | 3 => w_respond3 w | _ => w_respond w end)
    (List.length (heap s) :: args)
    (with_heap s (heap s ++ [mkObj (VText k) [] [] a_string false false])) = Done y s' /\
  object_at s' r ro /\ x = (if o_chain ro then r else y).
Proof. exact send_other. Qed.
Print Assumptions C33_unknown.
(** an evaluation that ends does the same with a larger bound on its depth *)
Theorem C33_unique : forall d w sandbox ext, monotone ext -> forall n m r k args s x s' y s'',
  send d w sandbox ext n r k args s = Done x s' -> send d w sandbox ext m r k args s = Done y s'' -> x = y /\ s' = s''.
Proof. exact send_unique. Qed.
Print Assumptions C33_unique.
Example C33_example : nearest s_mid 85 (tx "hi") 85 (Some 87) /\ nearest s_mid 85 (tx "nope:") 85 None /\
  monotone ext_en /\
  exists x s1, send dict_en words_en false ext_en 20 85 (tx "hi") [82; 3] s_mid = Done x s1 /\ x = 82.
Proof.
  split; [apply C33_search; exists 9; vm_compute; eauto|]. split; [apply C33_search; exists 9; vm_compute; eauto|].
  split; [exact monotone_en|]. do 2 eexists. vm_compute. auto.
Qed.
(** the method of [Object] runs a method of the same name while that one is running *)
Example C33_super : var_en (tx "x") (run_en 80
  ">> o := Object new. o on: ['text'] do: { <- self text. }. >> x := o text.") = Some (VText (tx "Object")).
Proof. vm_compute. reflexivity. Qed.

(** * C34 *)
Theorem C34_read : forall w s k c v, good s -> flow s = null -> innermost s (ctxs s) k c v -> find w k s = Done v s.
Proof. exact find_inner. Qed.
Print Assumptions C34_read.
Theorem C34_read_world : forall w s k v, good s -> flow s = null -> nowhere s (ctxs s) k -> defines s a_world k v ->
  find w k s = Done v s.
Proof. exact find_world. Qed.
Print Assumptions C34_read_world.
Theorem C34_read_missing : forall w s k, good s -> flow s = null -> nowhere s (ctxs s) k -> lacks s a_world k ->
  exists s', find w k s = Done a_nil s' /\ raised s s' (e_key w ++ k).
Proof. exact find_missing. Qed.
Print Assumptions C34_read_missing.
Theorem C34_write : forall w s k c v x, good s -> flow s = null -> innermost s (ctxs s) k c v -> x <> null ->
  exists s', assign w k x s = Done x s' /\ updated s s' c k x /\ innermost s' (ctxs s') k c x.
Proof. exact assign_updates. Qed.
Print Assumptions C34_write.
Theorem C34_write_missing : forall w s k x, good s -> flow s = null -> nowhere s (ctxs s) k ->
  exists s', assign w k x s = Done x s' /\ raised s s' (e_assign w ++ k).
Proof. exact assign_missing. Qed.
Print Assumptions C34_write_missing.
(** a declaration concerns only the innermost scope *)
Theorem C34_declare : forall s k x c r, good s -> flow s = null -> ctxs s = c :: r -> x <> null ->
  exists s', assign_local k x s = Done x s' /\ updated s s' c k x /\ innermost s' (ctxs s') k c x /\
  forall a k' v, In a r -> (defines s' a k' v <-> defines s a k' v).
Proof. exact declare_updates. Qed.
Print Assumptions C34_declare.
(** properties of the receiver *)
Theorem C34_own : forall w s k c m v, good s -> flow s = null -> innermost s (ctxs s) (w_me w) c m -> defines s m k v ->
  find_in_my w k s = Done v s.
Proof. exact own_found. Qed.
Print Assumptions C34_own.
Theorem C34_own_write : forall w s k c m o x, good s -> flow s = null -> innermost s (ctxs s) (w_me w) c m -> object_at s m o ->
  exists s', assign_my w k x s = Done x s' /\ updated s s' m k x.
Proof. exact own_assigned. Qed.
Print Assumptions C34_own_write.
Example C34_example : good s_mid /\ flow s_mid = null /\ innermost s_mid (ctxs s_mid) (tx "x") a_world 82 /\
  var_en (tx "x") (run_en 80 ">> x := 1. >> y := 1. { >> x := 2. x := 3. y := x. } start. x := x + y.") = Some (VNum (of_Z 4)) /\
  var_en (tx "x") (run_en 80 ">> x := 0. { nope := 1. } except: { :e x := e. }, start.") =
    Some (VText (tx "Cannot assign to undefined variable: nope")) /\
  var_en (tx "x") (run_en 80 ">> o := Object new. o on: ['put:'] do: { :v own n := v. }, on: ['get'] do: { <- own n. }. o put: 7. >> x := o get.")
    = Some (VNum (of_Z 7)).
Proof.
  split; [exact good_mid|]. split; [reflexivity|]. split; [|vm_compute; auto].
  exists [], []. split; [reflexivity|]. split; [constructor|]. eexists. split; [split; [discriminate|vm_compute; reflexivity]|].
  split; [|discriminate]. cbv [o_props]. exists [(lit "o", 85); (lit "t", 83)]. eexists. split; [vm_compute; reflexivity|].
  intros [E|[E|[]]]; discriminate E.
Qed.

(** * C35 *)
Theorem C35_program : forall d w sandbox ext, (forall p, tame (ext p)) -> forall n code o oo prog ps s,
  parse d code o oo = POk prog ps -> good s ->
  after (fun _ => True) (run_program d w sandbox ext n prog s) (fun _ => balanced s).
Proof. exact program_balanced. Qed.
Print Assumptions C35_program.
(** however the task ends *)
Theorem C35_task : forall d w sandbox ext, (forall p, tame (ext p)) -> forall n b args my s,
  good s -> flow s = null -> after (fun _ => True) (block_run d w sandbox ext n b args my s) (fun _ => balanced s).
Proof. exact task_balanced. Qed.
Print Assumptions C35_task.
Theorem C35_message : forall d w sandbox ext, (forall p, tame (ext p)) -> forall n r k args s,
  good s -> after (fun _ => True) (send d w sandbox ext n r k args s) (fun _ => balanced s).
Proof. exact send_balanced. Qed.
Print Assumptions C35_message.
(** with 300 scopes open another one is an error, and the code of the task is not run *)
Theorem C35_deep : forall d w sandbox ext, (forall p, tame (ext p)) -> forall n b args my s ps body r s',
  good s -> flow s = null -> List.length (ctxs s) = 300 -> task_code s b ps body ->
  (forall h, ~ handler s b h) -> block_run d w sandbox ext (S n) b args my s = Done r s' ->
  (exists o, object_at s' (flow s') o /\ o_val o = VText (e_nesting w)) /\ List.length (heap s) <= flow s' /\
  (forall a, a < List.length (heap s) -> nth_error (heap s') a = nth_error (heap s) a) /\
  ctxs s' = ctxs s /\ mstack s' = mstack s /\ natives (log s') = natives (log s).
Proof. exact (fun d w sandbox ext _ => too_deep d w sandbox ext). Qed.
Print Assumptions C35_deep.
(** a task that calls itself without end *)
Example C35_example : exists s, good state_en /\ (forall p, tame (ext_en p)) /\
  run_en 3000 ">> t := { t start. }. t start." = Done true s /\ ctxs s = [a_world] /\
  exists o, object_at s (flow s) o /\ o_val o = VText (tx "Too many nested calls.").
Proof.
  eexists. split; [exact good_en|]. split; [exact tame_en|]. split; [vm_compute; reflexivity|]. split; [vm_compute; reflexivity|].
  eexists. split; [split; [vm_compute; discriminate|vm_compute; reflexivity]|vm_compute; reflexivity].
Qed.

(** * C46 *)
Theorem C46_restricted : forall d w sandbox ext, (forall p, tame (ext p)) -> forall n nd s,
  wf_node nd -> good s -> restricted s = true ->
  after (locked (log s)) (eval d w sandbox ext n nd s) (fun _ => locked (log s)).
Proof. exact eval_locked. Qed.
Print Assumptions C46_restricted.
Theorem C46_object : forall d w sandbox ext, (forall p, tame (ext p)) -> forall n self s,
  good s -> restricted s = false ->
  after (only_data (log s))
    (string_eval d w (mkCalls (send d w sandbox ext n) (block_run d w sandbox ext n) (eval d w sandbox ext n)) self s)
    (fun _ s' => only_data (log s) s' /\ restricted s' = false).
Proof. exact string_eval_data. Qed.
Print Assumptions C46_object.
(** a list is made, a sum is not *)
Example C46_example : good s_mid /\ restricted s_mid = false /\
  var_en (tx "x") (run_en 60 ">> x := ['Sequence new add: 1, add: 2.'] object. ") = Some (VList [84; 85]) /\
  var_en (tx "x") (run_en 60 ">> x := ['1 + 2'] object.") = Some VNil.
Proof. split; [exact good_mid|]. split; [reflexivity|]. vm_compute. auto. Qed.
(** Assignments are not messages: the text can change the variables of the program that reads it. *)
Theorem C46_assignment_refuted : exists t r, run_en 60 t = r /\ var_en (tx "x") r = Some (VNum (of_Z 5)).
Proof. exists ">> x := 0. ['x := 5'] object."%string. eexists. vm_compute. auto. Qed.
Print Assumptions C46_assignment_refuted.

(** * C47 *)
Theorem C47_steps : forall d w ext, (forall p, tame (ext p)) -> forall n prog s,
  Forall wf_node prog -> good s -> metered s ->
  after metered (run_program d w true ext n prog s) (fun _ => metered).
Proof. exact program_metered. Qed.
Print Assumptions C47_steps.
Example C47_example : metered state_en /\ exists s,
  run_program dict_en words_en true ext_en 3000 (program_en ">> x := 0. { x add: 1. } * 1000.") state_en = Halt HSteps s /\ steps s = 2000%N.
Proof. split; [vm_compute; split; discriminate|]. eexists. vm_compute. auto. Qed.
(** Loops are not steps: a program without anything to evaluate in its loop goes on forever. *)
Theorem C47_endless_refuted : exists t, forall n, exists s,
  run_program dict_en words_en true ext_en n (program_en t) state_en = Fuel s /\ metered s.
Proof. exact endless_metered. Qed.
Print Assumptions C47_endless_refuted.
