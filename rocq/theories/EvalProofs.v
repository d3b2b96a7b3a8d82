(** Proofs about the evaluator: what it keeps. *)
From Coq Require Import Lia.
From Verif Require Import Common TextModel NumModel LexModel ParseModel EvalModel EvalSpec EvalParse.
Open Scope nat_scope.

Lemma after_bind (Inv : state -> Prop) A B (m : M A) (f : A -> M B) s Q :
  after Inv (m s) (fun a s' => after Inv (f a s') Q) -> after Inv (bind m f s) Q.
Proof. unfold bind. now destruct (m s). Qed.
Lemma after_mono (Inv : state -> Prop) A (r : res A) (Q Q' : A -> state -> Prop) : after Inv r Q -> (forall a s, Q a s -> Q' a s) -> after Inv r Q'.
Proof. destruct r; cbn; auto. Qed.

Lemma nth_replace h : forall a o b, nth_error (replace h a o) b =
  if Nat.eqb a b then (if a <? length h then Some o else None) else nth_error h b.
Proof.
  induction h as [|x h IH]; intros a o b; cbn.
  - destruct (Nat.eqb_spec a b); destruct b; auto; now destruct a.
  - destruct a as [|a], b as [|b]; cbn; auto. rewrite IH. cbn. destruct (Nat.eqb a b); auto.
Qed.
Lemma replace_length h : forall a o, length (replace h a o) = length h.
Proof. induction h as [|x h IH]; intros [|a] o; cbn; auto. Qed.

Lemma codes_refl h : codes h h. Proof. split; eauto. Qed.
Lemma codes_trans a b c : codes a b -> codes b c -> codes a c.
Proof.
  intros (L1 & H1) (L2 & H2). split; [lia|]. intros x o' k E V. destruct (H2 _ _ _ E V) as (o & E1 & V1). eauto.
Qed.
Lemma codes_app h o : (forall c, o_val o <> VBlock (Some c)) -> codes h (h ++ [o]).
Proof.
  intros H. split; [rewrite app_length; lia|]. intros a o' c E V.
  destruct (Nat.lt_ge_cases a (length h)) as [L|L].
  - rewrite nth_error_app1 in E by auto. eauto.
  - rewrite nth_error_app2 in E by auto. destruct (a - length h) as [|[|n]]; cbn in E; try discriminate.
    injection E as <-. now apply H in V.
Qed.
Lemma codes_replace h a o o' : nth_error h a = Some o -> (forall c, o_val o' = VBlock (Some c) -> o_val o = VBlock (Some c)) ->
  codes h (replace h a o').
Proof.
  intros E H. split; [now rewrite replace_length|]. intros b x c E' V. rewrite nth_replace in E'.
  destruct (Nat.eqb_spec a b) as [<-|NE]; [|eauto].
  destruct (a <? length h); [|discriminate]. injection E' as <-. eauto.
Qed.
Lemma small_refl s : small s s. Proof. split; auto using codes_refl. Qed.

Section Keeps.
Variable Inv P : state -> Prop.
Hypothesis PI : forall s, P s -> Inv s.
Hypothesis closed : forall s s', P s -> small s s' -> P s'.

Lemma keeps_ret A (a : A) : keeps Inv P (ret a). Proof. now intros s H. Qed.
Lemma keeps_bind A B (m : M A) (f : A -> M B) : keeps Inv P m -> (forall a, keeps Inv P (f a)) -> keeps Inv P (bind m f).
Proof.
  intros Hm Hf s H. apply after_bind. eapply after_mono; [apply (Hm _ H)|]. intros a s' H'. now apply Hf.
Qed.
Lemma keeps_get : keeps Inv P get. Proof. now intros s H. Qed.
Lemma keeps_put f : (forall s, P s -> P (f s)) -> keeps Inv P (put f). Proof. intros Hf s H. cbn. auto. Qed.
Lemma keeps_stop A h : sane_halt h -> keeps Inv P (@stop A h). Proof. intros H s Ps. split; auto. Qed.
Lemma keeps_ub A b : sane_bad b -> keeps Inv P (@ub A b). Proof. intros H s Ps. split; auto. Qed.
Lemma keeps_nofuel A : keeps Inv P (@nofuel A). Proof. intros s Ps. now apply PI. Qed.
Lemma keeps_deref a : keeps Inv P (deref a).
Proof. intros s H. unfold deref. destruct a; [split; [split; discriminate|auto]|]. destruct (nth_error (heap s) (S a)); cbn; auto. split; [split; discriminate|auto]. Qed.
Lemma keeps_create v l : (forall c, v <> VBlock (Some c)) -> keeps Inv P (create v l).
Proof.
  intros V s H. cbn. eapply closed; [apply H|]. split; auto. cbn. apply codes_app. cbn. exact V.
Qed.
Lemma keeps_change a f : (forall o c, o_val (f o) = VBlock (Some c) -> o_val o = VBlock (Some c)) -> keeps Inv P (change a f).
Proof.
  intros V s H. unfold change. apply after_bind. unfold deref. destruct a; [split; [split; discriminate|auto]|].
  destruct (nth_error (heap s) (S a)) as [o|] eqn:E; cbn; [|split; [split; discriminate|auto]].
  eapply closed; [apply H|]. split; auto. cbn [heap with_heap]. eapply (codes_replace _ (S a)); eauto.
Qed.
Lemma keeps_flow x : keeps Inv P (put (fun s => with_flow s x)).
Proof. apply keeps_put. intros s H. eapply closed; [exact H|]. now split; try apply codes_refl. Qed.
Lemma keeps_recur x : keeps Inv P (put (fun s => with_recur s x)).
Proof. apply keeps_put. intros s H. eapply closed; [exact H|]. now split; try apply codes_refl. Qed.
Lemma keeps_consume x : keeps Inv P (consume x).
Proof.
  apply keeps_put. intros s H. destruct (flow s =? x); auto. eapply closed; [exact H|]. now split; try apply codes_refl.
Qed.
Lemma keeps_error t : keeps Inv P (error t).
Proof.
  apply keeps_bind; [apply keeps_create; discriminate|]. intros a. apply keeps_put. intros s H.
  eapply closed; [exact H|]. now split; try apply codes_refl.
Qed.
Lemma keeps_bvalue a : keeps Inv P (bvalue a).
Proof. apply keeps_bind; [apply keeps_deref|]. intros o. destruct (o_val o); try apply keeps_ret; apply keeps_ub; split; discriminate. Qed.
Lemma keeps_nvalue a : keeps Inv P (nvalue a).
Proof. apply keeps_bind; [apply keeps_deref|]. intros o. destruct (o_val o); try apply keeps_ret; apply keeps_ub; split; discriminate. Qed.
Lemma keeps_svalue a : keeps Inv P (svalue a).
Proof. apply keeps_bind; [apply keeps_deref|]. intros o. destruct (o_val o); try apply keeps_ret; apply keeps_ub; split; discriminate. Qed.
Lemma keeps_arg l : keeps Inv P (arg l).
Proof. destruct l; [apply keeps_ub; split; discriminate|apply keeps_ret]. Qed.
Lemma keeps_arg2 l : keeps Inv P (arg2 l).
Proof. destruct l as [|? [|? ?]]; try apply keeps_ret; apply keeps_ub; split; discriminate. Qed.

Variable C : calls.
Hypothesis Hsend : forall r k a, keeps Inv P (c_send C r k a).
Hypothesis Hrun : forall b a my, keeps Inv P (c_run C b a my).

Ltac keep := repeat first
  [ apply Hsend | apply Hrun | apply keeps_flow | apply keeps_recur | apply keeps_error | apply keeps_consume
  | apply keeps_bvalue | apply keeps_nvalue | apply keeps_svalue | apply keeps_arg | apply keeps_arg2
  | apply keeps_change; cbn; intros; first [assumption|discriminate]
  | apply keeps_bind; [|intros ?] | apply keeps_ret | apply keeps_get | apply keeps_nofuel | apply keeps_deref
  | apply keeps_create; discriminate
  | apply keeps_ub; split; discriminate | apply keeps_stop; discriminate ].
Ltac keep' := keep; repeat (match goal with |- keeps _ _ (if ?b then _ else _) => destruct b | |- keeps _ _ (match ?b with _ => _ end) => destruct b end; keep).

Variable w : words.
Lemma keeps_cast2number a : keeps Inv P (cast2number w C a). Proof. unfold cast2number, build_number. keep'. Qed.
Lemma keeps_cast2text a : keeps Inv P (cast2text w C a). Proof. unfold cast2text, build_text. keep'. Qed.
Lemma keeps_cast2bool a : keeps Inv P (cast2bool w C a). Proof. unfold cast2bool. keep'. Qed.
Ltac keepc := repeat first [ apply keeps_cast2number | apply keeps_cast2text | apply keeps_cast2bool | progress keep ];
  repeat (match goal with |- keeps _ _ (if ?b then _ else _) => destruct b | |- keeps _ _ (match ?b with _ => _ end) => destruct b end;
          repeat first [ apply keeps_cast2number | apply keeps_cast2text | apply keeps_cast2bool | progress keep ]).

Lemma keeps_rounds n : forall b i k, keeps Inv P (rounds n C b i k).
Proof. induction n as [|n IH]; intros b i k; cbn; [keep|]. destruct k; keepc. unfold build_number. keepc. apply IH. Qed.
Lemma keeps_while n : forall self c args, keeps Inv P (while_loop w n C self c args).
Proof. induction n as [|n IH]; intros; cbn; [keep|]. keepc. apply IH. Qed.
Lemma keeps_branch x self args : keeps Inv P (bool_branch w C x self args).
Proof. unfold bool_branch. keepc. Qed.
Lemma keeps_bool_op f self args : keeps Inv P (bool_op w C f self args). Proof. unfold bool_op. keepc. Qed.
Lemma keeps_num_op f self args : keeps Inv P (num_op w C f self args). Proof. unfold num_op. keepc. Qed.

Variable d : dict.
Variable ext : native -> calls -> addr -> list addr -> M addr.
Hypothesis Hext : forall p self args, keeps Inv P (ext p C self args).

Lemma keeps_native n p self args : p <> NEval -> keeps Inv P (call_native d w ext n C p self args).
Proof.
  intros NE. destruct p; try contradiction; cbn [call_native]; unfold object_on_do, object_message, object_case, object_learn,
    block_run_it, block_set, block_error, block_catch, block_times, block_procedure, block_while, build_text, build_number,
    set_property, add_method;
    keepc; try apply keeps_branch; try apply keeps_bool_op; try apply keeps_num_op; try apply Hext;
    try apply keeps_rounds; try apply keeps_while.
Qed.
End Keeps.

Section Eval.
Variable d : dict.
Variable w : words.
Variable sandbox : bool.
Variable ext : native -> calls -> addr -> list addr -> M addr.
Local Notation eval := (eval d w sandbox ext).
Local Notation message := (message d w sandbox ext).
Local Notation chain := (chain d w sandbox ext).
Local Notation arguments := (arguments d w sandbox ext).
Local Notation assignment := (assignment d w sandbox ext).
Local Notation send := (send d w sandbox ext).
Local Notation block_run := (block_run d w sandbox ext).
Local Notation run := (run d w sandbox ext).
Local Notation step := (step sandbox).
Local Notation open_context := (open_context w).
Local Notation find := (find w).
Local Notation find_in_my := (find_in_my w).
Local Notation assign := (assign w).
Local Notation assign_my := (assign_my w).
Local Notation reference := (reference w).
Local Notation respond_word := (respond_word w).
Local Notation call_native := (call_native d w ext).
Local Notation cast2text := (cast2text w).
Lemma eval_S f (nd : node) : eval (S f) nd = (
  step;;
  note ENode;;
  match nd with
  | NStr v => let! a := build_text v in ret (a, false)
  | NNum v => let! a := literal_number v in ret (a, false)
  | NBlock ps body => let! a := build_block (ps, body) in ret (a, false)
  | NRef m k => push_call;; let! a := reference m k in pop_call;; ret (a, false)
  | NExpr r ms => let! a := message f r ms in ret (a, false)
  | NAssign r e => let! a := assignment f r e in ret (a, false)
  | NRet e => step;; let! (a, _) := eval f e in ret (a, true)
  | NNested e => eval f e
  end : M (addr * bool)).
Proof. reflexivity. Qed.
Lemma message_S f (r : node) (ms : list msg) : message (S f) r ms = (
  step;;
  let! (a, lit) :=
    match r with
    | NRef m k => push_call;; let! a := reference m k in pop_call;; ret (a, false)
    | NStr v => let! a := build_text v in ret (a, true)
    | NNum v => let! a := literal_number v in ret (a, true)
    | NNested e => let! (a, _) := eval f (NNested e) in ret (a, true)
    | NBlock ps body => let! a := build_block (ps, body) in ret (a, true)
    | _ => ret (null, true)
    end in
  let! s := get in
  if negb lit && negb (calm s) then ret a_nil
  else if negb lit && (a =? null) then stop HReceiver
  else
    let level := inmsg s in
    let! x := chain f a lit false ms in
    put (fun s => with_inmsg s (inmsg s - (Z.of_nat (length ms) - 1))%Z);;
    let! s := get in
    if (inmsg s =? level)%Z then ret (match ms with [] => a_nil | _ => x end) else stop HAnomaly : M addr).
Proof. reflexivity. Qed.
Lemma chain_S f (r : addr) (lit more : bool) (ms : list msg) : chain (S f) r lit more ms = (
  match ms with
  | [] => ret r
  | m :: ms =>
      step;;
      note EMsg;;
      (if more then put (fun s => with_inmsg s (inmsg s + 1)%Z) else ret tt);;
      match names_of m with
      | None => ub BOther
      | Some (k, es) =>
          push_call;;
          deref r;;
          let! vs := arguments f (if lit then 1 else 0) es in
          let! x := send f r k (vs ++ [a_nil]) in
          pop_call;;
          chain f x true true ms
      end
  end : M addr).
Proof. reflexivity. Qed.
Lemma arguments_S f (keys : nat) (es : list node) : arguments (S f) keys es = (
  match es with
  | [] => ret []
  | e :: es =>
      put (fun s => with_inmsg s (inmsg s + 1)%Z);;
      let! (a, _) := eval f e in
      put (fun s => with_inmsg s (inmsg s - 1)%Z);;
      if MAX_KEYS <=? keys + 1 then stop HKeys
      else let! vs := arguments f (keys + 1) es in ret (a :: vs)
  end : M (list addr)).
Proof. reflexivity. Qed.
Lemma assignment_S f (r e : node) : assignment (S f) r e = (
  match r with
  | NRef m k =>
      step;;
      push_call;;
      let! (x, _) := eval f e in
      let! a := (if m =? 1 then assign_my k x else if m =? 2 then assign_local k x else assign k x) in
      pop_call;;
      ret a
  | _ => ub BOther
  end : M addr).
Proof. reflexivity. Qed.
Lemma send_S f (r : addr) (k : text) (args : list addr) : send (S f) r k args = (
  if r =? null then stop HReceiver
  else
    let! s := get in
    if negb (flow s =? null) then ret a_nil
    else
      let! m := lookup f r r k in
      let! x :=
        match m with
        | None =>
            let! t := build_text k in
            send f r (respond_word args) (t :: args)
        | Some m =>
            let! o := deref m in
            match o_val o with
            | VNat p =>
                let! s := get in
                if restricted s && negb (data_method p) then ret a_nil
                else note (ENative p);;
                     call_native f (mkCalls (send f) (block_run f) (eval f)) p r args
            | VBlock _ =>
                if o_self o then
                  let! s := get in
                  if MAX_MSG - 1 <=? length (mstack s) then ub BMessages
                  else
                    put (fun s => with_mstack s (m :: mstack s));;
                    let! x := block_run f m args r in
                    put (fun s => with_mstack s (tl (mstack s)));;
                    ret x
                else block_run f m args null
            | _ => ret a_nil
            end
        end in
      let! o := deref r in
      ret (if o_chain o then r else x) : M addr).
Proof. reflexivity. Qed.
Lemma block_run_S f (b : addr) (args : list addr) (my : addr) : block_run (S f) b args my = (
  let! c := code_of b in
  match c with
  | None => ret a_nil
  | Some (ps, body) =>
      open_context;;
      bind_params ps args;;
      (if my =? null then ret tt
       else assign_local (w_me w) my;; assign_local (w_my w) my;; ret tt);;
      assign_local (w_task w) b;;
      let! x := run f body in
      let x := match x with Some (S x) => S x | _ => if my =? null then b else my end in
      close_context;;
      let! s := get in
      if failed s then
        let! o := deref b in
        match find_prop (o_props o) CATCH with
        | None => ret x
        | Some h =>
            let! e := cast2text (mkCalls (send f) (block_run f) (eval f)) (flow s) in
            put (fun s => with_flow s null);;
            put (fun s => with_errs (with_cs s (Z.to_N ((Z.of_N (cs s) - errs s) mod 256)) (csw s)) 0%Z);;
            block_run f h [e] null;;
            ret b
        end
      else ret x
  end : M addr).
Proof. reflexivity. Qed.
Lemma run_S f (body : list node) : run (S f) body = (
  match body with
  | [] => ret None
  | nd :: body =>
      let! (a, r) := eval f nd in
      if r then ret (Some a) else run f body
  end : M (option addr)).
Proof. reflexivity. Qed.

(** ** Error mode *)
Record idb (di : Z) (s s' : state) : Prop := mkIdb {
  j_heap : exists new, heap s' = heap s ++ new;
  j_flow : flow s' = flow s;
  j_ctxs : ctxs s' = ctxs s;
  j_mstack : mstack s' = mstack s;
  j_recur : recur s' = recur s;
  j_cs : (cs s < 256)%N -> cs s' = cs s;
  j_inmsg : inmsg s' = (inmsg s + di)%Z;
  j_restricted : restricted s' = restricted s;
  j_log : natives (log s') = natives (log s);
  j_wf : wf_code (heap s) -> wf_code (heap s')
}.
Lemma idb_refl s : idb 0 s s.
Proof. split; auto; try lia. exists []. now rewrite app_nil_r. Qed.
Lemma idb_trans a b s s1 s2 : idb a s s1 -> idb b s1 s2 -> idb (a + b) s s2.
Proof.
  intros [H1 ? ? ? ? C1 ? ? ? W1] [H2 ? ? ? ? C2 ? ? ? W2]. split; try congruence; auto; try lia.
  - destruct H1 as (n1 & E1), H2 as (n2 & E2). exists (n1 ++ n2). now rewrite E2, E1, app_assoc.
Qed.
Lemma idb_eq a b s s' : idb a s s' -> a = b -> idb b s s'. Proof. now intros H <-. Qed.
Lemma wf_code_app h o : wf_code h -> (forall ps b, o_val o = VBlock (Some (ps, b)) -> Forall wf_node b) -> wf_code (h ++ [o]).
Proof.
  intros H O a x ps b E V. destruct (Nat.lt_ge_cases a (length h)) as [L|L].
  - rewrite nth_error_app1 in E by auto. eauto.
  - rewrite nth_error_app2 in E by auto. destruct (a - length h) as [|[|n]]; cbn in E; try discriminate.
    injection E as <-. eauto.
Qed.
Lemma after_step (Inv : state -> Prop) s (Q : unit -> state -> Prop) : Inv s -> Q tt s -> (forall n, Q tt (with_steps s n)) -> after Inv (step s) Q.
Proof. intros H0 H1 H2. unfold EvalModel.step. destruct sandbox; [|exact H1]. destruct (_ <? _)%N; cbn; [split; [discriminate|exact H0]|auto]. Qed.
Lemma idb_steps s n : idb 0 s (with_steps s n).
Proof. split; auto; cbn; try lia. exists []. now rewrite app_nil_r. Qed.
Lemma idb_note s e : native_of e = None -> idb 0 s (with_log s (e :: log s)).
Proof. intros H. split; auto; cbn; try lia. - exists []. now rewrite app_nil_r. - now destruct e. Qed.
Lemma idb_inmsg s i di : i = (inmsg s + di)%Z -> idb di s (with_inmsg s i).
Proof. intros ->. split; auto; cbn; try lia. exists []. now rewrite app_nil_r. Qed.
Lemma idb_create s v l : (forall ps b, v = VBlock (Some (ps, b)) -> Forall wf_node b) ->
  idb 0 s (with_heap s (heap s ++ [mkObj v [] [] l false false])).
Proof.
  intros V. split; auto; cbn; try lia; [eauto|]. intros W. apply wf_code_app; auto.
Qed.
Definition pushed s := if calm s then with_cs s ((cs s + 1) mod 256)%N (cs s :: csw s) else s.
Definition popped s := if calm s then with_cs s ((cs s + 255) mod 256)%N (csw s) else with_errs s (errs s + 1)%Z.
Lemma push_eq s : push_call s = Done tt (pushed s). Proof. reflexivity. Qed.
Lemma pop_eq s : pop_call s = Done tt (popped s). Proof. reflexivity. Qed.
Lemma calm_flow s s' : flow s' = flow s -> calm s' = calm s. Proof. unfold calm. now intros ->. Qed.
Lemma pushed_flow s : flow (pushed s) = flow s. Proof. unfold pushed. now destruct (calm s). Qed.
Lemma popped_flow s : flow (popped s) = flow s. Proof. unfold popped. now destruct (calm s). Qed.
Lemma mod256 c : (c < 256)%N -> (((c + 1) mod 256 + 255) mod 256 = c)%N.
Proof.
  intros H. rewrite N.add_mod_idemp_l by lia. replace (c + 1 + 255)%N with (c + 1 * 256)%N by lia.
  rewrite N.mod_add by lia. now apply N.mod_small.
Qed.
Lemma idb_call di s s' : idb di (pushed s) s' -> idb di s (popped s').
Proof.
  intros H. pose proof (j_flow _ _ _ H) as F. rewrite pushed_flow in F. pose proof (calm_flow _ _ F) as K.
  destruct H as [H1 H2 H3 H4 H5 H6 H7 H8 H9 HW]. unfold popped, pushed in *. rewrite K. destruct (calm s); cbn in *.
  - split; auto; cbn. intros L. rewrite H6 by (apply N.mod_lt; lia). now apply mod256.
  - split; auto.
Qed.
Lemma reference_quiet (Inv : state -> Prop) m k s : Inv s -> flow s <> null -> after Inv (reference m k s) (fun _ s' => s' = s).
Proof.
  intros IV F. assert (E : forall k, find k s = Done a_nil s).
  { intros k'. unfold EvalModel.find, bind, get. apply Nat.eqb_neq in F. now rewrite F. }
  unfold EvalModel.reference. destruct (m =? 1); [|now rewrite E]. unfold EvalModel.find_in_my, bind.
  rewrite E. unfold deref, a_nil. destruct (nth_error (heap s) 3); [|split; [split; discriminate|exact IV]].
  unfold get. apply Nat.eqb_neq in F. now rewrite F.
Qed.
Lemma assigns_quiet m k x s : flow s <> null ->
  (if m =? 1 then assign_my k x else if m =? 2 then assign_local k x else assign k x) s = Done a_nil s.
Proof.
  intros F. apply Nat.eqb_neq in F. unfold EvalModel.assign_my, assign_local, EvalModel.assign, EvalModel.find, bind, get, ret.
  destruct (m =? 1); [|destruct (m =? 2)]; now rewrite ?F; cbn; rewrite ?F.
Qed.
Lemma literal_after (Inv : state -> Prop) v s (Q : addr -> state -> Prop) : Inv s -> (forall x, Q (length (heap s)) (with_heap s (heap s ++ [mkObj (VNum x) [] [] a_number false false]))) ->
  after Inv (literal_number v s) Q.
Proof.
  intros IV H. unfold literal_number. destruct (number_from_text _ _ _ _ _ _) as [[x|]|]; cbn; [apply H|split; [discriminate|auto]|split; [split; discriminate|auto]].
Qed.
Lemma deref_after (Inv : state -> Prop) a s : Inv s -> after Inv (deref a s) (fun _ s' => s' = s).
Proof. intros IV. unfold deref. destruct a; [split; [split; discriminate|auto]|]. destruct (nth_error _ _); [reflexivity|split; [split; discriminate|auto]]. Qed.
Lemma send_quiet (Inv : state -> Prop) n r k args s : Inv s -> flow s <> null -> after Inv (send n r k args s) (fun _ s' => s' = s).
Proof.
  intros IV F. destruct n; [exact IV|]. rewrite send_S. destruct (r =? null); [split; [discriminate|exact IV]|].
  unfold bind, get. apply Nat.eqb_neq in F. now rewrite F.
Qed.

Ltac seqn := cbv beta; apply after_bind.
Local Notation afterT := (after (fun _ => True)).
Lemma quiet n :
  (forall nd s, wf_node nd -> flow s <> null -> afterT (eval n nd s) (fun _ => idb 0 s)) /\
  (forall r ms s, simple r -> wf_node r -> ms <> [] -> Forall wf_msg ms -> flow s <> null ->
     afterT (message n r ms s) (fun _ => idb 0 s)) /\
  (forall r lit more ms s, more = true \/ ms <> [] -> Forall wf_msg ms -> flow s <> null ->
     afterT (chain n r lit more ms s) (fun _ => idb (Z.of_nat (length ms) - if more then 0 else 1) s)) /\
  (forall keys es s, Forall wf_node es -> flow s <> null -> afterT (arguments n keys es s) (fun _ => idb 0 s)) /\
  (forall m k e s, wf_node e -> flow s <> null -> afterT (assignment n (NRef m k) e s) (fun _ => idb 0 s)) /\
  (forall body s, Forall wf_node body -> flow s <> null -> afterT (run n body s) (fun _ => idb 0 s)).
Proof.
  induction n as [|n (IE & IM & IC & IA & IS & IR)]; [repeat split; intros; exact I|].
  split; [|split; [|split; [|split; [|split]]]].
  - intros nd s W F. rewrite eval_S. seqn.
    assert (G : forall s1, idb 0 s s1 -> afterT
      (bind (note ENode) (fun _ => match nd with
       | NStr v => let! a := build_text v in ret (a, false)
       | NNum v => let! a := literal_number v in ret (a, false)
       | NBlock ps body => let! a := build_block (ps, body) in ret (a, false)
       | NRef m k => push_call;; let! a := reference m k in pop_call;; ret (a, false)
       | NExpr r ms => let! a := message n r ms in ret (a, false)
       | NAssign r e => let! a := assignment n r e in ret (a, false)
       | NRet e => step;; let! (a, _) := eval n e in ret (a, true)
       | NNested e => eval n e
       end) s1) (fun _ => idb 0 s)).
    { intros s0 H0. seqn. cbn [note put after]. set (s1 := with_log s0 (ENode :: log s0)).
      assert (H : idb 0 s s1) by (apply (idb_trans 0 0 _ s0); auto; now apply idb_note).
      assert (F1 : flow s1 <> null) by (rewrite (j_flow _ _ _ H); auto). clearbody s1. clear H0 s0.
      assert (T : forall s2, idb 0 s1 s2 -> idb 0 s s2) by (intros s2 H2; exact (idb_trans 0 0 _ _ _ H H2)).
      destruct nd; inversion W; subst.
      - seqn. rewrite push_eq. cbn [after]. seqn.
        eapply after_mono; [apply reference_quiet; [exact I|]; now rewrite pushed_flow|]. intros a s2 ->. seqn. rewrite pop_eq. cbn.
        apply T. apply idb_call. apply idb_refl.
      - cbn. apply T. apply idb_create. discriminate.
      - seqn. apply literal_after; [exact I|]. intros x. cbn. apply T. apply idb_create. discriminate.
      - eapply after_mono; [apply IE; auto|]. auto.
      - cbn. apply T. apply idb_create. now intros ps b [= <- <-].
      - seqn. eapply after_mono; [apply IM; auto|]. intros a s2 ?. cbn. auto.
      - seqn. eapply after_mono; [apply IS; auto|]. intros a s2 ?. cbn. auto.
      - seqn. assert (G : forall s2, idb 0 s1 s2 -> afterT (bind (eval n nd) (fun '(a, _) => ret (a, true)) s2) (fun _ => idb 0 s)).
        { intros s2 H2. seqn. eapply after_mono; [apply IE; auto; now rewrite (j_flow _ _ _ H2)|]. intros (a, b) s3 H3. cbn.
          apply T. exact (idb_trans 0 0 _ _ _ H2 H3). }
        apply after_step; [exact I|apply G, idb_refl|intros k; apply G, idb_steps]. }
    apply after_step; [exact I|apply G, idb_refl|intros k; apply G, idb_steps].
  - intros r ms s SR WR NE WM F. rewrite message_S. seqn.
    match goal with |- after _ (step s) (fun _ s1 => after _ (?X s1) _) => assert (G : forall s1, idb 0 s s1 -> afterT (X s1) (fun _ => idb 0 s)) end.
    { intros s1 H. assert (F1 : flow s1 <> null) by (rewrite (j_flow _ _ _ H); auto).
      seqn. apply (after_mono _ _ _ (fun _ => idb 0 s1)).
      - destruct SR; inversion WR; subst.
        + seqn. rewrite push_eq. cbn [after]. seqn.
          eapply after_mono; [apply reference_quiet; [exact I|]; now rewrite pushed_flow|]. intros a s2 ->. seqn. rewrite pop_eq. cbn.
          apply idb_call. apply idb_refl.
        + cbn. apply idb_create. discriminate.
        + seqn. apply literal_after; [exact I|]. intros x. cbn. apply idb_create. discriminate.
        + seqn. eapply after_mono; [apply IE; auto|]. now intros (a, b') s2 ?.
        + cbn. apply idb_create. now intros ps' b' [= <- <-].
      - intros (a, lit) s2 H2. pose proof (idb_trans 0 0 _ _ _ H H2) as H3.
        seqn. cbn [get after]. destruct (negb lit && negb (calm s2)); [exact H3|].
        destruct (negb lit && (a =? null)); [split; [discriminate|exact I]|]. seqn.
        eapply after_mono; [apply IC; auto; now rewrite (j_flow _ _ _ H3)|]. intros x s3 H4. cbn beta iota.
        seqn. cbn [put after]. seqn. cbn [get after]. cbn [inmsg with_inmsg].
        replace (inmsg s3 - (Z.of_nat (length ms) - 1))%Z with (inmsg s2) by (rewrite (j_inmsg _ _ _ H4); lia).
        rewrite Z.eqb_refl. cbn [after ret]. apply (idb_trans 0 0 _ _ _ H3).
        apply (idb_eq ((Z.of_nat (length ms) - 1) + - (Z.of_nat (length ms) - 1)) 0); [|lia].
        apply (idb_trans _ _ _ s3); [exact H4|]. apply idb_inmsg. rewrite (j_inmsg _ _ _ H4). lia. }
    apply after_step; [exact I|apply G, idb_refl|intros k; apply G, idb_steps].
  - intros r lit more ms s NE WM F. rewrite chain_S. destruct ms as [|m ms].
    { cbn [after ret]. destruct NE as [->|]; [|contradiction]. apply idb_refl. }
    inversion_clear WM as [|? ? Wm Wms].
    seqn.
    match goal with |- after _ (step s) (fun _ s1 => after _ (?X s1) _) => assert (G : forall s1, idb 0 s s1 -> afterT (X s1) (fun _ => idb (Z.of_nat (length (m :: ms)) - if more then 0 else 1) s)) end.
    { intros s1 H. seqn. cbn [note put after]. set (s2 := with_log s1 (EMsg :: log s1)).
      assert (H2 : idb 0 s s2) by (apply (idb_trans 0 0 _ s1); auto; now apply idb_note). clearbody s2. clear H s1.
      seqn. apply (after_mono _ _ _ (fun _ => idb (if more then 1 else 0) s)).
      { destruct more; cbn [put ret after]; [|exact H2]. apply (idb_trans 0 1 _ s2); auto. now apply idb_inmsg. }
      intros _ s3 H3. clear s2 H2. assert (F3 : flow s3 <> null) by (rewrite (j_flow _ _ _ H3); auto).
      assert (exists k es, names_of m = Some (k, es) /\ Forall wf_node es) as (k & es & -> & Wes).
      { destruct Wm; eexists _, _; (split; [reflexivity|]); auto. }
      seqn. rewrite push_eq. cbn [after]. seqn.
      eapply after_mono; [apply (deref_after (fun _ => True)); exact I|]. intros o ? ->.
      seqn. eapply after_mono; [apply IA; auto; now rewrite pushed_flow|]. intros vs s4 H4.
      assert (F4 : flow s4 <> null) by (rewrite (j_flow _ _ _ H4), pushed_flow; auto).
      seqn. eapply after_mono; [now apply send_quiet; [exact I|]|]. intros x ? ->. seqn. rewrite pop_eq. cbn [after].
      apply idb_call in H4. eapply after_mono; [apply IC; auto; now rewrite popped_flow|]. intros y s5 H5.
      apply (idb_eq ((if more then 1 else 0) + (0 + (Z.of_nat (length ms) - 0)))).
      - eapply idb_trans; [exact H3|]. eapply idb_trans; [exact H4|exact H5].
      - cbn [length]. destruct more; lia. }
    apply after_step; [exact I|apply G, idb_refl|intros k; apply G, idb_steps].
  - intros keys es s WE F. rewrite arguments_S. destruct es as [|e es]; [apply idb_refl|]. inversion_clear WE.
    seqn. cbn [put after]. seqn. eapply after_mono; [apply IE; auto|]. intros (a, b) s1 H1. seqn. cbn [put after].
    destruct (MAX_KEYS <=? keys + 1); [split; [discriminate|exact I]|]. seqn.
    assert (H2 : idb 0 s (with_inmsg s1 (inmsg s1 - 1)%Z)).
    { apply (idb_eq (1 + (0 + -1))); [|lia]. apply (idb_trans _ _ _ (with_inmsg s (inmsg s + 1)%Z)); [now apply idb_inmsg|].
      apply (idb_trans _ _ _ s1); auto. now apply idb_inmsg. }
    eapply after_mono; [apply IA; auto; now rewrite (j_flow _ _ _ H2)|]. intros vs s2 H3. cbn. exact (idb_trans 0 0 _ _ _ H2 H3).
  - intros m k e s WE F. rewrite assignment_S. seqn.
    match goal with |- after _ (step s) (fun _ s1 => after _ (?X s1) _) => assert (G : forall s1, idb 0 s s1 -> afterT (X s1) (fun _ => idb 0 s)) end.
    { intros s1 H. assert (F1 : flow s1 <> null) by (rewrite (j_flow _ _ _ H); auto). seqn. rewrite push_eq. cbn [after].
      seqn. eapply after_mono; [apply IE; auto; now rewrite pushed_flow|]. intros (x, b) s2 H2. seqn.
      rewrite assigns_quiet by (rewrite (j_flow _ _ _ H2), pushed_flow; auto). cbn [after]. seqn. rewrite pop_eq. cbn.
      apply (idb_trans 0 0 _ _ _ H). now apply idb_call. }
    apply after_step; [exact I|apply G, idb_refl|intros j; apply G, idb_steps].
  - intros body s WB F. rewrite run_S. destruct body as [|nd body]; [apply idb_refl|]. inversion_clear WB.
    seqn. eapply after_mono; [apply IE; auto|]. intros (a, r) s1 H1. destruct r; [exact H1|].
    eapply after_mono; [apply IR; auto; now rewrite (j_flow _ _ _ H1)|]. intros y s2 H2. exact (idb_trans 0 0 _ _ _ H1 H2).
Qed.

(** ** Scopes, running methods and message levels *)
Section Frame.
Variable Inv : state -> Prop.
Hypothesis ST0 : steady sandbox Inv.
Let same := v_same _ _ ST0.
Record gd (s : state) : Prop := mkGd { gd_good : good s; gd_inv : Inv s }.
Lemma step_eq s s' : step s = Done tt s' -> s' = s \/ exists k, s' = with_steps s k.
Proof. unfold EvalModel.step. destruct sandbox; [|intros [= <-]; auto]. destruct (_ <? _)%N; [discriminate|]. intros [= <-]. eauto. Qed.
Lemma step_after s (Q : unit -> state -> Prop) : Inv s -> (forall s', step s = Done tt s' -> Q tt s') -> after Inv (step s) Q.
Proof.
  intros IV H. destruct (step s) as [[] s'| |h s'|] eqn:E; [now apply H| | |]; unfold EvalModel.step in E; destruct sandbox; try discriminate;
  destruct (LIMIT <? steps s + 1)%N; try discriminate. injection E as <- <-. split; [discriminate|auto].
Qed.
Record fb (di : Z) (s s' : state) : Prop := mkFb {
  f_ctxs : ctxs s' = ctxs s;
  f_mstack : mstack s' = mstack s;
  f_inmsg : inmsg s' = (inmsg s + di)%Z;
  f_restricted : restricted s' = restricted s;
  f_len : length (heap s) <= length (heap s');
  f_code : wf_code (heap s');
  f_full : length (ctxs s) = 301 -> flow s' <> null;
  f_inv : Inv s'
}.
Lemma fb_trans a b s s1 s2 : fb a s s1 -> fb b s1 s2 -> fb (a + b) s s2.
Proof. intros [] []. split; try congruence; try lia; auto. intros L. apply f_full1. congruence. Qed.
Lemma fb_eq a b s s' : fb a s s' -> a = b -> fb b s s'. Proof. now intros H <-. Qed.
Lemma fb_good di s s' : gd s -> fb di s s' -> gd s'.
Proof.
  intros [[H1 H2 H3 H4 H5 (H6 & H7)] IV] [F1 F2 F3 F4 F5 F6 F7 F8]. split; [|exact F8]. split; rewrite ?F1, ?F2; auto; try lia. split; auto.
  eapply Forall_impl; [|exact H7]. cbn. intros. lia.
Qed.
Lemma fb_refl s : gd s -> fb 0 s s. Proof. intros [[] ?]. split; auto. lia. Qed.
(** no more than 300 scopes *)
Definition room s := length (ctxs s) <= 300.
Lemma good_room s : gd s -> flow s = null -> room s.
Proof. intros [[H1 H2 H3 H4 H5 H6] _] F. unfold room. destruct (Nat.eq_dec (length (ctxs s)) 301) as [e|]; [|lia]. now apply H4 in e. Qed.
Lemma codes_wf h h' : codes h h' -> wf_code h -> wf_code h'.
Proof. intros (_ & H) W a o ps b E V. destruct (H _ _ _ E V) as (o1 & E1 & V1). eauto. Qed.
Lemma fb_closed di s : room s -> forall s1 s2, fb di s s1 -> small s1 s2 -> fb di s s2.
Proof.
  unfold room. intros R s1 s2 [F1 F2 F3 F4 F5 F6 F7 F8] [(L & C) S2 S3 S4 S5 S6 S7]. split; try congruence; try lia.
  - eapply codes_wf; [split|]; eauto.
  - eapply same; eauto.
Qed.

Lemma keeps_find (P : state -> Prop) (PI : forall s, P s -> Inv s) k : (forall s s', P s -> small s s' -> P s') -> keeps Inv P (find k).
Proof.
  intros CL. assert (G : forall cx, keeps Inv P (find_in cx k)).
  { induction cx as [|c cx IH]; cbn; [now intros s H|]. apply keeps_bind; [apply keeps_deref; exact PI|]. intros o.
    destruct (find_prop _ _); [now intros s H|auto]. }
  assert (E : forall m, keeps Inv P (key_error m k)).
  { intros m. apply keeps_bind; [apply keeps_create; auto; discriminate|]. intros e. now apply keeps_flow. }
  unfold EvalModel.find. apply keeps_bind; [now intros s H|]. intros s0. destruct (negb _); [now intros s H|].
  apply keeps_bind; [auto|]. intros [(c & v)|]; [now intros s H|]. apply keeps_bind; [apply G|]. intros [(c & v)|]; [now intros s H|].
  apply keeps_bind; auto. intros _. now intros s H.
Qed.
Lemma keeps_reference (P : state -> Prop) (PI : forall s, P s -> Inv s) m k : (forall s s', P s -> small s s' -> P s') -> keeps Inv P (reference m k).
Proof.
  intros CL. unfold EvalModel.reference. destruct (m =? 1); [|now apply (keeps_find P PI)]. unfold EvalModel.find_in_my.
  apply keeps_bind; [now apply (keeps_find P PI)|]. intros c. apply keeps_bind; [apply keeps_deref; exact PI|]. intros o.
  apply keeps_bind; [now intros s H|]. intros s0. destruct (negb _); [now intros s H|].
  destruct (find_prop _ _); [now intros s H|]. apply keeps_bind; [|now intros ? s H].
  apply keeps_bind; [apply keeps_create; auto; discriminate|]. intros e. now apply keeps_flow.
Qed.
Lemma keeps_set_property (P : state -> Prop) (PI : forall s, P s -> Inv s) a k v : (forall s s', P s -> small s s' -> P s') -> keeps Inv P (set_property a k v).
Proof. intros CL. apply keeps_change; auto. Qed.
Lemma assign_local_keeps (P : state -> Prop) (PI : forall s, P s -> Inv s) k x s : (forall s s', P s -> small s s' -> P s') -> P s -> ctxs s <> [] ->
  after Inv (assign_local k x s) (fun _ => P).
Proof.
  intros CL H NE. unfold assign_local, bind, get. destruct (negb _); [exact H|]. destruct (ctxs s) as [|c r]; [contradiction|].
  pose proof (keeps_set_property P PI c k x CL s H) as G. now destruct (set_property c k x s).
Qed.
Lemma keeps_assigns (P : state -> Prop) (PI : forall s, P s -> Inv s) m k x s : (forall s s', P s -> small s s' -> P s') -> P s -> ctxs s <> [] ->
  after Inv ((if m =? 1 then assign_my k x else if m =? 2 then assign_local k x else assign k x) s) (fun _ => P).
Proof.
  intros CL H NE. destruct (m =? 1).
  - revert s H NE. intros s H _. revert s H. unfold EvalModel.assign_my. apply keeps_bind; [now apply (keeps_find P PI)|]. intros c.
    apply keeps_bind; [now intros s H|]. intros s0. destruct (negb _); [now intros s H|].
    apply keeps_bind; [now apply (keeps_set_property P PI)|]. now intros ? s H.
  - destruct (m =? 2); [now apply assign_local_keeps|]. revert s H NE. intros s H _. revert s H. unfold EvalModel.assign.
    apply keeps_bind; [now intros s H|]. intros s0. destruct (negb _); [now intros s H|].
    apply keeps_bind; [|now intros ? s H]. unfold EvalModel.set. apply keeps_bind; [now intros s H|]. intros s1.
    apply keeps_bind.
    { generalize (ctxs s1). induction l as [|c cx IH]; cbn; [now intros s H|]. apply keeps_bind; [apply keeps_deref; exact PI|]. intros o.
      destruct (find_prop _ _); [now intros s H|auto]. }
    intros [(c & v)|]; [now apply (keeps_set_property P PI)|].
    apply keeps_bind; [apply keeps_create; auto; discriminate|]. intros e. now apply keeps_flow.
Qed.
Lemma keeps_lookup (P : state -> Prop) (PI : forall s, P s -> Inv s) n : (forall s s', P s -> small s s' -> P s') -> forall r a k, keeps Inv P (lookup n r a k).
Proof.
  intros CL. induction n as [|n IH]; intros r a k; [intros s H; now apply PI|]. cbn [lookup].
  apply keeps_bind; [apply keeps_deref; exact PI|]. intros o. apply keeps_bind.
  - destruct (find_prop _ _); [|now intros s H]. apply keeps_bind; [now intros s H|]. intros s0.
    destruct (existsb _ _); [|now intros s H]. destruct (negb _); [now intros s H|].
    apply keeps_bind; [now apply keeps_recur|]. now intros ? s H.
  - intros [m|]; [now intros s H|]. destruct (_ =? _); [now intros s H|apply IH].
Qed.

Hypothesis ext_tame : forall p, tame (ext p).

Record ready (s : state) : Prop := mkReady {
  r_code : wf_code (heap s);
  r_std : 13 <= length (heap s);
  r_ctx : 1 <= length (ctxs s) <= 300;
  r_msgs : length (mstack s) <= length (ctxs s);
  r_scopes : NoDup (ctxs s) /\ Forall (fun c => 0 < c < length (heap s)) (ctxs s);
  r_inv : Inv s
}.
Lemma good_ready s : gd s -> room s -> ready s.
Proof. unfold room. intros [[] ?] R. split; auto; lia. Qed.
Lemma ready_fb di s s' : ready s -> fb di s s' -> ready s'.
Proof.
  intros [H1 H2 H3 H5 (H6 & H7) IV] [F1 F2 F3 F4 F5 F6 F7 F8]. split; rewrite ?F1, ?F2; auto; try lia. split; auto.
  eapply Forall_impl; [|exact H7]. cbn. intros. lia.
Qed.
Lemma ready_room s : ready s -> room s. Proof. intros []. unfold room. lia. Qed.
Lemma fb_ready_refl s : ready s -> fb 0 s s. Proof. intros []. split; auto; lia. Qed.
Lemma fb_call di s s' : fb di (pushed s) s' -> fb di s (popped s').
Proof. intros []. unfold popped, pushed in *. destruct (calm s), (calm s'); cbn in *; split; auto; eapply same; eauto. Qed.
Lemma pushed_good s : gd s -> gd (pushed s).
Proof. intros [[] IV]. unfold pushed. destruct (calm s); (split; [now split|auto]); eapply same; eauto. Qed.

Lemma assign_local_fb k x s : gd s -> after Inv (assign_local k x s) (fun _ => fb 0 s).
Proof.
  intros G. destruct (Nat.eq_dec (flow s) null) as [F|F].
  - apply assign_local_keeps; [now intros ? []|apply fb_closed; now apply good_room|now apply fb_refl|]. destruct G as [[]]. now destruct (ctxs s); cbn in *; [lia|].
  - unfold assign_local, bind, get. apply Nat.eqb_neq in F. rewrite F. now apply fb_refl.
Qed.
Lemma bind_params_fb ps : forall args s, gd s -> after Inv (bind_params ps args s) (fun _ => fb 0 s).
Proof.
  induction ps as [|p ps IH]; intros args s G; [now apply fb_refl|]. destruct args as [|a args]; [now apply fb_refl|]. cbn [bind_params].
  seqn. apply (after_mono _ _ _ (fun _ => fb 0 s)).
  - destruct (a =? null); [now apply fb_refl|]. seqn. now apply assign_local_fb.
  - intros ? s1 H1. eapply after_mono; [apply IH; now apply (fb_good _ _ _ G H1)|]. intros ? s2 H2. exact (fb_trans 0 0 _ _ _ H1 H2).
Qed.
(** entering a task *)
Lemma open_after s : ready s -> exists h f e, open_context s =
  Done tt (with_ctxs (with_errs (with_flow (with_heap s (heap s ++ h)) f) e) (length (heap s ++ h) - 1 :: ctxs s)) /\
  h <> [] /\ (length (ctxs s) = 300 -> f <> null) /\ wf_code (heap s ++ h).
Proof.
  intros [H1 H2 H3 H4 H5 IV].
  assert (W : forall h v l, wf_code h -> (forall c, v <> VBlock c) -> wf_code (h ++ [mkObj v [] [] l false false])).
  { intros h v l W V. apply wf_code_app; auto. cbn. intros ps b E. now apply V in E. }
  unfold EvalModel.open_context. unfold bind at 1. unfold get at 1. cbv beta iota zeta.
  destruct (300 <=? length (ctxs s)) eqn:E3.
  - apply Nat.leb_le in E3.
    exists [mkObj (VText (e_nesting w)) [] [] a_string false false; mkObj VObj [] [] null false false], (length (heap s)), 0%Z.
    split; [|split; [discriminate|split; [intros; lia|]]].
    + unfold error, build_text, create, put, ret, bind, get. cbn [heap with_heap with_errs with_flow ctxs].
      assert (E4 : (MAX_CTX <=? length (ctxs s)) = false) by (apply Nat.leb_gt; change MAX_CTX with 301; lia). rewrite E4.
      rewrite <- app_assoc. cbn [app]. rewrite !app_length. cbn [length].
      replace (length (heap s) + 2 - 1) with (length (heap s) + 1) by lia. destruct s; reflexivity.
    + change [?a; ?b] with ([a] ++ [b]). rewrite app_assoc. apply W; [apply W; auto; discriminate|discriminate].
  - apply Nat.leb_gt in E3.
    exists [mkObj VObj [] [] null false false], (flow s), (errs s). split; [|split; [discriminate|split; [intros; lia|]]].
    + unfold create, put, ret, bind, get. cbn [heap with_heap with_errs with_flow ctxs].
      assert (E4 : (MAX_CTX <=? length (ctxs s)) = false) by (apply Nat.leb_gt; change MAX_CTX with 301; lia). rewrite E4.
      rewrite app_length. cbn [length]. replace (length (heap s) + 1 - 1) with (length (heap s)) by lia. destruct s; reflexivity.
    + apply W; auto; discriminate.
Qed.
Lemma open_good s h f e : ready s -> h <> [] -> (length (ctxs s) = 300 -> f <> null) -> wf_code (heap s ++ h) ->
  gd (with_ctxs (with_errs (with_flow (with_heap s (heap s ++ h)) f) e) (length (heap s ++ h) - 1 :: ctxs s)).
Proof.
  intros [H1 H2 H3 H4 (H5 & H6) IV] NE F W. assert (0 < length h) by (destruct h; cbn; [contradiction|lia]).
  split; [|now apply (same s)]. split; cbn [heap flow ctxs mstack with_ctxs with_errs with_flow with_heap length]; auto; rewrite ?app_length; try lia.
  split.
    + constructor; auto. intros I. rewrite Forall_forall in H6. apply H6 in I. lia.
    + constructor; [lia|]. eapply Forall_impl; [|exact H6]. cbn. intros. lia.
Qed.

Lemma cast2text_quiet C a s : Inv s -> flow s <> null -> room s -> wf_code (heap s) ->
  (forall r k l s, Inv s -> flow s <> null -> after Inv (c_send C r k l s) (fun _ s' => s' = s)) ->
  after Inv (cast2text C a s) (fun _ => fb 0 s).
Proof.
  intros IV F R W HS. assert (K : fb 0 s s) by (split; auto; lia). unfold EvalModel.cast2text.
  assert (D : forall x (f : obj -> M addr), (forall o, after Inv (f o s) (fun _ => fb 0 s)) -> after Inv (bind (deref x) f s) (fun _ => fb 0 s)).
  { intros x f H. seqn. eapply after_mono; [now apply deref_after|]. intros o ? ->. apply H. }
  apply D. intros o. destruct (is_text _); [exact K|]. seqn. eapply after_mono; [now apply HS|]. intros r ? ->.
  apply D. intros o1. destruct (is_text _); [exact K|].
  assert (G : keeps Inv (fb 0 s) (bind (error (e_text w)) (fun _ => build_text [63%N]))).
  { apply keeps_bind; [apply keeps_error; now apply fb_closed|]. intros _. apply keeps_create; [now apply fb_closed|discriminate]. }
  now apply G.
Qed.

Lemma bb_frame n :
  (forall nd s, wf_node nd -> gd s -> after Inv (eval n nd s) (fun _ => fb 0 s)) /\
  (forall r ms s, simple r -> wf_node r -> ms <> [] -> Forall wf_msg ms -> gd s -> after Inv (message n r ms s) (fun _ => fb 0 s)) /\
  (forall r lit more ms s, more = true \/ ms <> [] -> Forall wf_msg ms -> gd s ->
     after Inv (chain n r lit more ms s) (fun _ => fb (Z.of_nat (length ms) - if more then 0 else 1) s)) /\
  (forall keys es s, Forall wf_node es -> gd s -> after Inv (arguments n keys es s) (fun _ => fb 0 s)) /\
  (forall m k e s, wf_node e -> gd s -> after Inv (assignment n (NRef m k) e s) (fun _ => fb 0 s)) /\
  (forall r k args s, gd s -> after Inv (send n r k args s) (fun _ => fb 0 s)) /\
  (forall b args my s, ready s -> after Inv (block_run n b args my s) (fun _ => fb 0 s)) /\
  (forall body s, Forall wf_node body -> gd s -> after Inv (run n body s) (fun _ => fb 0 s)).
Proof.
  induction n as [|n (IE & IM & IC & IA & IS & IN & IB & IR)]; [repeat split; intros; first [now apply gd_inv|now apply r_inv]|].
  assert (ST : forall s Q (X : unit -> M Q) di, gd s -> (forall s1, fb 0 s s1 -> gd s1 -> after Inv (X tt s1) (fun _ => fb di s)) ->
            after Inv (bind step X s) (fun _ => fb di s)).
  { intros s Q X di G H. seqn. apply step_after; [apply G|]. intros s1 E. assert (K : fb 0 s s1).
    { pose proof (v_step _ _ ST0 _ _ (gd_inv _ G) E) as IV. destruct (step_eq _ _ E) as [->|(k & ->)]; [now apply fb_refl|].
      destruct G as [[]]. split; auto; cbn; lia. }
    apply H; auto. now apply (fb_good 0 s). }
  assert (SN : forall s e Q (X : unit -> M Q) di, native_of e = None -> gd s -> (forall s1, fb 0 s s1 -> gd s1 -> after Inv (X tt s1) (fun _ => fb di s)) ->
            after Inv (bind step (fun _ => bind (note e) X) s) (fun _ => fb di s)).
  { intros s e Q X di NE G H. seqn. apply step_after; [apply G|]. intros s1 E. seqn. cbn [note put after]. assert (K : fb 0 s (with_log s1 (e :: log s1))).
    { pose proof (v_node _ _ ST0 _ _ e (gd_inv _ G) E NE) as IV. destruct (step_eq _ _ E) as [->|(k & ->)];
      destruct G as [[]]; split; auto; cbn; lia. }
    apply H; auto. now apply (fb_good 0 s). }
  assert (CR : forall s v l, gd s -> (forall ps b, v = VBlock (Some (ps, b)) -> Forall wf_node b) ->
            fb 0 s (with_heap s (heap s ++ [mkObj v [] [] l false false]))).
  { intros s v l [[] IV] V. split; auto; cbn; try lia; [rewrite app_length; lia|now apply wf_code_app|now apply (same s)]. }
  assert (RF : forall s m k, gd s -> after Inv ((push_call;; let! a := reference m k in pop_call;; ret (a, false)) s) (fun _ => fb 0 s)).
  { intros s m k G. seqn. rewrite push_eq. cbn [after]. seqn. apply pushed_good in G as G1.
    apply (after_mono _ _ _ (fun _ => fb 0 (pushed s))).
    - destruct (Nat.eq_dec (flow s) null) as [F|F].
      + apply keeps_reference; [now intros ? []|apply fb_closed; apply good_room; auto; now rewrite pushed_flow|now apply fb_refl].
      + eapply after_mono; [apply reference_quiet; [apply G1|]; now rewrite pushed_flow|]. intros a ? ->. now apply fb_refl.
    - intros a s1 H1. seqn. rewrite pop_eq. cbn. now apply fb_call. }
  split; [|split; [|split; [|split; [|split; [|split; [|split]]]]]].
  - intros nd s W G. rewrite eval_S. apply SN; auto. intros s1 H1 G1.
    assert (T : forall s2, fb 0 s1 s2 -> fb 0 s s2) by (intros s2 H2; exact (fb_trans 0 0 _ _ _ H1 H2)).
    destruct nd; inversion W; subst.
    + eapply after_mono; [now apply RF|]. auto.
    + cbn. apply T, CR; auto; discriminate.
    + seqn. apply literal_after; [apply G1|]. intros x. cbn. apply T, CR; auto. discriminate.
    + eapply after_mono; [apply IE; auto|]. auto.
    + cbn. apply T, CR; auto. now intros ps b [= <- <-].
    + seqn. eapply after_mono; [apply IM; auto|]. intros a s2 ?. cbn. auto.
    + seqn. eapply after_mono; [apply IS; auto|]. intros a s2 ?. cbn. auto.
    + eapply after_mono; [apply ST with (di := 0%Z); auto|cbn; auto]. intros s2 H2 G2. seqn.
      eapply after_mono; [apply IE; auto|]. intros (a, b) s3 H3. cbn. exact (fb_trans 0 0 _ _ _ H2 H3).
  - intros r ms s SR WR NE WM G. rewrite message_S. apply ST; auto. intros s1 H1 G1. seqn.
    apply (after_mono _ _ _ (fun _ => fb 0 s1)).
    + destruct SR; inversion WR; subst.
      * now apply RF.
      * cbn. apply CR; auto; discriminate.
      * seqn. apply literal_after; [apply G1|]. intros x. cbn. apply CR; auto; discriminate.
      * seqn. eapply after_mono; [apply IE; auto|]. now intros (a, b') s2 ?.
      * cbn. apply CR; auto. now intros ps' b' [= <- <-].
    + intros (a, lit) s2 H2. pose proof (fb_trans 0 0 _ _ _ H1 H2) as H3. pose proof (fb_good _ _ _ G H3) as G2.
      seqn. cbn [get after]. destruct (negb lit && negb (calm s2)); [exact H3|].
      destruct (negb lit && (a =? null)); [split; [discriminate|apply G2]|]. seqn.
      eapply after_mono; [apply IC; auto|]. intros x s3 H4. cbn beta iota.
      seqn. cbn [put after]. seqn. cbn [get after]. cbn [inmsg with_inmsg].
      replace (inmsg s3 - (Z.of_nat (length ms) - 1))%Z with (inmsg s2) by (rewrite (f_inmsg _ _ _ H4); lia).
      rewrite Z.eqb_refl. cbn [after ret]. apply (fb_trans 0 0 _ _ _ H3). destruct H4. split; cbn; auto; [lia|eapply same; eauto].
  - intros r lit more ms s NE WM G. rewrite chain_S. destruct ms as [|m ms].
    { cbn [after ret]. destruct NE as [->|]; [|contradiction]. now apply fb_refl. }
    inversion_clear WM as [|? ? Wm Wms]. apply SN; auto. intros s1 H1 G1.
    seqn. apply (after_mono _ _ _ (fun _ => fb (if more then 1 else 0) s)).
    { destruct more; cbn [put ret after]; [|exact H1]. destruct H1. split; cbn; auto; [lia|eapply same; eauto]. }
    intros ? s3 H3. pose proof (fb_good _ _ _ G H3) as G3.
    assert (exists k es, names_of m = Some (k, es) /\ Forall wf_node es) as (k & es & -> & Wes).
    { destruct Wm; eexists _, _; (split; [reflexivity|]); auto. }
    seqn. rewrite push_eq. cbn [after]. seqn.
    pose proof (pushed_good _ G3) as GP.
    eapply after_mono; [apply deref_after; apply GP|]. intros o ? ->.
    seqn. eapply after_mono; [apply IA; auto|]. intros vs s4 H4. pose proof (fb_good _ _ _ GP H4) as G4.
    seqn. eapply after_mono; [now apply IN|]. intros x s5 H5. seqn. rewrite pop_eq. cbn [after].
    pose proof (fb_trans 0 0 _ _ _ H4 H5) as H6. apply fb_call in H6.
    eapply after_mono; [apply IC; auto; apply (fb_good _ _ _ G3 H6)|]. intros y s7 H7.
    apply (fb_eq ((if more then 1 else 0) + (0 + (Z.of_nat (length ms) - 0)))).
    + eapply fb_trans; [exact H3|]. eapply fb_trans; [exact H6|exact H7].
    + cbn [length]. destruct more; lia.
  - intros keys es s WE G. rewrite arguments_S. destruct es as [|e es]; [now apply fb_refl|]. inversion_clear WE.
    seqn. cbn [put after]. seqn. eapply after_mono; [apply IE; auto|]; [destruct G as [[] IV]; (split; [now split|]); eapply same; eauto|]. intros (a, b) s1 H1.
    seqn. cbn [put after].
    assert (H2 : fb 0 s (with_inmsg s1 (inmsg s1 - 1)%Z)) by (destruct H1; cbn in *; split; cbn; auto; [lia|eapply same; eauto]).
    destruct (MAX_KEYS <=? keys + 1); [split; [discriminate|apply H2]|]. seqn.
    eapply after_mono; [apply IA; auto; apply (fb_good _ _ _ G H2)|]. intros vs s2 H3. cbn. exact (fb_trans 0 0 _ _ _ H2 H3).
  - intros m k e s WE G. rewrite assignment_S. apply ST; auto. intros s1 H1 G1. seqn. rewrite push_eq. cbn [after].
    pose proof (pushed_good _ G1) as GP.
    seqn. eapply after_mono; [apply IE; auto|]. intros (x, b) s2 H2. pose proof (fb_good _ _ _ GP H2) as G2. seqn.
    apply (after_mono _ _ _ (fun _ => fb 0 s2)).
    + destruct (Nat.eq_dec (flow s2) null) as [F|F].
      * apply keeps_assigns; [now intros ? []|apply fb_closed; now apply good_room|now apply fb_refl|]. destruct G2 as [[]]. now destruct (ctxs s2); cbn in *; [lia|].
      * rewrite assigns_quiet by auto. now apply fb_refl.
    + intros a s3 H3. seqn. rewrite pop_eq. cbn. pose proof (fb_trans 0 0 _ _ _ H2 H3) as H4. apply fb_call in H4.
      exact (fb_trans 0 0 _ _ _ H1 H4).
  - intros r k args s G. destruct (Nat.eq_dec (flow s) null) as [F|F].
    2:{ eapply after_mono; [apply send_quiet; auto; apply G|]. intros a ? ->. now apply fb_refl. }
    pose proof (good_room _ G F) as R. pose proof (fb_closed 0 s R) as CL.
    assert (PI : forall x, fb 0 s x -> Inv x) by now intros ? [].
    rewrite send_S. destruct (r =? null); [split; [discriminate|apply G]|]. seqn. cbn [get after]. rewrite F. cbn [negb Nat.eqb].
    assert (HS : forall r k a, keeps Inv (fb 0 s) (send n r k a)).
    { intros r0 k0 a0 s1 H1. eapply after_mono; [apply IN; apply (fb_good _ _ _ G H1)|]. intros x s2 H2. exact (fb_trans 0 0 _ _ _ H1 H2). }
    assert (HB : forall b a my, keeps Inv (fb 0 s) (block_run n b a my)).
    { intros b a my s1 H1. eapply after_mono; [apply IB; eapply ready_fb; [apply good_ready; eauto|exact H1]|]. intros x s2 H2.
      exact (fb_trans 0 0 _ _ _ H1 H2). }
    seqn. eapply after_mono; [apply (keeps_lookup (fb 0 s)); [exact PI|exact CL|now apply fb_refl]|]. intros m s1 H1.
    seqn. apply (after_mono _ _ _ (fun _ => fb 0 s)).
    2:{ intros x s2 H2. seqn. eapply after_mono; [apply (keeps_deref Inv (fb 0 s) PI); exact H2|]. intros o s3 H3. exact H3. }
    destruct m as [m|].
    2:{ seqn. eapply after_mono; [apply (keeps_create Inv (fb 0 s) CL (VText k) a_string ltac:(discriminate)); exact H1|]. intros t s2 H2. now apply HS. }
    seqn. eapply after_mono; [apply deref_after; auto|]. intros o ? ->.
    destruct (o_val o) as [|b|x|t|c|p|l|]; try exact H1.
    + (* a task *)
      destruct (o_self o); [|now apply HB]. seqn. cbn [get after].
      pose proof (fb_good _ _ _ G H1) as G1. destruct G1 as [[K1 K2 K3 K4 K5 K6] IV1]. unfold room in R. rewrite <- (f_ctxs _ _ _ H1) in R.
      change (MAX_MSG - 1) with 300. destruct (Nat.leb_spec 300 (length (mstack s1))); [lia|].
      seqn. cbn [put after]. seqn. eapply after_mono; [apply IB; split; cbn; auto; try lia; eapply same; eauto|]. intros x s2 H2.
      seqn. cbn [put after ret]. cbn in H2. apply (fb_trans 0 0 _ _ _ H1). destruct H2. split; cbn in *; auto.
      1: now rewrite f_mstack0. eapply same; eauto.
    + (* a built-in method *)
      seqn. cbn [get after]. destruct (restricted s1 && negb (data_method p)) eqn:D; [exact H1|]. seqn. cbn [note put after].
      assert (H2 : fb 0 s (with_log s1 (ENative p :: log s1))) by (apply (fb_trans 0 0 _ _ _ H1); destruct (fb_good _ _ _ G H1) as [[]]; split; auto; [cbn; lia|apply (v_native _ _ ST0); [apply H1|]]; intros RR; rewrite RR in D; now destruct (data_method p)).
      destruct p; try (apply (keeps_native Inv (fb 0 s) PI CL (mkCalls (send n) (block_run n) (eval n)) HS HB);
        [intros; apply ext_tame; auto|discriminate|exact H2]).
      (* the evaluation of a text *)
      cbn [data_method] in D. cbn in D. rewrite Bool.andb_true_r in D.
      revert H2. assert (D2 : restricted (with_log s1 (ENative NEval :: log s1)) = false) by exact D. revert D2.
      generalize (with_log s1 (ENative NEval :: log s1)). intros s2 D2 H2.
      cbn [EvalModel.call_native]. unfold string_eval. seqn. eapply after_mono; [apply (keeps_svalue Inv (fun x => x = s2)); [intros ? ->; apply H2|reflexivity]|].
      intros t ? ->. seqn. cbn [get after]. cbv zeta.
      destruct (expr d _ 0 _) as [nd p|p| | |] eqn:PE; try (apply H2); try (split; [discriminate|apply H2]); try (split; [split; discriminate|apply H2]).
      2:{ assert (Q : keeps Inv (fb 0 s) (bind (error (e_syntax w)) (fun _ => ret a_nil))).
          { apply keeps_bind; [now apply keeps_error|]. now intros ? x H. } now apply Q. }
      apply (proj1 (EvalParse.parse_wf d _)) in PE. seqn.
      apply (after_mono _ _ _ (fun _ => fb 0 s)).
      { destruct (err p); [|exact H2]. now apply (keeps_error Inv (fb 0 s) CL). }
      intros ? s3 H3. seqn. cbn [put after]. seqn. cbn [c_expr].
      assert (R3 : restricted s3 = false) by (rewrite (f_restricted _ _ _ H3), <- (f_restricted _ _ _ H2); exact D2).
      pose proof (fb_good _ _ _ G H3) as G3.
      eapply after_mono; [apply IE; [exact PE|destruct G3 as [[] IV3]; (split; [now split|]); now apply (v_on _ _ ST0)]|]. intros (ax, bx) s4 H4. cbn beta iota.
      seqn. cbn [put after]. seqn. cbn [put after ret]. apply (fb_trans 0 0 _ _ _ H3). destruct H4. cbn in *. split; cbn; auto.
      apply (same (with_restricted s4 false)); auto. eapply (v_off _ _ ST0); [apply H3|exact R3|exact f_inv0].
  - intros b args my s RD. pose proof (ready_room _ RD) as R. pose proof (fb_closed 0 s R) as CL. pose proof (fb_ready_refl _ RD) as K0.
    rewrite block_run_S. seqn. apply (after_mono _ _ _ (fun c s1 => s1 = s /\ forall ps body, c = Some (ps, body) -> Forall wf_node body)).
    { unfold code_of. seqn. unfold deref. destruct b; [split; [split; discriminate|apply RD]|]. destruct (nth_error (heap s) (S b)) as [o|] eqn:E; [|split; [split; discriminate|apply RD]].
      cbn [after]. destruct (o_val o) eqn:V; cbn; try (now split); try (split; [split; discriminate|apply RD]). split; auto.
      intros ps body ->. eapply (r_code _ RD); eauto. }
    intros c ? (-> & WB). destruct c as [(ps & body)|]; [|exact K0]. specialize (WB _ _ eq_refl).
    seqn. destruct (open_after s RD) as (h & f & e & -> & NE & FF & WH). cbn [after].
    pose proof (open_good s h f e RD NE FF WH) as G1. set (s1 := with_ctxs _ _) in *.
    seqn. eapply after_mono; [now apply bind_params_fb|]. intros ? s2 H2. seqn.
    apply (after_mono _ _ _ (fun _ => fb 0 s1)).
    { destruct (my =? null); [exact H2|]. seqn. eapply after_mono; [apply assign_local_fb; apply (fb_good _ _ _ G1 H2)|].
      intros ? s3 H3. pose proof (fb_trans 0 0 _ _ _ H2 H3) as H4. seqn.
      eapply after_mono; [apply assign_local_fb; apply (fb_good _ _ _ G1 H4)|]. intros ? s5 H5. exact (fb_trans 0 0 _ _ _ H4 H5). }
    clear s2 H2. intros ? s2 H2. seqn. eapply after_mono; [apply assign_local_fb; apply (fb_good _ _ _ G1 H2)|].
    intros ? s3 H3. pose proof (fb_trans 0 0 _ _ _ H2 H3) as H4. clear s2 H2 H3.
    seqn. eapply after_mono; [apply IR; [exact WB|apply (fb_good _ _ _ G1 H4)]|]. intros x s4 H5.
    pose proof (fb_trans 0 0 _ _ _ H4 H5) as H6. clear s3 H4 H5. cbv zeta. seqn. unfold close_context, put. cbn [after].
    assert (H7 : fb 0 s (match ctxs s4 with _ :: c :: r => with_ctxs s4 (c :: r) | _ => s4 end)).
    { destruct H6. subst s1. cbn in *. rewrite f_ctxs0. destruct RD as [L1 L2 L3 L4 L5 L6]. destruct (ctxs s) as [|c r] eqn:CE; [cbn in L3; lia|].
      split; cbn; auto; try congruence. - rewrite app_length in f_len0. lia. - rewrite CE. cbn in L3 |- *. lia. - eapply same; eauto. }
    revert H7. generalize (match ctxs s4 with _ :: c :: r => with_ctxs s4 (c :: r) | _ => s4 end). intros s5 H7.
    seqn. cbn [get after]. destruct (failed s5) eqn:FA; [|exact H7]. seqn.
    eapply after_mono; [apply deref_after; apply H7|]. intros o ? ->.
    destruct (find_prop (o_props o) CATCH) as [h0|]; [|exact H7]. seqn.
    assert (F5 : flow s5 <> null).
    { unfold failed in FA. intros Z. rewrite Z in FA. discriminate. }
    eapply after_mono; [apply cast2text_quiet; auto; [apply H7| | |]|].
    { unfold room. rewrite (f_ctxs _ _ _ H7). apply R. } { now destruct H7. } { intros r k l sx IVx Fx. now apply send_quiet. }
    intros ex s6 H8. pose proof (fb_trans 0 0 _ _ _ H7 H8) as H9. seqn. cbn [put after]. seqn. cbn [put after]. seqn.
    match goal with |- after Inv (block_run n h0 [ex] null ?x) _ => assert (H10 : fb 0 s x) end.
    { destruct H9. split; cbn; auto; [unfold room in R; lia|eapply same; eauto]. }
    eapply after_mono; [apply IB; eapply ready_fb; eauto|]. intros y s7 H11. cbn. exact (fb_trans 0 0 _ _ _ H10 H11).
  - intros body s WB G. rewrite run_S. destruct body as [|nd body]; [now apply fb_refl|]. inversion_clear WB.
    seqn. eapply after_mono; [apply IE; auto|]. intros (a, r) s1 H1. destruct r; [exact H1|].
    eapply after_mono; [apply IR; auto; apply (fb_good _ _ _ G H1)|]. intros y s2 H2. exact (fb_trans 0 0 _ _ _ H1 H2).
Qed.
End Frame.
End Eval.
