(** More fuel does not change a result. *)
From Coq Require Import Lia.
From Verif Require Import Common TextModel NumModel LexModel ParseModel EvalModel EvalSpec EvalProofs.
Open Scope nat_scope.

Lemma le_refl A (m : M A) : le m m. Proof. intros s. unfold le_res. now destruct (m s). Qed.
Lemma le_trans A (a b c : M A) : le a b -> le b c -> le a c.
Proof. intros H1 H2 s. specialize (H1 s). specialize (H2 s). unfold le_res in *. destruct (a s); auto; rewrite <- H1 in H2; exact H2. Qed.
Lemma le_bind A B (m m' : M A) (f f' : A -> M B) : le m m' -> (forall a, le (f a) (f' a)) -> le (bind m f) (bind m' f').
Proof.
  intros Hm Hf s. specialize (Hm s). unfold bind. destruct (m s) as [a s1| | |]; cbn in Hm; try (rewrite <- Hm); try easy.
  apply Hf.
Qed.
Lemma le_nofuel A (m : M A) : le nofuel m. Proof. now intros s. Qed.

Section Mono.
Variable d : dict.
Variable w : words.
Variable sandbox : bool.
Variable ext : native -> calls -> addr -> list addr -> M addr.
Hypothesis Hext : monotone ext.

Ltac mono1 H := first [ apply le_nofuel | apply le_refl | apply (le_send _ _ H) | apply (le_run _ _ H) | apply (le_expr _ _ H)
  | apply le_bind; [|intros ?] ].
Ltac mono H := repeat (first [ mono1 H
  | match goal with |- le (if ?b then _ else _) (if ?b then _ else _) => destruct b
                  | |- le (match ?b with _ => _ end) (match ?b with _ => _ end) => destruct b end ]).

Lemma mono_number C C' a : calls_le C C' -> le (cast2number w C a) (cast2number w C' a).
Proof. intros H. unfold cast2number. mono H. Qed.
Lemma mono_text C C' a : calls_le C C' -> le (cast2text w C a) (cast2text w C' a).
Proof. intros H. unfold cast2text. mono H. Qed.
Lemma mono_bool C C' a : calls_le C C' -> le (cast2bool w C a) (cast2bool w C' a).
Proof. intros H. unfold cast2bool. mono H. Qed.
Ltac monoc H := repeat (first [ apply (mono_number _ _ _ H) | apply (mono_text _ _ _ H) | apply (mono_bool _ _ _ H) | mono1 H
  | match goal with |- le (if ?b then _ else _) (if ?b then _ else _) => destruct b
                  | |- le (match ?b with _ => _ end) (match ?b with _ => _ end) => destruct b end ]).
Lemma mono_rounds C C' : calls_le C C' -> forall n n' b i k, n <= n' -> le (rounds n C b i k) (rounds n' C' b i k).
Proof.
  intros H. induction n as [|n IH]; intros n' b i k L; [apply le_nofuel|]. destruct n' as [|n']; [lia|]. cbn [rounds].
  monoc H. apply IH. lia.
Qed.
Lemma mono_while C C' : calls_le C C' -> forall n n' self c args, n <= n' -> le (while_loop w n C self c args) (while_loop w n' C' self c args).
Proof.
  intros H. induction n as [|n IH]; intros n' self c args L; [apply le_nofuel|]. destruct n' as [|n']; [lia|]. cbn [while_loop].
  monoc H. apply IH. lia.
Qed.
Lemma mono_branch C C' x self args : calls_le C C' -> le (bool_branch w C x self args) (bool_branch w C' x self args).
Proof. intros H. unfold bool_branch. monoc H. Qed.
Lemma mono_native n n' C C' p self args : n <= n' -> calls_le C C' ->
  le (call_native d w ext n C p self args) (call_native d w ext n' C' p self args).
Proof.
  intros L H. destruct p; cbn [call_native]; unfold object_message, object_case, object_learn,
    block_run_it, block_set, block_times, block_procedure, block_while, string_eval, bool_op, num_op;
    monoc H; try (apply mono_branch; exact H); try (apply Hext; exact H); try (apply mono_rounds; [exact H|exact L]); try (apply mono_while; [exact H|exact L]).
Qed.
Lemma mono_lookup n : forall n' r a k, n <= n' -> le (lookup n r a k) (lookup n' r a k).
Proof.
  induction n as [|n IH]; intros n' r a k L; [apply le_nofuel|]. destruct n' as [|n']; [lia|]. cbn [lookup].
  apply le_bind; [apply le_refl|]. intros o. apply le_bind; [apply le_refl|]. intros m. destruct m; [apply le_refl|].
  destruct (_ =? _); [apply le_refl|]. apply IH. lia.
Qed.
Lemma mono_all n : forall n', n <= n' ->
  (forall nd, le (eval d w sandbox ext n nd) (eval d w sandbox ext n' nd)) /\
  (forall r ms, le (message d w sandbox ext n r ms) (message d w sandbox ext n' r ms)) /\
  (forall r lit more ms, le (chain d w sandbox ext n r lit more ms) (chain d w sandbox ext n' r lit more ms)) /\
  (forall keys es, le (arguments d w sandbox ext n keys es) (arguments d w sandbox ext n' keys es)) /\
  (forall r e, le (assignment d w sandbox ext n r e) (assignment d w sandbox ext n' r e)) /\
  (forall r k args, le (send d w sandbox ext n r k args) (send d w sandbox ext n' r k args)) /\
  (forall b args my, le (block_run d w sandbox ext n b args my) (block_run d w sandbox ext n' b args my)) /\
  (forall body, le (run d w sandbox ext n body) (run d w sandbox ext n' body)).
Proof.
  induction n as [|n IH]; intros n' L; [repeat split; intros; apply le_nofuel|]. destruct n' as [|n']; [lia|].
  destruct (IH n' ltac:(lia)) as (IE & IM & IC & IA & IS & IN & IB & IR). clear IH.
  assert (CL : calls_le (mkCalls (send d w sandbox ext n) (block_run d w sandbox ext n) (eval d w sandbox ext n))
                        (mkCalls (send d w sandbox ext n') (block_run d w sandbox ext n') (eval d w sandbox ext n'))) by (split; cbn; auto).
  split; [|split; [|split; [|split; [|split; [|split; [|split]]]]]]; intros.
  - rewrite !eval_S. mono CL; auto.
  - rewrite !message_S. mono CL; auto.
  - rewrite !chain_S. mono CL; auto.
  - rewrite !arguments_S. mono CL; auto.
  - rewrite !assignment_S. mono CL; auto.
  - rewrite !send_S. mono CL; auto; [apply mono_lookup; lia|]. apply mono_native; [lia|exact CL].
  - rewrite !block_run_S. mono CL; auto.
  - rewrite !run_S. mono CL; auto.
Qed.
End Mono.
