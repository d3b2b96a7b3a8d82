(** C109: timers of the Media plug-in. *)
From Verif Require Import Common NumModel TimerSpec TimerModel TimerProofs.
Local Open Scope Z_scope.

(** ** C109.  Whatever the listener does and whatever happens in the loop: a timer rings only after the time it was asked for,
    once for every time it was asked and not when it was stopped or asked anew; no look at the timers leaves one behind that is
    due; and in one look they ring in the order of their numbers.  Time is the clock of the frames, and the times asked for
    lie within 2147483647 milliseconds of the start of the program (see the refutations). *)
Theorem C109_rings_partial : forall listener acts s, run listener start acts = Ok s -> within_reach (rev (seen s)) ->
  rings_rightly (rev (seen s)) /\ in_order (rev (seen s)) /\ (flow s = false -> none_missed (rev (seen s))).
Proof. exact timers_work. Qed.
Print Assumptions C109_rings_partial.
(** What is seen is what happens: a request for timers 1 to 99 is noted, one for another number is an error that changes
    nothing, and every look is there from start to end. *)
Theorem C109_asked : forall s no ms n m, len s -> flow s = false -> c_int no = Ok n -> c_int ms = Ok m -> 1 <= n <= 99 ->
  exists s', timer s no ms = Ok s' /\ seen s' = Asked n m (ticks s) :: seen s /\ flow s' = false /\ ticks s' = ticks s.
Proof. exact asked. Qed.
Print Assumptions C109_asked.
Theorem C109_invalid : forall s no ms n m, flow s = false -> c_int no = Ok n -> c_int ms = Ok m -> n < 1 \/ 100 < n ->
  exists s', timer s no ms = Ok s' /\ flow s' = true /\ seen s' = seen s /\ timers s' = timers s.
Proof. exact refused. Qed.
Print Assumptions C109_invalid.
Theorem C109_looked : forall listener s t s', step listener s (Look t) = Ok s' ->
  exists c, seen s' = Looked (ticks s) :: c ++ Looking (ticks s) :: seen s /\ ticks s' = ticks s.
Proof. exact looked. Qed.
Print Assumptions C109_looked.
(** Nothing is undefined as long as all numbers fit in an [int] and nobody asks for timer 100. *)
Theorem C109_safe : forall listener, (forall l i, Forall (fun q => sensible (fst q) (snd q)) (fst (listener l i))) ->
  forall acts s, len s -> Forall (fun a => match a with Ask _ n m => sensible n m | _ => True end) acts ->
  exists s', run listener s acts = Ok s' /\ len s'.
Proof. exact run_safe. Qed.
Print Assumptions C109_safe.

(** A program with two timers; the listener of timer 2 asks for timer 1 once more. *)
Definition again (l : list event) (i : Z) : list (num * num) * bool := (if i =? 2 then [(of_Z 1, of_Z 5)] else [], false).
Definition program : list act := [Ask 0 (of_Z 2) (of_Z 10); Ask 0 (of_Z 1) (of_Z 10); Look 0; Frame 11; Look 12; Frame 17; Look 18; Look 19].
Example C109_example : exists s, run again start program = Ok s /\ within_reach (rev (seen s)) /\ flow s = false /\
  rev (seen s) = [Asked 2 10 0; Asked 1 10 0; Looking 0; Looked 0; Looking 11; Rang 1 11; Rang 2 11; Asked 1 5 11; Looked 11;
                  Looking 17; Rang 1 17; Looked 17; Looking 17; Looked 17].
Proof.
  eexists. split; [vm_compute; reflexivity|]. cbn [seen flow rev app]. split; [|split; reflexivity].
  intros n ms t I. cbn [In] in I. repeat (destruct I as [I|I]; [try discriminate; injection I as <- <- <-; lia|]). destruct I.
Qed.
Example C109_safe_example : len start /\ (forall l i, Forall (fun q => sensible (fst q) (snd q)) (fst (again l i))) /\
  Forall (fun a => match a with Ask _ n m => sensible n m | _ => True end) program.
Proof.
  split; [reflexivity|]. split.
  - intros l i. unfold again. cbn [fst]. destruct (i =? 2); [|constructor]. constructor; [|constructor]. exists 1, 5. now vm_compute.
  - unfold program. repeat (apply Forall_cons; [first [exact I|eexists; eexists; split; [vm_compute; reflexivity|split; [vm_compute; reflexivity|lia]]]|]). apply Forall_nil.
Qed.

(** ** Refuted: the array has no entry for timer 100.  [reset], which runs when the plug-in is loaded, writes to it, and so does
    a program that asks for timer 100, which is not reported as invalid. *)
Theorem C109_reset_refuted : forall l, length l = 100%nat -> reset l = UB.
Proof. exact reset_undefined. Qed.
Print Assumptions C109_reset_refuted.
(** With one more entry it would stop timers 1 to 100 and leave the rest. *)
Theorem C109_reset_meant : forall l, (100 < length l)%nat -> exists l', reset l = Ok l' /\
  forall j, nth_error l' j = if (1 <=? j)%nat && (j <=? 100)%nat then Some (-1) else nth_error l j.
Proof. exact reset_101. Qed.
Print Assumptions C109_reset_meant.
Theorem C109_timer_100_refuted : forall s no ms m, len s -> flow s = false -> c_int no = Ok 100 -> c_int ms = Ok m -> timer s no ms = UB.
Proof. exact last_timer. Qed.
Print Assumptions C109_timer_100_refuted.

(** ** Refuted: a timer can ring before its time has passed, as the clock is the one of the last frame.  Here a program that
    took two seconds to load asks for a timer after one second; it rings at once. *)
Definition quiet (l : list event) (i : Z) : list (num * num) * bool := ([], false).
Theorem C109_early_refuted : exists acts time ms frame look s, acts = [Ask time (of_Z 1) (of_Z ms); Frame frame; Look look] /\
  time <= frame <= look /\ look < time + ms /\ run quiet start acts = Ok s /\ In (Rang 1 frame) (seen s).
Proof.
  exists [Ask 2000 (of_Z 1) (of_Z 1000); Frame 2010; Look 2011], 2000, 1000, 2010, 2011.
  eexists. split; [reflexivity|]. split; [lia|]. split; [lia|]. split; [vm_compute; reflexivity|]. cbn. tauto.
Qed.
Print Assumptions C109_early_refuted.

(** ** Refuted: beyond 24 days a timer does not ring any more, and beyond 49 days it rings at once. *)
Theorem C109_lost_refuted : exists acts s, run quiet start acts = Ok s /\ flow s = false /\ ~ none_missed (rev (seen s)).
Proof.
  exists [Frame 2147483000; Ask 2147483000 (of_Z 1) (of_Z 1000); Frame 2147490000; Look 2147490000].
  eexists. split; [vm_compute; reflexivity|]. split; [reflexivity|]. cbn [seen rev app]. intros M.
  enough (2147490000 <= 2147483000 + 1000) by lia.
  apply (M [] 1 1000 2147483000 [] 2147490000 [] []); try reflexivity; try constructor; discriminate.
Qed.
Print Assumptions C109_lost_refuted.
Theorem C109_at_once_refuted : exists acts s, run quiet start acts = Ok s /\ ~ rings_rightly (rev (seen s)).
Proof.
  exists [Frame 4294967300; Ask 4294967300 (of_Z 1) (of_Z 1000000); Look 4294967300].
  eexists. split; [vm_compute; reflexivity|]. cbn [seen rev app]. intros M.
  destruct (M [Asked 1 1000000 4294967300; Looking 4294967300] 1 4294967300 [Looked 4294967300] eq_refl) as (a & ms & t & b & E & S & P & L).
  destruct a as [|x [|y [|z a]]]; cbn in E; try discriminate E. injection E as <- <- _. lia.
Qed.
Print Assumptions C109_at_once_refuted.
