(** Property theorems about rendering lists and maps (C48). *)
From Verif Require Import Common TextSpec RenderModel RenderProofs.

(** A program that renders only values nested at most 99 deep gets every text. *)
Theorem C48_render_all : forall vs, Forall (fun v => ldepth v <= 99 /\ mdepth v <= 99) vs ->
  renders vs 0 0 = map (fun v => Some (shown_top v)) vs.
Proof. exact renders_good. Qed.
Print Assumptions C48_render_all.
Example C48_example :
  Forall (fun v => ldepth v <= 99 /\ mdepth v <= 99) [VList [Leaf [49]%N; VMap [([120]%N, VList [])]]] /\
  renders [VList [Leaf [49]%N; VMap [([120]%N, VList [])]]] 0 0 =
  [Some (s_list_push ++ [49; 32; 59; 32; 40]%N ++ s_map_new ++ s_put ++ [40]%N ++ s_list_new ++ [41]%N ++ s_at ++ [120; 41]%N)].
Proof. split; [repeat constructor|reflexivity]. Qed.

(** The exact effect of one rendering: it succeeds iff the counters leave enough room; a failure is
    always reported, and leaves exactly one counter one higher than before. *)
Theorem C48_render_exact : forall v lc mc, (0 <= lc <= 254)%Z -> (0 <= mc <= 254)%Z ->
  (fits lc mc v -> render v lc mc = (Some (shown_top v), (lc, mc))) /\
  (~ fits lc mc v -> render v lc mc = (None, (lc + 1, mc))%Z \/ render v lc mc = (None, (lc, mc + 1))%Z).
Proof. exact render_exact. Qed.
Print Assumptions C48_render_exact.

Fixpoint nest (n : nat) : value := match n with O => VList [] | S k => VList [nest k] end.
Example C48_exact_example : ldepth (nest 99) = 100 /\ ~ fits 0 0 (nest 99) /\ render (nest 99) 0 0 = (None, (1, 0))%Z.
Proof. split; [vm_compute; reflexivity|]. split; [|vm_compute; reflexivity]. unfold fits. vm_compute. intuition discriminate. Qed.

(** After 99 failed renderings even a flat list cannot be rendered. *)
Theorem C48_render_after_failures_refuted : exists vs v,
  ldepth v = 1 /\ mdepth v = 0 /\ renders [v] 0 0 = [Some (shown_top v)] /\
  last (renders (vs ++ [v]) 0 0) (Some []) = None.
Proof. exists (repeat (nest 99) 99), (VList [Leaf [49]%N]). repeat split; vm_compute; reflexivity. Qed.
Print Assumptions C48_render_after_failures_refuted.
