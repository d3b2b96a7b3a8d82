(** Property theorems about [each:], [sort:] and [by:] of lists (C77, C78, C79). *)
From Coq Require Import SpecFloat QArith Permutation Sorted.
From Verif Require Import Common Fuel FloatSpec NumModel NumProofs TextSpec TextModel TextProofs MapSpec MapModel ListSpec ListModel ListProofs IterSpec IterModel IterProofs.
From Verif Require MapProofs.
Close Scope Q_scope.
Open Scope nat_scope.

(** * C77: every element once, in order, with its position; [break] and errors end the loop, [break] without a trace. *)
Theorem C77_each_partial : forall (A W : Type) (blk : W -> Z -> A -> W * flow) a l fuel w, holds a l -> length l < fuel ->
  array_map (Some (fun w j x a => (fst (blk w j x), a, snd (blk w j x)))) fuel w a =
  Ret (fst (visits blk w 1 l), a, snd (visits blk w 1 l)).
Proof. exact @each_still_msg. Qed.
Print Assumptions C77_each_partial.
(** Blocks that change the list without moving its front: round [k] sees what stands at position [k] then, so that
    elements added at the end are visited as well. *)
Theorem C77_each_live : forall (A W : Type) (blk : W -> Z -> A -> arr A -> W * arr A * flow)
    (sblk : W -> Z -> A -> list A -> W * list A * flow) st a l fuel w,
  (forall w j x a l, rep a st l -> exists a', blk w j x a = (fst (fst (sblk w j x l)), a', snd (sblk w j x l)) /\
     rep a' st (snd (fst (sblk w j x l)))) -> rep a st l ->
  match visits_live sblk fuel w l 0 with
  | NoFuel => array_map (Some blk) fuel w a = NoFuel
  | Bad => False
  | Ret (w', l', fl) => exists a', array_map (Some blk) fuel w a = Ret (w', a', fl) /\ rep a' st l'
  end.
Proof. exact @each_live_msg. Qed.
Print Assumptions C77_each_live.
(** Whatever the block does to the list by messages of lists, no memory outside of the list is read. *)
Theorem C77_each_safe : forall (A W : Type) (blk : W -> Z -> A -> arr A -> W * arr A * flow) a l fuel w,
  (forall w j x a l, holds a l -> exists l', holds (snd (fst (blk w j x a))) l') -> holds a l ->
  array_map (Some blk) fuel w a <> Bad.
Proof. exact @each_safe. Qed.
Print Assumptions C77_each_safe.
(** (1 2 3 4) shift, then each: until the 4 *)
Example C77_example : match list_run 0 array_new [LPush 1; LPush 2; LPush 3; LPush 4; LPush 5; LShift] with
  | Ok (a, _) => array_map (Some (fun w j x a => (w ++ [(j, x)], a, if (x =? 4) then FBreak else FContinue))) 9 [] a = Ret ([(1%Z, 2); (2%Z, 3); (3%Z, 4)], a, FNone)
  | UB => False end.
Proof. vm_compute. reflexivity. Qed.
(** a block that adds the tenfold of an element below ten at the end meets the hypothesis of [C77_each_live] *)
Definition add_tens (w : list nat) (j : Z) (x : nat) (a : arr nat) : list nat * arr nat * flow :=
  (w ++ [x], if (x <? 10) then match array_push a (x * 10) with Ok a' => a' | UB => a end else a, FNone).
Definition add_tens_spec (w : list nat) (j : Z) (x : nat) (l : list nat) : list nat * list nat * flow :=
  (w ++ [x], if (x <? 10) then l ++ [x * 10] else l, FNone).
Example C77_live_example :
  (forall w j x a l, rep a [] l -> exists a', add_tens w j x a = (fst (fst (add_tens_spec w j x l)), a', snd (add_tens_spec w j x l)) /\
     rep a' [] (snd (fst (add_tens_spec w j x l)))) /\
  visits_live add_tens_spec 9 [] [1; 2] 0 = Ret ([1; 2; 10; 20], [1; 2; 10; 20], FNone).
Proof.
  split; [|vm_compute; reflexivity]. intros w j x a l R. unfold add_tens, add_tens_spec. cbn [fst snd].
  destruct (x <? 10); [|eauto]. destruct (push_rep a [] l (x * 10) R) as (a' & -> & R'). eauto.
Qed.
(** A block that adds an element at the front: the loop sees the same element again and again and never ends. *)
Theorem C77_unshift_refuted : exists a, holds a [1] /\
  (forall fuel, array_map (Some (fun w _ _ a => (w, match array_unshift a 0 with Ok a' => a' | UB => a end, FNone))) fuel tt a = NoFuel) /\
  (exists a', map_loop (fun w j x a => (w ++ [x], match array_unshift a 0 with Ok a' => a' | UB => a end, if (j =? 4)%Z then FBreak else FNone)) 9 [] a 0 0%Z = Ret ([1; 1; 1; 1], a', FNone)).
Proof.
  exists (mkA 3 1 0 [Some 1; None; None]).
  assert (R : fresh (mkA 3 1 0 [Some 1; None; None]) [1]) by (exists [None; None]; repeat split; discriminate).
  split; [exists []; exact R|]. split.
  - intros fuel. apply (each_unshift 0 fuel tt _ [1] 0 0%Z R). cbn [length]. lia.
  - eexists. vm_compute. reflexivity.
Qed.
Print Assumptions C77_unshift_refuted.
(** A block that takes two elements off the front in each round: (1 2 3 4) — 2 and 4 are visited although they were removed before. *)
Theorem C77_shift_refuted : exists a a', holds a [1; 2; 3; 4] /\ holds a' [] /\
  array_map (Some (fun w j x a => (w ++ [x], match array_shift 0 a with Ok (_, b) => match array_shift 0 b with Ok (_, c) => c | UB => b end | UB => a end, FNone)))
    9 [] a = Ret ([1; 2; 3; 4], a', FNone).
Proof.
  exists (mkA 9 4 0 [Some 1; Some 2; Some 3; Some 4; None; None; None; None; None]).
  exists (mkA 9 4 4 [Some 1; Some 2; Some 3; Some 4; None; None; None; None; None]).
  split; [exists []; exists [None; None; None; None; None]; repeat split; discriminate|].
  split; [exists [1; 2; 3; 4]; exists [None; None; None; None; None]; repeat split; discriminate|]. vm_compute. reflexivity.
Qed.
Print Assumptions C77_shift_refuted.

(** * C78: if the block's answers, cut to whole numbers, order the elements, the list is put in that order; for every [qsort] that keeps
    the promise of ISO C. *)
Theorem C78_sort_partial : forall (A W B : Type) (run : B -> W * B -> A -> A -> (W * B) * spec_float) qs g (b : B) (a : arr A) st l cmp,
  qsort_iso qs -> rep a st l -> orders cmp l ->
  (forall w x y, In x l -> In y l -> exists w' v, run b (w, b) x y = ((w', b), v) /\ c_int v = Ok (cmp x y)) ->
  exists w' a' r, array_sort run qs g b a = Ok ((w', b), a') /\ rep a' st r /\ Permutation r l /\ in_order cmp r.
Proof. exact @sort_rep. Qed.
Print Assumptions C78_sort_partial.
(** whole numbers from 0 to 2^31 - 1 and the block [{ :a :b ↲ a - b. }] *)
Theorem C78_numbers : forall (W B : Type) (run : B -> W * B -> spec_float -> spec_float -> (W * B) * spec_float) qs g (b : B)
    (a : arr spec_float) l (f : spec_float -> Z),
  qsort_iso qs -> holds a l ->
  (forall x, In x l -> finite x /\ (SF2Q x == inject_Z (f x))%Q /\ (0 <= f x <= 2147483647)%Z) ->
  (forall w x y, exists w', run b (w, b) x y = ((w', b), sub64 x y)) ->
  exists w' a' r, array_sort run qs g b a = Ok ((w', b), a') /\ holds a' r /\ Permutation r l /\
    StronglySorted (fun x y => (SF2Q x <= SF2Q y)%Q) r.
Proof. exact @sort_numbers. Qed.
Print Assumptions C78_numbers.
(** texts and the block [{ :a :b ↲ a compare: b. }], unless one text begins with another one (C07) *)
Theorem C78_texts : forall (W B : Type) (run : B -> W * B -> txt -> txt -> (W * B) * spec_float) qs g (b : B) (a : arr txt) l,
  qsort_iso qs -> holds a l ->
  (forall x, In x l -> no_nul (tval x) /\ forall c, In c (tval x) -> (c < 256)%N) ->
  (forall x y, In x l -> In y l -> forall c, tval x ++ c = tval y -> c = []) ->
  (forall w x y, exists w' r, string_compare x y = Ok r /\ run b (w, b) x y = ((w', b), of_Z r)) ->
  exists w' a' r, array_sort run qs g b a = Ok ((w', b), a') /\ holds a' r /\ Permutation r l /\
    StronglySorted (fun x y => lex (tval x) (tval y) <> Gt) r.
Proof. exact @sort_texts. Qed.
Print Assumptions C78_texts.
(** There is a procedure that keeps the promise. *)
Theorem C78_some_qsort : forall A : Type, qsort_iso (@isort A).
Proof. exact @isort_iso. Qed.
Print Assumptions C78_some_qsort.
Definition by_difference (b : bool) (g : nat * bool) (x y : spec_float) : (nat * bool) * spec_float := ((S (fst g), snd g), sub64 x y).
Definition numbers (zs : list Z) : arr spec_float :=
  match fold_left (fun o z => do a <- o; array_push a (of_Z z)) zs (Ok array_new) with Ok a => a | UB => array_new end.
Example C78_example : exists a', array_sort by_difference isort (0, false) true (numbers [30; 4; 500; 4]%Z) = Ok ((10, true), a') /\
  rd_cells (a_el a') (a_tail a') (a_head a' - a_tail a') = Ok (map of_Z [4; 4; 30; 500]%Z).
Proof. eexists. split; vm_compute; reflexivity. Qed.

Definition by_compare (b : unit) (g : unit * unit) (x y : txt) : (unit * unit) * spec_float :=
  (g, match string_compare x y with Ok r => of_Z r | UB => of_Z 0 end).
Definition words : arr txt := mkA 9 3 0 (map Some (map build_string [[98; 97]; [97; 98; 99]; [97; 97]]%N) ++ repeat None 6).
Example C78_texts_example : (forall w x y, exists w' r, string_compare x y = Ok r /\ by_compare tt (w, tt) x y = ((w', tt), of_Z r)) /\
  exists a', array_sort by_compare isort (tt, tt) tt words = Ok ((tt, tt), a') /\
    firstn 3 (a_el a') = map Some (map build_string [[97; 97]; [97; 98; 99]; [98; 97]]%N).
Proof.
  split.
  - intros w x y. destruct (compare_swap x y) as (r & E & _). exists w, r. unfold by_compare. rewrite E. split; reflexivity.
  - eexists. split; vm_compute; reflexivity.
Qed.

(** The block of the manual, [{ :a :b ↲ a < b. }] (collections.c 634): its answer is 1 for True and 0 for False, so that no list
    with two different numbers is ordered by it, and [qsort] promises nothing. *)
Theorem C78_manual_no_order : forall l x y, In x l -> In y l -> finite x -> finite y -> (SF2Q x < SF2Q y)%Q -> ~ orders is_less l.
Proof. exact less_no_order. Qed.
Print Assumptions C78_manual_no_order.
Theorem C78_manual_refuted : exists qs, qsort_iso qs /\
  array_sort (fun (b : unit) (g : unit * unit) x y => (g, of_Z (is_less x y))) qs (tt, tt) tt (numbers [2; 1; 3]%Z) = UB.
Proof. exists isort. split; [apply isort_iso|]. vm_compute. reflexivity. Qed.
Print Assumptions C78_manual_refuted.
(** Differences below one count as equal: (0.5 0.25) stays as it is. *)
Theorem C78_fractions_refuted : exists qs a a' x y, qsort_iso qs /\ holds a [x; y] /\ (SF2Q y < SF2Q x)%Q /\
  array_sort (fun (b : unit) (g : unit * unit) x y => (g, sub64 x y)) qs (tt, tt) tt a = Ok ((tt, tt), a') /\ holds a' [x; y].
Proof.
  set (x := div64 (of_Z 1) (of_Z 2)). set (y := div64 (of_Z 1) (of_Z 4)).
  exists isort, (mkA 3 2 0 [Some x; Some y; None]), (mkA 3 2 0 [Some x; Some y; None]), x, y.
  assert (H : holds (mkA 3 2 0 [Some x; Some y; None]) [x; y]) by (exists []; exists [None]; repeat split; discriminate).
  split; [apply isort_iso|]. split; [exact H|]. split; [vm_compute; reflexivity|]. split; [vm_compute; reflexivity|exact H].
Qed.
Print Assumptions C78_fractions_refuted.
(** Differences outside of [int]: undefined conversion, as soon as the two are compared. *)
Theorem C78_large_refuted : exists x y, forall qs k, qs [of_Z x; of_Z y] = QAsk (of_Z x) (of_Z y) k ->
  array_sort (fun (b : unit) (g : unit * unit) x y => (g, sub64 x y)) qs (tt, tt) tt (numbers [x; y]) = UB.
Proof.
  exists 3000000000%Z, 0%Z. intros qs k E. unfold array_sort. change (rd_cells _ _ _) with (Ok [of_Z 3000000000; of_Z 0]).
  cbn [obind]. rewrite E. reflexivity.
Qed.
Print Assumptions C78_large_refuted.
(** A block that sorts another list by another block: from then on the outer list is compared by the inner block as well. *)
Definition nested (b : bool) (g : unit * bool) (x y : spec_float) : (unit * bool) * spec_float :=
  if b then match array_sort (fun _ g x y => (g, sub64 y x)) isort g false (numbers [7; 8]%Z) with Ok (g', _) => (g', sub64 x y) | UB => (g, sub64 x y) end
  else (g, sub64 y x).
Theorem C78_nested_refuted : exists qs, qsort_iso qs /\ orders (fun x y => match c_int (snd (nested true (tt, true) x y)) with Ok c => c | UB => 0%Z end) (map of_Z [1; 2; 3]%Z) /\
  array_sort nested qs (tt, true) true (numbers [1; 2; 3]%Z) = UB.
Proof.
  exists isort. split; [apply isort_iso|]. split; [|vm_compute; reflexivity].
  split.
  - intros x y [<-|[<-|[<-|[]]]] [<-|[<-|[<-|[]]]]; vm_compute; reflexivity.
  - intros x y z [<-|[<-|[<-|[]]]] [<-|[<-|[<-|[]]]] [<-|[<-|[<-|[]]]]; vm_compute; congruence.
Qed.
Print Assumptions C78_nested_refuted.

(** * C79: the map pairs the elements of two lists, as long as nothing was shifted off either list. *)
Theorem C79_by_partial : forall (A : Type) (nil : A) (hash : list N -> Z) (is_nil : A -> bool) (str : A -> list N) (a b : arr A) l m fuel,
  fresh a l -> fresh b m -> is_nil nil = true ->
  (Z.of_nat (length l) < INT_MAX)%Z -> (Z.of_nat (length m) <= LONG_MAX)%Z -> length l < fuel ->
  exists mp, array_combine nil hash is_nil str fuel a (Some b) = Ret mp /\ MapProofs.rep hash mp (paired is_nil str l m).
Proof. exact @combine_ok. Qed.
Print Assumptions C79_by_partial.
Theorem C79_lookup : forall (A : Type) (is_nil : A -> bool) (str : A -> list N) l m,
  NoDup (map str m) -> (forall x, In x m -> is_nil x = false) -> length l = length m ->
  forall i x k, nth_error l i = Some x -> nth_error m i = Some k -> lookup (paired is_nil str l m) (str k) = Some x.
Proof. exact @paired_lookup. Qed.
Print Assumptions C79_lookup.
(** With anything but a list, the answer is an empty map. *)
Theorem C79_no_list : forall (A : Type) (nil : A) (hash : list N -> Z) (is_nil : A -> bool) (str : A -> list N) (a : arr A) fuel,
  exists mp, array_combine nil hash is_nil str fuel a None = Ret mp /\ MapProofs.rep hash mp [].
Proof. exact @combine_no_list. Qed.
Print Assumptions C79_no_list.
Definition digit_text (n : nat) : list N := [N.of_nat (48 + n)].
Example C79_example : match list_run 0 array_new [LPush 5; LPush 6; LPush 7; LPush 8], list_run 0 array_new [LPush 1; LPush 0; LPush 2] with
  | Ok (a, _), Ok (b, _) => match array_combine 0 (fun _ => 0%Z) (fun x => x =? 0) digit_text 9 a (Some b) with
      | Ret mp => map_keys 9 mp = Ret [digit_text 2; digit_text 1] /\ map_values 9 mp = Ret [7; 5]
      | _ => False end
  | _, _ => False end.
Proof. vm_compute. split; reflexivity. Qed.
(** (9 5 6) shift, by: (1 2): only one pair remains, 6 for 2. *)
Theorem C79_shift_refuted : exists a b mp, holds a [5; 6] /\ fresh b [1; 2] /\
  array_combine 0 (fun _ => 0%Z) (fun x => x =? 0) digit_text 9 a (Some b) = Ret mp /\
  map_keys 9 mp = Ret [digit_text 2] /\ map_get (fun _ => 0%Z) 9 mp (digit_text 1) = Ret None.
Proof.
  exists (mkA 9 3 1 [Some 9; Some 5; Some 6; None; None; None; None; None; None]), (mkA 3 2 0 [Some 1; Some 2; None]).
  eexists. split; [exists [9]; exists [None; None; None; None; None; None]; repeat split; discriminate|].
  split; [exists [None]; repeat split; discriminate|]. split; [vm_compute; reflexivity|]. split; vm_compute; reflexivity.
Qed.
Print Assumptions C79_shift_refuted.
