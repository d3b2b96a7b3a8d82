(** Property theorems about lists (C25-C30, C10). *)
From Verif Require Import Common ListSpec ListModel ListProofs TextSpec TextModel TextProofs.

(** * C25 *)
Theorem C25_list_is_sequence : forall (A : Type) (nil : A) os,
  Forall op_ok os -> (growth os <= LONG_MAX)%Z ->
  exists a, list_run nil array_new os = Ok (a, snd (seq_run nil [] os)) /\ holds a (fst (seq_run nil [] os)).
Proof. exact @run_new. Qed.
Print Assumptions C25_list_is_sequence.
Example C25_example :
  let os := [LPush 1; LPush 2; LUnshift 3; LShift; LPop; LUnshift 4; LFill 3 7; LAt 2; LAt 9; LFirst; LLast; LSecondLast; LCount] in
  Forall op_ok os /\ (growth os <= LONG_MAX)%Z /\
  (exists a, list_run 0 array_new os =
    Ok (a, [Same; Same; Same; Elem 3; Elem 2; Same; Same; Elem 1; Elem 0; Elem 4; Elem 7; Elem 7; Num 5%Z])).
Proof.
  split; [repeat first [apply Forall_nil | apply Forall_cons]; simpl; try exact I; try (split; reflexivity); unfold W64; lia|].
  split; [vm_compute; discriminate|]. eexists. vm_compute. reflexivity.
Qed.
(** Positions outside the range of [int] are converted with undefined behaviour. *)
Theorem C25_huge_position_refuted : exists n a, fresh (A := nat) a [1] /\ array_get 0 a n = UB.
Proof.
  exists 3000000000%Z, (mkA 3 1 0 [Some 1; None; None]). split; [|vm_compute; reflexivity].
  exists [None; None]. repeat split. discriminate.
Qed.
Print Assumptions C25_huge_position_refuted.

(** * C26 *)
Theorem C26_put_at_partial : forall (A : Type) (nil : A) a l x n, fresh a l -> (1 <= n < W64)%Z ->
  exists a', array_put nil a x n = Ok (a', false) /\ fresh a' (seq_put nil l x n).
Proof. exact @put_fresh. Qed.
Print Assumptions C26_put_at_partial.
Theorem C26_put_same : forall (A : Type) (nil : A) l x n, (1 <= n)%Z -> seq_at nil (seq_put nil l x n) n = x.
Proof. exact @seq_put_same. Qed.
Print Assumptions C26_put_same.
Theorem C26_put_other : forall (A : Type) (nil : A) l x n k, (1 <= n)%Z -> k <> n ->
  seq_at nil (seq_put nil l x n) k = seq_at nil l k.
Proof. exact @seq_put_other. Qed.
Print Assumptions C26_put_other.
Theorem C26_put_bounds : forall (A : Type) (nil : A) a x n, (n < 1)%Z -> array_put nil a x n = Ok (a, true).
Proof. exact @put_bounds. Qed.
Print Assumptions C26_put_bounds.
Example C26_example : exists a', array_put 0 array_new 5 3 = Ok (a', false) /\ fresh a' [0; 0; 5].
Proof.
  eexists. split; [vm_compute; reflexivity|]. eexists. cbn [a_el a_tail a_head a_len app map length]. 
  repeat split. discriminate.
Qed.
(** The exact effect on every list: positions count from the first element ever shifted off;
    a position among those revives it and destroys the present first element. *)
Theorem C26_put_exact : forall (A : Type) (nil : A) a st l x n, rep a st l -> (1 <= n < W64)%Z ->
  exists a', array_put nil a x n = Ok (a', false) /\
    ((Z.of_nat (length st) < n)%Z -> rep a' st (seq_put nil l x (n - Z.of_nat (length st)))) /\
    ((n <= Z.of_nat (length st))%Z ->
       rep a' (firstn (Z.to_nat (n - 1)) st)
         (x :: repeat nil (length st - Z.to_nat n) ++ match l with [] => [] | _ :: l' => nil :: l' end)).
Proof. exact @put_exact. Qed.
Print Assumptions C26_put_exact.
(** (1 2 3) shift, put: 9 at: 1 — position 2 of the remaining list (2 3) is destroyed. *)
Theorem C26_put_after_shift_refuted : exists os a a' l', list_run 0 array_new os = Ok (a, snd (seq_run 0 [] os)) /\
  fst (seq_run 0 [] os) = [2; 3] /\ array_put 0 a 9 1 = Ok (a', false) /\ holds a' l' /\ l' <> seq_put 0 [2; 3] 9 1.
Proof.
  exists [LPush 1; LPush 2; LPush 3; LShift]. eexists. eexists. exists [9; 0; 3].
  split; [vm_compute; reflexivity|]. split; [reflexivity|]. split; [vm_compute; reflexivity|].
  split; [|vm_compute; discriminate].
  exists []. eexists. cbn [a_el a_tail a_head a_len app map length]. repeat split. discriminate.
Qed.
Print Assumptions C26_put_after_shift_refuted.

(** * C27 *)
Theorem C27_add_partial : forall (A : Type) (nil : A) a b l m, fresh a l -> fresh b m ->
  (Z.of_nat (length l) < INT_MAX)%Z -> (Z.of_nat (length m) < INT_MAX)%Z ->
  exists r, array_add nil a b = Ok r /\ fresh r (l ++ m).
Proof. exact @add_fresh. Qed.
Print Assumptions C27_add_partial.
Theorem C27_copy_partial : forall (A : Type) (nil : A) a l, fresh a l -> (Z.of_nat (length l) < INT_MAX)%Z ->
  exists r, array_copy nil a = Ok r /\ fresh r l.
Proof. exact @copy_fresh. Qed.
Print Assumptions C27_copy_partial.
(** In general positions [shifted + 1 ..] are copied, padded with Nil. *)
Theorem C27_copy_exact : forall (A : Type) (nil : A) src st l dst m, rep src st l -> fresh dst m ->
  (2 * Z.of_nat (length st) + Z.of_nat (length l) < INT_MAX)%Z ->
  exists d, copy_into nil src dst = Ok d /\
    fresh d (m ++ seq_sub nil l (Z.of_nat (length st) + 1) (Z.of_nat (length l))).
Proof. exact @copy_into_exact. Qed.
Print Assumptions C27_copy_exact.
(** (1 2 3) shift, copy: (3 Nil) instead of (2 3). *)
Theorem C27_copy_after_shift_refuted : exists os a r, list_run 0 array_new os = Ok (a, snd (seq_run 0 [] os)) /\
  fst (seq_run 0 [] os) = [2; 3] /\ array_copy 0 a = Ok r /\ holds r [3; 0].
Proof.
  exists [LPush 1; LPush 2; LPush 3; LShift]. eexists. eexists.
  split; [vm_compute; reflexivity|]. split; [reflexivity|]. split; [vm_compute; reflexivity|].
  exists []. eexists. cbn [a_el a_tail a_head a_len app map length]. repeat split. discriminate.
Qed.
Print Assumptions C27_copy_after_shift_refuted.
Example C27_example : exists a b r, list_run 0 array_new [LPush 1; LUnshift 2] = Ok (a, [Same; Same]) /\
  list_run 0 array_new [LPush 5] = Ok (b, [Same]) /\ array_add 0 a b = Ok r /\ array_join (fun n => [N.of_nat n]) r [44]%N = Ok [2; 44; 1; 44; 5]%N.
Proof. do 3 eexists. repeat split; vm_compute; reflexivity. Qed.

(** * C28 *)
Theorem C28_find_partial : forall (A : Type) (str : A -> list N) a l needle, fresh a l -> no_nul needle ->
  (exists k x, array_index_of str a needle = Ok (Some (Z.of_nat k + 1)%Z) /\ nth_error l k = Some x /\
     str x = needle /\ (forall j y, j < k -> nth_error l j = Some y -> str y <> needle)) \/
  (array_index_of str a needle = Ok None /\ forall x, In x l -> str x <> needle).
Proof. exact @find_fresh. Qed.
Print Assumptions C28_find_partial.
(** In general the answer is too large by the number of elements shifted off, and texts are
    compared up to the first NUL. *)
Theorem C28_find_exact : forall (A : Type) (str : A -> list N) a st l needle, rep a st l ->
  (exists k x, array_index_of str a needle = Ok (Some (Z.of_nat (length st) + Z.of_nat k + 1)%Z) /\ nth_error l k = Some x /\
     same_text (str x) needle /\ (forall j y, j < k -> nth_error l j = Some y -> ~ same_text (str y) needle)) \/
  (array_index_of str a needle = Ok None /\ forall x, In x l -> ~ same_text (str x) needle).
Proof. exact @find_exact. Qed.
Print Assumptions C28_find_exact.
Theorem C28_find_after_shift_refuted : exists os a, list_run 0 array_new os = Ok (a, snd (seq_run 0 [] os)) /\
  fst (seq_run 0 [] os) = [2; 3] /\ array_index_of (fun n => [N.of_nat n]) a [2]%N = Ok (Some 2%Z).
Proof.
  exists [LPush 1; LPush 2; LPush 3; LShift]. eexists.
  split; [vm_compute; reflexivity|]. split; [reflexivity|]. vm_compute. reflexivity.
Qed.
Print Assumptions C28_find_after_shift_refuted.
Example C28_example : exists a, list_run 0 array_new [LPush 1; LPush 2; LPush 2] = Ok (a, [Same; Same; Same]) /\
  fresh a [1; 2; 2] /\ array_index_of (fun n => [N.of_nat n]) a [2]%N = Ok (Some 2%Z).
Proof.
  eexists. split; [vm_compute; reflexivity|]. split; [|vm_compute; reflexivity].
  eexists. cbn [a_el a_tail a_head a_len app map length]. repeat split. discriminate.
Qed.

(** * C29 *)
Theorem C29_minimum_partial : forall (A V : Type) (ltb : V -> V -> bool) zero (num : A -> V) a l, fresh a l ->
  (forall x, ltb x x = false) -> (forall x y z, ltb y x = false -> ltb z y = false -> ltb z x = false) ->
  (forall x y, ltb x y = true -> ltb y x = false) ->
  exists m, array_min ltb zero num a = Ok m /\
    (l = [] -> m = zero) /\ (l <> [] -> (exists x, In x l /\ m = num x) /\ forall x, In x l -> ltb (num x) m = false).
Proof. intros A V ltb zero num a l. exact (min_exact ltb zero num a [] l). Qed.
Print Assumptions C29_minimum_partial.
Theorem C29_maximum_partial : forall (A V : Type) (ltb : V -> V -> bool) zero (num : A -> V) a l, fresh a l ->
  (forall x, ltb x x = false) -> (forall x y z, ltb y x = false -> ltb z y = false -> ltb z x = false) ->
  (forall x y, ltb x y = true -> ltb y x = false) ->
  exists m, array_max ltb zero num a = Ok m /\
    (l = [] -> m = zero) /\ (l <> [] -> (exists x, In x l /\ m = num x) /\ forall x, In x l -> ltb m (num x) = false).
Proof. intros A V ltb zero num a l. exact (max_exact ltb zero num a [] l). Qed.
Print Assumptions C29_maximum_partial.
(** In general the elements that were shifted off still count. *)
Theorem C29_minimum_exact : forall (A V : Type) (ltb : V -> V -> bool) zero (num : A -> V) a st l, rep a st l ->
  (forall x, ltb x x = false) -> (forall x y z, ltb y x = false -> ltb z y = false -> ltb z x = false) ->
  (forall x y, ltb x y = true -> ltb y x = false) ->
  exists m, array_min ltb zero num a = Ok m /\
    (st ++ l = [] -> m = zero) /\
    (st ++ l <> [] -> (exists x, In x (st ++ l) /\ m = num x) /\ forall x, In x (st ++ l) -> ltb (num x) m = false).
Proof. exact @min_exact. Qed.
Print Assumptions C29_minimum_exact.
(** (1 2 3) shift, minimum: 1 *)
Theorem C29_minimum_after_shift_refuted : exists os a, list_run 0%Z array_new os = Ok (a, snd (seq_run 0%Z [] os)) /\
  fst (seq_run 0%Z [] os) = [2; 3]%Z /\ array_min Z.ltb 0%Z (fun z => z) a = Ok 1%Z.
Proof.
  exists [LPush 1; LPush 2; LPush 3; LShift]%Z. eexists.
  split; [vm_compute; reflexivity|]. split; [reflexivity|]. vm_compute. reflexivity.
Qed.
Print Assumptions C29_minimum_after_shift_refuted.
Example C29_example : exists a, list_run 0%Z array_new [LPush 8; LPush (-4); LPush 16]%Z = Ok (a, [Same; Same; Same]) /\
  array_min Z.ltb 0%Z (fun z => z) a = Ok (-4)%Z /\ array_max Z.ltb 0%Z (fun z => z) a = Ok 16%Z.
Proof. eexists. split; [vm_compute; reflexivity|]. split; vm_compute; reflexivity. Qed.

(** * C30 *)
Theorem C30_sub_list : forall (A : Type) (nil : A) a st l start len, rep a st l -> small a ->
  in_int (start - 1) = true -> in_int start = true -> in_int len = true -> in_int (start + len) = true -> (0 <= len)%Z ->
  exists r, array_from_length nil a start len = Ok r /\ fresh r (seq_sub nil l start len).
Proof. exact @from_length_rep. Qed.
Print Assumptions C30_sub_list.
Theorem C30_splice_partial : forall (A : Type) (nil : A) a st l r m from len, rep a st l -> fresh r m -> small a ->
  (1 <= from)%Z -> (0 <= len)%Z ->
  (from + len + Z.of_nat (length l) + Z.of_nat (length m) + 2 < INT_MAX)%Z ->
  exists d, array_splice nil a from len r = Ok d /\
    fresh d (seq_sub nil l 1 (from - 1) ++ m ++ skipn (Z.to_nat (from + len - 1)) l).
Proof. exact @splice_rep. Qed.
Print Assumptions C30_splice_partial.
Theorem C30_sub_list_prefix : forall (A : Type) (nil : A) l n, (0 <= n <= Z.of_nat (length l))%Z ->
  seq_sub nil l 1 n = firstn (Z.to_nat n) l.
Proof. exact @seq_sub_prefix. Qed.
Print Assumptions C30_sub_list_prefix.
(** A replacement that was shifted is inserted wrongly. *)
Theorem C30_splice_refuted : exists os a r d, list_run 0 array_new os = Ok (a, snd (seq_run 0 [] os)) /\
  list_run 0 array_new [LPush 7; LPush 8; LPush 9; LShift] = Ok (r, [Same; Same; Same; Elem 7]) /\
  fst (seq_run 0 [] os) = [1; 2; 3] /\ array_splice 0 a 2 1 r = Ok d /\ holds d [1; 9; 0; 3].
Proof.
  exists [LPush 1; LPush 2; LPush 3]. do 3 eexists.
  split; [vm_compute; reflexivity|]. split; [vm_compute; reflexivity|]. split; [reflexivity|].
  split; [vm_compute; reflexivity|].
  exists []. eexists. cbn [a_el a_tail a_head a_len app map length]. repeat split. discriminate.
Qed.
Print Assumptions C30_splice_refuted.
Example C30_example : exists a r d, list_run 0 array_new [LPush 1; LPush 2; LPush 3] = Ok (a, [Same; Same; Same]) /\
  list_run 0 array_new [LPush 9; LPush 9] = Ok (r, [Same; Same]) /\ array_splice 0 a 2 1 r = Ok d /\
  array_join (fun n => [N.of_nat n]) d [] = Ok [1; 9; 9; 3]%N.
Proof. do 3 eexists. repeat split; vm_compute; reflexivity. Qed.

(** * C10: joining the list answered by [split:] *)
Theorem C10_combine : forall (A : Type) (str : A -> list N) a st l glue, rep a st l ->
  array_join str a glue = Ok (joined glue (map str l)).
Proof. exact @join_rep. Qed.
Print Assumptions C10_combine.
