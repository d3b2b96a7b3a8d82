(** Structures as native types.  Theorems only; proofs in StructProofs. *)
From Coq Require Import String.
From Verif Require Import Common Txt NumModel ListModel BlobModel FfiModel StructSpec StructModel StructProofs.
From Verif Require ListProofs.
Local Open Scope Z_scope.
Local Notation "'tx' s" := (lit s%string) (at level 8, s at level 0).

(** Every type that C knows has one layout and no other. *)
Theorem C143_one_layout : forall c, proper c -> exists s a offs, laid c s a offs /\ forall s' a' offs', laid c s' a' offs' -> s' = s /\ a' = a /\ offs' = offs.
Proof.
  intros c P. destruct (laid_total c P) as (s & a & offs & L). exists s, a, offs. split; [exact L|].
  intros s' a' offs' L'. destruct (proj1 laid_unique_both _ _ _ _ L _ _ _ L') as (-> & -> & ->). auto.
Qed.
Print Assumptions C143_one_layout.

(** Whatever structures a program made and functions it linked before: a function of known types is linked, each structure has the size and the alignment
    that C gives it, the function is given exactly the bytes of the Blobs, and that stays so whatever is made and linked later.
    Partial: all names are known, lists were not shifted, nothing is freed, and Blobs are large enough (see the refutations). *)
Theorem C143_structures_partial : forall likes s0 ops env, (forall ts t, likes ts t = true) -> plain s0 -> history (map (fun _ => None) (t_blobs s0)) ops env ->
  exists s, run likes s0 ops = Ok (Some s) /\ t_mem s = t_mem s0 /\
  forall a ls cs r, ListProofs.fresh a ls -> (length ls <= 20)%nat -> Forall2 (stands env) ls cs -> Forall proper cs -> In r (tx "void" :: map fst simple_types) ->
  exists s1 ts t, link_types likes s a (RetText r) = Ok (LOk s1 ts t) /\ map_type r = Some t /\ t_mem s1 = t_mem s /\ t_blobs s1 = t_blobs s /\
  forall ops2 env2, history env ops2 env2 ->
  exists s2, run likes s1 ops2 = Ok (Some s2) /\ t_mem s2 = t_mem s0 /\
    Forall2 (fun t c => exists sz al offs, laid c sz al offs /\ type_size (t_structs s2) t = Ok (sz, al)) ts cs /\
    forall args vs, length args = length vs -> Forall2 (fun c p => passed s2 c (fst p) (snd p)) cs (combine args vs) -> given s2 ts args = Ok vs.
Proof.
  intros likes s0 ops env LK PL H. destruct (history_ok likes s0 _ ops env LK (linked_start _ PL) H) as (s & R & L & M & _). exists s. split; [exact R|]. split; [exact M|].
  intros a ls cs r FR B ST P RT. destruct (link_ok _ _ _ _ _ _ L FR B ST P RT) as (ss & ts & t & LI & T & X & G & ME & SZ & O).
  set (s1 := mkT (t_mem s) ss (t_blobs s)). exists s1, ts, t. rewrite LI, LK. split; [reflexivity|]. split; [exact T|]. split; [reflexivity|]. split; [reflexivity|].
  assert (L1 : linked_up s1 env).
  { constructor; [exact G|apply (lu_len _ _ L)|]. intros b c N. destruct (lu_env _ _ L _ _ N) as (id & fs & -> & NB & MM & OO). exists id, fs. split; [reflexivity|]. split; [exact NB|].
    split; [now apply (means_ext _ _ X)|]. cbn [t_structs s1]. rewrite (proj1 X). exact OO. }
  intros ops2 env2 H2. destruct (history_ok likes s1 _ ops2 env2 LK L1 H2) as (s2 & R2 & L2 & M2 & _ & LA & LL). exists s2. split; [exact R2|]. split; [rewrite M2; exact M|].
  assert (S2 : Forall2 (fun t c => exists sz al offs, laid c sz al offs /\ type_size (t_structs s2) t = Ok (sz, al)) ts cs).
  { eapply Forall2_imp; [|exact SZ]. intros x y (sz & al & offs & LY & TS). exists sz, al, offs. split; [exact LY|]. eapply size_later; [exact LA|exact TS|].
    pose proof (proj1 (proj2 (proj1 laid_facts _ _ _ _ LY))). lia. }
  split; [exact S2|]. intros args vs LE PA. apply (given_ok s2 (proj1 (lu_good _ _ L2)) ts cs); try assumption.
  - eapply Forall2_imp; [|exact ME]. intros x y. now apply means_later.
  - eapply Forall_impl; [|exact O]. intros [| |] Q; cbn in *; (exact I || lia).
Qed.
Print Assumptions C143_structures_partial.

(** The example of the manual: a Blob of eight bytes, a structure of two numbers, a function of such a structure; and a structure of a short, that structure
    and a byte, which takes sixteen bytes. *)
Definition c143_data : list mval := map Byte [0; 0; 0; 0; 0; 0; 0; 0]%N ++ map Byte [2; 0; 0; 0; 1; 0; 0; 0; 9; 9; 9; 9; 9; 9; 9; 9]%N.
Definition c143_s0 : state := mkT [Some c143_data] [] [Some (RData (PAddr 0 8))].
Definition list_of {A} (l : list A) : @arr A := mkA (S (length l)) (length l) 0 (map Some l ++ [None]).
Lemma fresh_list {A} (l : list A) : ListProofs.fresh (list_of l) l.
Proof. exists [None]. cbn. repeat split; [rewrite app_length, map_length; cbn; lia|discriminate]. Qed.
Definition c143_pair : ctype := CStruct [CName (tx "int"); CName (tx "int")].
Definition c143_outer : ctype := CStruct [CName (tx "short"); c143_pair; CName (tx "uchar")].
Definition c143_ops : list op := [Make (Some (list_of [OText (tx "int"); OText (tx "int")])); Make (Some (list_of [OText (tx "short"); OBlob 1; OText (tx "uchar")]))].
Lemma c143_proper : proper c143_pair /\ proper c143_outer.
Proof. split; cbn [proper c143_pair c143_outer]; (repeat split; try discriminate); vm_compute; tauto. Qed.
Example C143_case : plain c143_s0 /\ history (map (fun _ => None) (t_blobs c143_s0)) c143_ops [None; Some c143_pair; Some c143_outer] /\
  Forall2 (stands [None; Some c143_pair; Some c143_outer]) [OBlob 1; OBlob 2; OText (tx "int")] [c143_pair; c143_outer; CName (tx "int")] /\
  laid c143_outer 16 4 [0; 4; 12] /\
  passed c143_s0 c143_pair (ABlob 0) (map Byte [2; 0; 0; 0; 1; 0; 0; 0]%N) /\
  (exists s s1 ts, run (fun _ _ => true) c143_s0 c143_ops = Ok (Some s) /\ link_types (fun _ _ => true) s (list_of [OBlob 1; OBlob 2; OText (tx "int")]) (RetText (tx "int")) = Ok (LOk s1 ts (FInt true 4)) /\
     map (type_size (t_structs s1)) ts = [Ok (8, 4); Ok (16, 4); Ok (4, 4)] /\
     given s1 ts [ABlob 0; ABlob 0; ANum (of_Z 5)] = Ok [map Byte [2; 0; 0; 0; 1; 0; 0; 0]%N; map Byte [2; 0; 0; 0; 1; 0; 0; 0; 9; 9; 9; 9; 9; 9; 9; 9]%N; map Byte [5; 0; 0; 0]%N]).
Proof.
  destruct c143_proper as (P1 & P2). assert (LP : laid c143_pair 8 4 [0; 4]).
  { apply (laid_struct _ _ 8); [discriminate| |split; [exists 2|]; lia].
    replace 4 with (Z.max 4 (Z.max 4 1)) at 2 by reflexivity.
    apply placed_cons with (size := 4) (offs := []); [constructor; vm_compute; tauto|split; [exists 0|]; lia|].
    apply placed_cons with (size := 4) (offs := []); [constructor; vm_compute; tauto|split; [exists 1|]; lia|]. constructor. }
  split; [split; [reflexivity|constructor; [exact I|constructor]]|]. split; [|split; [|split; [|split]]].
  - unfold c143_ops. change [None; Some c143_pair; Some c143_outer] with ([None; Some c143_pair] ++ [Some c143_outer]).
    refine (history_make _ [Make (Some (list_of [OText (tx "int"); OText (tx "int")]))] [None; Some c143_pair] _ _ [CName (tx "short"); c143_pair; CName (tx "uchar")] _ (fresh_list _) _ P2).
    + refine (history_make _ [] [None] _ _ [CName (tx "int"); CName (tx "int")] _ (fresh_list _) _ P1); [apply history_start|repeat constructor].
    + constructor; [constructor|]. constructor; [now constructor|]. constructor; [constructor|constructor].
  - constructor; [now constructor|]. constructor; [now constructor|]. constructor; [constructor|constructor].
  - apply (laid_struct _ _ 13); [discriminate| |split; [exists 4|]; lia].
    change 4 with (Z.max 2 (Z.max 4 (Z.max 1 1))) at 2.
    apply placed_cons with (size := 2) (offs := []); [constructor; vm_compute; tauto|split; [exists 0|]; lia|].
    apply placed_cons with (size := 8) (offs := [0; 4]); [exact LP|split; [exists 1|]; lia|].
    apply placed_cons with (size := 1) (offs := []); [constructor; vm_compute; tauto|split; [exists 12|]; lia|]. constructor.
  - change (map Byte [2; 0; 0; 0; 1; 0; 0; 0]%N) with (firstn (Z.to_nat 8) (skipn (Z.to_nat 8) c143_data)).
    apply (passed_struct _ _ _ 4 [0; 4] _ 0%nat); [exact LP|reflexivity|reflexivity|lia|vm_compute; congruence].
  - do 3 eexists. split; [vm_compute; reflexivity|]. split; [vm_compute; reflexivity|]. split; vm_compute; reflexivity.
Qed.

Definition c143_like : list tref -> ffity -> bool := fun _ _ => true.
(** Refuted: a name that is not known ends the structure without an error; what follows is left out. *)
Theorem C143_unknown_refuted : exists s b s1 ts, blob_struct c143_s0 (Some (list_of [OText (tx "int"); OText (tx "size_t"); OText (tx "int")])) = Ok (s, b) /\
  link_types c143_like s (list_of [OBlob b]) (RetText (tx "void")) = Ok (LOk s1 ts FVoid) /\ map (type_size (t_structs s1)) ts = [Ok (4, 4)].
Proof. do 4 eexists. split; [vm_compute; reflexivity|]. split; vm_compute; reflexivity. Qed.
Print Assumptions C143_unknown_refuted.
(** Refuted: a type that was removed from the list is a field nevertheless. *)
Theorem C143_shifted_refuted : exists a s b s1 ts, ListProofs.holds a [OText (tx "int")] /\ blob_struct c143_s0 (Some a) = Ok (s, b) /\
  link_types c143_like s (list_of [OBlob b]) (RetText (tx "void")) = Ok (LOk s1 ts FVoid) /\ map (type_size (t_structs s1)) ts = [Ok (16, 8)].
Proof.
  exists (mkA 3 2 1 [Some (OText (tx "long")); Some (OText (tx "int")); None]). do 4 eexists.
  split; [exists [OText (tx "long")], [None]; repeat split; discriminate|]. split; [vm_compute; reflexivity|]. split; vm_compute; reflexivity.
Qed.
Print Assumptions C143_shifted_refuted.
(** Refuted: a copy of a structure made before a function of it was linked has no bytes; afterwards it has them. *)
Theorem C143_early_refuted : exists s b s' n s1 ts s2, blob_struct c143_s0 (Some (list_of [OText (tx "int"); OText (tx "int")])) = Ok (s, b) /\
  blob_new_of_struct 1000 s (ABlob 0) (OBlob b) = Ok (Some (s', n)) /\ blob_read (fun _ => 0%N) (as_st s') n (ANum (of_Z 1)) (ANum (of_Z 1)) = UB /\
  link_types c143_like s (list_of [OBlob b]) (RetText (tx "void")) = Ok (LOk s1 ts FVoid) /\
  blob_new_of_struct 1000 s1 (ABlob 0) (OBlob b) = Ok (Some (s2, n)) /\ blob_read (fun _ => 0%N) (as_st s2) n (ANum (of_Z 1)) (ANum (of_Z 8)) = Ok (map of_Z [2; 0; 0; 0; 1; 0; 0; 0]).
Proof. do 7 eexists. do 5 (split; [vm_compute; reflexivity|]). vm_compute. reflexivity. Qed.
Print Assumptions C143_early_refuted.
(** Refuted: a Blob that is too small, a number, and a structure that was released are not refused; the behaviour is undefined. *)
Theorem C143_value_refuted : exists s b s1 ts s2, blob_struct c143_s0 (Some (list_of [OText (tx "double"); OText (tx "double"); OText (tx "int")])) = Ok (s, b) /\
  link_types c143_like s (list_of [OBlob b]) (RetText (tx "void")) = Ok (LOk s1 ts FVoid) /\ given s1 ts [ABlob 0] = UB /\ given s1 ts [ANum (of_Z 5)] = UB /\
  blob_free_struct s1 (Some b) = Ok s2 /\ (forall args, given s2 ts args = UB).
Proof.
  do 5 eexists. do 5 (split; [vm_compute; reflexivity|]). intros args. unfold given. cbn [forallb].
  match goal with |- obind ?x _ = _ => destruct x end; [|reflexivity]. cbn [obind]. reflexivity.
Qed.
Print Assumptions C143_value_refuted.
(** Refuted: releasing a structure twice is undefined; so is releasing it after [free]. *)
Theorem C143_twice_refuted : exists s b s1 s2, blob_struct c143_s0 (Some (list_of [OText (tx "int")])) = Ok (s, b) /\ blob_free_struct s (Some b) = Ok s1 /\ blob_free_struct s1 (Some b) = UB /\
  blob_free_type s b = Ok s2 /\ blob_free_struct s2 (Some b) = UB.
Proof. do 4 eexists. do 4 (split; [vm_compute; reflexivity|]). vm_compute. reflexivity. Qed.
Print Assumptions C143_twice_refuted.
(** Refuted: a function cannot answer a structure. *)
Theorem C143_answer_refuted : exists s b, blob_struct c143_s0 (Some (list_of [OText (tx "int"); OText (tx "int")])) = Ok (s, b) /\
  link_types c143_like s (list_of [OBlob b]) (RetStruct b) = Ok (LErr BadReturn).
Proof. do 2 eexists. split; [vm_compute; reflexivity|]. vm_compute. reflexivity. Qed.
Print Assumptions C143_answer_refuted.
(** Refuted: what is no list makes a structure without an error; no function of it can be linked. *)
Theorem C143_nolist_refuted : exists s b, blob_struct c143_s0 None = Ok (s, b) /\ link_types c143_like s (list_of [OBlob b]) (RetText (tx "void")) = Ok (LErr BadSignature).
Proof. do 2 eexists. split; [vm_compute; reflexivity|]. vm_compute. reflexivity. Qed.
Print Assumptions C143_nolist_refuted.
(** Releasing a structure, its parts first and then itself, is possible whenever it was not released before, and leaves all memory, all other structures and all
    other Blobs as they were. *)
Theorem C143_release : forall s b id c l, nth_error (t_blobs s) b = Some (Some (RStruct id)) -> nth_error (t_structs s) id = Some (Some c) -> c_elems c = Elems l ->
  exists s1 s2, blob_free_struct s (Some b) = Ok s1 /\ blob_free_type s1 b = Ok s2 /\ t_mem s2 = t_mem s /\ nth_error (t_structs s2) id = Some None /\
    (forall j, j <> id -> nth_error (t_structs s2) j = nth_error (t_structs s) j) /\ (forall j, j <> b -> nth_error (t_blobs s2) j = nth_error (t_blobs s) j) /\
    nth_error (t_blobs s2) b = Some (Some (RData PNull)) /\ blob_free_struct s2 None = Ok s2.
Proof.
  intros s b id c l B N E. unfold blob_free_struct, blob_free_type. rewrite B, N, E. do 2 eexists. split; [reflexivity|]. cbn [t_blobs t_structs]. rewrite B, (nth_set_same _ _ _ _ N). split; [reflexivity|].
  cbn [t_mem t_structs t_blobs]. pose proof (nth_set_same (t_structs s) id (Some (mkC (c_size c) (c_align c) FreedElems)) _ N) as N1. split; [reflexivity|]. split; [exact (nth_set_same _ _ _ _ N1)|].
  split; [intros j J; rewrite (nth_set_other _ _ _ _ _ N1) by congruence; apply (nth_set_other _ _ _ _ _ N); congruence|]. split; [intros j J; apply (nth_set_other _ _ _ _ _ B); congruence|].
  split; [exact (nth_set_same _ _ _ _ B)|reflexivity].
Qed.
Print Assumptions C143_release.
Example C143_release_case : exists s s1 s2, run c143_like c143_s0 c143_ops = Ok (Some s) /\ nth_error (t_blobs s) 1 = Some (Some (RStruct 0)) /\ blob_free_struct s (Some 1%nat) = Ok s1 /\
  blob_free_type s1 1 = Ok s2 /\ length (t_structs s2) = 2%nat.
Proof. do 3 eexists. do 4 (split; [vm_compute; reflexivity|]). reflexivity. Qed.
