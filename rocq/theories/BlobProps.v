(** C104, C105: the bytes of Blobs, and numbers in native types. *)
From Coq Require Import String SpecFloat QArith.
From Verif Require Import Common Txt FloatSpec NumModel NumSpec NumProofs ListModel ListProofs BlobSpec BlobModel BlobProofs NativeProofs.
Local Open Scope Z_scope.
Local Notation length := List.length.

(** ** C104.  Filling a Blob with numbers from -128 to 127: from the first byte these are read, the rest of the Blob stays
    as it was, and Blobs with other memory are not touched. *)
Theorem C104_bytes : forall addr s b one n1 n old a ls zs, is_number (tonum one) 1 -> is_number (tonum n1) n -> 0 < n < 2147483647 ->
  blob_read addr s b one n1 = Ok old -> ListProofs.fresh a ls -> values ls zs -> chars zs -> Z.of_nat (length ls) <= n ->
  exists s', blob_fill s b (Some a) = Ok s' /\ blob_read addr s' b one n1 = Ok (map of_Z zs ++ skipn (length zs) old) /\
    (forall b', apart s b b' ->
      (forall from len, blob_read addr s' b' from len = blob_read addr s b' from len) /\ blob_text addr s' b' = blob_text addr s b').
Proof. exact fill_read. Qed.
Print Assumptions C104_bytes.
(** A new Blob has zeros and memory of its own. *)
Theorem C104_new : forall addr room s a n s' b one n1, is_number (tonum a) n -> 0 <= n -> blob_new room s a = Ok (Some (s', b)) ->
  is_number (tonum one) 1 -> is_number (tonum n1) n -> b = length (s_blobs s) /\
  blob_read addr s' b one n1 = Ok (repeat (of_Z 0) (Z.to_nat n)) /\ (0 < n -> blob_text addr s' b = Ok []) /\ (inside s -> inside s') /\
  (inside s -> forall b', (b' < b)%nat -> apart s' b b' /\
     (forall from len, blob_read addr s' b' from len = blob_read addr s b' from len) /\ blob_text addr s' b' = blob_text addr s b').
Proof. exact new_read. Qed.
Print Assumptions C104_new.
(** A Blob made of a text has its bytes, without the NUL bytes, and reads as that text. *)
Theorem C104_text : forall addr room s t r, blob_utf8 room s t = r -> r = Ok None \/ exists s' b, r = Ok (Some (s', b)) /\ b = length (s_blobs s) /\
  let cs := filter (fun c => negb (c =? 0)%N) t in
  blob_text addr s' b = Ok cs /\
  (forall one n1, is_number (tonum one) 1 -> is_number (tonum n1) (Z.of_nat (length cs)) ->
     blob_read addr s' b one n1 = Ok (map (fun c => of_Z (char_value c)) cs)) /\
  (inside s -> inside s') /\
  (inside s -> forall b', (b' < b)%nat -> apart s' b b' /\
     (forall from len, blob_read addr s' b' from len = blob_read addr s b' from len) /\ blob_text addr s' b' = blob_text addr s b').
Proof. exact utf8_text. Qed.
Print Assumptions C104_text.
(** A Blob can be freed more than once; any other use of it is not defined; other Blobs stay as they were. *)
Theorem C104_free : forall addr s b s', blob_free s b = Ok s' ->
  blob_free s' b = Ok s' /\ blob_text addr s' b = UB /\
  (forall one n1 i n, is_number (tonum one) i -> is_number (tonum n1) n -> int_range i -> 0 < n <= 2147483647 -> blob_read addr s' b one n1 = UB) /\
  (forall a, (0 < a_head a)%nat -> blob_fill s' b (Some a) = UB) /\
  (forall b', apart s b b' -> b <> b' ->
      (forall from len, blob_read addr s' b' from len = blob_read addr s b' from len) /\ blob_text addr s' b' = blob_text addr s b').
Proof. exact free_ok. Qed.
Print Assumptions C104_free.

Definition nowhere : ptr -> N := fun _ => 0%N.
Definition num (z : Z) : arg := ANum (of_Z z).
Definition empty_st : st := mkS [] [].
Definition list_of (ls : list arg) : @arr arg := mkA (S (length ls)) (length ls) 0 (map Some ls ++ [None]).
Definition after {A} (o : outcome (option (st * A))) : st := match o with Ok (Some (s, _)) => s | _ => empty_st end.
Definition filled (s : st) (b : nat) (a : @arr arg) : st := match blob_fill s b (Some a) with Ok s' => s' | UB => empty_st end.
Definition typed (o : outcome (option (st * nat * bool))) : st := match o with Ok (Some (s, _, _)) => s | _ => empty_st end.
(** A Blob of five bytes and one of three; two bytes are written *)
Example C104_example :
  let s := after (blob_new 1000 (after (blob_new 1000 empty_st (num 5))) (num 3)) in
  let s' := filled s 0 (list_of [num 7; num (-128)]) in
  blob_read nowhere s' 0 (num 1) (num 5) = Ok (map of_Z [7; -128; 0; 0; 0]) /\
  blob_read nowhere s' 0 (num 2) (num 1) = Ok (map of_Z [-128]) /\
  blob_read nowhere s' 1 (num 1) (num 3) = Ok (map of_Z [0; 0; 0]) /\
  ListProofs.fresh (list_of [num 7; num (-128)]) [num 7; num (-128)] /\ blob_text nowhere s' 0 = Ok [7; 128]%N.
Proof.
  cbv zeta. repeat (match goal with |- _ /\ _ => split end; [first [vm_compute; reflexivity|exists [None]; repeat split; discriminate]|]).
  vm_compute. reflexivity.
Qed.
Example C104_text_example :
  let s := after (blob_utf8 1000 empty_st (lit "Blob")) in
  blob_text nowhere s 0 = Ok (lit "Blob") /\ (exists s', blob_free s 0 = Ok s' /\ s_blobs s' = [Some PNull]).
Proof. vm_compute. split; [reflexivity|]. eexists. split; reflexivity. Qed.

(** Refuted: a list from which the first number was removed still writes that number. *)
Theorem C104_shifted_refuted : exists addr s s' a ls, ListProofs.holds a ls /\ values ls [2; 3] /\ blob_read addr s 0 (num 1) (num 2) = Ok (map of_Z [0; 0]) /\
  blob_fill s 0 (Some a) = Ok s' /\ blob_read addr s' 0 (num 1) (num 2) = Ok (map of_Z [1; 2]).
Proof.
  exists nowhere, (after (blob_new 1000 empty_st (num 5))), (filled (after (blob_new 1000 empty_st (num 5))) 0 (mkA 4 3 1 [Some (num 1); Some (num 2); Some (num 3); None])),
    (mkA 4 3 1 [Some (num 1); Some (num 2); Some (num 3); None]), [num 2; num 3].
  split; [exists [num 1], [None]; repeat split; discriminate|]. split; [constructor; [|constructor; [|constructor]]; (apply is_number_of_Z; vm_compute; congruence)|].
  repeat (match goal with |- _ /\ _ => split end; [vm_compute; reflexivity|]). vm_compute. reflexivity.
Qed.
Print Assumptions C104_shifted_refuted.
(** Refuted: the bytes 128 to 255 cannot be written as such, that is not defined. *)
Theorem C104_high_byte_refuted : exists s a, ListProofs.fresh a [num 200] /\ (exists r, blob_read nowhere s 0 (num 1) (num 5) = Ok r) /\
  blob_fill s 0 (Some a) = UB.
Proof.
  exists (after (blob_new 1000 empty_st (num 5))), (list_of [num 200]).
  split; [exists [None]; repeat split; discriminate|]. split; [eexists; vm_compute; reflexivity|]. vm_compute. reflexivity.
Qed.
Print Assumptions C104_high_byte_refuted.
(** Refuted: reading from 0, as in the documentation, does not start with the first byte; reading one byte too far, or the
    text of a Blob without a NUL byte, is not defined. *)
Theorem C104_from_zero_refuted : exists s, blob_read nowhere s 0 (num 1) (num 2) = Ok (map of_Z [7; 8]) /\
  blob_read nowhere s 0 (num 0) (num 2) = Ok (map of_Z [0; 7]).
Proof. exists (filled (after (blob_new 1000 empty_st (num 2))) 0 (list_of [num 7; num 8])). split; vm_compute; reflexivity. Qed.
Print Assumptions C104_from_zero_refuted.
Theorem C104_beyond_refuted : exists s, blob_read nowhere s 0 (num 1) (num 2) = Ok (map of_Z [7; 8]) /\
  blob_read nowhere s 0 (num 1) (num 3) = UB /\ blob_text nowhere s 0 = UB.
Proof. exists (filled (after (blob_new 1000 empty_st (num 2))) 0 (list_of [num 7; num 8])). repeat split; vm_compute; reflexivity. Qed.
Print Assumptions C104_beyond_refuted.

(** ** C105.  A whole number in the range of a type of C: passed to that type and taken back, it is the same number; in
    between it is written with the lowest byte first. *)
Theorem C105_whole : forall addr s name lo hi k a z, In (name, (lo, hi, k)) c_types -> is_number (tonum a) z -> lo <= z <= hi ->
  exists t bs y, map_type (lit name) = Some t /\ convert_value s t a = Ok (map Byte bs, false) /\ length bs = k /\ bytes_for z bs /\
    convert_back addr t (map Byte bs) = Ok (BNum y) /\ is_number y z.
Proof.
  intros addr s name lo hi k a z I N R. destruct (c_type_size _ _ _ _ I) as (sg & M & -> & -> & K).
  destruct (int_back addr sg k z (tonum a) K R N) as (y & B & Y). exists (FInt sg k), (le_Z k z), y. destruct N as [F V].
  split; [exact M|]. split; [apply int_there; auto; now apply trunc_whole|]. split; [apply le_Z_length|]. split; [apply le_Z_for|]. auto.
Qed.
Print Assumptions C105_whole.
(** Every number survives [double]; [float] keeps the numbers with at most 24 binary digits. *)
Theorem C105_double : forall addr s a, valid_binary 53 1024 (tonum a) = true ->
  exists cells, convert_value s FDouble a = Ok (cells, false) /\ length cells = 8%nat /\ convert_back addr FDouble cells = Ok (BNum (tonum a)).
Proof. intros addr s a. exact (double_there_and_back addr s a (tonum a) eq_refl). Qed.
Print Assumptions C105_double.
Theorem C105_float : forall addr s a, float_holds (tonum a) ->
  exists cells, convert_value s FFloat a = Ok (cells, false) /\ length cells = 4%nat /\ convert_back addr FFloat cells = Ok (BNum (tonum a)).
Proof. exact float_there_and_back. Qed.
Print Assumptions C105_float.
(** Only the names of types are types, and pointers come back. *)
Theorem C105_names : forall d t, map_type d = Some t -> In d (map lit (map fst c_types ++ real_types ++ other_types)).
Proof. exact map_type_names. Qed.
Print Assumptions C105_names.
Theorem C105_pointer : forall addr s b p, blob_ptr s b = Ok p ->
  exists cells, convert_value s FPointer (ABlob b) = Ok (cells, false) /\ convert_back addr FPointer cells = Ok (BBlob p).
Proof. intros addr s b p P. exists (ptr_cells p). split; [cbn [convert_value]; rewrite P; reflexivity|apply pointer_back]. Qed.
Print Assumptions C105_pointer.
(** [Blob new: x type: name] has the bytes of x, in the Blob; of a pointer to a Blob, [deref] gives its memory. *)
Theorem C105_typed : forall addr room s a name lo hi k z r, In (name, (lo, hi, k)) c_types -> is_number (tonum a) z -> lo <= z <= hi ->
  blob_new_type room s a (lit name) = r -> r = Ok None \/ exists s' b bs, r = Ok (Some (s', b, false)) /\ bytes_for z bs /\ length bs = k /\
  (forall one n1, is_number (tonum one) 1 -> is_number (tonum n1) (Z.of_nat k) -> exists ys,
     blob_read addr s' b one n1 = Ok ys /\ Forall2 (fun y c => exists v, signed_byte c v /\ is_number y v) ys bs).
Proof. exact typed_bytes. Qed.
Print Assumptions C105_typed.
Theorem C105_deref : forall addr room s b0 p r, blob_ptr s b0 = Ok p -> inside s -> blob_new_type room s (ABlob b0) (lit "pointer") = r ->
  r = Ok None \/ exists s' b s'', r = Ok (Some (s', b, false)) /\ b <> b0 /\ blob_deref s' b = Ok s'' /\
  (forall from len, blob_read addr s'' b from len = blob_read addr s b0 from len) /\ blob_text addr s'' b = blob_text addr s b0.
Proof. exact pointer_deref. Qed.
Print Assumptions C105_deref.

(** -2 as [int16_t]; the pointer to a text *)
Example C105_example :
  (exists s, blob_new_type 1000 empty_st (num (-2)) (lit "int16_t") = Ok (Some (s, 0%nat, false)) /\
     blob_read nowhere s 0 (num 1) (num 2) = Ok (map of_Z [-2; -1])) /\
  In ("int16_t"%string, (-32768, 32767, 2%nat)) c_types /\ is_number (tonum (num (-2))) (-2) /\ bytes_for (-2) [254; 255]%N /\
  float_holds (of_Z (-3)) /\ valid_binary 53 1024 (of_Z (-3)) = true /\
  (let s := after (blob_utf8 1000 empty_st (lit "Blob")) in inside s /\ exists s1 s2, blob_new_type 1000 s (ABlob 0) (lit "pointer") = Ok (Some (s1, 1%nat, false)) /\
     blob_deref s1 1 = Ok s2 /\ blob_text nowhere s2 1 = Ok (lit "Blob")).
Proof.
  split; [exists (typed (blob_new_type 1000 empty_st (num (-2)) (lit "int16_t"))); split; vm_compute; reflexivity|]. split; [cbn; tauto|]. split; [apply is_number_of_Z; vm_compute; congruence|].
  split; [split; [repeat constructor|reflexivity]|]. split; [split; [apply (is_number_of_Z (-3)); vm_compute; congruence|]; exists (-3), 0; repeat split; vm_compute; congruence|].
  split; [reflexivity|]. split; [intros b k o; destruct b as [|[|b]]; cbn; intros [= <- <-]; auto|].
  eexists _, _. split; [vm_compute; reflexivity|]. split; vm_compute; reflexivity.
Qed.

(** Refuted: outside of the range it is not defined what is passed; 0.1 is another number as a [float]. *)
Theorem C105_range_refuted : exists s, convert_value s (FInt false 1) (num 256) = UB /\ convert_value s (FInt false 4) (num (-1)) = UB.
Proof. exists empty_st. split; reflexivity. Qed.
Print Assumptions C105_range_refuted.
Theorem C105_float_refuted : exists x c y, valid_binary 53 1024 x = true /\ convert_value empty_st FFloat (ANum x) = Ok (c, false) /\
  convert_back nowhere FFloat c = Ok (BNum y) /\ y <> x.
Proof.
  exists (SFdiv 53 1024 (of_Z 1) (of_Z 10)).
  eexists _, _. split; [vm_compute; reflexivity|]. split; [vm_compute; reflexivity|]. split; [vm_compute; reflexivity|]. vm_compute. discriminate.
Qed.
Print Assumptions C105_float_refuted.
(** Refuted: Nil as a pointer comes back as a Blob; with a type that does not exist there is a Blob without memory and no error;
    a number as a pointer is an error, but a Blob of zeros is made. *)
Theorem C105_nil_refuted : exists c p, convert_value empty_st FPointer ANil = Ok (c, false) /\ convert_back nowhere FPointer c = Ok (BBlob p) /\
  BBlob p <> BNil.
Proof. eexists _, _. split; [reflexivity|]. split; [reflexivity|]. discriminate. Qed.
Print Assumptions C105_nil_refuted.
Theorem C105_unknown_type_refuted : exists s, blob_new_type 1000 empty_st (num 1) (lit "byte") = Ok (Some (s, 0%nat, false)) /\
  blob_read nowhere s 0 (num 1) (num 1) = UB /\ blob_text nowhere s 0 = UB /\ blob_free s 0 = UB.
Proof. eexists. split; [reflexivity|]. repeat split. Qed.
Print Assumptions C105_unknown_type_refuted.
Theorem C105_bad_pointer_refuted : exists s, blob_new_type 1000 empty_st (num 1) (lit "pointer") = Ok (Some (s, 0%nat, true)) /\
  blob_read nowhere s 0 (num 1) (num 8) = Ok (repeat (of_Z 0) 8).
Proof. exists (typed (blob_new_type 1000 empty_st (num 1) (lit "pointer"))). split; vm_compute; reflexivity. Qed.
Print Assumptions C105_bad_pointer_refuted.
