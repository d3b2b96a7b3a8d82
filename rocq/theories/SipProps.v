(** Properties of the keyed hash. *)
From Coq Require Import NArith List.
From Verif Require Import Common Txt TextSpec NumModel NumSpec NumProofs LexModel SipModel SipSpec SipProofs.
Import ListNotations.
Open Scope N_scope.

(** The bytes of a text that are not NUL, in order. *)
Inductive without_nul : list N -> list N -> Prop :=
| wn_nil : without_nul [] []
| wn_skip t u : without_nul t u -> without_nul (0 :: t) u
| wn_keep c t u : c <> 0 -> without_nul t u -> without_nul (c :: t) (c :: u).
(** The decimal numeral of a number: digits, no leading zero, the right value. *)
Definition numeral_of (n : N) (t : list N) : Prop :=
  t <> [] /\ digits t /\ (t = [48] \/ hd 48 t <> 48) /\ dvalue t = Z.of_N n.

Lemma cstring_spec key u : without_nul key u -> cstring key = u ++ [0] /\ upto_nul (cstring key) = u /\ (bytes key -> bytes u).
Proof.
  unfold cstring. induction 1 as [|t u W (E & F & B)|c t u NZ W (E & F & B)].
  - split; [reflexivity|split; [reflexivity|auto]].
  - cbn [filter]. change (0 =? 0) with true. cbn [negb]. split; [exact E|split; [exact F|]]. intros X. inversion X; auto.
  - cbn [filter]. destruct (N.eqb_spec c 0); [contradiction|]. cbn [negb app upto_nul].
    destruct (N.eqb_spec c 0); [contradiction|]. rewrite E in F |- *. split; [reflexivity|]. split; [rewrite F; reflexivity|].
    intros X. inversion X; subst. constructor; [assumption|]. apply B. assumption.
Qed.
Lemma without_nul_ex key : exists u, without_nul key u.
Proof.
  induction key as [|c t (u & W)]; [eexists; constructor|].
  destruct (N.eq_dec c 0) as [->|NZ]; [exists u|exists (c :: u)]; now constructor.
Qed.
Lemma sip_hash_key c d p r m : length p = 16%nat -> sip_hash c d (p ++ r) m = sip_hash c d p m.
Proof.
  intros L. unfold sip_hash. rewrite skipn_app, !firstn_app, skipn_length.
  replace (8 - length p)%nat with 0%nat by lia. replace (8 - (length p - 8))%nat with 0%nat by lia.
  change (skipn 0 r) with r. change (firstn 0 r) with (@nil N). now rewrite !app_nil_r.
Qed.
Lemma hash_ok self key p r : bytes self -> bytes key -> without_nul key (p ++ r) -> length p = 16%nat ->
  exists t, hash_with_key self key = Ok (Some t) /\ numeral_of (sip_hash 2 4 p self) t.
Proof.
  intros B BK W L. exists (dec (sip_hash 2 4 p self)). unfold hash_with_key.
  destruct (cstring_spec key (p ++ r) W) as (E & F & BU). specialize (BU BK).
  destruct (Nat.ltb_spec (length (upto_nul (cstring key))) 16) as [X|_]; [rewrite F, app_length in X; lia|].
  assert (BZ : bytes ((p ++ r) ++ [0])) by (apply Forall_app; split; [exact BU|now repeat constructor]).
  destruct (siphash_spec self ((p ++ r) ++ [0]) B BZ) as (H & _); [rewrite !app_length; lia|].
  rewrite E, H. cbn [obind]. rewrite <- app_assoc, (sip_hash_key 2 4 p (r ++ [0]) self L).
  split; [reflexivity|]. exact (dec_spec _).
Qed.
Lemma hash_bad self key u : without_nul key u -> (length u < 16)%nat -> hash_with_key self key = Ok None.
Proof.
  intros W H. unfold hash_with_key. destruct (cstring_spec key u W) as (E & F & _). rewrite F.
  destruct (Nat.ltb_spec (length u) 16); [reflexivity|lia].
Qed.

(** * C16 *)
Theorem C16_siphash : forall src key, bytes src -> bytes key -> (16 <= length key)%nat ->
  siphash24 src key = Ok (sip_hash 2 4 key src) /\ sip_hash 2 4 key src < 2 ^ 64.
Proof. exact siphash_spec. Qed.
Print Assumptions C16_siphash.
(** Appendix A of the paper: the key 00..0f and the message 00..0e. *)
Definition vector_key : list N := [0;1;2;3;4;5;6;7;8;9;10;11;12;13;14;15].
Definition vector_message : list N := firstn 15 vector_key.
Example C16_vector : sip_hash 2 4 vector_key vector_message = 0xa129ca6149be45e5 /\
  siphash24 vector_message vector_key = Ok 0xa129ca6149be45e5.
Proof. vm_compute. split; reflexivity. Qed.
(** Every length of the last word. *)
Example C16_tails : forallb (fun n => match siphash24 (firstn n vector_key) vector_key with
  | Ok h => h =? sip_hash 2 4 vector_key (firstn n vector_key) | UB => false end) (seq 0 17) = true.
Proof. vm_compute. reflexivity. Qed.

Theorem C16_hash : forall self key p r, bytes self -> bytes key -> without_nul key (p ++ r) -> length p = 16%nat ->
  exists t, hash_with_key self key = Ok (Some t) /\ numeral_of (sip_hash 2 4 p self) t.
Proof. exact hash_ok. Qed.
Print Assumptions C16_hash.
(** '123' hash: '1234567890123456' *)
Definition sample_key : list N := [49;50;51;52;53;54;55;56;57;48;49;50;51;52;53;54].
Example C16_hash_case :
  hash_with_key [49;50;51] sample_key =
  Ok (Some [49;56;49;48;56;54;56;51;49;53;55;55;56;51;56;55;53;49;49;57]).
Proof. vm_compute. reflexivity. Qed.
Example C16_hash_case_key : without_nul (sample_key ++ [0; 55]) (sample_key ++ [55]).
Proof. repeat constructor; discriminate. Qed.

Theorem C16_short_key : forall self key u, without_nul key u -> (length u < 16)%nat -> hash_with_key self key = Ok None.
Proof. exact hash_bad. Qed.
Print Assumptions C16_short_key.
Theorem C16_every_key : forall key, exists u, without_nul key u.
Proof. exact without_nul_ex. Qed.
Print Assumptions C16_every_key.
Example C16_short_key_case : hash_with_key [49] (repeat 49 15) = Ok None /\ hash_with_key [49] (repeat 49 16) <> Ok None.
Proof. split; [reflexivity|vm_compute; discriminate]. Qed.

(** The first 16 bytes of the key are not what counts when there is a NUL among them: a key of
    16 bytes may be refused, and different keys of 16 bytes or more are taken for the same. *)
Theorem C16_nul_key_refuted :
  (exists self key, (16 <= length key)%nat /\ bytes key /\ hash_with_key self key = Ok None) /\
  (exists self k1 k2, bytes k1 /\ bytes k2 /\ (16 <= length k1)%nat /\ (16 <= length k2)%nat /\
    firstn 16 k1 <> firstn 16 k2 /\ hash_with_key self k1 = hash_with_key self k2 /\ hash_with_key self k1 <> Ok None).
Proof.
  split.
  - exists [49], vector_key. split; [vm_compute; lia|]. split; [repeat constructor|reflexivity].
  - exists [49], sample_key, (0 :: sample_key). split; [repeat constructor|]. split; [repeat constructor|].
    split; [vm_compute; lia|]. split; [vm_compute; lia|]. split; [discriminate|]. split; [reflexivity|vm_compute; discriminate].
Qed.
Print Assumptions C16_nul_key_refuted.

(** The hash the interpreter uses for its tables never reads outside its 16-byte key. *)
Theorem C16_index_hash : forall t key, bytes t -> bytes key -> length key = 16%nat ->
  index_hash t key = Ok (sip_hash 2 4 key t) /\ sip_hash 2 4 key t < 2 ^ 64.
Proof. intros t key B BK L. exact (siphash_spec t key B BK ltac:(lia)). Qed.
Print Assumptions C16_index_hash.
