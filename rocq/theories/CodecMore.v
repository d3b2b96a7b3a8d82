(** Proofs about entities, hexadecimal digits and base64. *)
From Coq Require Import String.
From Verif Require Import Common Txt ReqSpec ReqModel ReqProofs CodecSpec CodecModel CodecProofs.
Local Open Scope N_scope.
Local Notation length := List.length.
Ltac Zify.zify_post_hook ::= Z.to_euclidean_division_equations.

(** ** Entities *)
Definition entity (c : N) : text := match entity_of c entities with Some e => e | None => [c] end.
Lemma entity_same c : (if c =? 60 then lit "&lt;"%string else if c =? 62 then lit "&gt;"%string else if c =? 38 then lit "&amp;"%string else if c =? 39 then lit "&#39;"%string
   else if c =? 13 then lit "&#13;"%string else if c =? 10 then lit "&#10;"%string else if c =? 34 then lit "&quot;"%string else [c]) = entity c.
Proof.
  unfold entity, entities. cbn [entity_of].
  destruct (N.eqb_spec c 60) as [->|]; [reflexivity|]. destruct (N.eqb_spec c 62) as [->|]; [reflexivity|]. destruct (N.eqb_spec c 38) as [->|]; [reflexivity|].
  destruct (N.eqb_spec c 34) as [->|]; [reflexivity|]. destruct (N.eqb_spec c 39) as [->|]; [reflexivity|]. destruct (N.eqb_spec c 13) as [->|]; [reflexivity|]. destruct (N.eqb_spec c 10) as [->|]; reflexivity.
Qed.
Lemma html_cons c p : html (c :: p) = entity c ++ html p.
Proof. reflexivity. Qed.
Lemma html_length : forall p, length (html p) = entity_count p.
Proof.
  induction p as [|c p IH]; [reflexivity|]. rewrite html_cons, app_length, IH. cbn [entity_count]. f_equal. rewrite <- entity_same.
  destruct (N.eqb_spec c 60) as [->|]; [reflexivity|]. destruct (N.eqb_spec c 62) as [->|]; [reflexivity|]. destruct (N.eqb_spec c 38) as [->|]; [reflexivity|].
  destruct (N.eqb_spec c 39) as [->|]; [reflexivity|]. destruct (N.eqb_spec c 13) as [->|]; [reflexivity|]. destruct (N.eqb_spec c 10) as [->|]; [reflexivity|]. destruct (N.eqb_spec c 34) as [->|]; reflexivity.
Qed.
Lemma entity_loop_ok : forall p size buf, (length buf + entity_count p < size)%nat -> entity_loop size p buf = Ok (buf ++ html p).
Proof.
  induction p as [|c p IH]; intros size buf H; [cbn in *; rewrite app_nil_r; apply ended_ok; lia|]. cbn [entity_loop]. rewrite entity_same.
  pose proof (html_length (c :: p)) as L. rewrite html_cons, app_length, html_length in L. rewrite puts_ok by lia. cbn [obind]. rewrite IH by (rewrite app_length; lia). now rewrite html_cons, <- app_assoc.
Qed.
Lemma encode_entity_ok p : fits (6 * length p + 1) = true -> encode_entity p = Ok (html p).
Proof.
  intros F. assert (L : (entity_count p <= 6 * length p)%nat).
  { clear F. induction p as [|c p IH]; [cbn; lia|]. cbn [entity_count length]. repeat match goal with |- context [if ?b then _ else _] => destruct b end; lia. }
  unfold encode_entity. rewrite (fits_le _ (6 * length p + 1)) by (lia || exact F). apply (entity_loop_ok p _ []). cbn. lia.
Qed.
Lemma html_shown : forall p, shown p (html p).
Proof.
  induction p as [|c p IH]; [constructor|]. rewrite html_cons. unfold entity, entities. cbn [entity_of].
  destruct (N.eqb_spec c 60) as [->|]; [apply sh_entity; [cbn; tauto|exact IH]|]. destruct (N.eqb_spec c 62) as [->|]; [apply sh_entity; [cbn; tauto|exact IH]|].
  destruct (N.eqb_spec c 38) as [->|]; [apply sh_entity; [cbn; tauto|exact IH]|]. destruct (N.eqb_spec c 34) as [->|]; [apply sh_entity; [cbn; tauto|exact IH]|].
  destruct (N.eqb_spec c 39) as [->|]; [apply sh_entity; [cbn; tauto|exact IH]|]. destruct (N.eqb_spec c 10) as [->|]; [apply sh_entity; [cbn; tauto|exact IH]|].
  destruct (N.eqb_spec c 13) as [->|]; [apply sh_entity; [cbn; tauto|exact IH]|]. apply (sh_letter c); [|exact IH]. cbn. intuition congruence.
Qed.
Lemma shown_one : forall t e, shown t e -> forall t', shown t' e -> t = t'.
Proof.
  assert (A : forall c n, In (c, n) entities -> exists m, n = 38 :: m). { intros c n I. cbn in I. repeat (destruct I as [E|I]; [injection E as <- <-; eexists; vm_compute; reflexivity|]). destruct I. }
  assert (U : forall c n c' n' e e', In (c, n) entities -> In (c', n') entities -> n ++ e = n' ++ e' -> c = c' /\ e = e').
  { intros c n c' n' e e' I I' E. cbn in I, I'. repeat (destruct I as [X|I]; [injection X as <- <-; repeat (destruct I' as [Y|I']; [injection Y as <- <-; first [discriminate E|injection E as ->; split; reflexivity]|]); destruct I'|]). destruct I. }
  induction 1 as [|c n t e I H IH|c t e NI H IH]; intros t' S.
  - inversion S as [|c' n' t2 e' I' S2 E1 E2|]; subst; [reflexivity|]. destruct (A _ _ I') as (m & ->). discriminate.
  - inversion S as [E1 E2|c' n' t2 e' I' S2 E1 E2|c' t2 e' NI S2 E1 E2]; subst.
    + destruct (A _ _ I) as (m & ->). discriminate.
    + destruct (U _ _ _ _ _ _ I' I E2) as (-> & ->). f_equal. now apply IH.
    + destruct (A _ _ I) as (m & ->). injection E2 as E0 E3. exfalso. apply NI. cbn. auto.
  - inversion S as [E1 E2|c' n' t2 e' I' S2 E1 E2|c' t2 e' NI' S2 E1 E2]; subst.
    + destruct (A _ _ I') as (m & ->). injection E2 as E0 E3. exfalso. apply NI. cbn. auto.
    + f_equal. now apply IH.
Qed.
Lemma html_clean p c : In c (html p) -> ~ In c [60; 62; 34; 39; 10; 13].
Proof.
  induction p as [|d p IH]; [easy|]. rewrite html_cons, in_app_iff. intros [I|I]; [|now apply IH]. clear IH. revert I. unfold entity, entities. cbn [entity_of].
  assert (D : forall n, forallb (fun c => negb (existsb (N.eqb c) [60; 62; 34; 39; 10; 13])) n = true -> In c n -> ~ In c [60; 62; 34; 39; 10; 13]).
  { intros n F I J. rewrite forallb_forall in F. specialize (F c I). apply negb_true_iff in F. assert (existsb (N.eqb c) [60; 62; 34; 39; 10; 13] = true) by (apply existsb_exists; exists c; split; [exact J|apply N.eqb_refl]). congruence. }
  repeat match goal with |- context [d =? ?k] => destruct (N.eqb_spec d k) as [_|?]; [apply D; vm_compute; reflexivity|] end. intros [<-|[]]. cbn. intuition congruence.
Qed.

(** ** Hexadecimal *)
Lemma hex_loop_ok : forall p, bytes p -> exists e, hexed p e /\ length e = (length p * 2)%nat /\ forall size buf, (length buf + length p * 2 < size)%nat -> hex_loop size p buf = Ok (buf ++ e).
Proof.
  induction p as [|c p IH]; intros B; [exists []; split; [constructor|]; split; [reflexivity|]; intros size buf H; cbn in *; rewrite app_nil_r; apply ended_ok; lia|].
  inversion B as [|? ? BC BP]; subst. destruct (IH BP) as (e & HE & L & U). destruct (hexdigit_ok (c / 16)) as (x & X & HX); [lia|]. destruct (hexdigit_ok (c mod 16)) as (y & Y & HY); [lia|].
  exists (x :: y :: e). split; [eapply hx_byte; [exact HX|exact HY|lia|exact HE]|]. split; [cbn; lia|]. intros size buf H. cbn [hex_loop length] in *. rewrite shr4, land15, X, Y. cbn [obind]. rewrite puts_ok by (cbn; lia). cbn [obind].
  rewrite U by (rewrite app_length; cbn; lia). now rewrite <- app_assoc.
Qed.
Lemma unhex_some : forall b e, hexed b e -> forall size buf, (length buf + length b < size)%nat -> unhex_loop size e buf = Ok (Some (buf ++ b)).
Proof.
  induction 1 as [|c t e x y l r HX HY -> H IH]; intros size buf L; cbn [unhex_loop length] in *; [rewrite ended_ok by lia; cbn; now rewrite app_nil_r|].
  rewrite !hex_same. rewrite (is_hex_digit _ _ HX), (is_hex_digit _ _ HY). pose proof (hex_bound _ _ (is_hex_digit _ _ HX)). pose proof (hex_bound _ _ (is_hex_digit _ _ HY)).
  rewrite shl4, N.mod_small by lia. rewrite put_ok by lia. cbn [obind]. rewrite IH by (rewrite app_length; cbn; lia). now rewrite <- app_assoc.
Qed.
Lemma hexed_length b e : hexed b e -> length e = (2 * length b)%nat.
Proof. induction 1; cbn; lia. Qed.
Lemma digit_is c d : hex_digit c = Some d -> is_hex c d.
Proof.
  unfold hex_digit, is_hex. destruct ((48 <=? c) && (c <=? 57))%bool eqn:A; [intros E; injection E as <-; apply andb_true_iff in A; rewrite !N.leb_le in A; left; lia|].
  destruct ((65 <=? c) && (c <=? 70))%bool eqn:B; [intros E; injection E as <-; apply andb_true_iff in B; rewrite !N.leb_le in B; right; left; lia|].
  destruct ((97 <=? c) && (c <=? 102))%bool eqn:C; [intros E; injection E as <-; apply andb_true_iff in C; rewrite !N.leb_le in C; right; right; lia|discriminate].
Qed.
Lemma unhex_none : forall n e, (length e <= n)%nat -> Nat.odd (length e) = false -> (forall b, ~ hexed b e) -> forall size buf, (length buf + Nat.div2 (length e) < size)%nat -> unhex_loop size e buf = Ok None.
Proof.
  induction n as [|n IH]; intros e L O N size buf H; (destruct e as [|x [|y e]]; [exfalso; apply (N []); constructor|discriminate O|]); [cbn in L; lia|].
  cbn [unhex_loop]. rewrite !hex_same. destruct (hex_digit x) as [l|] eqn:X; [|reflexivity]. destruct (hex_digit y) as [r|] eqn:Y; [|reflexivity]. cbn [length Nat.div2] in *.
  rewrite put_ok by lia. cbn [obind]. apply IH; [lia|exact O| |rewrite app_length; cbn; lia]. intros b HB. apply (N (16 * l + r :: b)). eapply hx_byte; [apply digit_is; exact X|apply digit_is; exact Y|reflexivity|exact HB].
Qed.
Lemma odd_double n : Nat.odd (2 * n) = false.
Proof. rewrite Nat.odd_mul. reflexivity. Qed.
Lemma decode_hex_some b e : fits (length e) = true -> hexed b e -> decode_hex e = Ok (Some b).
Proof.
  intros F H. unfold decode_hex. rewrite F. pose proof (hexed_length _ _ H) as L. rewrite L. rewrite odd_double. rewrite (unhex_some _ _ H); [reflexivity|]. cbn [length]. rewrite Nat.mul_comm, Nat.div_mul by lia. lia.
Qed.
Lemma decode_hex_none e : fits (length e) = true -> (forall b, ~ hexed b e) -> decode_hex e = Ok None.
Proof.
  intros F H. unfold decode_hex. rewrite F. destruct (Nat.odd (length e)) eqn:O; [reflexivity|]. apply (unhex_none (length e)); [lia|exact O|exact H|]. cbn [length]. rewrite Nat.div2_div. lia.
Qed.
Lemma hex_round p : p <> [] -> bytes p -> fits (2 * length p + 1) = true -> exists e, encode_hex p = Ok (Some e) /\ hexed p e /\ decode_hex e = Ok (Some p).
Proof.
  intros N B F. destruct (hex_loop_ok p B) as (e & H & L & U). exists e. split; [|split; [exact H|]].
  - unfold encode_hex. destruct p as [|c p]; [congruence|]. replace (length (c :: p) * 2 + 1)%nat with (2 * length (c :: p) + 1)%nat by lia. rewrite F. rewrite U by (cbn; lia). reflexivity.
  - apply decode_hex_some; [|exact H]. eapply fits_le; [|exact F]. lia.
Qed.

(** ** Base64 *)
Lemma cons_eq (a b : N) l m : a = b -> l = m -> a :: l = b :: m.
Proof. congruence. Qed.
Ltac lists := repeat (apply cons_eq; [first [lia | apply f_equal; lia]|]); try reflexivity.
Lemma lor_add x y k : x mod 2 ^ k = 0 -> y < 2 ^ k -> N.lor x y = x + y.
Proof.
  intros X Y. rewrite <- N.lxor_lor; [symmetry; apply N.add_nocarry_lxor|]; apply N.bits_inj; intros i; rewrite N.land_spec, N.bits_0;
    (destruct (N.lt_ge_cases i k) as [L|L]; [rewrite <- (N.mod_pow2_bits_low x k i L), X, N.bits_0; reflexivity|rewrite <- (N.mod_small y (2 ^ k)) by exact Y; rewrite N.mod_pow2_bits_high by exact L; apply andb_false_r]).
Qed.
Lemma lor_0 y : N.lor 0 y = y.
Proof. reflexivity. Qed.
Lemma land63 x : N.land x 63 = x mod 64.
Proof. change 63 with (N.ones 6). now rewrite N.land_ones. Qed.
Lemma sym_ok i : i < 64 -> rd b64encode (N.to_nat i) = Ok (sym i).
Proof.
  intros H. unfold rd, sym. change b64encode with alphabet. rewrite nth_error_nth' with (d := 0); [reflexivity|]. change (length alphabet) with 64%nat. lia.
Qed.
Lemma digit_ok save i : digit save i = Ok (sym (N.shiftr save i mod 64)).
Proof. unfold digit. rewrite land63. apply sym_ok. lia. Qed.
Lemma save1 x : x < 256 -> N.lor 0 (N.shiftl x (16 - 0)) = x * 65536.
Proof. intros. rewrite lor_0, N.shiftl_mul_pow2. change (2 ^ (16 - 0)) with 65536. reflexivity. Qed.
Lemma save2 x y : x < 256 -> y < 256 -> N.lor (x * 65536) (N.shiftl y (16 - 8)) = x * 65536 + y * 256.
Proof. intros. rewrite N.shiftl_mul_pow2. change (2 ^ (16 - 8)) with 256. apply (lor_add _ _ 16); change (2 ^ 16) with 65536; lia. Qed.
Lemma save3 x y z : x < 256 -> y < 256 -> z < 256 -> N.lor (x * 65536 + y * 256) (N.shiftl z (16 - 16)) = x * 65536 + y * 256 + z.
Proof. intros. rewrite N.shiftl_mul_pow2. change (2 ^ (16 - 16)) with 1. rewrite N.mul_1_r. apply (lor_add _ _ 8); change (2 ^ 8) with 256; lia. Qed.
Lemma shr x i : N.shiftr x i = x / 2 ^ i.
Proof. apply N.shiftr_div_pow2. Qed.
Lemma base_step size x y z r buf : x < 256 -> y < 256 -> z < 256 -> (length buf + 4 <= size)%nat ->
  base_loop size (x :: y :: z :: r) 0 0 buf = base_loop size r 0 0 (buf ++ [sym (x / 4); sym (x mod 4 * 16 + y / 16); sym (y mod 16 * 4 + z / 64); sym (z mod 64)]).
Proof.
  intros X Y Z L. cbn [base_loop]. change (0 + 8) with 8. change (8 =? 24) with false. cbn iota. change (8 + 8) with 16. change (16 =? 24) with false. cbn iota. change (16 + 8 =? 24) with true. cbn iota.
  rewrite save1, save2, save3 by assumption. rewrite !digit_ok. cbn [obind]. rewrite !shr. change (2 ^ 18) with 262144. change (2 ^ 12) with 4096. change (2 ^ 6) with 64. change (2 ^ 0) with 1. rewrite N.div_1_r.
  rewrite puts_ok by (cbn; lia). cbn [obind]. f_equal. f_equal. lists.
Qed.
Lemma base1 size x buf : x < 256 -> base_loop size [x] 0 0 buf = Ok (x * 65536, 8, buf).
Proof. intros X. cbn [base_loop]. change (0 + 8 =? 24) with false. cbn iota. now rewrite save1. Qed.
Lemma base2 size x y buf : x < 256 -> y < 256 -> base_loop size [x; y] 0 0 buf = Ok (x * 65536 + y * 256, 16, buf).
Proof. intros X Y. cbn [base_loop]. change (0 + 8) with 8. change (8 =? 24) with false. cbn iota. change (8 + 8 =? 24) with false. cbn iota. now rewrite save1, save2. Qed.
Lemma by_three (P : text -> Prop) : P [] -> (forall x, P [x]) -> (forall x y, P [x; y]) -> (forall x y z r, P r -> P (x :: y :: z :: r)) -> forall p, P p.
Proof.
  intros P0 P1 P2 P3 p. assert (G : forall n q, (length q <= n)%nat -> P q).
  { induction n as [|n IH]; intros q L; (destruct q as [|x [|y [|z r]]]; [exact P0|apply P1|apply P2|]); cbn in L; [lia|]. apply P3. apply IH. lia. }
  now apply (G (length p)).
Qed.
Lemma base64_ok : forall p size buf, bytes p -> (length buf + length (base64 p) < size)%nat ->
  (do x <- base_loop size p 0 0 buf; let '(save, nbits, buf) := x in do b <- (if 0 <? nbits then base_rest size [18; 12; 6; 0] save (Z.of_N nbits) buf else Ok buf); do b <- ended size b; Ok (Some b)) = Ok (Some (buf ++ base64 p)).
Proof.
  intros p. pattern p. apply by_three; clear p.
  - intros size buf _ L. cbn in *. rewrite ended_ok by lia. cbn. now rewrite app_nil_r.
  - intros x size buf B L. inversion B as [|? ? X _]; subst. rewrite base1 by exact X. cbn [obind]. change (0 <? 8) with true. cbn iota. change (Z.of_N 8) with 8%Z. cbn [base64 length] in *. cbn [base_rest].
    change (0 <? 8)%Z with true. change (0 <? 8 - 6)%Z with true. change (0 <? 8 - 6 - 6)%Z with false. cbn iota. rewrite !digit_ok. cbn [obind]. rewrite !shr.
    rewrite put_ok by lia. cbn [obind]. rewrite put_ok by (rewrite app_length; cbn; lia). cbn [obind]. rewrite put_ok by (rewrite !app_length; cbn; lia). cbn [obind]. rewrite put_ok by (rewrite !app_length; cbn; lia). cbn [obind].
    rewrite ended_ok by (rewrite !app_length; cbn; lia). cbn [obind]. rewrite <- !app_assoc. cbn [app]. change (2 ^ 18) with 262144. change (2 ^ 12) with 4096. do 3 f_equal. lists.
  - intros x y size buf B L. inversion B as [|? ? X B2]; subst. inversion B2 as [|? ? Y _]; subst. rewrite base2 by assumption. cbn [obind]. change (0 <? 16) with true. cbn iota. change (Z.of_N 16) with 16%Z. cbn [base64 length] in *. cbn [base_rest].
    change (0 <? 16)%Z with true. change (0 <? 16 - 6)%Z with true. change (0 <? 16 - 6 - 6)%Z with true. change (0 <? 16 - 6 - 6 - 6)%Z with false. cbn iota. rewrite !digit_ok. cbn [obind]. rewrite !shr.
    rewrite put_ok by lia. cbn [obind]. rewrite put_ok by (rewrite app_length; cbn; lia). cbn [obind]. rewrite put_ok by (rewrite !app_length; cbn; lia). cbn [obind]. rewrite put_ok by (rewrite !app_length; cbn; lia). cbn [obind].
    rewrite ended_ok by (rewrite !app_length; cbn; lia). cbn [obind]. rewrite <- !app_assoc. cbn [app]. change (2 ^ 18) with 262144. change (2 ^ 12) with 4096. change (2 ^ 6) with 64. do 3 f_equal. lists.
  - intros x y z r IH size buf B L. inversion B as [|? ? X B2]; subst. inversion B2 as [|? ? Y B3]; subst. inversion B3 as [|? ? Z B4]; subst. cbn [base64 length] in L. rewrite base_step by (assumption || lia). rewrite IH; [|exact B4|rewrite app_length; cbn [length]; lia].
    rewrite <- app_assoc. reflexivity.
Qed.
Lemma base64_length p : length (base64 p) = (4 * ((length p + 2) / 3))%nat.
Proof.
  pattern p. apply by_three; clear p; try reflexivity. intros x y z r IH. cbn [base64 length]. rewrite IH. replace (S (S (S (length r))) + 2)%nat with (1 * 3 + (length r + 2))%nat by lia. rewrite Nat.div_add_l by lia. lia.
Qed.
Lemma encode_base64_ok p : p <> [] -> bytes p -> fits (4 * length p + 4) = true -> encode_base64 p = Ok (Some (base64 p)).
Proof.
  intros N B F. unfold encode_base64. destruct p as [|c p]; [congruence|]. set (q := c :: p) in *. rewrite (fits_le (4 * length q) (4 * length q + 4)) by (lia || exact F).
  rewrite (fits_le (4 + 4 * length q / 3) (4 * length q + 4)); [|pose proof (Nat.div_le_upper_bound (4 * length q) 3 (4 * length q) ltac:(lia) ltac:(lia)); lia|exact F]. cbn [andb].
  apply (base64_ok q _ []); [exact B|]. cbn [length]. rewrite base64_length. set (n := length q). assert (NP : (0 < n)%nat) by (unfold n, q; cbn; lia). clearbody n. clear - NP. lia.
Qed.

(** *** Decoding *)
Lemma table_ok : forallb (fun i => match nth_error b64decode i, place (N.of_nat i) alphabet 0 with Some v, Some w => (v =? w) && (v <? 64) | Some v, None => v =? 100 | None, _ => false end)%bool (seq 0 256) = true.
Proof. vm_compute. reflexivity. Qed.
Lemma lookup_ok c : c < 256 -> exists v, rd b64decode (N.to_nat c) = Ok v /\ match place c alphabet 0 with Some w => v = w /\ v < 64 | None => v = 100 end.
Proof.
  intros H. pose proof table_ok as T. rewrite forallb_forall in T. specialize (T (N.to_nat c)). rewrite N2Nat.id in T. unfold rd.
  assert (I : In (N.to_nat c) (seq 0 256)) by (apply in_seq; lia). specialize (T I). destruct (nth_error b64decode (N.to_nat c)) as [v|]; [|discriminate T]. exists v. split; [reflexivity|].
  destruct (place c alphabet 0); [|now apply N.eqb_eq]. apply andb_true_iff in T as [T1 T2]. split; [now apply N.eqb_eq|now apply N.ltb_lt].
Qed.
Definition low (s : list N) : Prop := Forall (fun v => v < 64) s.
(** The state after some six-bit values *)
Definition state (pend : list N) : N * N := match pend with [] => (0, 0) | [a] => (a * 262144, 6) | [a; b] => (a * 262144 + b * 4096, 12) | a :: b :: c :: _ => (a * 262144 + b * 4096 + c * 64, 18) end.
Lemma un1 a : a < 64 -> N.lor 0 (N.shiftl a (18 - 0)) = a * 262144.
Proof. intros. rewrite lor_0, N.shiftl_mul_pow2. reflexivity. Qed.
Lemma un2 a b : a < 64 -> b < 64 -> N.lor (a * 262144) (N.shiftl b (18 - 6)) = a * 262144 + b * 4096.
Proof. intros. rewrite N.shiftl_mul_pow2. change (2 ^ (18 - 6)) with 4096. apply (lor_add _ _ 18); change (2 ^ 18) with 262144; lia. Qed.
Lemma un3 a b c : a < 64 -> b < 64 -> c < 64 -> N.lor (a * 262144 + b * 4096) (N.shiftl c (18 - 12)) = a * 262144 + b * 4096 + c * 64.
Proof. intros. rewrite N.shiftl_mul_pow2. change (2 ^ (18 - 12)) with 64. apply (lor_add _ _ 12); change (2 ^ 12) with 4096; lia. Qed.
Lemma un4 a b c d : a < 64 -> b < 64 -> c < 64 -> d < 64 -> N.lor (a * 262144 + b * 4096 + c * 64) (N.shiftl d (18 - 18)) = a * 262144 + b * 4096 + c * 64 + d.
Proof. intros. rewrite N.shiftl_mul_pow2. change (2 ^ (18 - 18)) with 1. rewrite N.mul_1_r. apply (lor_add _ _ 6); change (2 ^ 6) with 64; lia. Qed.
Lemma unsixed_low s : low s -> Forall (fun c => c < 256) (unsixed s).
Proof.
  intros L. assert (G : forall n q, (length q <= n)%nat -> low q -> Forall (fun c => c < 256) (unsixed q)).
  { induction n as [|n IH]; intros q LN LQ; (destruct q as [|a [|b [|c [|d r]]]]; cbn in LN |- *; try lia; repeat (inversion LQ as [|? ? ? LQ']; subst; clear LQ; rename LQ' into LQ); repeat constructor; try lia).
    apply IH; [lia|exact LQ]. }
  now apply (G (length s)).
Qed.
Lemma unbase_ok : forall p pend size buf, bytes p -> low pend -> (length pend < 4)%nat -> (length buf + length (unsixed (pend ++ sextets p)) < size)%nat ->
  (do x <- unbase_loop size p (fst (state pend)) (snd (state pend)) buf; let '(save, nbits, buf) := x in do b <- unbase_rest size [16; 8; 0] save nbits buf; ended size b) = Ok (buf ++ unsixed (pend ++ sextets p)).
Proof.
  induction p as [|ch p IH]; intros pend size buf B LP L4 L.
  - cbn [sextets flat_map] in *. rewrite app_nil_r in *. cbn [unbase_loop obind]. destruct pend as [|a [|b [|c [|d r]]]]; cbn [state fst snd unsixed length] in *; cbn [unbase_rest].
    + change (8 <=? 0) with false. cbn [obind]. rewrite ended_ok by lia. now rewrite app_nil_r.
    + change (8 <=? 6) with false. cbn [obind]. rewrite ended_ok by lia. now rewrite app_nil_r.
    + change (8 <=? 12) with true. cbn iota. rewrite put_ok by lia. cbn [obind]. change (12 - 8) with 4. change (8 <=? 4) with false. cbn [obind]. rewrite ended_ok by (rewrite app_length; cbn; lia). rewrite shr. change (2 ^ 16) with 65536.
      inversion LP as [|? ? A LP2]; subst. inversion LP2 as [|? ? B2 _]; subst. do 2 f_equal. lists.
    + change (8 <=? 18) with true. cbn iota. rewrite put_ok by lia. cbn [obind]. change (18 - 8) with 10. change (8 <=? 10) with true. cbn iota. rewrite put_ok by (rewrite app_length; cbn; lia). cbn [obind]. change (10 - 8) with 2. change (8 <=? 2) with false. cbn [obind].
      rewrite ended_ok by (rewrite !app_length; cbn; lia). rewrite !shr. change (2 ^ 16) with 65536. change (2 ^ 8) with 256. rewrite <- app_assoc. cbn [app].
      inversion LP as [|? ? A LP2]; subst. inversion LP2 as [|? ? B2 LP3]; subst. inversion LP3 as [|? ? C _]; subst. do 2 f_equal. lists.
    + lia.
  - inversion B as [|? ? BC BP]; subst. destruct (lookup_ok ch BC) as (v & RV & PV). cbn [unbase_loop]. rewrite RV. cbn [obind]. unfold sextets in L |- *. cbn [flat_map] in L |- *. fold (sextets p) in L |- *.
    destruct (place ch alphabet 0) as [w|].
    + destruct PV as [<- LV]. replace (v =? 100) with false by (symmetry; apply N.eqb_neq; lia). change ([v] ++ sextets p) with (v :: sextets p) in *. 
      destruct pend as [|a [|b [|c [|d r]]]]; cbn [length] in L4; [| | | |lia]; cbn [state fst snd]; unfold low in LP; repeat match goal with H : Forall _ (_ :: _) |- _ => inversion H; subst; clear H end.
      * change (0 + 6 =? 24) with false. cbn iota. rewrite un1 by assumption. change (0 + 6) with 6. apply (IH [v]); [exact BP|repeat constructor; assumption|cbn; lia|exact L].
      * change (6 + 6 =? 24) with false. cbn iota. rewrite un2 by assumption. change (6 + 6) with 12. apply (IH [a; v]); [exact BP|repeat constructor; assumption|cbn; lia|exact L].
      * change (12 + 6 =? 24) with false. cbn iota. rewrite un3 by assumption. change (12 + 6) with 18. apply (IH [a; b; v]); [exact BP|repeat constructor; assumption|cbn; lia|exact L].
      * change (18 + 6 =? 24) with true. cbn iota. rewrite un4 by assumption. cbn [app unsixed length] in L |- *. rewrite puts_ok by (cbn; lia). cbn [obind]. specialize (IH [] size). cbn [state fst snd app] in IH. rewrite IH; [|exact BP|constructor|cbn; lia|rewrite app_length; cbn [length]; lia].
        rewrite <- app_assoc. cbn [app]. rewrite !shr. change (2 ^ 16) with 65536. change (2 ^ 8) with 256. do 2 f_equal. lists.
    + subst v. change (100 =? 100) with true. cbn iota. apply IH; assumption.
Qed.
Lemma sextets_length : forall p, (length (sextets p) <= length p)%nat.
Proof. induction p as [|c p IH]; [cbn; lia|]. unfold sextets in *. cbn [flat_map]. rewrite app_length. destruct (place c alphabet 0); cbn [length]; lia. Qed.
Lemma unsixed_length : forall s, (4 * length (unsixed s) <= 3 * length s)%nat.
Proof.
  intros s. assert (G : forall n q, (length q <= n)%nat -> (4 * length (unsixed q) <= 3 * length q)%nat).
  { induction n as [|n IH]; intros q LN; (destruct q as [|a [|b [|c [|d r]]]]; cbn [length unsixed] in *; try lia). specialize (IH r). lia. }
  now apply (G (length s)).
Qed.
Lemma decode_base64_ok p : bytes p -> fits (3 * length p + 3) = true -> decode_base64 p = Ok (unsixed (sextets p)).
Proof.
  intros B F. unfold decode_base64. rewrite (fits_le _ (3 * length p + 3)); [|pose proof (Nat.div_le_upper_bound (3 * length p) 4 (3 * length p) ltac:(lia) ltac:(lia)); lia|exact F].
  apply (unbase_ok p [] _ []); [exact B|constructor|cbn; lia|]. cbn [length app]. pose proof (unsixed_length (sextets p)). pose proof (sextets_length p). lia.
Qed.
Lemma sym_place : forallb (fun i => match place (sym (N.of_nat i)) alphabet 0 with Some w => w =? N.of_nat i | None => false end) (seq 0 64) = true.
Proof. vm_compute. reflexivity. Qed.
Lemma place_sym v : v < 64 -> place (sym v) alphabet 0 = Some v.
Proof.
  intros H. pose proof sym_place as T. rewrite forallb_forall in T. specialize (T (N.to_nat v)). rewrite N2Nat.id in T. assert (I : In (N.to_nat v) (seq 0 64)) by (apply in_seq; lia). specialize (T I).
  destruct (place (sym v) alphabet 0); [|discriminate T]. apply N.eqb_eq in T. now f_equal.
Qed.
Lemma sextets_sym v r : v < 64 -> sextets (sym v :: r) = v :: sextets r.
Proof. intros H. unfold sextets. cbn [flat_map]. now rewrite place_sym. Qed.
Lemma sextets_pad r : sextets (61 :: r) = sextets r.
Proof. reflexivity. Qed.
Lemma base64_inverse p : bytes p -> unsixed (sextets (base64 p)) = p.
Proof.
  pattern p. apply by_three; clear p.
  - reflexivity.
  - intros x B. inversion B as [|? ? X _]; subst. cbn [base64]. rewrite !sextets_sym by lia. rewrite !sextets_pad. cbn [sextets flat_map unsixed]. lists.
  - intros x y B. inversion B as [|? ? X B2]; subst. inversion B2 as [|? ? Y _]; subst. cbn [base64]. rewrite !sextets_sym by lia. rewrite !sextets_pad. cbn [sextets flat_map unsixed]. lists.
  - intros x y z r IH B. inversion B as [|? ? X B2]; subst. inversion B2 as [|? ? Y B3]; subst. inversion B3 as [|? ? Z B4]; subst. cbn [base64]. rewrite !sextets_sym by lia. cbn [unsixed]. rewrite IH by exact B4. lists.
Qed.
Lemma sym_byte v : v < 64 -> sym v < 256.
Proof.
  intros H. assert (T : forallb (fun i => sym (N.of_nat i) <? 256) (seq 0 64) = true) by (vm_compute; reflexivity). rewrite forallb_forall in T. specialize (T (N.to_nat v)). rewrite N2Nat.id in T. apply N.ltb_lt, T. apply in_seq. lia.
Qed.
Lemma base64_bytes p : bytes p -> bytes (base64 p).
Proof.
  pattern p. apply by_three; clear p.
  - constructor.
  - intros x B. inversion B as [|? ? X _]; subst. cbn [base64]. repeat constructor; apply sym_byte; lia.
  - intros x y B. inversion B as [|? ? X B2]; subst. inversion B2 as [|? ? Y _]; subst. cbn [base64]. repeat constructor; apply sym_byte; lia.
  - intros x y z r IH B. inversion B as [|? ? X B2]; subst. inversion B2 as [|? ? Y B3]; subst. inversion B3 as [|? ? Z B4]; subst. cbn [base64]. repeat (constructor; [apply sym_byte; lia|]). now apply IH.
Qed.
Lemma base64_round p : p <> [] -> bytes p -> fits (4 * length p + 11) = true -> exists e, encode_base64 p = Ok (Some e) /\ e = base64 p /\ decode_base64 e = Ok p.
Proof.
  intros N B F. exists (base64 p). split; [apply encode_base64_ok; try assumption; eapply fits_le; [|exact F]; lia|]. split; [reflexivity|].
  rewrite decode_base64_ok; [now rewrite base64_inverse|now apply base64_bytes|]. eapply fits_le; [|exact F]. rewrite base64_length. lia.
Qed.
