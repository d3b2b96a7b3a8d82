(** Proofs about the Json plugin: escaping. *)
From Verif Require Import Common NumModel JsonModel JsonSpec.
Local Open Scope nat_scope.

(** ** The buffer *)
Lemma built_exact : forall room w, (forall n, 0 <= n -> n <= room n)%Z ->
  built room (Z.of_nat (length w)) w = Ok w.
Proof.
  intros room w HR. unfold built. specialize (HR (Z.of_nat (length w)) ltac:(lia)).
  destruct (room (Z.of_nat (length w)) <? Z.of_nat (length w))%Z eqn:E; [lia|].
  destruct (Z.of_nat (length w) <? 0)%Z eqn:E2; [lia|].
  rewrite Nat2Z.id, Nat.sub_diag. cbn [repeat]. now rewrite app_nil_r, firstn_all.
Qed.
Lemma built_longer : forall room n w, (forall n, 0 <= n -> n <= room n)%Z -> length w <= n ->
  built room (Z.of_nat n) w = Ok (w ++ repeat 0%N (n - length w)).
Proof.
  intros room n w HR L. unfold built. specialize (HR (Z.of_nat n) ltac:(lia)).
  destruct (room (Z.of_nat n) <? Z.of_nat (length w))%Z eqn:E; [lia|].
  destruct (Z.of_nat n <? 0)%Z eqn:E2; [lia|].
  rewrite Nat2Z.id. rewrite firstn_all2; [reflexivity|]. rewrite app_length, repeat_length. lia.
Qed.
Lemma built_len : forall room n w t, built room n w = Ok t -> Z.of_nat (length t) = n.
Proof.
  intros room n w t. unfold built.
  destruct (room n <? Z.of_nat (length w))%Z eqn:E; [discriminate|].
  destruct (n <? 0)%Z eqn:E2; [discriminate|]. intros H; injection H as <-.
  rewrite firstn_length, app_length, repeat_length. lia.
Qed.

(** ** Escaping *)
Lemma filter_all_len : forall (f : N -> bool) s, length (filter f s) <= length s.
Proof. intros f s; induction s as [|c s IH]; cbn; [lia|]. destruct (f c); cbn; lia. Qed.
Lemma tag_len_cons : forall chars c s,
  tag_len chars (c :: s) = length (filter (fun x => N.eqb x c) chars) + tag_len chars s.
Proof.
  intros chars c s. unfold tag_len. induction chars as [|x xs IH]; [reflexivity|].
  cbn [fold_right filter]. rewrite IH. unfold count_byte. cbn [filter].
  destruct (N.eqb x c); cbn [length]; lia.
Qed.
Lemma tag_len_nil : forall chars, tag_len chars [] = 0.
Proof. intros chars. unfold tag_len. induction chars as [|x xs IH]; [reflexivity|]. cbn. exact IH. Qed.
Lemma esc_byte_in : forall chars c, In c chars ->
  esc_byte chars c = [cB; if is_control c then describe c else c].
Proof.
  induction chars as [|x xs IH]; intros c H; [destruct H|]. cbn [esc_byte].
  destruct (N.eqb_spec c x) as [->|E]; [reflexivity|]. apply IH. destruct H as [H|H]; [now symmetry in H|assumption].
Qed.
Lemma esc_byte_out : forall chars c, ~ In c chars -> esc_byte chars c = [c].
Proof.
  induction chars as [|x xs IH]; intros c H; [reflexivity|]. cbn [esc_byte].
  destruct (N.eqb_spec c x) as [->|E]; [elim H; now left|]. apply IH. intros F; apply H; now right.
Qed.
Lemma hits_in : forall chars c, In c chars -> 1 <= length (filter (fun x => N.eqb x c) chars).
Proof.
  induction chars as [|x xs IH]; intros c H; [destruct H|]. cbn [filter].
  destruct (N.eqb_spec x c) as [->|E]; [cbn; lia|]. apply IH. destruct H as [H|H]; [contradiction|assumption].
Qed.
Lemma hits_out : forall chars c, ~ In c chars -> length (filter (fun x => N.eqb x c) chars) = 0.
Proof.
  induction chars as [|x xs IH]; intros c H; [reflexivity|]. cbn [filter].
  destruct (N.eqb_spec x c) as [->|E]; [elim H; now left|]. apply IH. intros F; apply H; now right.
Qed.
Lemma hits_nodup : forall chars c, NoDup chars -> In c chars -> length (filter (fun x => N.eqb x c) chars) = 1.
Proof.
  induction chars as [|x xs IH]; intros c D H; [destruct H|]. inversion D as [|? ? N1 N2]; subst. cbn [filter].
  destruct (N.eqb_spec x c) as [->|E].
  - cbn [length]. now rewrite hits_out.
  - apply IH; [assumption|]. destruct H as [H|H]; [contradiction|assumption].
Qed.
Lemma esc_len_le : forall chars s, length (flat_map (esc_byte chars) s) <= length s + tag_len chars s.
Proof.
  intros chars; induction s as [|c s IH]; [cbn; lia|]. rewrite tag_len_cons. cbn [flat_map length]. rewrite app_length.
  destruct (in_dec N.eq_dec c chars) as [I|I].
  - rewrite esc_byte_in by assumption. apply hits_in in I. cbn [length]. lia.
  - rewrite esc_byte_out by assumption. cbn [length]. lia.
Qed.
Lemma esc_len : forall chars s, NoDup chars -> length (flat_map (esc_byte chars) s) = length s + tag_len chars s.
Proof.
  intros chars s D; induction s as [|c s IH]; [cbn; now rewrite tag_len_nil|]. rewrite tag_len_cons. cbn [flat_map length]. rewrite app_length.
  destruct (in_dec N.eq_dec c chars) as [I|I].
  - rewrite esc_byte_in by assumption. rewrite hits_nodup by assumption. cbn [length]. lia.
  - rewrite esc_byte_out, hits_out by assumption. cbn [length]. lia.
Qed.

Definition pair_letter (c : N) : N := if is_control c then describe c else c.
Lemma pair_letter_ok : forall c, pair_of c (pair_letter c) \/ (pair_letter c = c /\ forall x, ~ pair_of c x).
Proof.
  intros c. unfold pair_letter, is_control, describe, cTab, cCr, cNl, cBs.
  destruct (N.eqb_spec c 9) as [->|E1]; [left; constructor|].
  destruct (N.eqb_spec c 13) as [->|E2]; [left; constructor|].
  destruct (N.eqb_spec c 10) as [->|E3]; [left; constructor|].
  destruct (N.eqb_spec c 8) as [->|E4]; [left; constructor|]. cbn.
  destruct (N.eqb_spec c 34) as [->|E5]; [left; constructor|].
  destruct (N.eqb_spec c 92) as [->|E6]; [left; constructor|].
  destruct (N.eqb_spec c 12) as [->|E7]; [left; constructor|].
  right. split; [reflexivity|]. intros x H. inversion H; congruence.
Qed.
Lemma esc_escaped : forall chars s, escaped chars s (flat_map (esc_byte chars) s).
Proof.
  intros chars; induction s as [|c s IH]; [constructor|]. cbn [flat_map].
  destruct (in_dec N.eq_dec c chars) as [I|I].
  - rewrite esc_byte_in by assumption. change (if is_control c then describe c else c) with (pair_letter c).
    cbn [app]. constructor; [assumption|apply pair_letter_ok|assumption].
  - rewrite esc_byte_out by assumption. cbn [app]. now constructor.
Qed.
Lemma pair_of_fun : forall c d e, pair_of c d -> pair_of c e -> d = e.
Proof. intros c d e H G; inversion H; subst; inversion G; reflexivity. Qed.
Lemma escaped_fun : forall chars s e f, escaped chars s e -> escaped chars s f -> e = f.
Proof.
  intros chars s e f H; revert f; induction H as [|c s e I H IH|c d s e I P H IH]; intros f G.
  - now inversion G.
  - inversion G; subst; [f_equal; auto|contradiction].
  - inversion G as [|? ? ? I2|c0 d' s0 e' I2 P2 G2]; subst; [contradiction|]. f_equal. f_equal; [|auto].
    destruct P as [P|[-> P]], P2 as [P2|[-> P2]]; [eapply pair_of_fun; eassumption| | |reflexivity].
    + elim (P2 _ P). + elim (P _ P2).
Qed.

Lemma esc_none : forall s, flat_map (esc_byte []) s = s.
Proof. induction s as [|c s IH]; [reflexivity|]. change (flat_map (esc_byte []) (c :: s)) with (c :: flat_map (esc_byte []) s). now rewrite IH. Qed.
Lemma string_escape_ok : forall room chars s, (forall n, 0 <= n -> n <= room n)%Z -> NoDup chars ->
  exists e, string_escape room chars s = Ok e /\ escaped chars s e.
Proof.
  intros room chars s HR D. exists (flat_map (esc_byte chars) s). split; [|apply esc_escaped].
  unfold string_escape. destruct chars as [|x xs].
  - now rewrite esc_none.
  - rewrite <- esc_len by assumption. now apply built_exact.
Qed.
Lemma string_escape_safe : forall room chars s, (forall n, 0 <= n -> n <= room n)%Z ->
  exists e n, string_escape room chars s = Ok (e ++ repeat 0%N n) /\ escaped chars s e.
Proof.
  intros room chars s HR. exists (flat_map (esc_byte chars) s). unfold string_escape. destruct chars as [|x xs].
  - exists 0. split; [|apply esc_escaped]. cbn [repeat]. now rewrite app_nil_r, esc_none.
  - eexists. split; [|apply esc_escaped]. rewrite built_longer; [reflexivity|assumption|apply esc_len_le].
Qed.

(** ** Unescaping *)

(** [un_chars] has seven characters; the letter of each. *)
Definition letters : text := [34; 116; 98; 110; 114; 12; 92]%N.
Definition pairs (s : text) : nat := minus_len un_chars s.
Definition hit (d : N) : bool := existsb (N.eqb d) letters.

Lemma minus_len_sum : forall chars a b r,
  minus_len chars (a :: b :: r) =
  (if (a =? cB)%N then length (filter (fun x => (b =? describe x)%N) chars) else 0) + minus_len chars (b :: r).
Proof.
  intros chars a b r. unfold minus_len. induction chars as [|x xs IH]; [now destruct (a =? cB)%N|].
  cbn [fold_right filter]. rewrite IH. cbn [count_pairs].
  destruct (a =? cB)%N, (b =? describe x)%N; cbn [andb length]; lia.
Qed.
Lemma pairs_step : forall a b r, pairs (a :: b :: r) = (if (a =? 92)%N && hit b then 1 else 0) + pairs (b :: r).
Proof.
  intros a b r. unfold pairs. rewrite minus_len_sum. f_equal. unfold cB.
  destruct (a =? 92)%N; [|reflexivity]. cbn [andb]. unfold hit, un_chars, letters.
  cbn [filter existsb]. unfold describe, cQ, cTab, cBs, cNl, cCr, cFf, cB. cbn [N.eqb Pos.eqb].
  destruct (N.eqb_spec b 34); [subst; reflexivity|].
  destruct (N.eqb_spec b 116); [subst; reflexivity|].
  destruct (N.eqb_spec b 98); [subst; reflexivity|].
  destruct (N.eqb_spec b 110); [subst; reflexivity|].
  destruct (N.eqb_spec b 114); [subst; reflexivity|].
  destruct (N.eqb_spec b 12); [subst; reflexivity|].
  destruct (N.eqb_spec b 92); [subst; reflexivity|]. reflexivity.
Qed.
Lemma pairs_1 : forall a, pairs [a] = 0.
Proof. reflexivity. Qed.
Lemma pairs_nil : pairs [] = 0.
Proof. reflexivity. Qed.

Definition first_hit (s : text) : bool := match s with [] => false | c :: _ => hit c end.
Lemma pairs_cons : forall a s, pairs (a :: s) = (if (a =? 92)%N && first_hit s then 1 else 0) + pairs s.
Proof.
  intros a [|b r]; [cbn [first_hit]; rewrite andb_false_r; reflexivity|]. apply pairs_step.
Qed.

(** Bytes of a quoted text before decoding: raw bytes and pairs. *)
Inductive coded : text -> text -> nat -> Prop :=
| co_nil : coded [] [] 0
| co_raw c b t n : c <> 92%N -> coded b t n -> coded (c :: b) (c :: t) n
| co_pair c d b t n : pair_of c d -> coded b t n ->
    coded (92%N :: d :: b) (c :: t) (if (c =? 92)%N && first_hit b then S n else n).

Lemma un_raw : forall chars c r out done, c <> 92%N -> un_inner chars (c :: r) out done = (c :: r, out, done).
Proof.
  induction chars as [|x xs IH]; intros c r out done H; [reflexivity|]. cbn [un_inner].
  destruct r as [|b r]; [now apply IH|]. unfold cB at 1. rewrite (proj2 (N.eqb_neq _ _) H). cbn [andb]. now apply IH.
Qed.
Lemma un_step : forall x xs b r out done, un_inner (x :: xs) (92%N :: b :: r) out done =
  if (b =? describe x)%N then un_inner xs (b :: r) (out ++ [undescribe x (describe x)]) true
  else un_inner xs (92%N :: b :: r) out done.
Proof. reflexivity. Qed.
Lemma un_pair : forall c d r out, pair_of c d ->
  un_inner un_chars (92%N :: d :: r) out false = (d :: r, out ++ [c], true).
Proof.
  intros c d r out P. unfold un_chars.
  destruct P; rewrite !un_step;
  repeat match goal with |- context [(?a =? describe ?b)%N] =>
    let v := eval vm_compute in (a =? describe b)%N in change (a =? describe b)%N with v; cbv iota end;
  first [rewrite un_raw by discriminate; reflexivity | reflexivity].
Qed.
Lemma un_coded : forall b t n, coded b t n -> forall fuel out, length b <= fuel -> un_loop fuel un_chars b out = out ++ t.
Proof.
  intros b t n H; induction H as [|c b t n N1 H IH|c d b t n P H IH]; intros fuel out L.
  - destruct fuel; cbn; now rewrite app_nil_r.
  - destruct fuel as [|f]; [cbn in L; lia|]. cbn [un_loop]. rewrite un_raw by assumption.
    rewrite IH by (cbn in L; lia). now rewrite <- app_assoc.
  - destruct fuel as [|f]; [cbn in L; lia|]. cbn [un_loop]. rewrite (un_pair c) by assumption.
    rewrite IH by (cbn in L; lia). now rewrite <- app_assoc.
Qed.
Lemma coded_len : forall b t n, coded b t n -> length b = length t + (pairs b - n) /\ n <= pairs b.
Proof.
  intros b t n H; induction H as [|c b t n N1 H [IH1 IH2]|c d b t n P H [IH1 IH2]].
  - split; [reflexivity|cbn; lia].
  - rewrite pairs_cons. apply N.eqb_neq in N1. rewrite N1. cbn [andb length]. split; lia.
  - rewrite !pairs_cons. cbn [first_hit].
    assert (HD : hit d = true) by (destruct P; reflexivity). rewrite HD. cbn [N.eqb Pos.eqb andb length].
    assert (E : (d =? 92)%N = (c =? 92)%N) by (destruct P; reflexivity). rewrite E.
    destruct ((c =? 92)%N && first_hit b); split; lia.
Qed.
Lemma unescape_built : forall room b t n, coded b t n ->
  string_unescape room un_chars b = built room (Z.of_nat (length t) - Z.of_nat n) t.
Proof.
  intros room b t n H. unfold string_unescape, un_chars at 1. cbv match.
  rewrite (un_coded b t n H) by lia. cbn [app]. destruct (coded_len _ _ _ H) as [L1 L2].
  fold (pairs b). f_equal. lia.
Qed.
Lemma unescape_ok : forall room b t, (forall n, 0 <= n -> n <= room n)%Z -> coded b t 0 ->
  string_unescape room un_chars b = Ok t.
Proof. intros room b t HR H. rewrite (unescape_built _ _ _ _ H), Z.sub_0_r. now apply built_exact. Qed.
Lemma unescape_bad : forall room b t n, coded b t (S n) -> string_unescape room un_chars b <> Ok t.
Proof. intros room b t n H E. rewrite (unescape_built _ _ _ _ H) in E. apply built_len in E. lia. Qed.

(** Escaped texts *)
Fixpoint tangles (s : text) : nat :=
  match s with
  | a :: ((b :: _) as r) => (if (a =? 92)%N && (existsb (N.eqb b) [34; 92; 9; 10; 13; 8; 12; 116; 110; 114; 98])%N then 1 else 0) + tangles r
  | _ => 0
  end.
Lemma first_hit_esc : forall b r,
  first_hit (flat_map (esc_byte esc_chars) (b :: r)) = existsb (N.eqb b) [34; 92; 9; 10; 13; 8; 12; 116; 110; 114; 98]%N.
Proof.
  intros b r. cbn [flat_map].
  destruct (in_dec N.eq_dec b esc_chars) as [I|I].
  - rewrite esc_byte_in by assumption. cbn [app first_hit]. unfold esc_chars, cQ, cTab, cBs, cNl, cCr, cFf, cB in I. cbn [In] in I.
    repeat (destruct I as [<-|I]; [reflexivity|]). destruct I.
  - rewrite esc_byte_out by assumption. cbn [app first_hit]. unfold hit, letters. cbn [existsb].
    assert (Z1 : forall x, In x esc_chars -> (b =? x)%N = false) by (intros x Hx; apply N.eqb_neq; intros ->; contradiction).
    rewrite (Z1 34%N), (Z1 92%N), (Z1 9%N), (Z1 10%N), (Z1 13%N), (Z1 8%N), (Z1 12%N) by (cbn; tauto). cbn [orb].
    destruct (b =? 116)%N, (b =? 98)%N, (b =? 110)%N, (b =? 114)%N; reflexivity.
Qed.
Lemma esc_coded : forall s, coded (flat_map (esc_byte esc_chars) s) s (tangles s).
Proof.
  induction s as [|c s IH]; [constructor|]. cbn [flat_map].
  destruct (in_dec N.eq_dec c esc_chars) as [I|I].
  - rewrite esc_byte_in by assumption. cbn [app].
    replace (tangles (c :: s)) with (if (c =? 92)%N && first_hit (flat_map (esc_byte esc_chars) s) then S (tangles s) else tangles s).
    + apply co_pair; [|assumption]. unfold esc_chars, cQ, cTab, cBs, cNl, cCr, cFf, cB in I. cbn [In] in I.
      repeat (destruct I as [<-|I]; [constructor|]). destruct I.
    + destruct s as [|b r]; [cbn; now rewrite andb_false_r|]. rewrite first_hit_esc. cbn [tangles].
      destruct ((c =? 92)%N && _); reflexivity.
  - rewrite esc_byte_out by assumption. cbn [app].
    assert (N1 : c <> 92%N) by (intros ->; apply I; cbn; tauto).
    replace (tangles (c :: s)) with (tangles s); [now constructor|].
    apply N.eqb_neq in N1. destruct s as [|b r]; [reflexivity|]. cbn [tangles]. now rewrite N1.
Qed.
Lemma existsb_in : forall b l, existsb (N.eqb b) l = true <-> In b l.
Proof.
  intros b l. rewrite existsb_exists. split.
  - intros (x & H & E). apply N.eqb_eq in E. now subst.
  - intros H. exists b. now rewrite N.eqb_refl.
Qed.
Lemma tangles_entangled : forall s, tangles s <> 0 <-> entangled s.
Proof.
  intros s. split.
  - induction s as [|a s IH]; [cbn; congruence|]. destruct s as [|b r]; [cbn; congruence|].
    cbn [tangles]. destruct ((a =? 92)%N && _) eqn:E.
    + intros _. apply andb_true_iff in E as [E1 E2]. apply N.eqb_eq in E1 as ->. apply existsb_in in E2.
      exists [], b, r. now split.
    + intros H. destruct (IH H) as (u & c & v & -> & M). exists (a :: u), c, v. now split.
  - intros (u & c & v & -> & M). apply existsb_in in M. induction u as [|a u IH].
    + cbn [app tangles]. rewrite M. cbn. lia.
    + cbn [app]. destruct (u ++ 92%N :: c :: v) as [|b r] eqn:E; [now destruct u|]. change (tangles (a :: b :: r)) with ((if (a =? 92)%N && (existsb (N.eqb b) [34; 92; 9; 10; 13; 8; 12; 116; 110; 114; 98])%N then 1 else 0) + tangles (b :: r)). lia.
Qed.

Theorem round_trip : forall room s, (forall n, 0 <= n -> n <= room n)%Z ->
  exists e, string_escape room esc_chars s = Ok e /\
    (string_unescape room un_chars e = Ok s <-> ~ entangled s).
Proof.
  intros room s HR. exists (flat_map (esc_byte esc_chars) s). split.
  - destruct (string_escape_ok room esc_chars s HR) as (e & E & X).
    + repeat (constructor; [cbn; intuition discriminate|]). constructor.
    + rewrite E. f_equal. eapply escaped_fun; [eassumption|apply esc_escaped].
  - rewrite <- tangles_entangled. pose proof (esc_coded s) as C. destruct (tangles s) as [|n] eqn:T.
    + split; [congruence|]. intros _. now apply unescape_ok.
    + split; [|lia]. intros H. elim (unescape_bad _ _ _ _ C H).
Qed.
(** What comes out when a text is entangled: a beginning of the text, or an overrun. *)
Lemma round_trip_cut : forall room s e, (forall n, 0 <= n -> n <= room n)%Z ->
  string_escape room esc_chars s = Ok e ->
  string_unescape room un_chars e = UB \/ exists t, string_unescape room un_chars e = Ok t /\ t = firstn (length s - tangles s) s.
Proof.
  intros room s e HR E.
  assert (X : e = flat_map (esc_byte esc_chars) s).
  { destruct (string_escape_ok room esc_chars s HR) as (e' & E' & X).
    + repeat (constructor; [cbn; intuition discriminate|]). constructor.
    + rewrite E in E'. injection E' as <-. eapply escaped_fun; [eassumption|apply esc_escaped]. }
  subst e. rewrite (unescape_built _ _ _ _ (esc_coded s)). unfold built.
  destruct (room _ <? _)%Z; [now left|]. destruct (_ <? 0)%Z eqn:L; [now left|]. right. eexists; split; [reflexivity|].
  replace (Z.to_nat (Z.of_nat (length s) - Z.of_nat (tangles s))) with (length s - tangles s) by lia.
  replace (length s - tangles s - length s) with 0 by lia. cbn [repeat]. now rewrite app_nil_r.
Qed.
