(** Proofs about the Json plugin: the tokeniser. *)
From Verif Require Import Common NumModel JsonModel JsonSpec JsonProofs.
Local Open Scope nat_scope.

(** ** Tokens *)
Lemma upd_len : forall l i f, length (upd_tok l i f) = length l.
Proof. induction l as [|t l IH]; intros [|i] f; cbn; auto. Qed.
Lemma upd_nth : forall l i f j, nth_error (upd_tok l i f) j =
  if i =? j then option_map f (nth_error l j) else nth_error l j.
Proof.
  induction l as [|t l IH]; intros i f j.
  - cbn. destruct i, j; cbn; try reflexivity; now destruct (_ =? _).
  - destruct i as [|i], j as [|j]; cbn [upd_tok nth_error]; try reflexivity. rewrite IH. reflexivity.
Qed.
Lemma upd_app1 : forall l r i f, i < length l -> upd_tok (l ++ r) i f = upd_tok l i f ++ r.
Proof.
  induction l as [|t l IH]; intros r i f H; [cbn in H; lia|]. destruct i as [|i]; [reflexivity|].
  cbn. f_equal. apply IH. cbn in H; lia.
Qed.
Lemma upd_app2 : forall l r i f, upd_tok (l ++ r) (length l + i) f = l ++ upd_tok r i f.
Proof. induction l as [|t l IH]; intros r i f; [reflexivity|]. cbn. f_equal. apply IH. Qed.
Lemma upd_app2_0 : forall l t r f, upd_tok (l ++ t :: r) (length l) f = l ++ f t :: r.
Proof. intros l t r f. rewrite <- (Nat.add_0_r (length l)), upd_app2. reflexivity. Qed.
Lemma upd_upd : forall l i f g, upd_tok (upd_tok l i f) i g = upd_tok l i (fun t => g (f t)).
Proof. induction l as [|t l IH]; intros [|i] f g; cbn; auto. f_equal. apply IH. Qed.
Lemma upd_ext : forall l i f g, (forall t, f t = g t) -> upd_tok l i f = upd_tok l i g.
Proof. induction l as [|t l IH]; intros [|i] f g H; cbn; auto; f_equal; auto. Qed.

(** Parents come before their children. *)
Definition wf (l : list tok) : Prop := forall i t p, nth_error l i = Some t -> k_parent t = Some p -> p < i.
Definition super_in (l : list tok) (s : option nat) : Prop := match s with None => True | Some i => i < length l end.
Definition keeps (f : tok -> tok) : Prop := forall t, k_parent (f t) = k_parent t.
Lemma wf_nil : wf [].
Proof. intros i t p H. destruct i; discriminate. Qed.
Lemma wf_upd : forall l i f, keeps f -> wf l -> wf (upd_tok l i f).
Proof.
  intros l i f K W j t p H P. rewrite upd_nth in H. destruct (i =? j).
  - destruct (nth_error l j) as [u|] eqn:E; [|discriminate]. cbn in H. injection H as <-. rewrite K in P. eapply W; eassumption.
  - eapply W; eassumption.
Qed.
Lemma keeps_size : keeps add_size. Proof. intros t; reflexivity. Qed.
Lemma keeps_end : forall e, keeps (set_end e). Proof. intros e t; reflexivity. Qed.
Lemma nth_snoc : forall (l : list tok) x j, nth_error (l ++ [x]) j =
  if j <? length l then nth_error l j else if j =? length l then Some x else None.
Proof.
  intros l x j. destruct (Nat.ltb_spec j (length l)).
  - now apply nth_error_app1.
  - rewrite nth_error_app2 by assumption. destruct (Nat.eqb_spec j (length l)) as [->|N1].
    + now rewrite Nat.sub_diag.
    + destruct (j - length l) eqn:E; [lia|]. cbn. now destruct n.
Qed.
Lemma wf_snoc : forall l x, wf l -> super_in l (k_parent x) -> wf (l ++ [x]).
Proof.
  intros l x W S j t p H P. rewrite nth_snoc in H. destruct (j <? length l); [eapply W; eassumption|].
  destruct (Nat.eqb_spec j (length l)) as [->|N1]; [|discriminate]. injection H as <-. rewrite P in S. exact S.
Qed.
Lemma super_in_more : forall l l' s, length l <= length l' -> super_in l s -> super_in l' s.
Proof. intros l l' [i|] L H; cbn in *; [lia|exact I]. Qed.

Definition bumped (l : list tok) (s : option nat) : list tok := match s with None => l | Some i => upd_tok l i add_size end.
Lemma bump_in : forall l s, super_in l s -> bump l s = Some (bumped l s).
Proof. intros l [i|] H; [|reflexivity]. unfold bump, super_in in *. now rewrite (proj2 (Nat.ltb_lt _ _) H). Qed.
Lemma bumped_len : forall l s, length (bumped l s) = length l.
Proof. intros l [i|]; [apply upd_len|reflexivity]. Qed.
Lemma bumped_wf : forall l s, wf l -> wf (bumped l s).
Proof. intros l [i|] W; [now apply wf_upd; [apply keeps_size|]|assumption]. Qed.
Lemma bumped_app : forall l r s, super_in l s -> bumped (l ++ r) s = bumped l s ++ r.
Proof. intros l r [i|] H; [now apply upd_app1|reflexivity]. Qed.

(** The walk to the open token. *)
Lemma close_ok : forall fuel l i ty pos s, wf l -> i < length l -> i < fuel ->
  match close_loop fuel l i ty pos s with
  | None => False
  | Some CInval => True
  | Some (Closed l' s') => length l' = length l /\ wf l' /\ (super_in l s -> super_in l s')
  end.
Proof.
  induction fuel as [|f IH]; intros l i ty pos s W L F; [lia|]. cbn [close_loop].
  destruct (nth_error l i) as [t|] eqn:E; [|apply nth_error_None in E; lia].
  destruct (k_end t) as [e|].
  - destruct (k_parent t) as [p|] eqn:P.
    + pose proof (W _ _ _ E P). apply IH; [assumption|lia|lia].
    + destruct (_ || _); [exact I|]. auto.
  - destruct (jtype_eqb (k_type t) ty); [|exact I]. split; [apply upd_len|]. split; [apply wf_upd; [apply keeps_end|assumption]|].
    intros _. destruct (k_parent t) as [p|] eqn:P; [|exact I]. pose proof (W _ _ _ E P). cbn. lia.
Qed.

(** ** The scanners *)
Lemma scan_prim_len : forall rest pos p r, scan_prim rest pos = inl (p, r) -> p + length r = pos + length rest.
Proof.
  induction rest as [|c rest IH]; intros pos p r; cbn [scan_prim]; [discriminate|].
  destruct (c =? 0)%N; [discriminate|]. destruct (ends_prim c); [intros H; injection H as <- <-; reflexivity|].
  destruct (_ || _); [discriminate|]. intros H. apply IH in H. cbn [length]. lia.
Qed.
Lemma starts_not_end : forall c, starts_prim c = true -> ends_prim c = false.
Proof.
  intros c. unfold starts_prim, ends_prim, blank. intros H.
  destruct (N.eqb_spec c 9) as [->|]; [discriminate|].
  destruct (N.eqb_spec c 13) as [->|]; [discriminate|].
  destruct (N.eqb_spec c 10) as [->|]; [discriminate|].
  destruct (N.eqb_spec c 32) as [->|]; [discriminate|].
  destruct (N.eqb_spec c 44) as [->|]; [discriminate|].
  destruct (N.eqb_spec c 93) as [->|]; [discriminate|].
  destruct (N.eqb_spec c 125) as [->|]; [discriminate|]. reflexivity.
Qed.
Lemma scan_prim_pos : forall c rest pos p r, starts_prim c = true -> scan_prim (c :: rest) pos = inl (p, r) -> length r <= length rest.
Proof.
  intros c rest pos p r S. cbn [scan_prim]. destruct (c =? 0)%N; [discriminate|]. rewrite starts_not_end by assumption.
  destruct (_ || _); [discriminate|]. intros H.
  assert (G : forall rest pos p r, scan_prim rest pos = inl (p, r) -> length r <= length rest).
  { clear. induction rest as [|c rest IH]; intros pos p r; cbn [scan_prim]; [discriminate|].
    destruct (c =? 0)%N; [discriminate|]. destruct (ends_prim c); [intros H; injection H as <- <-; reflexivity|].
    destruct (_ || _); [discriminate|]. intros H. apply IH in H. cbn [length]. lia. }
  eauto.
Qed.
Lemma scan_string_len : forall rest m pos p r, scan_string m rest pos = inl (p, r) -> p + S (length r) = pos + length rest.
Proof.
  induction rest as [|c rest IH]; intros m pos p r; cbn [scan_string]; [discriminate|].
  assert (Step : forall m', scan_string m' rest (S pos) = inl (p, r) -> p + S (length r) = pos + length (c :: rest)).
  { intros m' H. apply IH in H. cbn [length]. lia. }
  assert (Norm : (if (c =? 0)%N then inr EPart else if (c =? cQ)%N then inl (pos, rest)
     else if (c =? cB)%N && match rest with [] => false | _ => true end then scan_string SEsc rest (S pos)
     else scan_string SNormal rest (S pos)) = inl (p, r) -> p + S (length r) = pos + length (c :: rest)).
  { destruct (c =? 0)%N; [discriminate|]. destruct (c =? cQ)%N; [intros H; injection H as <- <-; reflexivity|].
    destruct (_ && _); apply Step. }
  destruct m as [| |[|n]]; try exact Norm.
  - destruct (allowed c); [apply Step|]. destruct (c =? 117)%N; [apply Step|discriminate].
  - destruct (c =? 0)%N; [discriminate|]. destruct (is_hex c); [apply Step|discriminate].
Qed.

(** ** The two passes agree *)
Definition agree (s : nat) (base count : nat) (r : jres) : Prop :=
  match r with
  | JBad => False
  | JFail e l' => e <> ENomem /\ length l' <= base + (s - count)
  | JDone n l' => n = s /\ length l' = base + (s - count)
  end.
Lemma agree_trans : forall s b c b' c' r, c <= c' <= s -> b' + c = b + c' -> agree s b' c' r -> agree s b c r.
Proof. intros s b c b' c' [n l|e l|] H1 H2; cbn; [intros [-> H]; split; [reflexivity|lia]|intros [H3 H]; split; [assumption|lia]|auto]. Qed.

Lemma count_mono : forall fuel rest pos count s l, jsmn_count fuel rest pos count = JDone s l -> count <= s.
Proof.
  induction fuel as [|f IH]; intros rest pos count s l; cbn [jsmn_count]; [discriminate|].
  destruct rest as [|c r]; [intros H; injection H as <- _; lia|].
  destruct (c =? 0)%N; [intros H; injection H as <- _; lia|].
  destruct (_ || _); [intros H; apply IH in H; lia|].
  destruct (_ || _); [intros H; apply IH in H; lia|].
  destruct (c =? cQ)%N.
  { destruct (scan_string _ _ _) as [[p r']|e]; [intros H; apply IH in H; lia|discriminate]. }
  destruct (_ || _); [intros H; apply IH in H; lia|].
  destruct (starts_prim c); [|discriminate].
  destruct (scan_prim _ _) as [[p r']|e]; [intros H; apply IH in H; lia|discriminate].
Qed.
Lemma scan_string_short : forall rest m pos p r, scan_string m rest pos = inl (p, r) -> length r < length rest.
Proof.
  induction rest as [|c rest IH]; intros m pos p r; cbn [scan_string]; [discriminate|].
  assert (Step : forall m', scan_string m' rest (S pos) = inl (p, r) -> length r < length (c :: rest)).
  { intros m' H. apply IH in H. cbn [length]. lia. }
  assert (Norm : (if (c =? 0)%N then inr EPart else if (c =? cQ)%N then inl (pos, rest)
     else if (c =? cB)%N && match rest with [] => false | _ => true end then scan_string SEsc rest (S pos)
     else scan_string SNormal rest (S pos)) = inl (p, r) -> length r < length (c :: rest)).
  { destruct (c =? 0)%N; [discriminate|]. destruct (c =? cQ)%N; [intros H; injection H as <- <-; cbn; lia|].
    destruct (_ && _); apply Step. }
  destruct m as [| |[|n]]; try exact Norm.
  - destruct (allowed c); [apply Step|]. destruct (c =? 117)%N; [apply Step|discriminate].
  - destruct (c =? 0)%N; [discriminate|]. destruct (is_hex c); [apply Step|discriminate].
Qed.
Lemma count_total : forall fuel rest pos count, length rest < fuel -> jsmn_count fuel rest pos count <> JBad.
Proof.
  induction fuel as [|f IH]; intros rest pos count L; [lia|]. cbn [jsmn_count].
  destruct rest as [|c r]; [discriminate|]. cbn [length] in L.
  destruct (c =? 0)%N; [discriminate|].
  destruct (_ || _); [apply IH; lia|].
  destruct (_ || _); [apply IH; lia|].
  destruct (c =? cQ)%N.
  { destruct (scan_string _ _ _) as [[p r']|e] eqn:E; [|discriminate]. apply scan_string_short in E. apply IH. lia. }
  destruct (_ || _); [apply IH; lia|].
  destruct (starts_prim c) eqn:SP; [|discriminate].
  destruct (scan_prim _ _) as [[p r']|e] eqn:E; [|discriminate]. apply scan_prim_pos in E; [|assumption]. apply IH. lia.
Qed.

Lemma lockstep : forall fuel rest pos count super l s l0, length rest < fuel -> wf l -> super_in l super ->
  jsmn_count fuel rest pos count = JDone s l0 ->
  forall cap, length l + (s - count) <= cap ->
  agree s (length l) count (jsmn_loop fuel cap rest pos super l count).
Proof.
  induction fuel as [|f IH]; intros rest pos count super l s l0 L W SI C cap CAP; [lia|].
  pose proof (count_mono _ _ _ _ _ _ C) as CM.
  cbn [jsmn_count] in C. cbn [jsmn_loop].
  assert (Fin : JDone count [] = JDone s l0 -> agree s (length l) count (if existsb is_open l then JFail EPart l else JDone count l)).
  { intros H; injection H as <- _. destruct (existsb is_open l); cbn; split; (congruence || lia). }
  destruct rest as [|c r]; [apply Fin; assumption|]. cbn [length] in L.
  destruct (c =? 0)%N; [apply Fin; assumption|].
  assert (Full : forall n, jsmn_count f n = jsmn_count f n) by reflexivity. clear Full.
  destruct ((c =? 123) || (c =? 91))%N.
  { pose proof (count_mono _ _ _ _ _ _ C). destruct (Nat.leb_spec cap (length l)); [lia|].
    set (t := mkTok (if (c =? 123)%N then TObject else TArray) pos None 0 super).
    rewrite bump_in by (eapply super_in_more; [|exact SI]; rewrite app_length; lia).
    apply (agree_trans s (length l) count (length (bumped (l ++ [t]) super)) (S count)).
    - lia.
    - rewrite bumped_len, app_length. cbn. lia.
    - apply (IH _ _ _ _ _ _ l0); [lia| | |exact C|].
      + apply bumped_wf, wf_snoc; assumption.
      + cbn. rewrite bumped_len, app_length. cbn. lia.
      + rewrite bumped_len, app_length. cbn. lia. }
  destruct ((c =? 125) || (c =? 93))%N.
  { destruct l as [|t0 l'] eqn:EL; [cbn; split; [congruence|lia]|]. assert (LL : length l - 1 < length l) by (rewrite EL; cbn; lia).
    rewrite <- EL in *. clear EL t0 l'.
    pose proof (close_ok (length l) l (length l - 1) (if (c =? 125)%N then TObject else TArray) pos super W LL LL) as K.
    destruct (close_loop _ _ _ _ _ _) as [[l' s'|]|]; [|cbn; split; [congruence|lia]|destruct K].
    destruct K as (K1 & K2 & K3). rewrite <- K1. apply (IH _ _ _ _ _ _ l0); [lia|assumption| |exact C|lia].
    eapply super_in_more; [|apply K3, SI]. lia. }
  destruct (c =? cQ)%N.
  { destruct (scan_string _ _ _) as [[p r']|e] eqn:E; [|discriminate]. apply scan_string_short in E.
    pose proof (count_mono _ _ _ _ _ _ C). destruct (Nat.leb_spec cap (length l)); [lia|].
    set (t := mkTok TString (S pos) (Some p) 0 super).
    rewrite bump_in by (eapply super_in_more; [|exact SI]; rewrite app_length; lia).
    apply (agree_trans s (length l) count (length (bumped (l ++ [t]) super)) (S count)).
    - lia.
    - rewrite bumped_len, app_length. cbn. lia.
    - apply (IH _ _ _ _ _ _ l0); [lia| | |exact C|].
      + apply bumped_wf, wf_snoc; assumption.
      + eapply super_in_more; [|exact SI]. rewrite bumped_len, app_length. lia.
      + rewrite bumped_len, app_length. cbn. lia. }
  destruct (blank c); [cbn [orb] in C; apply (IH _ _ _ _ _ _ l0); [lia|assumption|assumption|exact C|assumption]|].
  cbn [orb] in C.
  destruct (c =? 58)%N.
  { cbn [orb] in C. apply (IH _ _ _ _ _ _ l0); [lia|assumption| |exact C|assumption]. destruct l; cbn; [exact I|lia]. }
  destruct (c =? 44)%N.
  { cbn [orb] in C. destruct super as [i|].
    - destruct (nth_error l i) as [t|] eqn:E; [|apply nth_error_None in E; cbn in SI; lia].
      assert (SP : super_in l (k_parent t)).
      { destruct (k_parent t) as [p|] eqn:P; [|exact I]. pose proof (W _ _ _ E P). cbn in *. lia. }
      destruct (k_type t); apply (IH _ _ _ _ _ _ l0); first [lia|assumption|exact C].
    - apply (IH _ _ _ _ _ _ l0); first [lia|assumption|exact C]. }
  cbn [orb] in C. destruct (starts_prim c) eqn:SP; [|discriminate].
  destruct (scan_prim (c :: r) pos) as [[p r']|e] eqn:E; [|discriminate]. apply scan_prim_pos in E; [|assumption].
  assert (PR : exists b, prim_refused l super = Some b).
  { unfold prim_refused. destruct super as [i|]; [|eauto]. destruct (nth_error l i) as [t|] eqn:E2; [eauto|].
    apply nth_error_None in E2; cbn in SI; lia. }
  destruct PR as (b & ->). destruct b; [cbn; split; [congruence|lia]|].
  pose proof (count_mono _ _ _ _ _ _ C). destruct (Nat.leb_spec cap (length l)); [lia|].
  set (t := mkTok TPrim pos (Some p) 0 super).
  rewrite bump_in by (eapply super_in_more; [|exact SI]; rewrite app_length; lia).
  apply (agree_trans s (length l) count (length (bumped (l ++ [t]) super)) (S count)).
  - lia.
  - rewrite bumped_len, app_length. cbn. lia.
  - apply (IH _ _ _ _ _ _ l0); [lia| | |exact C|].
    + apply bumped_wf, wf_snoc; assumption.
    + eapply super_in_more; [|exact SI]. rewrite bumped_len, app_length. lia.
    + rewrite bumped_len, app_length. cbn. lia.
Qed.

(** The tokeniser as used by [Json parse:], for every text. *)
Theorem tokeniser : forall js,
  (exists e, jsmn_count (S (length js)) js 0 0 = JFail e []) \/
  exists s l0, jsmn_count (S (length js)) js 0 0 = JDone s l0 /\
    ((exists l, jsmn_loop (S (length js)) s js 0 None [] 0 = JDone s l /\ length l = s) \/
     (exists e l, jsmn_loop (S (length js)) s js 0 None [] 0 = JFail e l /\ e <> ENomem /\ length l <= s)).
Proof.
  intros js. destruct (jsmn_count (S (length js)) js 0 0) as [s l0|e l|] eqn:C.
  - right. exists s, l0. split; [reflexivity|].
    pose proof (lockstep (S (length js)) js 0 0 None [] s l0 ltac:(lia) wf_nil I C s ltac:(cbn; lia)) as A.
    destruct (jsmn_loop _ _ _ _ _ _ _) as [n l|e l|]; cbn in A; [|right; exists e, l; repeat split; (tauto || lia)|destruct A].
    left. destruct A as [-> A]. exists l. split; [reflexivity|lia].
  - left. exists e. f_equal.
    assert (G : forall fuel rest pos count e l, jsmn_count fuel rest pos count = JFail e l -> l = []).
    { clear. induction fuel as [|f IH]; intros rest pos count e l; cbn [jsmn_count]; [discriminate|].
      destruct rest as [|c r]; [discriminate|]. destruct (c =? 0)%N; [discriminate|].
      destruct (_ || _); [apply IH|]. destruct (_ || _); [apply IH|]. destruct (c =? cQ)%N.
      { destruct (scan_string _ _ _) as [[p r']|x]; [apply IH|]. intros H; injection H as _ <-; reflexivity. }
      destruct (_ || _); [apply IH|]. destruct (starts_prim c); [|intros H; injection H as _ <-; reflexivity].
      destruct (scan_prim _ _) as [[p r']|x]; [apply IH|]. intros H; injection H as _ <-; reflexivity. }
    eapply G; eassumption.
  - elim (count_total (S (length js)) js 0 0); [lia|assumption].
Qed.
