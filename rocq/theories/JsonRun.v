(** Proofs about the Json plugin: texts of the language are read as the values they denote. *)
From Verif Require Import Common NumModel JsonModel JsonSpec JsonProofs JsonTok TextProofs.
Local Open Scope nat_scope.

(** ** Running without counting steps *)
Lemma loop_fuel : forall f1 f2 cap rest pos s l n, length rest < f1 -> length rest < f2 ->
  jsmn_loop f1 cap rest pos s l n = jsmn_loop f2 cap rest pos s l n.
Proof.
  induction f1 as [|f1 IH]; intros [|f2] cap rest pos s l n L1 L2; [lia|lia|lia|]. cbn [jsmn_loop].
  destruct rest as [|c r]; [reflexivity|]. cbn [length] in L1, L2.
  destruct (c =? 0)%N; [reflexivity|].
  destruct (_ || _).
  { destruct (cap <=? length l); [reflexivity|]. destruct (bump _ _); [|reflexivity]. apply IH; lia. }
  destruct (_ || _).
  { destruct l; [reflexivity|]. destruct (close_loop _ _ _ _ _ _) as [[l' s'|]|]; [|reflexivity|reflexivity]. apply IH; lia. }
  destruct (c =? cQ)%N.
  { destruct (scan_string _ _ _) as [[p r']|e] eqn:E; [|reflexivity]. apply scan_string_short in E.
    destruct (cap <=? length l); [reflexivity|]. destruct (bump _ _); [|reflexivity]. apply IH; lia. }
  destruct (blank c); [apply IH; lia|].
  destruct (c =? 58)%N; [apply IH; lia|].
  destruct (c =? 44)%N.
  { destruct s as [i|]; [|apply IH; lia]. destruct (nth_error l i) as [t|]; [|reflexivity]. destruct (k_type t); apply IH; lia. }
  destruct (starts_prim c) eqn:SP; [|reflexivity].
  destruct (prim_refused l s) as [[|]|]; [reflexivity| |reflexivity].
  destruct (scan_prim _ _) as [[p r']|e] eqn:E; [|reflexivity]. apply scan_prim_pos in E; [|assumption].
  destruct (cap <=? length l); [reflexivity|]. destruct (bump _ _); [|reflexivity]. apply IH; lia.
Qed.
Lemma count_fuel : forall f1 f2 rest pos n, length rest < f1 -> length rest < f2 ->
  jsmn_count f1 rest pos n = jsmn_count f2 rest pos n.
Proof.
  induction f1 as [|f1 IH]; intros [|f2] rest pos n L1 L2; [lia|lia|lia|]. cbn [jsmn_count].
  destruct rest as [|c r]; [reflexivity|]. cbn [length] in L1, L2.
  destruct (c =? 0)%N; [reflexivity|].
  destruct (_ || _); [apply IH; lia|].
  destruct (_ || _); [apply IH; lia|].
  destruct (c =? cQ)%N.
  { destruct (scan_string _ _ _) as [[p r']|e] eqn:E; [|reflexivity]. apply scan_string_short in E. apply IH; lia. }
  destruct (_ || _); [apply IH; lia|].
  destruct (starts_prim c) eqn:SP; [|reflexivity].
  destruct (scan_prim _ _) as [[p r']|e] eqn:E; [|reflexivity]. apply scan_prim_pos in E; [|assumption]. apply IH; lia.
Qed.
Definition lrun cap rest pos s l n := jsmn_loop (S (length rest)) cap rest pos s l n.
Definition crun rest pos n := jsmn_count (S (length rest)) rest pos n.

Lemma lrun_blank : forall cap c r pos s l n, In c [9; 10; 13; 32]%N ->
  lrun cap (c :: r) pos s l n = lrun cap r (S pos) s l n.
Proof. intros cap c r pos s l n H. unfold lrun. cbn [In] in H. repeat (destruct H as [<-|H]; [reflexivity|]). destruct H. Qed.
Lemma crun_blank : forall c r pos n, In c [9; 10; 13; 32]%N -> crun (c :: r) pos n = crun r (S pos) n.
Proof. intros c r pos n H. unfold crun. cbn [In] in H. repeat (destruct H as [<-|H]; [reflexivity|]). destruct H. Qed.
Lemma lrun_blanks : forall cap w r pos s l n, blanks w -> lrun cap (w ++ r) pos s l n = lrun cap r (pos + length w) s l n.
Proof.
  intros cap w r pos s l n H; revert pos; induction H as [|c w Hc H IH]; intros pos; [now rewrite Nat.add_0_r|].
  cbn [app length]. rewrite lrun_blank by assumption. rewrite IH. f_equal. lia.
Qed.
Lemma crun_blanks : forall w r pos n, blanks w -> crun (w ++ r) pos n = crun r (pos + length w) n.
Proof.
  intros w r pos n H; revert pos; induction H as [|c w Hc H IH]; intros pos; [now rewrite Nat.add_0_r|].
  cbn [app length]. rewrite crun_blank by assumption. rewrite IH. f_equal. lia.
Qed.
Lemma super_snoc : forall l (t : tok) s, super_in l s -> super_in (l ++ [t]) s.
Proof. intros l t s H. eapply super_in_more; [|exact H]. rewrite app_length. lia. Qed.
Lemma lrun_open : forall cap (b : bool) r pos s l n, super_in l s -> length l < cap ->
  lrun cap ((if b then 123 else 91)%N :: r) pos s l n =
  lrun cap r (S pos) (Some (length l)) (bumped l s ++ [mkTok (if b then TObject else TArray) pos None 0 s]) (S n).
Proof.
  intros cap b r pos s l n SI L. unfold lrun. cbn [length]. remember (S (length r)) as f eqn:Ef.
  destruct b; cbn [jsmn_loop N.eqb Pos.eqb orb]; (destruct (Nat.leb_spec cap (length l)); [lia|]);
  (rewrite bump_in by (now apply super_snoc)); now rewrite bumped_app by assumption.
Qed.
Lemma crun_open : forall (b : bool) r pos n, crun ((if b then 123 else 91)%N :: r) pos n = crun r (S pos) (S n).
Proof. intros [|] r pos n; reflexivity. Qed.
Lemma crun_close : forall (b : bool) r pos n, crun ((if b then 125 else 93)%N :: r) pos n = crun r (S pos) n.
Proof. intros [|] r pos n; reflexivity. Qed.
Lemma lrun_string : forall cap r pos s l n p r', super_in l s -> length l < cap ->
  scan_string SNormal r (S pos) = inl (p, r') ->
  lrun cap (34%N :: r) pos s l n = lrun cap r' (S p) s (bumped l s ++ [mkTok TString (S pos) (Some p) 0 s]) (S n).
Proof.
  intros cap r pos s l n p r' SI L E. unfold lrun. cbn [length]. remember (S (length r)) as f eqn:Ef. remember (S (length r')) as g eqn:Eg.
  cbn [jsmn_loop N.eqb Pos.eqb orb]. unfold cQ. cbn [N.eqb Pos.eqb]. rewrite E. destruct (Nat.leb_spec cap (length l)); [lia|].
  rewrite bump_in by (now apply super_snoc). rewrite bumped_app by assumption.
  apply scan_string_short in E. apply loop_fuel; lia.
Qed.
Lemma crun_string : forall r pos n p r', scan_string SNormal r (S pos) = inl (p, r') ->
  crun (34%N :: r) pos n = crun r' (S p) (S n).
Proof.
  intros r pos n p r' E. unfold crun. cbn [length]. remember (S (length r)) as f eqn:Ef. remember (S (length r')) as g eqn:Eg.
  cbn [jsmn_count N.eqb Pos.eqb orb]. unfold cQ. cbn [N.eqb Pos.eqb]. rewrite E.
  apply scan_string_short in E. apply count_fuel; lia.
Qed.
Lemma lrun_colon : forall cap r pos s l n, l <> [] ->
  lrun cap (58%N :: r) pos s l n = lrun cap r (S pos) (Some (length l - 1)) l n.
Proof. intros cap r pos s l n H. unfold lrun. destruct l; [congruence|]. reflexivity. Qed.
Lemma crun_skip : forall c r pos n, In c [58; 44]%N -> crun (c :: r) pos n = crun r (S pos) n.
Proof. intros c r pos n H. unfold crun. cbn [In] in H. repeat (destruct H as [<-|H]; [reflexivity|]). destruct H. Qed.
Lemma lrun_comma : forall cap r pos i l n t, nth_error l i = Some t ->
  lrun cap (44%N :: r) pos (Some i) l n =
  lrun cap r (S pos) (match k_type t with TArray | TObject => Some i | _ => k_parent t end) l n.
Proof.
  intros cap r pos i l n t E. unfold lrun. cbn [length]. remember (S (length r)) as f eqn:Ef.
  cbn [jsmn_loop N.eqb Pos.eqb orb]. unfold cQ, blank. cbn [N.eqb Pos.eqb orb]. rewrite E. destruct (k_type t); reflexivity.
Qed.
Lemma lrun_prim : forall cap c r pos s l n p r', starts_prim c = true -> super_in l s -> length l < cap ->
  prim_refused l s = Some false -> scan_prim (c :: r) pos = inl (p, r') ->
  lrun cap (c :: r) pos s l n = lrun cap r' p s (bumped l s ++ [mkTok TPrim pos (Some p) 0 s]) (S n).
Proof.
  intros cap c r pos s l n p r' SP SI L PR E. unfold lrun. cbn [length]. remember (S (length r)) as f eqn:Ef. remember (S (length r')) as g eqn:Eg.
  cbn [jsmn_loop].
  assert (Ne : forall x, starts_prim x = false -> (c =? x)%N = false).
  { intros x Hx. apply N.eqb_neq. intros ->. congruence. }
  unfold blank, cQ. rewrite !Ne by reflexivity. cbn [orb]. rewrite SP, PR, E. destruct (Nat.leb_spec cap (length l)); [lia|].
  rewrite bump_in by (now apply super_snoc). rewrite bumped_app by assumption.
  apply scan_prim_pos in E; [|assumption]. apply loop_fuel; lia.
Qed.
Lemma crun_prim : forall c r pos n p r', starts_prim c = true -> scan_prim (c :: r) pos = inl (p, r') ->
  crun (c :: r) pos n = crun r' p (S n).
Proof.
  intros c r pos n p r' SP E. unfold crun. cbn [length]. remember (S (length r)) as f eqn:Ef. remember (S (length r')) as g eqn:Eg.
  cbn [jsmn_count].
  assert (Ne : forall x, starts_prim x = false -> (c =? x)%N = false).
  { intros x Hx. apply N.eqb_neq. intros ->. congruence. }
  unfold blank, cQ. rewrite !Ne by reflexivity. cbn [orb]. rewrite SP, E.
  apply scan_prim_pos in E; [|assumption]. apply count_fuel; lia.
Qed.
Lemma lrun_close : forall cap (b : bool) r pos s l n l' s', l <> [] ->
  close_loop (length l) l (length l - 1) (if b then TObject else TArray) pos s = Some (Closed l' s') ->
  lrun cap ((if b then 125 else 93)%N :: r) pos s l n = lrun cap r (S pos) s' l' n.
Proof.
  intros cap b r pos s l n l' s' NE E. unfold lrun. cbn [length]. remember (S (length r)) as f eqn:Ef.
  destruct l as [|t0 lt]; [congruence|]. destruct b; cbn [jsmn_loop N.eqb Pos.eqb orb]; now rewrite E.
Qed.

(** ** Scanning *)
Lemma body_scan : forall b t, body b t -> forall r pos, scan_string SNormal (b ++ 34%N :: r) pos = inl (pos + length b, r).
Proof.
  intros b t H; induction H as [|c b t (C0 & C1 & C2) H IH|c d b t P NF NS H IH]; intros r pos.
  - cbn. now rewrite Nat.add_0_r.
  - cbn [app scan_string]. unfold cQ, cB. apply N.eqb_neq in C0, C1, C2. rewrite C0, C1, C2. cbn [andb].
    rewrite IH. cbn [length]. f_equal. f_equal. lia.
  - assert (A : allowed d = true) by (destruct P; reflexivity || congruence).
    cbn [app scan_string]. unfold cQ, cB. cbn [N.eqb Pos.eqb andb]. rewrite A, IH. cbn [length]. f_equal. f_equal. lia.
Qed.
Lemma hit_second : forall x, hit x = true <-> second x.
Proof. intros x. unfold hit, second. rewrite existsb_in. unfold letters. cbn [In]. tauto. Qed.
Lemma body_coded : forall b t, body b t -> coded b t 0.
Proof.
  intros b t H; induction H as [|c b t (C0 & C1 & C2) H IH|c d b t P NF NS H IH]; [constructor|now constructor|].
  replace 0 with (if (c =? 92)%N && first_hit b then 1 else 0); [now apply co_pair|].
  destruct (N.eqb_spec c 92) as [E|]; [|reflexivity]. destruct b as [|x r]; [reflexivity|]. cbn [first_hit andb].
  destruct (hit x) eqn:Hx; [|reflexivity]. apply hit_second in Hx. elim (NS E x r eq_refl Hx).
Qed.

Definition delim (r : text) : Prop := exists c r', r = c :: r' /\ ends_prim c = true /\ c <> 0%N.
Definition solid (t : text) : Prop := Forall (fun c => 33 <= c < 127 /\ c <> 44 /\ c <> 93 /\ c <> 125)%N t.
Lemma solid_scan : forall t r pos, solid t -> delim r -> scan_prim (t ++ r) pos = inl (pos + length t, r).
Proof.
  intros t r pos H (c & r' & -> & D & D0). revert pos. induction H as [|x t Hx H IH]; intros pos.
  - cbn [app scan_prim length]. apply N.eqb_neq in D0. now rewrite D0, D, Nat.add_0_r.
  - cbn [app scan_prim length]. assert (X0 : (x =? 0)%N = false) by (apply N.eqb_neq; lia). rewrite X0.
    assert (X1 : ends_prim x = false).
    { unfold ends_prim, blank. rewrite !(proj2 (N.eqb_neq _ _)) by lia. reflexivity. }
    rewrite X1. assert (X2 : ((x <? 32) || (127 <=? x))%N = false) by (apply orb_false_iff; split; [apply N.ltb_ge|apply N.leb_gt]; lia).
    rewrite X2, IH. f_equal. f_equal. lia.
Qed.

(** ** Closing brackets *)
Definition inside (o : nat) (l : list tok) : Prop :=
  forall j t, nth_error l j = Some t -> o < j -> is_open t = false /\ exists q, k_parent t = Some q /\ o <= q < j.
Lemma walk : forall fuel l o obj ty pos s i, nth_error l o = Some obj -> is_open obj = true -> k_type obj = ty -> inside o l ->
  o <= i < length l -> i < fuel ->
  close_loop fuel l i ty pos s = Some (Closed (upd_tok l o (set_end (S pos))) (k_parent obj)).
Proof.
  induction fuel as [|f IH]; intros l o obj ty pos s i E O T IN L F; [lia|]. cbn [close_loop].
  destruct (Nat.eq_dec i o) as [->|NE].
  - rewrite E. unfold is_open in O. destruct (k_end obj); [discriminate|]. subst ty. now destruct (k_type obj).
  - destruct (nth_error l i) as [t|] eqn:Et; [|apply nth_error_None in Et; lia].
    destruct (IN _ _ Et ltac:(lia)) as (Cl & q & P & Q). unfold is_open in Cl. destruct (k_end t); [|discriminate].
    rewrite P. now apply IH; try lia.
Qed.
Lemma walk_run : forall cap (b : bool) X obj segm r pos s n, is_open obj = true -> k_type obj = (if b then TObject else TArray) ->
  (forall j t, nth_error segm j = Some t -> is_open t = false /\ exists q, k_parent t = Some q /\ length X <= q < S (length X + j)) ->
  lrun cap ((if b then 125 else 93)%N :: r) pos s (X ++ obj :: segm) n =
  lrun cap r (S pos) (k_parent obj) (X ++ set_end (S pos) obj :: segm) n.
Proof.
  intros cap b X obj segm r pos s n O T IN. 
  erewrite lrun_close; [reflexivity|now destruct X|]. rewrite <- upd_app2_0.
  apply walk; try assumption.
  - rewrite nth_error_app2, Nat.sub_diag by lia. reflexivity.
  - intros j t E J. rewrite nth_error_app2 in E by lia. destruct (j - length X) as [|m] eqn:Em; [lia|]. cbn in E.
    destruct (IN _ _ E) as (A & q & P & Q). split; [assumption|]. exists q. split; [assumption|]. lia.
  - rewrite app_length. cbn. lia.
  - rewrite app_length. cbn. lia.
Qed.

(** ** Items of maps *)
Lemma firsts_more : forall kvs seen seen' k, (forall x, existsb (text_eqb x) seen' = text_eqb x k || existsb (text_eqb x) seen) ->
  firsts seen' kvs = filter (fun p => negb (text_eqb (fst p) k)) (firsts seen kvs).
Proof.
  induction kvs as [|[a v] kvs IH]; intros seen seen' k H; [reflexivity|]. cbn [firsts]. rewrite H.
  destruct (existsb (text_eqb a) seen) eqn:E.
  - rewrite orb_true_r. now apply IH.
  - rewrite orb_false_r. cbn [filter fst]. destruct (text_eqb a k) eqn:Ea; cbn [negb].
    + apply IH. intros x. cbn [existsb]. rewrite H. apply text_eqb_eq in Ea as ->. now destruct (text_eqb x k), (existsb (text_eqb x) seen).
    + f_equal. apply IH. intros x. cbn [existsb]. rewrite H. now destruct (text_eqb x k), (text_eqb x a), (existsb (text_eqb x) seen).
Qed.
Definition puts (kvs acc : list (text * jv)) : list (text * jv) := fold_left (fun m kv => jput m (fst kv) (snd kv)) kvs acc.
Lemma puts_denotes : forall kvs, puts kvs [] = firsts [] (rev kvs).
Proof.
  induction kvs as [|[k v] kvs IH] using rev_ind; [reflexivity|]. unfold puts in *. rewrite fold_left_app, rev_app_distr.
  cbn [fold_left rev app fst snd firsts existsb]. rewrite IH. unfold jput. f_equal. symmetry. apply firsts_more.
  intros x. cbn. now rewrite orb_false_r.
Qed.
