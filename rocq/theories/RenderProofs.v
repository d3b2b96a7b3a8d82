(** Specification and proofs for rendering (C48). *)
From Verif Require Import Common TextSpec RenderModel.
Require Import ZifyBool.

(** ** Specification: the text of a value and its nesting depth *)
Fixpoint shown (v : value) : text :=
  match v with
  | Leaf c => c
  | VList [] => s_open ++ s_list_new ++ s_close
  | VList vs => s_open ++ (s_list_push ++ joined s_semi (map shown vs)) ++ s_close
  | VMap kvs => s_open ++ (s_map_new ++ joined s_comma (map (fun kv => s_put ++ shown (snd kv) ++ s_at ++ fst kv) kvs)) ++ s_close
  end.
Definition shown_top (v : value) : text :=
  match v with
  | Leaf c => c
  | VList [] => s_list_new
  | VList vs => s_list_push ++ joined s_semi (map shown vs)
  | VMap kvs => s_map_new ++ joined s_comma (map (fun kv => s_put ++ shown (snd kv) ++ s_at ++ fst kv) kvs)
  end.
Definition max_list (l : list nat) : nat := fold_right Nat.max 0 l.
(** how many lists (maps) are nested into each other *)
Fixpoint ldepth (v : value) : nat :=
  match v with
  | Leaf _ => 0
  | VList vs => S (max_list (map ldepth vs))
  | VMap kvs => max_list (map (fun kv => ldepth (snd kv)) kvs)
  end.
Fixpoint mdepth (v : value) : nat :=
  match v with
  | Leaf _ => 0
  | VList vs => max_list (map mdepth vs)
  | VMap kvs => S (max_list (map (fun kv => mdepth (snd kv)) kvs))
  end.
Definition fits (lc mc : Z) (v : value) : Prop :=
  (ldepth v = 0 \/ (lc + Z.of_nat (ldepth v) <= 99)%Z) /\ (mdepth v = 0 \/ (mc + Z.of_nat (mdepth v) <= 99)%Z).

(** ** Induction over values *)
Section Ind.
Variable P : value -> Prop.
Hypothesis HL : forall c, P (Leaf c).
Hypothesis HV : forall vs, Forall P vs -> P (VList vs).
Hypothesis HM : forall kvs, Forall (fun kv => P (snd kv)) kvs -> P (VMap kvs).
Fixpoint value_ind' (v : value) : P v :=
  match v with
  | Leaf c => HL c
  | VList vs => HV vs ((fix go l : Forall P l := match l with [] => Forall_nil _ | x :: l' => Forall_cons x (value_ind' x) (go l') end) vs)
  | VMap kvs => HM kvs ((fix go l : Forall (fun kv => P (snd kv)) l := match l with [] => Forall_nil _ | x :: l' => Forall_cons x (value_ind' (snd x)) (go l') end) kvs)
  end.
End Ind.

Definition bumped (lc mc : Z) (st : rstate) : Prop :=
  r_err st <> None /\ ((r_list st = lc + 1 /\ r_map st = mc)%Z \/ (r_list st = lc /\ r_map st = mc + 1)%Z).

Definition good (v : value) : Prop := forall lc mc, (0 <= lc <= 254)%Z -> (0 <= mc <= 254)%Z ->
  (fits lc mc v -> code v (mkR lc mc None) = (Some (shown v), mkR lc mc None)) /\
  (~ fits lc mc v -> exists t st, code v (mkR lc mc None) = (Some t, st) /\ bumped lc mc st).

Lemma code_err v st : r_err st <> None -> code v st = (None, st).
Proof. intros H. destruct v as [c|vs|kvs]; cbn [code]; destruct (r_err st); congruence. Qed.

Lemma list_loop_err vs : forall acc st, r_err st <> None ->
  exists t e, list_loop code vs acc st = (t, mkR (r_list st) (r_map st) (Some e)) .
Proof.
  induction vs as [|v vs IH]; intros acc [a b [e|]] H; cbn [r_err] in H; try congruence.
  - exists acc, e. reflexivity.
  - change (list_loop code (v :: vs) acc (mkR a b (Some e)))
      with (let '(o, st1) := code v (mkR a b (Some e)) in
            let '(acc1, st2) := append acc o st1 in
            list_loop code vs (match vs with [] => acc1 | _ => acc1 ++ s_semi end) st2).
    rewrite code_err by discriminate. cbn [append r_list r_map]. apply (IH _ (mkR a b (Some ERStr))). discriminate.
Qed.

Lemma map_loop_err kvs : forall acc st, r_err st <> None ->
  exists t e, map_loop code kvs acc st = (t, mkR (r_list st) (r_map st) (Some e)) .
Proof.
  induction kvs as [|[k v] kvs IH]; intros acc [a b [e|]] H; cbn [r_err] in H; try congruence.
  - exists acc, e. reflexivity.
  - change (map_loop code ((k, v) :: kvs) acc (mkR a b (Some e)))
      with (let '(o, st1) := code v (mkR a b (Some e)) in
            let '(acc1, st2) := append (acc ++ s_put) o st1 in
            let '(acc2, st3) := append (acc1 ++ s_at) (match r_err st2 with None => Some k | Some _ => None end) st2 in
            map_loop code kvs (match kvs with [] => acc2 | _ => acc2 ++ s_comma end) st3).
    rewrite code_err by discriminate. cbn [append r_list r_map r_err]. apply (IH _ (mkR a b (Some ERStr))). discriminate.
Qed.

Lemma list_loop_good vs : Forall good vs -> forall acc a b, (0 <= a <= 254)%Z -> (0 <= b <= 254)%Z ->
  (Forall (fits a b) vs ->
    list_loop code vs acc (mkR a b None) = (acc ++ joined s_semi (map shown vs), mkR a b None)) /\
  (~ Forall (fits a b) vs -> exists t st, list_loop code vs acc (mkR a b None) = (t, st) /\ bumped a b st).
Proof.
  induction 1 as [|v vs Hv Hvs IH]; intros acc a b Ha Hb.
  - split; [intros _; cbn; rewrite app_nil_r; reflexivity|]. intros X. destruct X. constructor.
  - change (list_loop code (v :: vs) acc (mkR a b None))
      with (let '(o, st1) := code v (mkR a b None) in
            let '(acc1, st2) := append acc o st1 in
            list_loop code vs (match vs with [] => acc1 | _ => acc1 ++ s_semi end) st2).
    destruct (Hv a b Ha Hb) as [G B]. split.
    + intros F. inversion F as [|? ? F1 F2]; subst. rewrite (G F1). cbn [append].
      destruct (IH (match vs with [] => acc ++ shown v | _ => (acc ++ shown v) ++ s_semi end) a b Ha Hb) as [G' _].
      rewrite (G' F2). f_equal. destruct vs; cbn [map joined]; rewrite ?app_nil_r, <- ?app_assoc; reflexivity.
    + intros NF. assert (D : fits a b v \/ ~ fits a b v) by (unfold fits; lia). destruct D as [D|D].
      * rewrite (G D). cbn [append]. apply IH; auto.
      * destruct (B D) as (t & st & E & Er & C). rewrite E. cbn [append].
        destruct (list_loop_err vs (match vs with [] => acc ++ t | _ => (acc ++ t) ++ s_semi end) st Er) as (t' & e & E').
        exists t'. eexists. split; [exact E'|]. split; [discriminate|exact C].
Qed.

Lemma map_loop_good kvs : Forall (fun kv => good (snd kv)) kvs -> forall acc a b, (0 <= a <= 254)%Z -> (0 <= b <= 254)%Z ->
  (Forall (fun kv => fits a b (snd kv)) kvs ->
    map_loop code kvs acc (mkR a b None) =
    (acc ++ joined s_comma (map (fun kv => s_put ++ shown (snd kv) ++ s_at ++ fst kv) kvs), mkR a b None)) /\
  (~ Forall (fun kv => fits a b (snd kv)) kvs -> exists t st, map_loop code kvs acc (mkR a b None) = (t, st) /\ bumped a b st).
Proof.
  induction 1 as [|[k v] kvs Hv Hvs IH]; intros acc a b Ha Hb.
  - split; [intros _; cbn; rewrite app_nil_r; reflexivity|]. intros X. destruct X. constructor.
  - change (map_loop code ((k, v) :: kvs) acc (mkR a b None))
      with (let '(o, st1) := code v (mkR a b None) in
            let '(acc1, st2) := append (acc ++ s_put) o st1 in
            let '(acc2, st3) := append (acc1 ++ s_at) (match r_err st2 with None => Some k | Some _ => None end) st2 in
            map_loop code kvs (match kvs with [] => acc2 | _ => acc2 ++ s_comma end) st3).
    cbn [snd] in Hv. destruct (Hv a b Ha Hb) as [G B]. split.
    + intros F. inversion F as [|? ? F1 F2]; subst. cbn [snd] in F1. rewrite (G F1). cbn [append r_err].
      set (acc2 := (((acc ++ s_put) ++ shown v) ++ s_at) ++ k).
      destruct (IH (match kvs with [] => acc2 | _ => acc2 ++ s_comma end) a b Ha Hb) as [G' _].
      rewrite (G' F2). f_equal. unfold acc2. destruct kvs as [|[k' v'] kvs]; cbn [map joined fst snd]; rewrite ?app_nil_r, <- ?app_assoc; reflexivity.
    + intros NF. assert (D : fits a b v \/ ~ fits a b v) by (unfold fits; lia). destruct D as [D|D].
      * rewrite (G D). cbn [append r_err]. apply IH; auto.
      * destruct (B D) as (t & st & E & Er & C). rewrite E. cbn [append]. destruct (r_err st) as [e|] eqn:Ee; [|congruence].
        cbn [append].
        match goal with |- exists _ _, map_loop code kvs ?ac ?s = _ /\ _ =>
          destruct (map_loop_err kvs ac s) as (t' & e' & E'); [cbn; discriminate|] end.
        exists t'. eexists. split; [exact E'|]. split; [discriminate|]. cbn [r_list r_map]. exact C.
Qed.

Lemma max_list_le l (z a : Z) : (max_list l = 0 \/ (a + Z.of_nat (max_list l) <= z)%Z) <->
  Forall (fun n => n = 0 \/ (a + Z.of_nat n <= z)%Z) l.
Proof.
  induction l as [|n l IH]; cbn [max_list fold_right].
  - split; [constructor|left; reflexivity].
  - rewrite Forall_cons_iff, <- IH. fold (max_list l). lia.
Qed.

Lemma fits_all a b (vs : list value) :
  (max_list (map ldepth vs) = 0 \/ (a + Z.of_nat (max_list (map ldepth vs)) <= 99)%Z) /\
  (max_list (map mdepth vs) = 0 \/ (b + Z.of_nat (max_list (map mdepth vs)) <= 99)%Z) <-> Forall (fits a b) vs.
Proof.
  rewrite !max_list_le, !Forall_map. split.
  - intros [H1 H2]. rewrite Forall_forall in *. intros v Hv. split; auto.
  - intros H. split; eapply Forall_impl; try eassumption; intros v [? ?]; auto.
Qed.

Lemma fits_list a b vs : fits a b (VList vs) <-> (a + 1 <= 99)%Z /\ Forall (fits (a + 1) b) vs.
Proof.
  rewrite <- fits_all. unfold fits. cbn [ldepth mdepth]. lia.
Qed.
Lemma fits_map a b kvs : fits a b (VMap kvs) <-> (b + 1 <= 99)%Z /\ Forall (fun kv => fits a (b + 1) (snd kv)) kvs.
Proof.
  assert (E : Forall (fun kv : text * value => fits a (b + 1) (snd kv)) kvs <-> Forall (fits a (b + 1)) (map snd kvs)) by (rewrite Forall_map; reflexivity).
  rewrite E, <- fits_all. unfold fits. cbn [ldepth mdepth]. rewrite !map_map. lia.
Qed.


Lemma to_string_good vs : Forall good vs -> forall lc mc, (0 <= lc <= 254)%Z -> (0 <= mc <= 254)%Z ->
  (fits lc mc (VList vs) -> array_to_string vs (mkR lc mc None) = (shown_top (VList vs), mkR lc mc None)) /\
  (~ fits lc mc (VList vs) -> exists t st, array_to_string vs (mkR lc mc None) = (t, st) /\ bumped lc mc st).
Proof.
  intros H lc mc Hl Hm. unfold array_to_string. cbn [r_list r_map r_err]. rewrite fits_list.
  assert (Bu : bump lc 1 = (lc + 1)%Z) by (unfold bump; rewrite Z.mod_small; lia). rewrite Bu.
  destruct (Z.ltb_spec 99 (lc + 1)) as [L|L].
  - split; [lia|]. intros _. eexists _, _. split; [reflexivity|]. split; [discriminate|]. left. cbn. lia.
  - destruct (list_loop_good vs H (match vs with [] => s_list_new | _ => s_list_push end) (lc + 1) mc ltac:(lia) Hm) as [G B]. split.
    + intros [_ F]. rewrite (G F). cbn [r_list r_map r_err]. f_equal.
      * destruct vs; cbn [shown_top map joined]; [rewrite app_nil_r; reflexivity|reflexivity].
      * f_equal. unfold bump. rewrite Z.mod_small; lia.
    + intros NF. destruct B as (t & st & E & Er & C); [tauto|]. rewrite E. eexists _, _. split; [reflexivity|].
      split; [exact Er|]. cbn [r_list r_map]. unfold bump. destruct C as [[-> ->]|[-> ->]]; [left|right]; (split; [rewrite Z.mod_small; lia|lia]).
Qed.

Lemma map_to_string_good kvs : Forall (fun kv => good (snd kv)) kvs -> forall lc mc, (0 <= lc <= 254)%Z -> (0 <= mc <= 254)%Z ->
  (fits lc mc (VMap kvs) -> map_to_string kvs (mkR lc mc None) = (shown_top (VMap kvs), mkR lc mc None)) /\
  (~ fits lc mc (VMap kvs) -> exists t st, map_to_string kvs (mkR lc mc None) = (t, st) /\ bumped lc mc st).
Proof.
  intros H lc mc Hl Hm. unfold map_to_string. cbn [r_list r_map r_err]. rewrite fits_map.
  assert (Bu : bump mc 1 = (mc + 1)%Z) by (unfold bump; rewrite Z.mod_small; lia). rewrite Bu.
  destruct (Z.ltb_spec 99 (mc + 1)) as [L|L].
  - split; [lia|]. intros _. eexists _, _. split; [reflexivity|]. split; [discriminate|]. right. cbn. lia.
  - destruct (map_loop_good kvs H s_map_new lc (mc + 1) Hl ltac:(lia)) as [G B]. split.
    + intros [_ F]. rewrite (G F). cbn [r_list r_map r_err]. f_equal.
      f_equal. unfold bump. rewrite Z.mod_small; lia.
    + intros NF. destruct B as (t & st & E & Er & C); [tauto|]. rewrite E. eexists _, _. split; [reflexivity|].
      split; [exact Er|]. cbn [r_list r_map]. unfold bump. destruct C as [[-> ->]|[-> ->]]; [left|right]; (split; [lia|rewrite Z.mod_small; lia]).
Qed.

Lemma code_list vs st : r_err st = None -> code (VList vs) st =
  let '(t, st') := array_to_string vs st in (Some (s_open ++ t ++ s_close), st').
Proof.
  intros E. cbn [code]. rewrite E. unfold array_to_string. rewrite E.
  destruct (99 <? bump (r_list st) 1)%Z; [reflexivity|].
  destruct (list_loop code vs _ _) as [t st']. reflexivity.
Qed.
Lemma code_map kvs st : r_err st = None -> code (VMap kvs) st =
  let '(t, st') := map_to_string kvs st in (Some (s_open ++ t ++ s_close), st').
Proof.
  intros E. cbn [code]. rewrite E. unfold map_to_string. rewrite E.
  destruct (99 <? bump (r_map st) 1)%Z; [reflexivity|].
  destruct (map_loop code kvs _ _) as [t st']. reflexivity.
Qed.

Lemma all_good v : good v.
Proof.
  induction v as [c|vs IH|kvs IH] using value_ind'; intros lc mc Hl Hm.
  - split; [reflexivity|]. intros X. destruct X. split; left; reflexivity.
  - rewrite code_list by reflexivity. destruct (to_string_good vs IH lc mc Hl Hm) as [G B]. split.
    + intros F. rewrite (G F). destruct vs; reflexivity.
    + intros F. destruct (B F) as (t & st & -> & C). eexists _, _. split; [reflexivity|exact C].
  - rewrite code_map by reflexivity. destruct (map_to_string_good kvs IH lc mc Hl Hm) as [G B]. split.
    + intros F. rewrite (G F). reflexivity.
    + intros F. destruct (B F) as (t & st & -> & C). eexists _, _. split; [reflexivity|exact C].
Qed.

Lemma render_exact v lc mc : (0 <= lc <= 254)%Z -> (0 <= mc <= 254)%Z ->
  (fits lc mc v -> render v lc mc = (Some (shown_top v), (lc, mc))) /\
  (~ fits lc mc v -> render v lc mc = (None, (lc + 1, mc))%Z \/ render v lc mc = (None, (lc, mc + 1))%Z).
Proof.
  intros Hl Hm. destruct v as [c|vs|kvs].
  - split; [reflexivity|]. intros X. destruct X. split; left; reflexivity.
  - assert (H : Forall good vs) by (apply Forall_forall; intros; apply all_good).
    destruct (to_string_good vs H lc mc Hl Hm) as [G B]. unfold render. split.
    + intros F. rewrite (G F). reflexivity.
    + intros F. destruct (B F) as (t & st & -> & Er & C). destruct (r_err st); [|congruence].
      destruct C as [[-> ->]|[-> ->]]; auto.
  - assert (H : Forall (fun kv => good (snd kv)) kvs) by (apply Forall_forall; intros; apply all_good).
    destruct (map_to_string_good kvs H lc mc Hl Hm) as [G B]. unfold render. split.
    + intros F. rewrite (G F). reflexivity.
    + intros F. destruct (B F) as (t & st & -> & Er & C). destruct (r_err st); [|congruence].
      destruct C as [[-> ->]|[-> ->]]; auto.
Qed.

Lemma renders_good vs : Forall (fun v => ldepth v <= 99 /\ mdepth v <= 99) vs -> renders vs 0 0 = map (fun v => Some (shown_top v)) vs.
Proof.
  induction 1 as [|v vs [H1 H2] _ IH]; cbn [renders map]; [reflexivity|].
  destruct (render_exact v 0 0 ltac:(lia) ltac:(lia)) as [G _]. rewrite G by (unfold fits; lia). rewrite IH. reflexivity.
Qed.
