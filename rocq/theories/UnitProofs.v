(** Proofs about the unit of a number. *)
From Coq Require Import NArith ZArith List String Bool Lia Arith.
From Verif Require Import Common Fuel Txt LexModel LexSpec ParseModel ParseSpec Dicts LangDicts NumModel MapModel MapSpec MapProofs RegTable RegModel RegSpec RegCheck RegProofs
  ClockModel UnitSpec UnitModel.
From Verif Require ClockDicts.
Import ListNotations.
Open Scope list_scope.
Open Scope nat_scope.

(** ** The messages of numbers *)
(** [w] is no message numbers answer. *)
Definition no_message (d : dict) (ws : list string) (w : text) : Prop :=
  forall o k f, In (o, k, f) registrations -> o = ONumber \/ o = OObject -> key_text d ws k <> w.
Lemma unknown_method hash d ws w : world_okb d ws = true -> initialize hash d ws = Ret w ->
  forall fuel u, 300 <= fuel -> no_message d ws u -> find_method hash fuel w ONumber u = Ret None.
Proof.
  intros OKW EI fuel u FU NM.
  destruct (create_funcs_ok d ws hash registrations (mkWorld (fun _ => map_new) map_new) (fun _ => [])) as (w1 & E1 & N1 & R1).
  { intros o. apply new_rep. } { exact (own_nodup d ws OKW). }
  assert (GN : NoDup (map fst (rev (map (fun g => (key_text d ws (fst g), snd g)) globals) ++ []))).
  { rewrite app_nil_r, map_rev. apply NoDup_rev. rewrite map_map. cbn [fst]. apply nodupb_ok. apply (world_parts _ _ OKW). }
  destruct (create_names_ok d ws hash globals w1 []) as (w2 & E2 & M2 & R2).
  { rewrite N1. apply new_rep. } { exact GN. }
  unfold initialize in EI. rewrite E1 in EI. cbn [rbind] in EI. rewrite E2 in EI. injection EI as <-.
  assert (LK : forall o, o = ONumber \/ o = OObject -> lookup (rev (own d ws registrations o) ++ []) u = None).
  { intros o OO. apply (lookup_none hash). rewrite app_nil_r, map_rev. intros X. apply in_rev in X. apply in_map_iff in X.
    destruct X as ((t & g) & ET & X). cbn in ET. subst t. apply in_own in X. destruct X as (k & X & ET). exact (NM _ _ _ X OO (eq_sym ET)). }
  assert (LN : forall o, List.length (rev (own d ws registrations o) ++ []) <= 267) by (intros o; apply (own_length d ws OKW o)).
  destruct fuel as [|fuel]; [lia|]. cbn [find_method]. rewrite M2.
  rewrite (find_rep hash _ _ _ _ (R1 ONumber)) by (specialize (LN ONumber); lia). cbn [rbind]. rewrite LK by auto. cbn [link].
  destruct fuel as [|fuel]; [lia|]. cbn [find_method]. rewrite M2.
  rewrite (find_rep hash _ _ _ _ (R1 OObject)) by (specialize (LN OObject); lia). cbn [rbind]. rewrite LK by auto. reflexivity.
Qed.
Lemma number_no k : existsb (fun r => std_eqb (fst (fst r)) ONumber && key_eqb (snd (fst r)) (Dict k)) registrations = false ->
  forall g, ~ In (ONumber, Dict k, g) registrations.
Proof.
  intros H g I. assert (T : existsb (fun r => std_eqb (fst (fst r)) ONumber && key_eqb (snd (fst r)) (Dict k)) registrations = true).
  { apply existsb_exists. exists (ONumber, Dict k, g). split; [exact I|]. cbn [fst snd key_eqb]. rewrite String.eqb_refl. reflexivity. }
  congruence.
Qed.
Definition has (o : std) (k f : string) : bool :=
  existsb (fun r => std_eqb (fst (fst r)) o && key_eqb (snd (fst r)) (Dict k) && String.eqb (snd r) f) registrations.
Lemma has_in o k f : has o k f = true -> In (o, Dict k, f) registrations.
Proof.
  intros H. apply existsb_exists in H. destruct H as (((o' & k') & f') & I & E). cbn [fst snd] in E. rewrite !andb_true_iff in E.
  destruct E as ((A & B) & C). apply key_eqb_ok in B. apply String.eqb_eq in C. unfold std_eqb in A.
  destruct (std_eq_dec o' o); [|discriminate]. now subst.
Qed.
Lemma number_has k f : has ONumber k f = true -> understands ONumber (Dict k) f.
Proof. intros H. apply un_own. now apply has_in. Qed.
Lemma object_has k f : has OObject k f = true ->
  existsb (fun r => std_eqb (fst (fst r)) ONumber && key_eqb (snd (fst r)) (Dict k)) registrations = false ->
  understands ONumber (Dict k) f.
Proof.
  intros H N. apply (un_inherited ONumber OObject); [now apply number_no|reflexivity|]. apply un_own. now apply has_in.
Qed.

(** ** Texts of numbers *)
Lemma cstr_more o : forall j k s, cstr (o ++ repeat 0%N j) = Ok s -> cstr (o ++ repeat 0%N (j + k)) = Ok s.
Proof.
  induction o as [|c o IH]; intros j k s H; cbn [app] in *.
  - destruct j as [|j]; [discriminate|]. exact H.
  - cbn [cstr] in *. destruct (c =? 0)%N; [exact H|]. destruct (cstr (o ++ repeat 0%N j)) as [t|] eqn:E; [|discriminate].
    rewrite (IH _ k _ E). exact H.
Qed.
Lemma skipn_zeros k : forall n, skipn k (repeat 0%N n) = repeat 0%N (n - k).
Proof. induction k as [|k IH]; intros [|n]; cbn [repeat skipn Nat.sub]; auto. Qed.
Lemma cstr_self q : ~ In 0%N q -> cstr (q ++ [0%N]) = Ok q.
Proof.
  induction q as [|c q IH]; intros N; [reflexivity|]. cbn [app cstr]. destruct (N.eqb_spec c 0) as [->|]; [exfalso; apply N; now left|].
  rewrite IH; [reflexivity|]. intros X. apply N. now right.
Qed.
Lemma with_unit ds ts x t q : number_to_string ds ts (repeat 0%N 100) None x = Ok t -> List.length t <= 98 -> ~ In 0%N q ->
  number_to_string ds ts (repeat 0%N (100 + List.length q)) (Some q) x = Ok (t ++ 32%N :: q).
Proof.
  unfold number_to_string. intros H L NQ. destruct (flat_text x) as [buf|]; [|discriminate]. cbn [obind] in *.
  unfold international in *. set (out := intl_loop ds ts buf _ _ _ _) in *. destruct (_ || _)%bool; [discriminate|].
  unfold write in *. rewrite !repeat_length in *. destruct (Nat.leb_spec (List.length out) 100) as [LE|]; [|discriminate].
  cbn [obind] in H. destruct (Nat.leb_spec (List.length out) (100 + List.length q)) as [_|]; [|lia]. cbn [obind].
  rewrite skipn_zeros in *. destruct (cstr (out ++ repeat 0%N (100 - List.length out))) as [s|] eqn:E; [|discriminate]. cbn [obind] in H. injection H as ->.
  replace (100 + List.length q - List.length out) with ((100 - List.length out) + List.length q) by lia.
  rewrite (cstr_more _ _ _ _ E). cbn [obind]. rewrite (cstr_self q NQ). cbn zeta.
  rewrite !app_length. cbn [List.length app]. match goal with |- context [Nat.ltb ?a ?b] => destruct (Nat.ltb_spec a b) as [_|X]; [reflexivity|cbn in X; lia] end.
Qed.

(** ** Objects and values *)
Definition same_unit (ts : list text) (a : option nat) (u : option text) : Prop :=
  match a, u with None, None => True | Some a, Some t => nth_error ts a = Some t | _, _ => False end.
Definition same_number (ts : list text) (r : number) (p : num * option text) : Prop :=
  n_value r = fst p /\ same_unit ts (n_unit r) (snd p).
Definition same (h : heap) (m : meaning) : Prop := h_texts h = m_texts m /\ Forall2 (same_number (m_texts m)) (h_nums h) (m_nums m).

Lemma f2_nth {A B} (R : A -> B -> Prop) l l' : Forall2 R l l' -> forall n y, nth_error l' n = Some y -> exists x, nth_error l n = Some x /\ R x y.
Proof.
  induction 1 as [|x y l l' r F IH]; intros n z E; [destruct n; discriminate|].
  destruct n as [|n]; [injection E as <-; exists x; auto|]. exact (IH n z E).
Qed.
Lemma f2_len {A B} (R : A -> B -> Prop) l l' : Forall2 R l l' -> List.length l = List.length l'.
Proof. induction 1; cbn; congruence. Qed.
Lemma f2_set {A B} (R : A -> B -> Prop) l l' : Forall2 R l l' -> forall n x y, n < List.length l -> R x y -> Forall2 R (set_nth l n x) (change l' n y).
Proof.
  induction 1 as [|a b l l' r F IH]; intros n x y L X; [cbn in L; lia|].
  destruct n as [|n]; unfold set_nth, change; cbn [firstn skipn app]; [now constructor|].
  constructor; [exact r|]. apply IH; [cbn in L; lia|exact X].
Qed.
Lemma unit_more ts t a u : same_unit ts a u -> same_unit (ts ++ t) a u.
Proof.
  destruct a as [a|], u as [u|]; cbn; auto. intros E. rewrite nth_error_app1; [exact E|]. apply nth_error_Some. congruence.
Qed.
Lemma nums_more ts t l l' : Forall2 (same_number ts) l l' -> Forall2 (same_number (ts ++ t)) l l'.
Proof. induction 1 as [|a b l l' (V & U)]; constructor; auto. split; [exact V|now apply unit_more]. Qed.
Lemma set_at {A} (l : list A) n x : n < List.length l -> nth_error (set_nth l n x) n = Some x.
Proof.
  revert n; induction l as [|a l IH]; intros n L; [cbn in L; lia|]. destruct n as [|n]; [reflexivity|].
  unfold set_nth. cbn [firstn skipn app]. cbn [nth_error]. apply IH. cbn in L. lia.
Qed.
Lemma set_other {A} (l : list A) n m x : n <> m -> n < List.length l -> nth_error (set_nth l n x) m = nth_error l m.
Proof.
  revert n m; induction l as [|a l IH]; intros n m D L; [cbn in L; lia|]. destruct n as [|n], m as [|m]; try congruence; unfold set_nth; cbn [firstn skipn app nth_error]; [reflexivity|reflexivity|].
  apply IH; [congruence|]. cbn in L. lia.
Qed.
Lemma nums_apart ts a s l l' : Forall2 (same_number ts) l l' -> (forall r, In r l -> n_unit r <> Some a) -> a < List.length ts ->
  Forall2 (same_number (set_nth ts a s)) l l'.
Proof.
  intros F. induction F as [|x y l l' (V & U) F IH]; intros N L; constructor.
  - split; [exact V|]. specialize (N x (or_introl eq_refl)). destruct (n_unit x) as [b|], (snd y) as [u|]; cbn in *; auto.
    rewrite set_other; [exact U| |exact L]. congruence.
  - apply IH; [|exact L]. intros r I. apply N. now right.
Qed.
Lemma nth_last {A} (l : list A) x : nth_error (l ++ [x]) (List.length l) = Some x.
Proof. rewrite nth_error_app2 by lia. now rewrite Nat.sub_diag. Qed.

Section InLanguage.
Variables (l : string) (d : dict) (ws : list string) (hash : text -> Z) (w : world).
Hypothesis (IL : In (lit l, d) languages) (ID : In (l, ws) dictionaries) (EI : initialize hash d ws = Ret w).
Notation method := (method_in hash w).
Lemma method_is k f : understands ONumber (Dict k) f -> method (word_of d ws k) = Some f.
Proof.
  intros U. destruct (language_world l d ws hash IL ID) as (w' & E & H & _). rewrite EI in E. injection E as <-.
  unfold method_in, word_of. rewrite (H 300 _ _ _ (Nat.le_refl _) U). reflexivity.
Qed.
Lemma method_none u : no_message d ws u -> method u = None.
Proof.
  intros N. unfold method_in. rewrite (unknown_method hash d ws w (each_language_ok _ worlds_ok l d ws IL ID) EI 300 u (Nat.le_refl _) N). reflexivity.
Qed.
Definition local (x : num) (t : text) : Prop :=
  number_to_string (d_dec d) (d_tho d) (repeat 0%N 100) None x = Ok t /\ List.length t <= 98.
Definition digits (x : num) (t : text) : Prop := number_raw x = Ok t.
(** What the acts need: words that are no messages, at most three arguments, and no change to a text
    that is the unit of a number. *)
Definition fair (h : heap) (a : act) : Prop :=
  match a with
  | AWord _ u => no_message d ws u
  | AUnknown _ u args => no_message d ws u /\ List.length args <= 3
  | AAppend a _ => forall r, In r (h_nums h) -> n_unit r <> Some a
  | _ => True
  end.
Notation perform := (perform d ws method).
Lemma perform_ok h m a s m' : does digits local m a s m' -> same h m -> fair h a ->
  exists h', perform h a = Some (Ok (h', s)) /\ same h' m'.
Proof.
  intros D (ST & SN) FA. destruct h as [hn ht]. cbn [h_texts h_nums] in ST, SN. unfold UnitModel.perform.
  destruct D as [ns ts x|ns ts t|ns ts n u x q E|ns ts n u k LT NK|ns ts n a x q t E ET|ns ts n x q E|ns ts n x q E|ns ts n k x q y v E F|ns ts n k x q y v E F
    |ns ts n x q t E DG|ns ts n x t E LO|ns ts n x q t E LO NZ|ns ts a t s E]; cbn [m_texts m_nums code step asking fair h_nums] in *; subst ht.
  - eexists. split; [cbn; rewrite (f2_len _ _ _ SN); reflexivity|]. split; [reflexivity|]. cbn. apply Forall2_app; [exact SN|]. repeat constructor.
  - eexists. split; [reflexivity|]. split; [reflexivity|]. cbn. now apply nums_more.
  - unfold send. rewrite (method_none u FA). cbn [List.length Nat.min Nat.eqb orb new_text respond_word].
    rewrite (method_is _ "ctr_number_qualify") by (apply number_has; vm_compute; reflexivity). cbn [called String.eqb Ascii.eqb Bool.eqb].
    unfold number_qualify, number_at. cbn [h_nums h_texts fst snd]. destruct (f2_nth _ _ _ SN _ _ E) as (r & -> & (V & U)). cbn [obind].
    unfold cast2string, text_at. cbn [h_texts]. rewrite nth_last. cbn [obind fst snd h_nums h_texts look].
    eexists. split; [reflexivity|]. split; [reflexivity|]. cbn [m_nums m_texts h_nums]. apply f2_set.
    + now apply nums_more.
    + rewrite (f2_len _ _ _ SN). apply nth_error_Some. congruence.
    + split; [exact V|]. cbn [n_unit snd same_unit]. apply nth_last.
  - destruct FA as (FA & L3). unfold send. rewrite (method_none u FA).
    assert (R : exists r, nth_error hn n = Some r).
    { destruct (nth_error hn n) as [r|] eqn:ER; [now exists r|]. apply nth_error_None in ER. rewrite (f2_len _ _ _ SN) in ER. lia. }
    destruct R as (r & ER).
    destruct k as [|k1 [|k2 [|k3 [|k4 k]]]]; [congruence| | | |cbn in L3; lia]; cbn [map List.length Nat.min Nat.eqb orb Nat.ltb Nat.leb new_text respond_word];
      (rewrite (method_is _ "ctr_object_respond_and") by (apply object_has; vm_compute; reflexivity))
      || (rewrite (method_is _ "ctr_object_respond_and_and") by (apply object_has; vm_compute; reflexivity))
      || (rewrite (method_is _ "ctr_object_respond_and_and_and") by (apply object_has; vm_compute; reflexivity));
      cbn [called String.eqb Ascii.eqb Bool.eqb orb]; unfold number_at; cbn [h_nums h_texts fst snd]; rewrite ER; cbn [obind fst snd look];
      (eexists; split; [reflexivity|]; split; [reflexivity|]; cbn [m_nums m_texts h_nums]; now apply nums_more).
  - unfold send. rewrite (method_is _ "ctr_number_qualify") by (apply number_has; vm_compute; reflexivity). cbn [called String.eqb Ascii.eqb Bool.eqb].
    unfold number_qualify, number_at. cbn [h_nums h_texts fst snd]. destruct (f2_nth _ _ _ SN _ _ E) as (r & -> & (V & U)). cbn [obind].
    unfold cast2string, text_at. cbn [h_texts]. rewrite ET. cbn [obind fst snd h_nums h_texts look].
    eexists. split; [reflexivity|]. split; [reflexivity|]. cbn [m_nums m_texts h_nums]. apply f2_set; [exact SN| |].
    + rewrite (f2_len _ _ _ SN). apply nth_error_Some. congruence.
    + split; [exact V|exact ET].
  - unfold send. rewrite (method_is _ "ctr_number_qualification") by (apply number_has; vm_compute; reflexivity). cbn [called String.eqb Ascii.eqb Bool.eqb].
    unfold number_qualification, number_at. cbn [h_nums]. destruct (f2_nth _ _ _ SN _ _ E) as (r & -> & (V & U)). cbn [obind fst snd].
    destruct (n_unit r) as [a|], q as [q|]; cbn [same_unit snd] in U; try contradiction; cbn [look].
    + unfold text_at. cbn [h_texts]. rewrite U. cbn [obind]. eexists. split; [reflexivity|]. split; [reflexivity|exact SN].
    + eexists. split; [reflexivity|]. split; [reflexivity|exact SN].
  - unfold send. rewrite (method_is _ "ctr_number_copy") by (apply number_has; vm_compute; reflexivity). cbn [called String.eqb Ascii.eqb Bool.eqb].
    unfold number_copy, number_at. cbn [h_nums]. destruct (f2_nth _ _ _ SN _ _ E) as (r & -> & (V & U)). cbn [obind new_number fst snd look].
    eexists. cbn [h_nums h_texts]. rewrite (f2_len _ _ _ SN). split; [reflexivity|]. split; [reflexivity|]. cbn [m_nums m_texts h_nums].
    apply Forall2_app; [exact SN|]. repeat constructor; assumption.
  - unfold send. rewrite (method_is _ "ctr_number_add") by (apply number_has; vm_compute; reflexivity). cbn [called String.eqb Ascii.eqb Bool.eqb orb].
    unfold number_add, number_at. cbn [h_nums]. destruct (f2_nth _ _ _ SN _ _ E) as (r & -> & (V & U)). cbn [obind].
    destruct (f2_nth _ _ _ SN _ _ F) as (r' & -> & (V' & U')). cbn [obind new_number fst snd look].
    eexists. cbn [h_nums h_texts]. rewrite (f2_len _ _ _ SN). split; [reflexivity|]. split; [reflexivity|]. cbn [m_nums m_texts h_nums].
    apply Forall2_app; [exact SN|]. cbn [fst] in V, V'. rewrite V, V'. repeat constructor.
  - unfold send. rewrite (method_is _ "ctr_number_inc") by (apply number_has; vm_compute; reflexivity). cbn [called String.eqb Ascii.eqb Bool.eqb orb].
    unfold number_inc, number_at. cbn [h_nums]. destruct (f2_nth _ _ _ SN _ _ E) as (r & ER & (V & U)). rewrite ER. cbn [obind].
    destruct (f2_nth _ _ _ SN _ _ F) as (r' & -> & (V' & U')). cbn [obind fst snd look].
    eexists. cbn [h_nums h_texts]. split; [reflexivity|]. split; [reflexivity|]. cbn [m_nums m_texts h_nums]. apply f2_set; [exact SN| |].
    + rewrite (f2_len _ _ _ SN). apply nth_error_Some. congruence.
    + cbn [fst] in V, V'. rewrite V, V'. split; [reflexivity|exact U].
  - unfold send. rewrite (method_is _ "ctr_number_to_string_flat") by (apply number_has; vm_compute; reflexivity). cbn [called String.eqb Ascii.eqb Bool.eqb].
    unfold number_text, number_at. cbn [h_nums]. destruct (f2_nth _ _ _ SN _ _ E) as (r & -> & (V & U)). cbn [obind]. cbn [fst] in V. unfold digits in DG.
    rewrite V, DG. cbn [obind new_text fst snd look]. unfold text_at. cbn [h_texts]. rewrite nth_last. cbn [obind].
    eexists. split; [reflexivity|]. split; [reflexivity|]. cbn. now apply nums_more.
  - unfold send. rewrite (method_is _ "ctr_number_to_string") by (apply number_has; vm_compute; reflexivity). cbn [called String.eqb Ascii.eqb Bool.eqb].
    unfold number_text, number_at. cbn [h_nums]. destruct (f2_nth _ _ _ SN _ _ E) as (r & -> & (V & U)). cbn [obind]. cbn [fst snd] in V, U.
    unfold shown. destruct (n_unit r); [destruct U|]. destruct LO as (LO & _). rewrite V, LO. cbn [obind new_text fst snd look]. unfold text_at. cbn [h_texts]. rewrite nth_last. cbn [obind].
    eexists. split; [reflexivity|]. split; [reflexivity|]. cbn. now apply nums_more.
  - unfold send. rewrite (method_is _ "ctr_number_to_string") by (apply number_has; vm_compute; reflexivity). cbn [called String.eqb Ascii.eqb Bool.eqb].
    unfold number_text, number_at. cbn [h_nums]. destruct (f2_nth _ _ _ SN _ _ E) as (r & -> & (V & U)). cbn [obind]. cbn [fst snd] in V, U.
    unfold shown. destruct (n_unit r) as [a|]; [|destruct U]. cbn [same_unit] in U. unfold text_at at 1. cbn [h_texts]. rewrite U. cbn [obind].
    destruct LO as (LO & LL). rewrite V, (with_unit _ _ _ _ _ LO LL NZ). cbn [obind new_text fst snd look]. unfold text_at. cbn [h_texts]. rewrite nth_last. cbn [obind].
    eexists. split; [reflexivity|]. split; [reflexivity|]. cbn. now apply nums_more.
  - unfold text_at. cbn [h_texts]. rewrite E. cbn [obind fst snd look h_nums]. eexists. split; [reflexivity|]. split; [reflexivity|]. cbn [m_nums m_texts h_nums].
    apply nums_apart; [exact SN|exact FA|]. apply nth_error_Some. congruence.
Qed.
(** Programs all of whose acts are fair when they are done. *)
Fixpoint all_fair (h : heap) (acts : list act) : Prop :=
  match acts with
  | [] => True
  | a :: acts => fair h a /\ forall h1 s, perform h a = Some (Ok (h1, s)) -> all_fair h1 acts
  end.
Theorem run_ok acts : forall h m ss m', all_does digits local m acts ss m' -> same h m -> all_fair h acts ->
  exists h', run d ws method h acts = Some (Ok (h', ss)) /\ same h' m'.
Proof.
  induction acts as [|a acts IH]; intros h m ss m' A S F; inversion A; subst.
  - exists h. auto.
  - destruct F as (F & G). match goal with D : does _ _ _ _ _ _ |- _ => destruct (perform_ok _ _ _ _ _ D S F) as (h1 & P & S1) end.
    match goal with B : all_does _ _ _ acts _ _ |- _ => destruct (IH h1 _ _ _ B S1 (G _ _ P)) as (h2 & R & S2) end.
    exists h2. split; [|exact S2]. cbn [run]. rewrite P, R. reflexivity.
Qed.
End InLanguage.

(** ** The units of time and memory in every language *)
Definition units_of (u : words) : list text := [w_hour u; w_minute u; w_second u; w_day u; w_month u; w_year u; w_week u; lit "KB"; lit "MB"].
Definition no_messageb (d : dict) (ws : list string) (w : text) : bool :=
  forallb (fun r => if std_eq_dec (fst (fst r)) ONumber then negb (text_eqb (key_text d ws (snd (fst r))) w)
                    else if std_eq_dec (fst (fst r)) OObject then negb (text_eqb (key_text d ws (snd (fst r))) w) else true) registrations.
Lemma no_messageb_ok d ws w : no_messageb d ws w = true -> no_message d ws w.
Proof.
  intros H o k f I O E. unfold no_messageb in H. rewrite forallb_forall in H. specialize (H _ I). cbn [fst snd] in H.
  assert (T : text_eqb (key_text d ws k) w = true) by (now apply text_eqb_spec). rewrite T in H.
  destruct O; subst o; destruct (std_eq_dec _ ONumber); try discriminate; try congruence; destruct (std_eq_dec _ OObject); congruence.
Qed.
Definition units_okb (l : string) (d : dict) (ws : list string) : bool :=
  forallb (fun p => if text_eqb (fst p) (lit l) then forallb (fun u => name_okb d u 0 && no_messageb d ws u) (units_of (snd p)) else true) ClockDicts.unit_words.
Lemma units_checked : each_language units_okb = true.
Proof. vm_compute. reflexivity. Qed.
Theorem unit_words_ok l d ws uw u : In (lit l, d) languages -> In (l, ws) dictionaries -> In (lit l, uw) ClockDicts.unit_words ->
  In u (units_of uw) -> no_message d ws u /\
  forall r tr sr o oo, prim d r tr -> piece d tr sr ->
    exists s, parse d (sr ++ 32%N :: u ++ 32%N :: d_eol d) o oo = POk [NExpr r [MUna u]] s /\ err s = false.
Proof.
  intros IL ID IU I. pose proof (each_language_ok _ units_checked l d ws IL ID) as H. unfold units_okb in H.
  rewrite forallb_forall in H. specialize (H _ IU). cbn [fst snd] in H.
  replace (text_eqb (lit l) (lit l)) with true in H by (symmetry; now apply text_eqb_spec).
  rewrite forallb_forall in H. specialize (H _ I). apply andb_prop in H. destruct H as (A & B). split; [now apply no_messageb_ok|].
  intros r tr sr o oo P PC. destruct (proj1 (Forall_forall _ _) all_languages _ IL) as (LA & WO & MO). cbn [snd] in *.
  destruct (send_parses d LA WO MO u 0 r tr sr [] o oo A P PC (Forall_nil _) eq_refl) as (s & E & ER).
  exists s. split; [|exact ER]. cbn [map call message] in E. rewrite <- app_assoc in E. exact E.
Qed.
