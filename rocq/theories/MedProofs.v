(** Proofs about the names of the media plugin. *)
From Coq Require Import List String NArith Bool Lia.
From Verif Require Import Common Fuel Txt TextSpec LexModel LexSpec ParseModel ParseSpec Dicts LangDicts MapModel MapSpec MapProofs
  RegTable RegModel RegSpec RegCheck RegProofs MedTable MedSpec MedModel MedCheck.
Import ListNotations.
Open Scope list_scope.
Open Scope nat_scope.

(** ** Lists in which a name may occur more than once: the last one added is found *)
Section Lists.
Context {V : Type} (hash : text -> Z).
Definition wrep (m : @pmap V) (l : list (text * V)) : Prop := exists ads last,
  seg hash (m_heap m) None (m_head m) ads l last None /\ NoDup ads /\ (forall a, In a ads -> a < m_brk m) /\ m_size m = List.length l.
Lemma wrep_new : wrep map_new [].
Proof. exists [], None. split; [simpl; auto|]. split; [constructor|]. split; [intros a []|reflexivity]. Qed.
Lemma wrep_find m l key fuel : wrep m l -> List.length l < fuel -> find_property hash fuel m key = Ret (lookup l key).
Proof.
  intros (ads & last & H & ND & B & Sz) F. unfold find_property. rewrite Sz.
  destruct (Nat.eqb_spec (List.length l) 0) as [E|NE]; [destruct l; [reflexivity|discriminate]|].
  destruct (scan_spec hash _ key _ _ _ _ _ fuel H F) as [[E NI]|(ads1 & a & ads2 & l1 & v & l2 & -> & -> & L & NI & E)]; rewrite E; cbn [rbind].
  - rewrite (lookup_none hash) by assumption. reflexivity.
  - apply seg_app in H; [|assumption]. destruct H as (mm & mp & _ & H). simpl in H. destruct H as (-> & n & Ha & _).
    unfold deref. rewrite Ha. cbn [rbind i_val]. rewrite (lookup_app hash) by assumption. simpl. destruct (text_dec key key); [reflexivity|congruence].
Qed.
Lemma wrep_add m l key v : wrep m l -> exists m', add_property hash m key v = Ret m' /\ wrep m' ((key, v) :: l).
Proof.
  intros (ads & last & H & ND & B & Sz). unfold add_property. rewrite Sz.
  assert (Nb : ~ In (m_brk m) ads) by (intros X; apply B in X; lia).
  destruct l as [|[k0 v0] l].
  - cbn [List.length Nat.eqb]. eexists; split; [reflexivity|].
    destruct ads; [|destruct H]. exists [m_brk m], (Some (m_brk m)). cbn [m_heap m_brk m_head m_size].
    split; [|split; [|split]].
    + simpl. split; [reflexivity|]. exists None. unfold upd. rewrite Nat.eqb_refl. auto.
    + constructor; [intros []|constructor].
    + intros a [<-|[]]; lia.
    + reflexivity.
  - cbn [List.length Nat.eqb]. destruct ads as [|c ads]; [destruct H|]. pose proof H as H0. simpl in H0. destruct H0 as (Hd & _).
    rewrite Hd in *. destruct (seg_set_prev _ _ _ _ _ _ _ _ (Some (m_brk m)) ND H) as (h' & -> & S' & Fr & _ & _); [discriminate|].
    cbn [rbind]. eexists; split; [reflexivity|].
    exists (m_brk m :: c :: ads), last. cbn [m_heap m_brk m_head m_size].
    split; [|split; [|split]].
    + simpl seg. split; [reflexivity|]. exists (Some c). unfold upd at 1. rewrite Nat.eqb_refl. split; [reflexivity|].
      change (seg hash (upd h' (m_brk m) (Some (mkI (hash key) key v None (Some c)))) (Some (m_brk m)) (Some c) (c :: ads) ((k0, v0) :: l) last None).
      apply seg_frame with (h := h'); [|exact S']. intros a Ha. unfold upd. destruct (Nat.eqb_spec a (m_brk m)); [subst; contradiction|reflexivity].
    + constructor; assumption.
    + intros a [<-|Ha]; [lia|]. apply B in Ha. lia.
    + simpl. lia.
Qed.
End Lists.

(** ** What [begin] leaves behind *)
Section Begin.
Variables (hash : text -> Z) (d : dict) (ws ms : list string).
Definition mown_of (rs : list (mobj * mkey * string)) (o : mobj) : list (text * string) :=
  flat_map (fun r => if mobj_eq_dec (fst (fst r)) o then [(mkey_text d ws ms (snd (fst r)), snd r)] else []) rs.
Lemma mcreate_funcs_ok rs : forall w acc, (forall o, wrep hash (mw_methods w o) (acc o)) ->
  exists w', mcreate_funcs hash d ws ms rs w = Ret w' /\ mw_core w' = mw_core w /\ mw_names w' = mw_names w /\
    forall o, wrep hash (mw_methods w' o) (rev (mown_of rs o) ++ acc o).
Proof.
  induction rs as [|((o & k) & f) rs IH]; intros w acc R.
  - exists w. auto.
  - cbn [mcreate_funcs]. unfold mcreate_func.
    destruct (wrep_add hash _ _ (mkey_text d ws ms k) f (R o)) as (m & -> & Rm). cbn [rbind].
    set (w1 := mkMW _ _ _).
    destruct (IH w1 (fun x => if mobj_eq_dec x o then (mkey_text d ws ms k, f) :: acc o else acc x)) as (w' & E & C & N & R').
    { intros x. cbn [w1 mw_methods]. destruct (mobj_eq_dec x o) as [->|]; auto. }
    exists w'. split; [exact E|]. split; [exact C|]. split; [exact N|]. intros x. specialize (R' x). cbv beta in R'.
    unfold mown_of in *. cbn [flat_map fst snd]. destruct (mobj_eq_dec x o) as [->|NX].
    + destruct (mobj_eq_dec o o); [|congruence]. cbn [app rev]. rewrite <- app_assoc. exact R'.
    + destruct (mobj_eq_dec o x); [congruence|]. exact R'.
Qed.
Lemma mcreate_names_ok gs : forall m acc, wrep hash m acc ->
  exists m', mcreate_names hash d ws ms gs m = Ret m' /\
    wrep hash m' (rev (map (fun g => (mkey_text d ws ms (fst g), snd g)) gs) ++ acc).
Proof.
  induction gs as [|(k & o) gs IH]; intros m acc R.
  - exists m. auto.
  - cbn [mcreate_names]. destruct (wrep_add hash _ _ (mkey_text d ws ms k) o R) as (m1 & -> & R1). cbn [rbind].
    destruct (IH _ _ R1) as (m' & E & R'). exists m'. split; [exact E|]. cbn [map fst snd rev]. rewrite <- app_assoc. exact R'.
Qed.
Lemma begin_ok w0 : initialize hash d ws = Ret w0 ->
  exists w, begin hash d ws ms = Ret w /\ mw_core w = w0 /\ (forall o, wrep hash (mw_methods w o) (mown d ws ms o)) /\
    wrep hash (mw_names w) (mnames d ws ms).
Proof.
  intros E. unfold begin. rewrite E. cbn [rbind].
  destruct (mcreate_names_ok (map (fun g => (Core (fst g), OfCore (snd g))) globals) map_new [] (wrep_new hash)) as (m1 & -> & R1).
  cbn [rbind].
  destruct (mcreate_funcs_ok mregistrations (mkMW w0 (fun _ => map_new) m1) (fun _ => [])) as (w1 & -> & C1 & N1 & F1).
  { intros o. apply wrep_new. }
  cbn [rbind]. rewrite N1. cbn [mw_names].
  destruct (mcreate_names_ok (map (fun g => (fst g, OfPlugin (snd g))) mglobals) m1 _ R1) as (m2 & -> & R2). cbn [rbind].
  eexists. split; [reflexivity|]. cbn [mw_core mw_methods mw_names]. split; [exact C1|]. split.
  - intros o. specialize (F1 o). rewrite app_nil_r in F1. exact F1.
  - unfold mnames. rewrite app_nil_r in R2. rewrite !map_map in R2. exact R2.
Qed.
Lemma mown_length o : List.length (mown d ws ms o) <= 100.
Proof.
  unfold mown. rewrite rev_length.
  assert (G : forall rs, List.length (flat_map (fun r => if mobj_eq_dec (fst (fst r)) o then [(mkey_text d ws ms (snd (fst r)), snd r)] else []) rs)
     <= List.length (A := mobj * mkey * string) rs).
  { induction rs as [|r rs IH]; [auto|]. cbn [flat_map]. rewrite app_length. destruct (mobj_eq_dec (fst (fst r)) o); cbn [List.length]; lia. }
  etransitivity; [apply G|]. apply Nat.leb_le. vm_compute. reflexivity.
Qed.
Lemma mnames_length : List.length (mnames d ws ms) <= 100.
Proof. unfold mnames. rewrite app_length, !rev_length, !map_length. apply Nat.leb_le. vm_compute. reflexivity. Qed.
End Begin.

(** ** The checks *)
Lemma mobjs_all o : In o mobjs. Proof. destruct o; cbn; tauto. Qed.
Lemma mobj_eqb_ok a b : mobj_eqb a b = true <-> a = b.
Proof. unfold mobj_eqb. destruct (mobj_eq_dec a b); split; congruence. Qed.
Lemma std_eqb_ok a b : std_eqb a b = true <-> a = b.
Proof. unfold std_eqb. destruct (std_eq_dec a b); split; congruence. Qed.
Lemma mkey_eqb_ok a b : mkey_eqb a b = true -> a = b.
Proof. destruct a, b; cbn; try discriminate; intros H; [apply key_eqb_ok in H|apply String.eqb_eq in H]; now subst. Qed.
Lemma thing_eqb_ok a b : thing_eqb a b = true <-> a = b.
Proof.
  destruct a, b; cbn; split; try discriminate; intros H.
  - apply std_eqb_ok in H. now subst.
  - injection H as ->. now apply std_eqb_ok.
  - apply mobj_eqb_ok in H. now subst.
  - injection H as ->. now apply mobj_eqb_ok.
Qed.
Lemma listed_ok xs l k : listed xs l k = true -> In (l, k) xs.
Proof.
  unfold listed. intros E. apply existsb_exists in E. destruct E as ((l' & k') & I & E). cbn [fst snd] in E.
  apply andb_prop in E. destruct E as (E1 & E2). apply String.eqb_eq in E1. apply mkey_eqb_ok in E2. now subst.
Qed.
Lemma has_ok o k : has o k = true -> exists g, In (o, k, g) mregistrations.
Proof.
  unfold has. intros E. apply existsb_exists in E. destruct E as (((o' & k') & g) & I & E). cbn [fst snd] in E.
  apply andb_prop in E. destruct E as (E1 & E2). apply mobj_eqb_ok in E1. apply mkey_eqb_ok in E2. subst. eauto.
Qed.
Lemma found_ok {V} (eqb : V -> V -> bool) l t v : (forall a b, eqb a b = true -> a = b) -> found eqb l t v = true -> lookup l t = Some v.
Proof. unfold found. intros OK E. destruct (lookup l t); [|discriminate]. f_equal. auto. Qed.
Lemma absent_ok {V} (l : list (text * V)) t : absent l t = true -> lookup l t = None.
Proof. unfold absent. destruct (lookup l t); [discriminate|auto]. Qed.
Lemma each_media_ok check : each_media check = true ->
  forall l d ws ms, In (lit l, d) languages -> In (l, ws) dictionaries -> In (l, ms) mdictionaries -> check l d ws ms = true.
Proof.
  unfold each_media. intros H l d ws ms L D M. rewrite forallb_forall in H. specialize (H _ M). rewrite forallb_forall in H.
  specialize (H _ D). cbn [fst snd] in H. rewrite String.eqb_refl in H. rewrite forallb_forall in H. specialize (H _ L). cbn [fst snd] in H.
  replace (text_eqb (lit l) (lit l)) with true in H by (symmetry; now apply text_eqb_spec). exact H.
Qed.
Lemma medias_ok : each_media media_okb = true. Proof. vm_compute. reflexivity. Qed.
Lemma mnames_ok : each_media names_okb = true. Proof. vm_compute. reflexivity. Qed.
Lemma msendable_ok : each_media msendable = true. Proof. vm_compute. reflexivity. Qed.
Lemma mevents_ok : each_media events_okb = true. Proof. vm_compute. reflexivity. Qed.

Lemma media_parts l d ws ms : media_okb l d ws ms = true ->
  (forall o k f, In (o, k, f) mregistrations -> ~ In (l, k) hidden -> lookup (mown d ws ms o) (mkey_text d ws ms k) = Some f) /\
  (forall o p k f, derived o = OfPlugin p -> In (p, k, f) mregistrations -> (forall g, ~ In (o, k, g) mregistrations) ->
     lookup (mown d ws ms o) (mkey_text d ws ms k) = None) /\
  (forall o k f, In (OObject, k, f) registrations -> (forall g, ~ In (o, Core k, g) mregistrations) ->
     lookup (mown d ws ms o) (key_text d ws k) = None) /\
  (forall k o, In (k, o) globals -> lookup (mnames d ws ms) (key_text d ws k) = Some (OfCore o)) /\
  (forall k o, In (k, o) mglobals -> lookup (mnames d ws ms) (mkey_text d ws ms k) = Some (OfPlugin o)).
Proof.
  unfold media_okb. intros H. cbv zeta in H. ands.
  repeat match goal with H : forallb _ _ = true |- _ => rewrite forallb_forall in H end.
  assert (Own : forall o, In (o, mown d ws ms o) (map (fun o => (o, mown d ws ms o)) mobjs)).
  { intros o. exact (in_map (fun o => (o, mown d ws ms o)) _ _ (mobjs_all o)). }
  split; [|split; [|split; [|split]]].
  - intros o k f I NH. specialize (H _ (Own o)). rewrite forallb_forall in H. specialize (H _ I). cbn [fst snd] in H.
    rewrite (proj2 (mobj_eqb_ok o o) eq_refl) in H. apply orb_prop in H. destruct H as [H|H]; [now apply listed_ok in H|].
    apply (found_ok String.eqb); [|exact H]. intros a b. apply String.eqb_eq.
  - intros o p k f DE I NI. specialize (H3 _ (Own o)). rewrite forallb_forall in H3. specialize (H3 _ I). cbn [fst snd] in H3.
    rewrite DE, (proj2 (thing_eqb_ok _ _) eq_refl) in H3. apply orb_prop in H3. destruct H3 as [X|X]; [|now apply absent_ok].
    apply has_ok in X. destruct X as (g & X). now apply NI in X.
  - intros o k f I NI. specialize (H2 _ (Own o)). rewrite forallb_forall in H2. specialize (H2 _ I). cbn [fst snd] in H2.
    rewrite (proj2 (std_eqb_ok _ _) eq_refl) in H2. apply orb_prop in H2. destruct H2 as [X|X]; [|now apply absent_ok].
    apply has_ok in X. destruct X as (g & X). now apply NI in X.
  - intros k o I. specialize (H0 _ I). cbn [fst snd] in H0. apply (found_ok thing_eqb); [|exact H0]. apply thing_eqb_ok.
  - intros k o I. specialize (H1 _ I). cbn [fst snd] in H1. apply (found_ok thing_eqb); [|exact H1]. apply thing_eqb_ok.
Qed.

Lemma mlink_derived o : mlink o = derived o. Proof. destruct o; reflexivity. Qed.
Lemma understands_object k f : understands OObject k f -> In (OObject, k, f) registrations.
Proof. intros U. inversion U; subst; [assumption|discriminate]. Qed.
Lemma mean_object o k f : derived o = OfCore OObject -> mean o k f ->
  In (o, k, f) mregistrations \/ (exists k', k = Core k' /\ (forall g, ~ In (o, k, g) mregistrations) /\ In (OObject, k', f) registrations).
Proof.
  intros DE M. inversion M as [? ? ? I|? ? ? ? NI DP MP|? ? ? ? NI DP U]; subst; [auto|congruence|]. right.
  rewrite DE in DP. injection DP as <-. exists k0. split; [auto|]. split; [auto|]. now apply understands_object.
Qed.

Theorem media_works l d ws ms hash : In (lit l, d) languages -> In (l, ws) dictionaries -> In (l, ms) mdictionaries ->
  exists w, begin hash d ws ms = Ret w /\
  (forall fuel o k f, 310 <= fuel -> mean o k f -> ~ In (l, k) hidden -> mfind_method hash fuel w o (mkey_text d ws ms k) = Ret (Some f)) /\
  (forall fuel k o, 310 <= fuel -> In (k, o) mglobals -> mfind_name hash fuel w (mkey_text d ws ms k) = Ret (Some (OfPlugin o))) /\
  (forall fuel k o, 310 <= fuel -> In (k, o) globals -> mfind_name hash fuel w (key_text d ws k) = Ret (Some (OfCore o))).
Proof.
  intros L D M. destruct (language_world l d ws hash L D) as (w0 & E0 & F0 & _).
  destruct (begin_ok hash d ws ms w0 E0) as (w & E & C & R & N). exists w. split; [exact E|].
  destruct (media_parts l d ws ms (each_media_ok _ medias_ok l d ws ms L D M)) as (P1 & P2 & P3 & P4 & P5).
  assert (Find : forall fuel o t, 101 <= fuel -> find_property hash fuel (mw_methods w o) t = Ret (lookup (mown d ws ms o) t)).
  { intros fuel o t FU. apply wrep_find; [apply R|]. pose proof (mown_length d ws ms o). lia. }
  assert (Core1 : forall fuel o k f, 301 <= fuel -> derived o = OfCore OObject -> mean o k f -> ~ In (l, k) hidden ->
    mfind_method hash fuel w o (mkey_text d ws ms k) = Ret (Some f)).
  { intros fuel o k f FU DE ME NH. destruct fuel as [|n]; [lia|]. cbn [mfind_method]. rewrite Find by lia. cbn [rbind].
    destruct (mean_object o k f DE ME) as [I|(k' & -> & NI & I)].
    - rewrite (P1 _ _ _ I NH). reflexivity.
    - cbn [mkey_text]. rewrite (P3 _ _ _ I NI). rewrite mlink_derived, DE, C. apply F0; [lia|]. now apply un_own. }
  split; [|split].
  - intros fuel o k f FU ME NH. destruct (derived o) as [p|p] eqn:DE.
    { assert (p = OObject) as -> by (destruct o; cbn in DE; congruence). apply Core1; auto; lia. }
    assert (PA : p = MAudio) by (destruct o; cbn in DE; congruence).
    assert (DA : derived p = OfCore OObject) by (subst p; reflexivity).
    inversion ME as [? ? ? I|? p' ? ? NI DP MP|? ? ? ? NI DP U]; subst o0 k0 f0 || subst; [| |congruence].
    + destruct fuel as [|n]; [lia|]. cbn [mfind_method]. rewrite Find by lia. cbn [rbind]. rewrite (P1 _ _ _ I NH). reflexivity.
    + rewrite DE in DP. injection DP as DP. rewrite <- DP in MP. clear DP p'.
      destruct fuel as [|n]; [lia|]. cbn [mfind_method]. rewrite Find by lia. cbn [rbind].
      replace (lookup (mown d ws ms o) (mkey_text d ws ms k)) with (@None string).
      * rewrite mlink_derived, DE. apply Core1; auto; lia.
      * symmetry. destruct (mean_object p k f DA MP) as [I|(k' & EK & _ & I)].
        -- exact (P2 _ _ _ _ DE I NI).
        -- subst k. cbn [mkey_text]. exact (P3 _ _ _ I NI).
  - intros fuel k o FU I. unfold mfind_name. rewrite (wrep_find hash _ _ _ _ N); [|pose proof (mnames_length d ws ms); lia].
    now rewrite (P5 _ _ I).
  - intros fuel k o FU I. unfold mfind_name. rewrite (wrep_find hash _ _ _ _ N); [|pose proof (mnames_length d ws ms); lia].
    now rewrite (P4 _ _ I).
Qed.

Theorem media_names l d ws ms k o : In (lit l, d) languages -> In (l, ws) dictionaries -> In (l, ms) mdictionaries ->
  In (k, o) mglobals ->
  prim d (NRef 0 (mkey_text d ws ms k)) [ref (mkey_text d ws ms k)] /\ piece d [ref (mkey_text d ws ms k)] (mkey_text d ws ms k).
Proof.
  intros L D M I. pose proof (each_media_ok _ mnames_ok l d ws ms L D M) as G. unfold names_okb in G. rewrite forallb_forall in G.
  specialize (G _ I). cbn [fst] in G. cbv zeta in G. ands. rewrite !negb_true_iff in *.
  assert (TE : forall a b, text_eqb a b = false -> a <> b).
  { intros a b X ->. assert (text_eqb b b = true) by now apply text_eqb_spec. congruence. }
  split; [|now apply piece_word]. apply g_ref.
  - unfold is_my. now apply TE.
  - unfold is_var. intros [X|X]; revert X; now apply TE.
Qed.

Theorem media_sends l d ws ms o k f r tr sr args a b : In (lit l, d) languages -> In (l, ws) dictionaries -> In (l, ms) mdictionaries ->
  In (o, k, f) mregistrations -> ~ In (l, k) unsendable ->
  prim d r tr -> piece d tr sr -> Forall (written_arg d (mkey_text d ws ms k)) args -> List.length args = english_arguments k ->
  exists s, parse d (sr ++ 32%N :: call (d_prefix d) (mkey_text d ws ms k) (map a_text args) ++ d_eol d) a b =
    POk [NExpr r [message (mkey_text d ws ms k) (map a_node args)]] s /\ err s = false.
Proof.
  intros L D M R NE P PC F LN. pose proof (each_media_ok _ msendable_ok l d ws ms L D M) as S. unfold msendable in S.
  rewrite forallb_forall in S. specialize (S _ R). cbn [fst snd] in S. apply orb_prop in S. destruct S as [S|S].
  - now apply listed_ok in S.
  - destruct (proj1 (Forall_forall _ _) all_languages _ L) as (LA & WO & MO). cbn [snd] in *. eapply send_parses; eauto.
Qed.

(** ** Events *)
Theorem media_events l d ws ms : In (lit l, d) languages -> In (l, ws) dictionaries -> In (l, ms) mdictionaries ->
  NoDup (map (fun e => mkey_text d ws ms (Plug e)) mevents) /\
  forall e o k f, In e mevents -> o = MMedia \/ o = MImage -> mean o k f -> mkey_text d ws ms k = mkey_text d ws ms (Plug e) -> k = Plug e.
Proof.
  intros L D M. pose proof (each_media_ok _ mevents_ok l d ws ms L D M) as G. unfold events_okb in G. ands.
  split; [now apply nodupb_ok|]. intros e o k f I OO ME ET. rewrite forallb_forall in H0. specialize (H0 _ I). cbv zeta in H0. ands.
  rewrite forallb_forall in *.
  assert (DE : derived o = OfCore OObject) by (destruct OO; subst; reflexivity).
  assert (EQ : text_eqb (mkey_text d ws ms k) (mkey_text d ws ms (Plug e)) = true) by now apply text_eqb_spec.
  destruct (mean_object o k f DE ME) as [J|(k' & -> & _ & J)].
  - specialize (H0 _ J). cbn [fst snd] in H0. replace (mobj_eqb o MMedia || mobj_eqb o MImage) with true in H0 by (destruct OO; subst; reflexivity).
    rewrite EQ in H0. cbn [negb] in H0. rewrite orb_false_r in H0. now apply mkey_eqb_ok.
  - specialize (H2 _ J). cbn [fst snd] in H2. cbn [mkey_text] in EQ, H2. rewrite (proj2 (std_eqb_ok _ _) eq_refl), EQ in H2. discriminate.
Qed.
Theorem media_event_blocks l d ws ms e r tr sr args a b : In (lit l, d) languages -> In (l, ws) dictionaries -> In (l, ms) mdictionaries ->
  In e mevents -> prim d r tr -> piece d tr sr -> Forall (written_arg d (mkey_text d ws ms (Plug e))) args ->
  List.length args = english_arguments (Plug e) ->
  exists s, parse d (sr ++ 32%N :: call (d_prefix d) (mkey_text d ws ms (Plug e)) (map a_text args) ++ d_eol d) a b =
    POk [NExpr r [message (mkey_text d ws ms (Plug e)) (map a_node args)]] s /\ err s = false.
Proof.
  intros L D M I P PC F LN. pose proof (each_media_ok _ mevents_ok l d ws ms L D M) as G. unfold events_okb in G. ands.
  rewrite forallb_forall in H1. specialize (H1 _ I). cbv beta in H1.
  destruct (proj1 (Forall_forall _ _) all_languages _ L) as (LA & WO & MO). cbn [snd] in *. eapply send_parses; eauto.
Qed.

(** ** The arguments of the functions *)
Lemma marity_checked : forallb (fun r => existsb (fun q => String.eqb (fst q) (snd r) && Nat.eqb (snd q) (english_arguments (snd (fst r)))) mtakes) mregistrations = true.
Proof. vm_compute. reflexivity. Qed.
Lemma marity_ok o k f : In (o, k, f) mregistrations -> In (f, english_arguments k) mtakes.
Proof.
  intros I. assert (A := marity_checked). rewrite forallb_forall in A. specialize (A _ I).
  apply existsb_exists in A. destruct A as ((g & n) & J & E). apply andb_prop in E. cbn [fst snd] in E. destruct E as (E1 & E2).
  apply String.eqb_eq in E1. apply Nat.eqb_eq in E2. rewrite <- E1, <- E2. exact J.
Qed.
