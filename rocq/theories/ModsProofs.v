(** Proofs about the plugins Request and Json. *)
From Coq Require Import List String NArith Bool Lia.
From Verif Require Import Common Fuel Txt TextSpec LexModel LexSpec ParseModel ParseSpec Dicts LangDicts MapModel MapSpec MapProofs
  RegTable RegModel RegSpec RegCheck RegProofs MedCheck MedProofs ExtModel ModsModel.
Import ListNotations.
Open Scope list_scope.
Open Scope nat_scope.

Lemma sadd_ok {V} hash (xs : list (text * V)) : forall m acc, wrep hash m acc -> exists m', sadd hash xs m = Ret m' /\ wrep hash m' (rev xs ++ acc).
Proof.
  induction xs as [|(t & v) xs IH]; intros m acc R; [exists m; auto|]. cbn [sadd].
  destruct (wrep_add hash _ _ t v R) as (m1 & -> & R1). cbn [rbind]. destruct (IH _ _ R1) as (m' & E & R'). exists m'. split; [exact E|].
  cbn [rev]. rewrite <- app_assoc. exact R'.
Qed.
Definition smethods (d : dict) (ws : list string) (b : build) : list (text * string) := rev (map (fun r => (stext d ws (fst r), snd r)) (b_methods b)).
Definition snames (d : dict) (ws : list string) (b : build) : list (text * option std) :=
  (lit (b_name b), None) :: rev (map (fun g => (key_text d ws (fst g), Some (snd g))) globals).
Lemma sbegin_ok hash d ws b w0 : initialize hash d ws = Ret w0 -> exists w, sbegin hash d ws b = Ret w /\ sw_core w = w0 /\
  wrep hash (sw_methods w) (smethods d ws b) /\ wrep hash (sw_names w) (snames d ws b).
Proof.
  intros E. unfold sbegin. rewrite E. cbn [rbind].
  destruct (sadd_ok hash (map (fun g => (key_text d ws (fst g), Some (snd g))) globals) map_new [] (wrep_new hash)) as (m1 & -> & R1). cbn [rbind].
  destruct (sadd_ok hash (map (fun r => (stext d ws (fst r), snd r)) (b_methods b)) map_new [] (wrep_new hash)) as (m2 & -> & R2). cbn [rbind].
  destruct (sadd_ok hash [(lit (b_name b), None)] m1 _ R1) as (m3 & -> & R3). cbn [rbind].
  rewrite app_nil_r in *. eexists. split; [reflexivity|]. cbn [sw_core sw_methods sw_names]. split; [reflexivity|]. split; [exact R2|exact R3].
Qed.

(** ** The checks *)
Definition skey_eqb (a b : skey) : bool :=
  match a, b with SCore x, SCore y => key_eqb x y | SText x, SText y => String.eqb x y | _, _ => false end.
Definition ostd_eqb (a b : option std) : bool := match a, b with Some x, Some y => std_eqb x y | None, None => true | _, _ => false end.
Definition takes (f : string) : option nat := match find (fun q => String.eqb (fst q) f) stakes with Some q => Some (snd q) | None => None end.
Definition mods_okb (b : build) (d : dict) (ws : list string) : bool :=
  let own := smethods d ws b in let ns := snames d ws b in
  forallb (fun r => found String.eqb own (stext d ws (fst r)) (snd r)) (b_methods b)
  && forallb (fun r => if std_eqb (fst (fst r)) OObject
       then existsb (fun q => skey_eqb (fst q) (SCore (snd (fst r)))) (b_methods b) || absent own (key_text d ws (snd (fst r))) else true) registrations
  && forallb (fun g => found ostd_eqb ns (key_text d ws (fst g)) (Some (snd g))) globals
  && (List.length own <? 20) && (List.length ns <? 100)
  && (let t := lit (b_name b) in word_okb d t 32%N && negb (text_eqb t (d_my d)) && negb (text_eqb t (d_var d)) && negb (text_eqb t [62; 62]%N))
  && forallb (fun r => match takes (snd r) with Some n => name_okb d (stext d ws (fst r)) n | None => false end) (b_methods b).
Definition each_build (check : build -> dict -> list string -> bool) : bool :=
  forallb (fun b => forallb (fun lw => if String.eqb (fst lw) (b_language b)
    then forallb (fun ld => if text_eqb (fst ld) (lit (b_language b)) then check b (snd ld) (snd lw) else true) languages
    else true) dictionaries) builds.
Lemma each_build_ok check : each_build check = true ->
  forall b d ws, In b builds -> In (lit (b_language b), d) languages -> In (b_language b, ws) dictionaries -> check b d ws = true.
Proof.
  unfold each_build. intros H b d ws B L D. rewrite forallb_forall in H. specialize (H _ B). rewrite forallb_forall in H.
  specialize (H _ D). cbn [fst snd] in H. rewrite String.eqb_refl in H. rewrite forallb_forall in H. specialize (H _ L). cbn [fst snd] in H.
  replace (text_eqb (lit (b_language b)) (lit (b_language b))) with true in H by (symmetry; now apply text_eqb_spec). exact H.
Qed.
Lemma builds_ok : each_build mods_okb = true. Proof. vm_compute. reflexivity. Qed.
Lemma skey_eqb_ok a b : skey_eqb a b = true -> a = b.
Proof.
  destruct a as [x|x], b as [y|y]; try discriminate; cbn [skey_eqb].
  - intros H. pose proof (mkey_eqb_ok (MedTable.Core x) (MedTable.Core y) H) as E. now injection E as ->.
  - intros H. apply String.eqb_eq in H. now subst.
Qed.
Lemma ostd_eqb_ok a b : ostd_eqb a b = true -> a = b.
Proof. destruct a, b; try discriminate; [|reflexivity]. cbn. intros H. apply std_eqb_ok in H. now subst. Qed.

Theorem mods_work b d ws hash : In b builds -> In (lit (b_language b), d) languages -> In (b_language b, ws) dictionaries ->
  exists w, sbegin hash d ws b = Ret w /\
  (forall fuel k f, 301 <= fuel -> In (k, f) (b_methods b) -> sfind_method hash fuel w (stext d ws k) = Ret (Some f)) /\
  (forall fuel k f, 301 <= fuel -> understands OObject k f -> (forall g, ~ In (SCore k, g) (b_methods b)) -> sfind_method hash fuel w (key_text d ws k) = Ret (Some f)) /\
  (forall fuel, 301 <= fuel -> sfind_name hash fuel w (lit (b_name b)) = Ret (Some None)) /\
  (forall fuel k o, 301 <= fuel -> In (k, o) globals -> sfind_name hash fuel w (key_text d ws k) = Ret (Some (Some o))).
Proof.
  intros B L D. destruct (language_world (b_language b) d ws hash L D) as (w0 & E0 & F0 & _).
  destruct (sbegin_ok hash d ws b w0 E0) as (w & E & C & R & N). exists w. split; [exact E|].
  pose proof (each_build_ok _ builds_ok b d ws B L D) as H. unfold mods_okb in H. cbv zeta in H.
  apply andb_prop in H as [H _]. apply andb_prop in H as [H _]. apply andb_prop in H as [H LN]. apply andb_prop in H as [H LO]. apply andb_prop in H as [H H3].
  apply andb_prop in H as [H1 H2]. apply Nat.ltb_lt in LN, LO.
  rewrite forallb_forall in H1, H2, H3.
  split; [|split; [|split]].
  - intros fuel k f FU I. specialize (H1 _ I). cbn [fst snd] in H1. apply (found_ok String.eqb) in H1; [|intros a c; apply String.eqb_eq].
    unfold sfind_method. rewrite (wrep_find hash _ _ _ fuel R) by lia. cbn [rbind]. now rewrite H1.
  - intros fuel k f FU U NI. apply understands_object in U. specialize (H2 _ U). cbn [fst snd] in H2.
    rewrite (proj2 (std_eqb_ok _ _) eq_refl) in H2. apply orb_prop in H2 as [H2|H2].
    + apply existsb_exists in H2 as ([k' g] & I & X). cbn [fst] in X. apply skey_eqb_ok in X as ->. now apply NI in I.
    + apply absent_ok in H2. unfold sfind_method. rewrite (wrep_find hash _ _ _ fuel R) by lia. cbn [rbind]. rewrite H2, C. apply F0; [lia|now apply un_own].
  - intros fuel FU. unfold sfind_name. rewrite (wrep_find hash _ _ _ fuel N) by lia. unfold snames. cbn [lookup].
    destruct (text_dec _ _); [reflexivity|congruence].
  - intros fuel k o FU I. unfold sfind_name. rewrite (wrep_find hash _ _ _ fuel N) by lia. specialize (H3 _ I). cbn [fst snd] in H3.
    apply (found_ok ostd_eqb) in H3; [|exact ostd_eqb_ok]. now rewrite H3.
Qed.
Theorem mods_sends b d ws k f n r tr sr args a c : In b builds -> In (lit (b_language b), d) languages -> In (b_language b, ws) dictionaries ->
  In (k, f) (b_methods b) -> In (f, n) stakes -> prim d r tr -> piece d tr sr -> Forall (written_arg d (stext d ws k)) args -> List.length args = n ->
  exists s, parse d (sr ++ 32%N :: call (d_prefix d) (stext d ws k) (map a_text args) ++ d_eol d) a c =
    POk [NExpr r [message (stext d ws k) (map a_node args)]] s /\ err s = false.
Proof.
  intros B L D I T P PC F LN. pose proof (each_build_ok _ builds_ok b d ws B L D) as H. unfold mods_okb in H. cbv zeta in H.
  apply andb_prop in H as [_ H]. rewrite forallb_forall in H. specialize (H _ I). cbn [fst snd] in H.
  assert (TK : takes f = Some n).
  { clear -T. unfold stakes in T. cbn [In] in T. repeat (destruct T as [T|T]; [injection T as <- <-; vm_compute; reflexivity|]). destruct T. }
  rewrite TK in H. destruct (proj1 (Forall_forall _ _) all_languages _ L) as (LA & WO & MO). cbn [snd] in *. eapply send_parses; eauto.
Qed.
Theorem mods_names b d ws : In b builds -> In (lit (b_language b), d) languages -> In (b_language b, ws) dictionaries ->
  prim d (NRef 0 (lit (b_name b))) [ref (lit (b_name b))] /\ piece d [ref (lit (b_name b))] (lit (b_name b)).
Proof.
  intros B L D. pose proof (each_build_ok _ builds_ok b d ws B L D) as H. unfold mods_okb in H. cbv zeta in H.
  apply andb_prop in H as [H _]. apply andb_prop in H as [_ H]. ands. rewrite !negb_true_iff in *.
  assert (TE : forall a b, text_eqb a b = false -> a <> b).
  { intros x y X ->. assert (text_eqb y y = true) by now apply text_eqb_spec. congruence. }
  split; [|now apply piece_word]. apply g_ref.
  - unfold is_my. now apply TE.
  - unfold is_var. intros [X|X]; revert X; now apply TE.
Qed.
(** ** Loading *)
Lemma lookup_in_list {V} (l : list (text * V)) t v : lookup l t = Some v -> In (t, v) l.
Proof.
  induction l as [|(a & x) l IH]; [discriminate|]. cbn [lookup]. destruct (text_dec _ _) as [->|]; [intros E; left; congruence|]. right. now apply IH.
Qed.
Definition leads (n : text) (b : build) : bool := match plugin_path n with Ok p => text_eqb p (lit (b_path b)) | UB => false end.
Lemma paths_checked : forallb (fun b => String.eqb (b_path b) "mods/jsonnl/libctrjsonnl.so" || leads (lit (b_name b)) b) builds = true.
Proof. vm_compute. reflexivity. Qed.
Lemma mods_path b : In b builds -> b_path b <> "mods/jsonnl/libctrjsonnl.so"%string -> plugin_path (lit (b_name b)) = Ok (lit (b_path b)).
Proof.
  intros B NE. pose proof paths_checked as H. rewrite forallb_forall in H. specialize (H _ B). apply orb_prop in H as [H|H].
  - apply String.eqb_eq in H. contradiction.
  - unfold leads in H. destruct (plugin_path (lit (b_name b))) as [p|]; [|discriminate]. apply text_eqb_spec in H. now subst.
Qed.
Definition lost (b : build) (d : dict) (ws : list string) : bool :=
  if String.eqb (b_path b) "mods/jsonnl/libctrjsonnl.so" then forallb (fun n => negb (leads (fst n) b)) (snames d ws b) else true.
Lemma lost_checked : each_build lost = true. Proof. vm_compute. reflexivity. Qed.
Theorem mods_lost b d ws hash w fuel t : In b builds -> In (lit (b_language b), d) languages -> In (b_language b, ws) dictionaries ->
  b_path b = "mods/jsonnl/libctrjsonnl.so"%string -> sbegin hash d ws b = Ret w -> 301 <= fuel ->
  plugin_path t = Ok (lit (b_path b)) -> sfind_name hash fuel w t = Ret None.
Proof.
  intros B L D EP E FU P. destruct (language_world (b_language b) d ws hash L D) as (w0 & E0 & _).
  destruct (sbegin_ok hash d ws b w0 E0) as (w' & E' & _ & _ & N). rewrite E in E'. injection E' as <-.
  unfold sfind_name. assert (LN : List.length (snames d ws b) < 301).
  { unfold snames. cbn [List.length]. rewrite rev_length, map_length. apply Nat.ltb_lt. vm_compute. reflexivity. }
  rewrite (wrep_find hash _ _ _ fuel N) by lia. destruct (lookup (snames d ws b) t) as [v|] eqn:LK; [|reflexivity]. exfalso.
  apply lookup_in_list in LK. pose proof (each_build_ok _ lost_checked b d ws B L D) as H. unfold lost in H. rewrite EP in H. cbn [String.eqb Ascii.eqb Bool.eqb] in H.
  rewrite forallb_forall in H. specialize (H _ LK). cbn [fst] in H. unfold leads in H. rewrite P in H.
  replace (text_eqb (lit (b_path b)) (lit (b_path b))) with true in H by (symmetry; now apply text_eqb_spec). discriminate.
Qed.
