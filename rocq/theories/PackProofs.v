(** Proofs about packages of files. *)
From Verif Require Import Common Fuel SipModel PackSpec PackModel.
Local Open Scope N_scope.

Lemma length_bytes : forall k n, length (bytes_of k n) = k.
Proof. induction k; intros n; cbn; [reflexivity|]. rewrite IHk. reflexivity. Qed.
Lemma word_bytes : forall k n, n < 256 ^ N.of_nat k -> word_of (bytes_of k n) = n.
Proof.
  induction k as [|k IH]; intros n H; [cbn in *; lia|]. cbn [bytes_of word_of].
  rewrite IH.
  - rewrite N.add_comm. symmetry. apply N.div_mod. discriminate.
  - apply N.div_lt_upper_bound; [discriminate|]. rewrite Nnat.Nat2N.inj_succ, N.pow_succ_r' in H. exact H.
Qed.
Lemma word_bytes64 : forall n, n < T64 -> word_of (bytes64 n) = n.
Proof. intros n H. apply word_bytes. exact H. Qed.

Lemma fwrite_end : forall f s, fwrite f (length f) s = (f ++ s, length (f ++ s)).
Proof.
  intros f s. unfold fwrite. rewrite firstn_all, skipn_all2 by lia. rewrite app_nil_r, app_length. reflexivity.
Qed.
Lemma fwrite_at : forall a b s c, length b = length s -> fwrite (a ++ b ++ c) (length a) s = (a ++ s ++ c, (length a + length s)%nat).
Proof.
  intros a b s c L. unfold fwrite. rewrite firstn_app, Nat.sub_diag, firstn_all, firstn_O, app_nil_r.
  rewrite skipn_app, skipn_all2 by lia. replace (length a + length s - length a)%nat with (length b) by lia.
  rewrite skipn_app, skipn_all, Nat.sub_diag. reflexivity.
Qed.
Lemma copy_loop_ok : forall chunk fuel src out, (0 < chunk)%nat -> (length src < fuel)%nat ->
  copy_loop fuel chunk src out (length out) = Ret (out ++ src, length (out ++ src)).
Proof.
  intros chunk. induction fuel as [|fuel IH]; intros src out C L; [lia|]. cbn [copy_loop]. rewrite fwrite_end.
  destruct (Nat.ltb_spec (length (firstn chunk src)) chunk) as [H|H].
  - assert (firstn chunk src = src) by (apply firstn_all2; rewrite firstn_length in H; lia). rewrite H0. reflexivity.
  - rewrite IH; [|exact C|rewrite skipn_length, firstn_length in *; lia]. rewrite <- app_assoc, firstn_skipn. reflexivity.
Qed.

(** * The format *)
Definition entry (at_ : nat) (e : text * text) : text :=
  fst e ++ [0] ++ bytes64 (N.of_nat (at_ + length (fst e) + 9 + length (snd e))) ++ snd e.
Fixpoint packed (at_ : nat) (es : entries) : text :=
  match es with [] => [] | e :: r => entry at_ e ++ packed (at_ + length (entry at_ e)) r end.
Lemma entry_length : forall n e, length (entry n e) = (length (fst e) + 9 + length (snd e))%nat.
Proof. intros n e. unfold entry, bytes64. rewrite !app_length, length_bytes. cbn [length]. lia. Qed.
Lemma packed_app : forall es n e, packed n (es ++ [e]) = packed n es ++ entry (n + length (packed n es)) e.
Proof.
  induction es as [|x es IH]; intros n e; cbn [packed app].
  - cbn [length]. rewrite Nat.add_0_r. apply app_nil_r.
  - rewrite IH, <- app_assoc, app_length, Nat.add_assoc. reflexivity.
Qed.
Lemma packed_length : forall es n, length (packed n es) = fold_right (fun e n => length (fst e) + 9 + length (snd e) + n)%nat 0%nat es.
Proof. induction es as [|e es IH]; intros n; cbn [fold_right packed]; [reflexivity|]. rewrite app_length, entry_length, IH. reflexivity. Qed.

Lemma filter_id : forall t, name_ok t -> filter (fun c => negb (c =? 0)) t = t.
Proof.
  induction t as [|c t IH]; intros H; [reflexivity|]. cbn [filter]. destruct (N.eqb_spec c 0) as [->|C]; [exfalso; apply H; left; reflexivity|].
  cbn [negb]. f_equal. apply IH. intros K. apply H. right. exact K.
Qed.
Lemma add_ok : forall chunk opens d pkg path es content fuel, (0 < chunk)%nat -> opens pkg = true -> name_ok path -> path <> pkg ->
  d path = Some content -> (d pkg = None /\ es = [] \/ d pkg = Some (packed 0 es)) -> (length content < fuel)%nat ->
  exists d', package_add chunk opens d pkg (Some path) fuel = Ret (d', AMyself, false) /\
    d' pkg = Some (packed 0 (es ++ [(path, content)])) /\ (forall q, q <> pkg -> d' q = d q).
Proof.
  intros chunk opens d pkg path es content fuel C O NM NP D P F. unfold package_add.
  set (d1 := opened d pkg).
  assert (D1 : d1 pkg = Some (packed 0 es) /\ forall q, q <> pkg -> d1 q = d q).
  { unfold d1, opened. destruct P as [[P ->]|P]; rewrite P.
    - split; [unfold save; destruct (list_eq_dec N.eq_dec pkg pkg); [reflexivity|congruence]|].
      intros q Q. unfold save. destruct (list_eq_dec N.eq_dec q pkg); [congruence|reflexivity].
    - split; [exact P|reflexivity]. }
  destruct D1 as [D1 D2]. clearbody d1. cbv zeta. rewrite O, D1. cbn [negb]. rewrite filter_id by exact NM.
  destruct (list_eq_dec N.eq_dec path pkg); [contradiction|]. rewrite D2, D by assumption.
  rewrite fwrite_end. rewrite fwrite_end. rewrite fwrite_end. rewrite copy_loop_ok by assumption. cbn [rbind].
  set (out := packed 0 es).
  replace ((((out ++ path) ++ [0]) ++ repeat 0 8) ++ content) with (((out ++ path) ++ [0]) ++ repeat 0 8 ++ content) by (rewrite <- !app_assoc; reflexivity).
  rewrite (fwrite_at ((out ++ path) ++ [0]) (repeat 0 8) (bytes64 _) content) by (unfold bytes64; rewrite length_bytes; reflexivity).
  eexists. split; [reflexivity|]. split.
  - unfold save. destruct (list_eq_dec N.eq_dec pkg pkg); [|congruence]. f_equal. rewrite packed_app. fold out. unfold entry. cbn [fst snd].
    rewrite <- !app_assoc. do 3 f_equal. f_equal. rewrite !app_length, repeat_length. cbn [length]. f_equal. f_equal. lia.
  - intros q Q. unfold save. destruct (list_eq_dec N.eq_dec q pkg); [congruence|]. apply D2, Q.
Qed.
Lemma add_missing : forall chunk opens d pkg path fuel, opens pkg = true -> name_ok path -> path <> pkg -> d path = None ->
  exists d', package_add chunk opens d pkg (Some path) fuel = Ret (d', ANil, true) /\
    d' pkg = Some (match d pkg with Some t => t | None => [] end) /\ (forall q, q <> pkg -> d' q = d q).
Proof.
  intros chunk opens d pkg path fuel O NM NP D. unfold package_add, opened. rewrite O. cbn [negb]. rewrite filter_id by exact NM.
  destruct (list_eq_dec N.eq_dec path pkg); [contradiction|].
  destruct (d pkg) as [t|] eqn:E.
  - rewrite D. eexists. split; [reflexivity|]. rewrite E. split; [reflexivity|reflexivity].
  - assert (S : save d pkg [] path = None) by (unfold save; destruct (list_eq_dec N.eq_dec path pkg); [contradiction|exact D]). rewrite S.
    eexists. split; [reflexivity|]. split; [unfold save; destruct (list_eq_dec N.eq_dec pkg pkg); [reflexivity|congruence]|].
    intros q Q. unfold save. destruct (list_eq_dec N.eq_dec q pkg); [congruence|reflexivity].
Qed.

Lemma add_all_ok : forall chunk opens fuel pkg, (0 < chunk)%nat -> opens pkg = true -> forall news d es,
  (d pkg = None /\ es = [] \/ d pkg = Some (packed 0 es)) ->
  (forall p c, In (p, c) news -> name_ok p /\ p <> pkg /\ d p = Some c /\ (length c < fuel)%nat) ->
  exists d', add_all chunk opens d pkg (map fst news) fuel = Ret d' /\
    (d' pkg = Some (packed 0 (es ++ news)) \/ d' pkg = None /\ es ++ news = []) /\ (forall q, q <> pkg -> d' q = d q).
Proof.
  intros chunk opens fuel pkg C O. induction news as [|[p c] news IH]; intros d es P H; cbn [map add_all fst].
  - exists d. split; [reflexivity|]. rewrite app_nil_r. split; [tauto|reflexivity].
  - destruct (H p c (or_introl eq_refl)) as (H1 & H2 & H3 & H4).
    destruct (add_ok chunk opens d pkg p es c fuel C O H1 H2 H3 P H4) as (d1 & E1 & P1 & Q1). rewrite E1. cbn [rbind].
    destruct (IH d1 (es ++ [(p, c)])) as (d2 & E2 & P2 & Q2).
    + right. exact P1.
    + intros p' c' I'. destruct (H p' c' (or_intror I')) as (K1 & K2 & K3 & K4). rewrite Q1 by exact K2. auto.
    + exists d2. rewrite <- app_assoc in P2. cbn [app] in P2. split; [exact E2|]. split; [exact P2|]. intros q Hq. rewrite Q2, Q1 by exact Hq. reflexivity.
Qed.

(** * Loading *)
Lemma rw_read_at : forall pre s post n, length s = n -> rw_read (pre ++ s ++ post) (size pre) n = s.
Proof.
  intros pre s post n L. unfold rw_read, size. rewrite Nnat.Nat2N.id, skipn_app, skipn_all, Nat.sub_diag. cbn [app skipn].
  rewrite <- L, firstn_app, Nat.sub_diag, firstn_all, firstn_O. apply app_nil_r.
Qed.
Lemma rw_read_end : forall f pos n, size f <= pos -> rw_read f pos n = [].
Proof. intros f pos n H. unfold rw_read, size in *. rewrite skipn_all2 by lia. apply firstn_nil. Qed.
Lemma same_other : forall a p t n, name_ok a -> name_ok p -> (length p < n)%nat ->
  same_upto a (p ++ 0 :: t) n = Ok true \/ same_upto a (p ++ 0 :: t) n = Ok false.
Proof.
  induction a as [|x a IH]; intros [|y p] t n NA NP L; (destruct n as [|n]; [cbn in L; lia|]); cbn [same_upto app].
  - cbn. auto.
  - destruct (y =? 0); auto.
  - destruct (N.eqb_spec x 0) as [->|]; [exfalso; apply NA; left; reflexivity|]. auto.
  - destruct (x =? y); [|auto]. apply IH; [intros K; apply NA; right; exact K|intros K; apply NP; right; exact K|cbn in L; lia].
Qed.
Lemma same_yes : forall a t n, (length a < n)%nat -> same_upto a (a ++ 0 :: t) n = Ok true.
Proof.
  induction a as [|x a IH]; intros t n L; (destruct n as [|n]; [cbn in L; lia|]); cbn [same_upto app]; [reflexivity|].
  rewrite N.eqb_refl. apply IH. cbn in L. lia.
Qed.
Lemma same_no : forall a p t n, a <> p -> name_ok a -> name_ok p -> (length p < n)%nat -> same_upto a (p ++ 0 :: t) n = Ok false.
Proof.
  induction a as [|x a IH]; intros [|y p] t n NE NA NP L; (destruct n as [|n]; [cbn in L; lia|]); cbn [same_upto app]; try congruence.
  - destruct (N.eqb_spec y 0) as [->|]; [exfalso; apply NP; left; reflexivity|reflexivity].
  - destruct (N.eqb_spec x 0) as [->|]; [exfalso; apply NA; left; reflexivity|reflexivity].
  - destruct (N.eqb_spec x y) as [->|]; [|reflexivity].
    apply IH; [congruence|intros K; apply NA; right; exact K|intros K; apply NP; right; exact K|cbn in L; lia].
Qed.
Lemma strchr0_at : forall p t i, name_ok p -> strchr0 (p ++ 0 :: t) i = Some (i + length p)%nat.
Proof.
  induction p as [|c p IH]; intros t i H; cbn [strchr0 app length].
  - rewrite Nat.add_0_r. reflexivity.
  - destruct (N.eqb_spec c 0) as [->|]; [exfalso; apply H; left; reflexivity|]. rewrite IH; [f_equal; lia|].
    intros K. apply H. right. exact K.
Qed.
Lemma mod_small_sub : forall a b, b <= a -> a < T64 -> (a + (T64 - b mod T64)) mod T64 = a - b.
Proof.
  intros a b H L. assert (T64 <> 0) by discriminate. rewrite (N.mod_small b) by lia.
  replace (a + (T64 - b)) with ((a - b) + 1 * T64) by lia. rewrite N.mod_add by discriminate. apply N.mod_small. lia.
Qed.

Lemma load_step : forall mem name p nx t fuel pos buf f, name_ok name -> name_ok p -> name <> p -> length buf = 500%nat ->
  (length p <= 491)%nat -> 0 < nx -> nx < T63 -> rw_read f pos 500 = p ++ 0 :: bytes64 nx ++ t ->
  exists buf', length buf' = 500%nat /\ load_loop (S fuel) mem f pos buf name = load_loop fuel mem f nx buf' name.
Proof.
  intros mem name p nx t fuel pos buf f NM K1 NE LB K2 N0 N1 G. cbn [load_loop]. set (got := rw_read f pos 500) in *.
  assert (LG : (length got <= 500)%nat) by apply firstn_le_length.
  assert (NX : word_of (bytes64 nx) = nx) by (apply word_bytes64; unfold T63, T64 in *; lia).
  set (buf2 := got ++ skipn (length got) buf).
  assert (B2 : buf2 = p ++ 0 :: bytes64 nx ++ t ++ skipn (length got) buf) by (unfold buf2; rewrite G at 1; rewrite <- !app_assoc; cbn [app]; rewrite <- !app_assoc; reflexivity).
  assert (LB2 : length buf2 = 500%nat) by (unfold buf2; rewrite app_length, skipn_length; lia).
  assert (LP : (length p < length got)%nat) by (rewrite G, app_length; cbn [length]; lia).
  assert (SM : same_upto name buf2 (length got) = Ok false) by (rewrite B2; apply same_no; auto). rewrite SM.
  assert (SC : strchr0 buf2 0 = Some (length p)) by (rewrite B2; apply strchr0_at, K1). rewrite SC.
  assert (SL : slice buf2 (length p + 1) 8 = Ok (bytes64 nx)).
  { unfold slice. rewrite LB2. replace (length p + 1 + 8 <=? 500)%nat with true by (symmetry; apply Nat.leb_le; lia).
    rewrite B2. replace (p ++ 0 :: bytes64 nx ++ t ++ skipn (length got) buf) with ((p ++ [0]) ++ bytes64 nx ++ t ++ skipn (length got) buf) by (rewrite <- app_assoc; reflexivity).
    replace (length p + 1)%nat with (length (p ++ [0])) by (rewrite app_length; reflexivity).
    rewrite skipn_app, skipn_all, Nat.sub_diag. cbn [app skipn]. reflexivity. }
  rewrite SL, NX. replace (nx =? 0) with false by (symmetry; apply N.eqb_neq; lia).
  replace (T63 <=? nx) with false by (symmetry; apply N.leb_gt; lia). exists buf2. split; [exact LB2|reflexivity].
Qed.

Lemma load_loop_ok : forall mem name es fuel pre buf f, name_ok name ->
  Forall (fun e => name_ok (fst e) /\ (length (fst e) <= 491)%nat /\ size (snd e) < T31 /\ size (snd e) <= mem) es ->
  f = pre ++ packed (length pre) es -> size f + size name + 10 < T63 -> mem < T63 -> length buf = 500%nat -> (length es < fuel)%nat ->
  load_loop fuel mem f (size pre) buf name = Ret (match content_of name es with Some (c :: r) => Some (c :: r) | _ => None end).
Proof.
  intros mem name. assert (T63 < T64) by reflexivity. induction es as [|[p c] es IH]; intros fuel pre buf f NM H0 EF BIG MEM LB F; (destruct fuel as [|fuel]; [cbn in F; lia|]); cbn [load_loop].
  - cbn [packed] in EF. rewrite app_nil_r in EF. subst f. rewrite rw_read_end by lia. cbn [length same_upto app skipn]. 
    rewrite (rw_read_end pre (size pre + size name + 1)) by lia. cbn [word_of size length N.of_nat].
    rewrite N.add_0_r, N.add_0_l. rewrite (N.mod_small (size pre + size name + 1)) by lia.
    rewrite N.mod_small by lia. replace (mem <? T64 - (size pre + size name + 1)) with true by (symmetry; apply N.ltb_lt; unfold T63, T64 in *; lia).
    rewrite rw_read_end by lia. reflexivity.
  - inversion H0 as [|? ? (K1 & K2 & K3 & K4) H1]; subst. cbn [fst snd] in *. cbn [packed] in *.
    set (E := entry (length pre) (p, c)) in *. set (rest := packed (length pre + length E) es) in *.
    assert (LE : length E = (length p + 9 + length c)%nat) by apply entry_length.
    set (nx := N.of_nat (length pre + length p + 9 + length c)) in *.
    assert (SF : size (pre ++ E ++ rest) = nx + size rest) by (unfold size, nx; rewrite !app_length, LE; lia).
    assert (NX : word_of (bytes64 nx) = nx) by (apply word_bytes64; lia).
    assert (EE : E = p ++ [0] ++ bytes64 nx ++ c) by reflexivity.
    set (got := rw_read (pre ++ E ++ rest) (size pre) 500).
    assert (G : exists t, got = p ++ 0 :: bytes64 nx ++ t /\ (length got <= 500)%nat).
    { unfold got, rw_read, size. rewrite Nnat.Nat2N.id, skipn_app, skipn_all, Nat.sub_diag. cbn [app skipn].
      exists (firstn (491 - length p) (c ++ rest)). split; [|apply firstn_le_length]. rewrite EE.
      replace (p ++ 0 :: bytes64 nx ++ firstn (491 - length p) (c ++ rest)) with ((p ++ [0] ++ bytes64 nx) ++ firstn (491 - length p) (c ++ rest)) by (rewrite <- !app_assoc; reflexivity).
      replace ((p ++ [0] ++ bytes64 nx ++ c) ++ rest) with ((p ++ [0] ++ bytes64 nx) ++ c ++ rest) by (rewrite <- !app_assoc; reflexivity).
      assert (LH : length (p ++ [0] ++ bytes64 nx) = (length p + 9)%nat) by (unfold bytes64; rewrite !app_length, length_bytes; cbn; lia).
      rewrite firstn_app, LH, firstn_all2 by lia. f_equal. f_equal. lia. }
    destruct G as (t & G & LG).
    set (buf2 := got ++ skipn (length got) buf).
    assert (B2 : buf2 = p ++ 0 :: bytes64 nx ++ t ++ skipn (length got) buf) by (unfold buf2; rewrite G at 1; rewrite <- !app_assoc; cbn [app]; rewrite <- !app_assoc; reflexivity).
    assert (LB2 : length buf2 = 500%nat) by (unfold buf2; rewrite app_length, skipn_length; lia).
    assert (LP : (length p < length got)%nat) by (rewrite G, app_length; cbn [length]; lia).
    cbn [content_of]. destruct (list_eq_dec N.eq_dec name p) as [->|NE].
    + rewrite B2, same_yes by exact LP.
      assert (A1 : size pre + size p + 1 = size (pre ++ p ++ [0])) by (unfold size; rewrite !app_length; cbn [length]; lia).
      assert (F1 : pre ++ E ++ rest = (pre ++ p ++ [0]) ++ bytes64 nx ++ c ++ rest) by (rewrite EE, <- !app_assoc; reflexivity).
      assert (RW : rw_read (pre ++ E ++ rest) (size (pre ++ p ++ [0])) 8 = bytes64 nx) by (rewrite F1; apply rw_read_at, length_bytes).
      rewrite A1, !RW, NX.
      set (cur := size (pre ++ p ++ [0]) + size (bytes64 nx)).
      assert (CU : cur = size (pre ++ p ++ [0] ++ bytes64 nx)) by (unfold cur, size; rewrite !app_length; lia).
      assert (RS : (nx + (T64 - cur mod T64)) mod T64 = size c).
      { rewrite mod_small_sub; [|unfold nx; rewrite CU; unfold size, bytes64; rewrite !app_length, length_bytes; cbn [length]; lia|lia].
        unfold nx. rewrite CU. unfold size, bytes64. rewrite !app_length, length_bytes. cbn [length]. lia. }
      rewrite RS. replace (mem <? size c) with false by (symmetry; apply N.ltb_ge; lia).
      replace (T31 <=? size c) with false by (symmetry; apply N.leb_gt; lia).
      assert (F2 : pre ++ E ++ rest = (pre ++ p ++ [0] ++ bytes64 nx) ++ c ++ rest) by (rewrite EE, <- !app_assoc; reflexivity).
      assert (RD : rw_read (pre ++ E ++ rest) cur (N.to_nat (size c)) = c) by (rewrite CU, F2; apply rw_read_at; unfold size; rewrite Nnat.Nat2N.id; reflexivity).
      rewrite !RD.
      rewrite N.ltb_irrefl. destruct c as [|x c']; [reflexivity|].
      replace (size (x :: c') =? 0) with false by (symmetry; apply N.eqb_neq; unfold size; cbn [length]; lia). reflexivity.
    + rewrite B2 at 1. rewrite same_no by auto.
      assert (SC : strchr0 buf2 0 = Some (length p)) by (rewrite B2; apply strchr0_at, K1). rewrite SC.
      assert (SL : slice buf2 (length p + 1) 8 = Ok (bytes64 nx)).
      { unfold slice. rewrite LB2. replace (length p + 1 + 8 <=? 500)%nat with true by (symmetry; apply Nat.leb_le; lia).
        rewrite B2. replace (p ++ 0 :: bytes64 nx ++ t ++ skipn (length got) buf) with ((p ++ [0]) ++ bytes64 nx ++ t ++ skipn (length got) buf) by (rewrite <- app_assoc; reflexivity).
        replace (length p + 1)%nat with (length (p ++ [0])) by (rewrite app_length; reflexivity).
        rewrite skipn_app, skipn_all, Nat.sub_diag. cbn [app skipn]. reflexivity. }
      rewrite SL, NX. replace (nx =? 0) with false by (symmetry; apply N.eqb_neq; unfold nx; lia).
      replace (T63 <=? nx) with false by (symmetry; apply N.leb_gt; lia).
      replace nx with (size (pre ++ E)) by (unfold size, nx; rewrite app_length, LE; lia).
      apply IH; auto.
      * unfold rest. rewrite app_length, <- app_assoc. reflexivity.
      * cbn [length] in F. lia.
Qed.

Lemma load_ok : forall mem es junk asset fuel, name_ok asset ->
  Forall (fun e => name_ok (fst e) /\ (length (fst e) <= 491)%nat /\ size (snd e) < T31 /\ size (snd e) <= mem) es ->
  size (packed 0 es) + size asset + 10 < T63 -> mem < T63 -> length junk = 500%nat -> (length es < fuel)%nat ->
  load_asset fuel mem (packed 0 es) junk asset = Ret (match content_of asset es with Some (c :: r) => Some (c :: r) | _ => None end).
Proof.
  intros mem es junk asset fuel NM H B M L F. unfold load_asset. rewrite filter_id by exact NM.
  apply (load_loop_ok mem asset es fuel [] junk); auto.
Qed.

(** From adding to loading. *)
Lemma package_ok : forall chunk opens d pkg news asset mem junk fuel, (0 < chunk)%nat -> opens pkg = true -> d pkg = None ->
  (forall p c, In (p, c) news -> name_ok p /\ p <> pkg /\ d p = Some c /\ (length c < fuel)%nat) ->
  Forall (fun e => (length (fst e) <= 491)%nat /\ size (snd e) < T31 /\ size (snd e) <= mem) news ->
  name_ok asset -> mem < T63 -> length junk = 500%nat -> (length news < fuel)%nat -> news <> [] ->
  N.of_nat (fold_right (fun e n => length (fst e) + 9 + length (snd e) + n)%nat 0%nat news) + size asset + 10 < T63 ->
  exists d' f, add_all chunk opens d pkg (map fst news) fuel = Ret d' /\ d' pkg = Some f /\ (forall q, q <> pkg -> d' q = d q) /\
    load_asset fuel mem f junk asset = Ret (match content_of asset news with Some (c :: r) => Some (c :: r) | _ => None end).
Proof.
  intros chunk opens d pkg news asset mem junk fuel C O D H SZ NA M J F NE B.
  destruct (add_all_ok chunk opens fuel pkg C O news d [] (or_introl (conj D eq_refl)) H) as (d' & E & P & Q).
  cbn [app] in P. destruct P as [P|[_ P]]; [|contradiction]. exists d', (packed 0 news). split; [exact E|]. split; [exact P|]. split; [exact Q|].
  apply load_ok; auto.
  - rewrite Forall_forall in SZ |- *. intros [p c] I. destruct (H p c I) as (K & _). destruct (SZ _ I) as (A1 & A2 & A3). auto.
  - replace (size (packed 0 news)) with (N.of_nat (fold_right (fun e n => length (fst e) + 9 + length (snd e) + n)%nat 0%nat news)); [exact B|].
    unfold size. f_equal. symmetry. apply packed_length.
Qed.
