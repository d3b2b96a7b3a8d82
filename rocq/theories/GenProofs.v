(** Proofs about dictionary files. *)
From Verif Require Import Common Fuel Txt NumModel LexModel TransModel TransSpec TransMain TransProofs GenSpec GenModel.
From Coq Require Import String.
Local Open Scope nat_scope.

(** ** [fscanf] *)
Lemma blank_iff c : blank c = true <-> is_blank c.
Proof.
  unfold blank, is_blank. rewrite orb_true_iff, andb_true_iff, N.eqb_eq, !N.leb_le. tauto.
Qed.
Lemma not_blank c : ~ is_blank c -> blank c = false.
Proof. intros H. destruct (blank c) eqn:E; [exfalso; apply H, blank_iff, E|reflexivity]. Qed.
Definition fresh (r : text) : Prop := match r with c :: _ => blank c = false | [] => True end.
Lemma skip_fresh r : fresh r -> skip_blank r = r.
Proof. destruct r as [|c r]; cbn; [reflexivity|now intros ->]. Qed.
Lemma skip_ok a r : Forall is_blank a -> fresh r -> skip_blank (a ++ r) = r.
Proof.
  intros A F. induction A as [|c a H A IH]; [apply skip_fresh, F|]. cbn. now rewrite (proj2 (blank_iff c) H).
Qed.
Lemma take_ok p w r : forall n, Forall (fun c => p c = true) w -> List.length w <= n -> match r with c :: _ => p c = false | [] => True end ->
  take p n (w ++ r) = (w, r).
Proof.
  induction w as [|c w IH]; intros n F L R.
  - destruct n; [now destruct r|]. destruct r; cbn; [reflexivity|]. now rewrite R.
  - destruct n; [cbn in L; lia|]. apply Forall_cons_iff in F as [P F]. cbn [app take]. rewrite P, (IH n F); [reflexivity|cbn in L; lia|exact R].
Qed.
Lemma scan_lits t : forall ds r, scan (map DLit t ++ ds) (t ++ r) = scan ds r.
Proof. induction t as [|c t IH]; intros ds r; [reflexivity|]. cbn. now rewrite N.eqb_refl. Qed.
Lemma scan_space ds a r : Forall is_blank a -> fresh r -> scan (DSpace :: ds) (a ++ r) = scan ds r.
Proof. intros A F. cbn [scan]. now rewrite skip_ok. Qed.
Lemma solid_fresh w r : solid w -> fresh (w ++ r).
Proof. intros (N & F & _). destruct w as [|c w]; [congruence|]. apply Forall_cons_iff in F as [H _]. cbn. now apply not_blank. Qed.
Lemma scan_word ds w r : solid w -> match r with c :: _ => blank c = true | [] => True end ->
  scan (DWord 180 :: ds) (w ++ r) = (w :: fst (scan ds r), snd (scan ds r)).
Proof.
  intros S R. pose proof (solid_fresh w r S) as F. destruct S as (N & B & L). cbn [scan]. rewrite (skip_fresh _ F).
  rewrite (take_ok (fun c => negb (blank c)) w r 180); [|eapply Forall_impl; [|exact B]; cbn; intros c H; now rewrite not_blank|lia|destruct r; [exact I|now rewrite R]].
  destruct w; [congruence|]. now destruct (scan ds r).
Qed.
Lemma scan_set ds n w r : quotable w -> List.length w <= n -> scan (DSet n :: ds) (w ++ 34%N :: r) = (w :: fst (scan ds (34%N :: r)), snd (scan ds (34%N :: r))).
Proof.
  intros (N & Q) L. cbn [scan]. rewrite (take_ok (fun c => negb (c =? 34)%N) w (34%N :: r) n); [|eapply Forall_impl; [|exact Q]; cbn; intros c H; now rewrite (proj2 (N.eqb_neq c 34) H)|exact L|reflexivity].
  destruct w; [congruence|]. now destruct (scan ds (34%N :: r)).
Qed.
Lemma scan_lit ds c r : scan (DLit c :: ds) (c :: r) = scan ds r.
Proof. cbn. now rewrite N.eqb_refl. Qed.
(** the beginning of a row, up to the second quotation mark *)
Lemma scan_row ds a b r rest : solid (key r) -> quotable (value r) -> List.length (value r) < 180 -> blanks a -> blanks b ->
  scan (map DLit (lit "#define") ++ DSpace :: DWord 180 :: DSpace :: DLit 34 :: DSet 180 :: DLit 34 :: ds) (lit "#define" ++ a ++ key r ++ b ++ [34%N] ++ value r ++ [34%N] ++ rest)
  = (key r :: value r :: fst (scan ds rest), snd (scan ds rest)).
Proof.
  intros K V L (NA & A) (NB & B). rewrite scan_lits, scan_space; [|exact A|now apply solid_fresh].
  rewrite scan_word; [|exact K|destruct b as [|c b]; [congruence|apply Forall_cons_iff in B as [B _]; cbn; now apply blank_iff]].
  rewrite scan_space; [|exact B|reflexivity]. cbn [app]. rewrite scan_lit, scan_set, scan_lit; [reflexivity|exact V|lia].
Qed.
(** what may follow a row: another one *)
Definition next_row (r : text) : Prop := r = [] \/ exists x, r = 35%N :: x.
Lemma next_fresh r : next_row r -> fresh r.
Proof. intros [-> | [x ->]]; [exact I|reflexivity]. Qed.
Lemma scan_plain r t rest : row_ok r -> modifier r = None -> written_row r t -> next_row rest -> scan define_format (t ++ rest) = ([key r; value r], rest).
Proof.
  intros (K & V & L & _) M W X. destruct W as [a b z M' A B Z|m a b c z M']; [|congruence]. rewrite <- !app_assoc. unfold define_format.
  rewrite (scan_row [DSpace] a b r (z ++ rest) K V L A B), scan_space; [reflexivity|apply Z|now apply next_fresh].
Qed.
Lemma scan_modified r t rest : row_ok r -> written_row r t -> next_row rest ->
  scan modifier_format (t ++ rest) = (key r :: value r :: match modifier r with Some m => [m] | None => [] end, rest).
Proof.
  intros (K & V & L & MS) W X. destruct W as [a b z M A B Z|m a b c z M A B C Z]; rewrite M, <- !app_assoc; unfold modifier_format.
  - rewrite (scan_row _ a b r (z ++ rest) K V L A B), scan_space; [|apply Z|now apply next_fresh].
    destruct X as [-> | [x ->]]; reflexivity.
  - rewrite (scan_row _ a b r (c ++ lit "//" ++ m ++ z ++ rest) K V L A B), scan_space; [|exact C|reflexivity].
    change (lit "//" ++ m ++ z ++ rest)%list with (47%N :: 47%N :: m ++ z ++ rest)%list. rewrite !scan_lit, scan_word; [|exact (MS m M)|].
    + rewrite scan_space; [reflexivity|apply Z|now apply next_fresh].
    + destruct Z as (NZ & Z). destruct z as [|x z]; [congruence|]. apply Forall_cons_iff in Z as [Z _]. cbn. now apply blank_iff.
Qed.

(** ** Texts in keys *)
Lemma starts_begins s : forall t, starts s t = begins_with s t.
Proof.
  unfold begins_with. induction s as [|c s IH]; intros [|x t]; try reflexivity. cbn [starts List.length firstn]. rewrite IH. reflexivity.
Qed.
Lemma existsb_seq (f : nat -> bool) n : forall a, existsb f (seq (S a) n) = existsb (fun i => f (S i)) (seq a n).
Proof. induction n as [|n IH]; intros a; [reflexivity|]. cbn [seq existsb]. now rewrite IH. Qed.
Lemma strstr_contains s : forall t, strstr t s = contains s t.
Proof.
  unfold contains. induction t as [|c t IH].
  - cbn [strstr List.length seq existsb skipn]. now rewrite starts_begins.
  - cbn [strstr]. rewrite IH, starts_begins. change (seq 0 (S (List.length (c :: t)))) with (0 :: seq 1 (S (List.length t))).
    cbn [existsb]. rewrite existsb_seq. reflexivity.
Qed.
Lemma tokens_one s : forall cur, (cur ++ s <> [])%list -> Forall (fun c => c <> 44%N) s -> tokens cur s = [(cur ++ s)%list].
Proof.
  induction s as [|c s IH]; intros cur N F; cbn [tokens].
  - rewrite app_nil_r in *. destruct cur; [congruence|reflexivity].
  - apply Forall_cons_iff in F as [H F]. rewrite (proj2 (N.eqb_neq c 44) H), IH; [now rewrite <- app_assoc|destruct cur; discriminate|exact F].
Qed.
Lemma take_all p : forall s n, Forall (fun c => p c = true) s -> List.length s <= n -> take p n s = (s, []).
Proof.
  induction s as [|c s IH]; intros n F L; [now destruct n|]. destruct n; [cbn in L; lia|]. apply Forall_cons_iff in F as [P F]. cbn [take]. rewrite P, IH; [reflexivity|exact F|cbn in L; lia].
Qed.
Lemma chopped_one s : Forall (fun c => c <> 44%N) s -> chopped s = s.
Proof.
  intros F. destruct s as [|c s]; [reflexivity|]. cbn [chopped]. pose proof F as G. apply Forall_cons_iff in F as [H F]. rewrite (proj2 (N.eqb_neq c 44) H).
  rewrite take_all; [reflexivity| |lia]. eapply Forall_impl; [|exact G]. cbn. intros x Hx. now rewrite (proj2 (N.eqb_neq x 44) Hx).
Qed.

(** ** One row *)
Lemma solid_fit k : solid k -> List.length k <? 180 = true.
Proof. intros (_ & _ & L). now apply Nat.ltb_lt. Qed.
Lemma fit_row r : row_ok r -> fit [key r; value r] = true.
Proof. intros (K & _ & L & _). cbn [fit forallb]. rewrite (solid_fit _ K). apply Nat.ltb_lt in L. now rewrite L. Qed.
Lemma fit_modified r : row_ok r -> fit (key r :: value r :: match modifier r with Some m => [m] | None => [] end) = true.
Proof.
  intros R. pose proof (fit_row r R) as F. destruct R as (_ & _ & _ & M). destruct (modifier r) as [m|]; [|exact F].
  cbn [fit forallb] in *. apply andb_true_iff in F as [F1 F2]. apply andb_true_iff in F2 as [F2 _]. now rewrite F1, F2, (solid_fit m (M m eq_refl)).
Qed.
Lemma line_type_cases k : (begins_with (lit "CTR_DICT_NUM_DEC_SEP") k = true /\ line_type k = 100%N) \/
  (begins_with (lit "CTR_DICT_NUM_DEC_SEP") k = false /\ begins_with (lit "CTR_DICT_NUM_THO_SEP") k = true /\ line_type k = 120%N) \/
  (begins_with (lit "CTR_DICT_NUM_DEC_SEP") k = false /\ begins_with (lit "CTR_DICT_NUM_THO_SEP") k = false /\ line_type k = 116%N).
Proof.
  unfold line_type. destruct (begins_with (lit "CTR_DICT_NUM_DEC_SEP") k); [now left|]. right.
  destruct (begins_with (lit "CTR_DICT_NUM_THO_SEP") k); [now left|now right].
Qed.
Definition mkstate g1 g2 k1 w k2 t ks n o := mkS g1 g2 k1 w k2 t [] ks n o.
Lemma row_step ks a b t1 t2 s g1 g2 : row_ok a -> row_ok b -> key a = key b -> modifier a = None -> (internal (key a) = true -> modifier b = None) ->
  written_row a t1 -> written_row b t2 -> next_row g1 -> next_row g2 -> f1 s = (t1 ++ g1)%list -> f2 s = (t2 ++ g2)%list -> modi s = [] -> text_keys (keys s) ks ->
  exists k1 w k2 t n, make_row s = Ret (inl (mkS g1 g2 k1 w k2 t [] (keys s) n (out s ++ file_of (lines_for ks a b)))).
Proof.
  intros RA RB K MA MB WA WB N1 N2 E1 E2 EM TK. unfold make_row. rewrite E1, E2, (scan_plain a t1 g1 RA MA WA N1), (fit_row a RA). cbn [negb].
  rewrite (scan_modified b t2 g2 RB WB N2), (fit_modified b RB). cbn [negb]. rewrite ?(fit_modified b RB). cbn [negb nth]. rewrite !strstr_contains, <- K, EM.
  change (contains (lit "_CODEGEN_") (key a)) with (internal (key a)). rewrite orb_diag.
  unfold lines_for. destruct (internal (key a)) eqn:I.
  { rewrite (MB eq_refl). cbn [nth]. rewrite app_nil_r. do 5 eexists. reflexivity. }
  rewrite text_eqb_same. cbn [negb]. rewrite !starts_begins.
  destruct (line_type_cases (key a)) as [(D & ->)|[(D & X & ->)|(D & X & ->)]]; rewrite D.
  - cbn [N.eqb Pos.eqb]. unfold file_of. cbn [map List.concat]. rewrite app_nil_r. do 5 eexists. reflexivity.
  - rewrite X. cbn [N.eqb Pos.eqb]. unfold file_of. cbn [map List.concat]. rewrite app_nil_r. do 5 eexists. reflexivity.
  - rewrite X. cbn [N.eqb Pos.eqb].
    assert (M : (nth 0 (match modifier b with Some m => [m] | None => [] end) [] ++ value b)%list = modified b) by (unfold modified; now destruct (modifier b)).
    destruct TK as [(-> & ->)|(k & -> & NK & FK & ->)].
    + cbn [existsb]. unfold file_of. cbn [map List.concat file_line]. rewrite <- M. do 5 eexists. reflexivity.
    + rewrite (tokens_one k [] NK FK), (chopped_one k FK). cbn [existsb app]. rewrite strstr_contains.
      destruct (contains k (key a)); unfold file_of; cbn [orb map List.concat file_line]; rewrite <- M, ?app_nil_r; do 5 eexists; reflexivity.
Qed.

(** ** Whole headers *)
Lemma row_begins r t : written_row r t -> exists x, t = 35%N :: x.
Proof. intros []; eexists; reflexivity. Qed.
Lemma header_next rs f : header rs f -> next_row f.
Proof. intros (ts & F & ->). destruct F as [|r t rs ts W F]; [now left|]. destruct (row_begins r t W) as [x ->]. right. eexists. reflexivity. Qed.
Lemma header_cons r rs f : header (r :: rs) f -> exists t g, f = (t ++ g)%list /\ written_row r t /\ header rs g.
Proof. intros (ts & F & ->). inversion F as [|? t ? ts' W F' EQ]; subst. exists t, (List.concat ts'). split; [reflexivity|]. split; [exact W|now exists ts']. Qed.
Lemma header_len rs f : header rs f -> List.length rs <= List.length f.
Proof.
  intros (ts & F & ->). induction F as [|r t rs ts W F IH]; [cbn; lia|]. destruct (row_begins r t W) as [x ->]. cbn [List.concat]. rewrite app_length. cbn [List.length]. lia.
Qed.
Lemma header_nil f : header [] f -> f = [].
Proof. intros (ts & F & ->). inversion F. reflexivity. Qed.

Lemma make_ok ks : forall ra rb fuel s, Forall row_ok ra -> Forall row_ok rb -> Forall (fun a => modifier a = None) ra -> fine rb -> agree ra rb ->
  header ra (f1 s) -> header rb (f2 s) -> modi s = [] -> text_keys (keys s) ks -> List.length ra < fuel ->
  make_loop fuel s = Ret (Complete, (out s ++ file_of (lines_of ks ra rb))%list).
Proof.
  induction ra as [|a ra IH]; intros rb fuel s RA RB MA FB AG H1 H2 EM TK FU; (destruct fuel as [|fuel]; [cbn in FU; lia|]).
  - apply header_nil in H1. cbn [make_loop]. unfold make_row. rewrite H1. cbn. now rewrite app_nil_r.
  - apply header_cons in H1 as (t1 & g1 & E1 & W1 & H1). apply Forall_cons_iff in RA as [RA1 RA]. apply Forall_cons_iff in MA as [MA1 MA].
    destruct rb as [|b rb].
    + apply header_nil in H2. cbn [make_loop]. unfold make_row. rewrite E1, (scan_plain a t1 g1 RA1 MA1 W1 (header_next _ _ H1)), (fit_row a RA1), H2.
      cbn. now rewrite app_nil_r.
    + apply header_cons in H2 as (t2 & g2 & E2 & W2 & H2). apply Forall_cons_iff in RB as [RB1 RB]. apply Forall_cons_iff in FB as [FB1 FB]. destruct AG as [K AG].
      destruct (row_step ks a b t1 t2 s g1 g2 RA1 RB1 K MA1 ltac:(now rewrite K) W1 W2 (header_next _ _ H1) (header_next _ _ H2) E1 E2 EM TK) as (k1 & w & k2 & t & n & E).
      cbn [make_loop]. rewrite E, (IH rb); [|assumption..|exact H1|exact H2|reflexivity|exact TK|cbn in FU; lia].
      cbn [out lines_of]. unfold file_of. now rewrite map_app, concat_app, <- app_assoc.
Qed.
Lemma generate_ok o ks ra rb f g : Forall row_ok ra -> Forall row_ok rb -> Forall (fun a => modifier a = None) ra -> fine rb -> agree ra rb ->
  header ra f -> header rb g -> text_keys o ks -> generate_dicts o f g = Ret (Complete, file_of (lines_of ks ra rb)).
Proof.
  intros RA RB MA FB AG H1 H2 TK. unfold generate_dicts. rewrite (make_ok ks ra rb); [reflexivity|assumption..|reflexivity|exact TK|]. pose proof (header_len ra f H1). lia.
Qed.
(** Keys that differ are reported. *)
Lemma mismatch_loop ks : forall pa pb a qa b qb fuel s, List.length pa = List.length pb -> Forall row_ok (pa ++ a :: qa) -> Forall row_ok (pb ++ b :: qb) -> Forall (fun a => modifier a = None) (pa ++ a :: qa) -> fine pb -> agree pa pb ->
  key a <> key b -> internal (key a) = false -> internal (key b) = false ->
  header (pa ++ a :: qa) (f1 s) -> header (pb ++ b :: qb) (f2 s) -> modi s = [] -> text_keys (keys s) ks -> List.length pa < fuel ->
  exists n, make_loop fuel s = Ret (Mismatch (key a) (key b) n, (out s ++ file_of (lines_of ks pa pb))%list).
Proof.
  induction pa as [|x pa IH]; intros [|y pb] a qa b qb fuel s LN RA RB MA FB AG KN IA IB H1 H2 EM TK FU; try discriminate LN; (destruct fuel as [|fuel]; [cbn in FU; lia|]); cbn [app] in *;
    apply header_cons in H1 as (t1 & g1 & E1 & W1 & H1); apply Forall_cons_iff in RA as [RA1 RA]; apply Forall_cons_iff in MA as [MA1 MA];
    apply header_cons in H2 as (t2 & g2 & E2 & W2 & H2); apply Forall_cons_iff in RB as [RB1 RB].
  - cbn [make_loop]. unfold make_row. rewrite E1, E2, (scan_plain a t1 g1 RA1 MA1 W1 (header_next _ _ H1)), (fit_row a RA1). cbn [negb].
    rewrite (scan_modified b t2 g2 RB1 W2 (header_next _ _ H2)), (fit_modified b RB1). cbn [negb]. rewrite ?(fit_modified b RB1). cbn [negb]. rewrite !strstr_contains.
    unfold internal in IA, IB. rewrite IA, IB. cbn [orb]. destruct (text_eqb (key a) (key b)) eqn:E; [apply text_eqb_true in E; congruence|].
    cbn [negb lines_of]. unfold file_of. cbn [map List.concat]. rewrite app_nil_r. eexists. reflexivity.
  - apply Forall_cons_iff in FB as [FB1 FB]. destruct AG as [K AG].
    destruct (row_step ks x y t1 t2 s g1 g2 RA1 RB1 K MA1 ltac:(now rewrite K) W1 W2 (header_next _ _ H1) (header_next _ _ H2) E1 E2 EM TK) as (k1 & w & k2 & t & n & E).
    cbn [make_loop]. rewrite E. injection LN as LN.
    edestruct (IH pb a qa b qb fuel) as (n' & E'); [exact LN|exact RA|exact RB|exact MA|exact FB|exact AG|exact KN|exact IA|exact IB| | | | | |]; cycle 5.
    + exists n'. rewrite E'. cbn [out lines_of]. unfold file_of. now rewrite map_app, concat_app, <- app_assoc.
    + exact H1. + exact H2. + reflexivity. + exact TK. + cbn in FU. lia.
Qed.
Lemma mismatch_ok o ks pa pb a qa b qb f g : List.length pa = List.length pb -> Forall row_ok (pa ++ a :: qa) -> Forall row_ok (pb ++ b :: qb) -> Forall (fun a => modifier a = None) (pa ++ a :: qa) -> fine pb -> agree pa pb ->
  key a <> key b -> internal (key a) = false -> internal (key b) = false -> header (pa ++ a :: qa) f -> header (pb ++ b :: qb) g -> text_keys o ks ->
  exists n, generate_dicts o f g = Ret (Mismatch (key a) (key b) n, file_of (lines_of ks pa pb)).
Proof.
  intros LN RA RB MA FB AG KN IA IB H1 H2 TK. unfold generate_dicts. eapply (mismatch_loop ks pa pb a qa b qb); eauto.
  pose proof (header_len _ f H1) as L. rewrite app_length in L. cbn in L. lia.
Qed.

(** ** It always ends *)
Lemma take_len p : forall n t w r, take p n t = (w, r) -> List.length t = List.length w + List.length r.
Proof.
  induction n as [|n IH]; intros t w r E; [cbn in E; injection E as <- <-; reflexivity|]. destruct t as [|c t]; [cbn in E; injection E as <- <-; reflexivity|].
  cbn in E. destruct (p c); [|injection E as <- <-; reflexivity]. destruct (take p n t) as [a b] eqn:T. injection E as <- <-. apply IH in T. cbn. lia.
Qed.
Lemma skip_len t : List.length (skip_blank t) <= List.length t.
Proof. induction t as [|c t IH]; [cbn; lia|]. cbn. destruct (blank c); cbn; lia. Qed.
Lemma scan_len ds : forall t l r, scan ds t = (l, r) -> List.length l + List.length r <= List.length t.
Proof.
  induction ds as [|d ds IH]; intros t l r E; [cbn in E; injection E as <- <-; cbn; lia|]. destruct d; cbn [scan] in E.
  - apply IH in E. pose proof (skip_len t). lia.
  - destruct t as [|x t]; [injection E as <- <-; cbn; lia|]. destruct (x =? c)%N; [apply IH in E; cbn; lia|injection E as <- <-; cbn; lia].
  - destruct (take (fun c => negb (blank c)) n (skip_blank t)) as [w r1] eqn:T. apply take_len in T. pose proof (skip_len t). destruct w as [|x w]; [injection E as <- <-; cbn in *; lia|].
    destruct (scan ds r1) as [l2 r2] eqn:S. injection E as <- <-. apply IH in S. cbn in *. lia.
  - destruct (take (fun c => negb (c =? 34)%N) n t) as [w r1] eqn:T. apply take_len in T. destruct w as [|x w]; [injection E as <- <-; cbn in *; lia|].
    destruct (scan ds r1) as [l2 r2] eqn:S. injection E as <- <-. apply IH in S. cbn in *. lia.
  - destruct t as [|x t]; [injection E as <- <-; cbn; lia|]. destruct (scan ds t) as [l2 r2] eqn:S. injection E as <- <-. apply IH in S. cbn. lia.
Qed.
Lemma make_row_shrinks s s' : make_row s = Ret (inl s') -> List.length (f1 s') < List.length (f1 s).
Proof.
  unfold make_row. destruct (scan define_format (f1 s)) as [l1 r1] eqn:E. apply scan_len in E. destruct (fit l1); [|discriminate]. cbn [negb]. destruct l1 as [|k1 l1]; [discriminate|].
  destruct (scan modifier_format (f2 s)) as [l2 r2]. destruct (fit l2); [|discriminate]. cbn [negb]. destruct (match l2 with [] => scan define_format r2 | _ => (l2, r2) end) as [l3 r3].
  destruct (fit l3); [|discriminate]. cbn [negb]. destruct l3 as [|k2 l3]; [discriminate|].
  destruct (strstr k1 (lit "_CODEGEN_") || strstr k2 (lit "_CODEGEN_")); [intros H; injection H as <-; cbn in *; lia|].
  destruct (text_eqb k1 k2); [|discriminate]. cbn [negb].
  destruct (starts (lit "CTR_DICT_NUM_DEC_SEP") k1); [intros H; injection H as <-; cbn in *; lia|].
  destruct (starts (lit "CTR_DICT_NUM_THO_SEP") k1); [intros H; injection H as <-; cbn in *; lia|].
  destruct (match keys s with Some ks => _ | None => _ end) as [line2 keys']. intros H; injection H as <-; cbn in *; lia.
Qed.
Lemma make_row_fuel s : make_row s <> NoFuel.
Proof.
  unfold make_row. destruct (scan define_format (f1 s)) as [l1 r1]. destruct (fit l1); [|discriminate]. cbn [negb]. destruct l1 as [|k1 l1]; [discriminate|].
  destruct (scan modifier_format (f2 s)) as [l2 r2]. destruct (fit l2); [|discriminate]. cbn [negb]. destruct (match l2 with [] => scan define_format r2 | _ => (l2, r2) end) as [l3 r3].
  destruct (fit l3); [|discriminate]. cbn [negb]. destruct l3 as [|k2 l3]; [discriminate|].
  destruct (strstr k1 (lit "_CODEGEN_") || strstr k2 (lit "_CODEGEN_")); [discriminate|]. destruct (text_eqb k1 k2); [|discriminate]. cbn [negb].
  destruct (starts (lit "CTR_DICT_NUM_DEC_SEP") k1); [discriminate|]. destruct (starts (lit "CTR_DICT_NUM_THO_SEP") k1); [discriminate|].
  destruct (match keys s with Some ks => _ | None => _ end) as [line2 keys']. discriminate.
Qed.
Lemma make_loop_ends : forall fuel s, List.length (f1 s) < fuel -> make_loop fuel s <> NoFuel.
Proof.
  induction fuel as [|fuel IH]; intros s L; [lia|]. cbn [make_loop]. destruct (make_row s) as [[s'|r]| |] eqn:E; try discriminate.
  - apply make_row_shrinks in E. apply IH. lia.
  - now apply make_row_fuel in E.
Qed.
Lemma generate_ends o f g : generate_dicts o f g <> NoFuel.
Proof. apply make_loop_ends. cbn. lia. Qed.
Lemma load_text_ends d : forall fuel s w t sh f, List.length f < fuel -> load_text d fuel s w t sh f <> NoFuel.
Proof.
  induction fuel as [|fuel IH]; intros s w t sh f L; [lia|]. cbn [load_text]. destruct (scan line_format f) as [l r] eqn:E. destruct l as [|c l]; [discriminate|].
  apply scan_len in E. cbn in E.
  destruct ((2 <=? List.length l) && _); [discriminate|]. destruct (_ && (List.length (nth 0 l w) =? 0)); [discriminate|].
  destruct (load_line d s (hd 0%N c, nth 0 l w, nth 1 l t)); try discriminate. apply IH. lia.
Qed.
Lemma load_file_ends d f : load_file d f <> NoFuel.
Proof.
  unfold load_file. destruct (load_text d _ _ _ _ _ _) as [[s| |]| |] eqn:E; cbn [rbind]; try discriminate.
  - destruct (l_dec s); [destruct (l_tho s)|]; discriminate.
  - apply load_text_ends in E; [destruct E|lia].
Qed.
