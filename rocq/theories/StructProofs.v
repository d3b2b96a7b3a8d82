(** Proofs about structures. *)
From Coq Require Import String.
From Verif Require Import Common Txt NumModel ListModel BlobModel FfiModel StructSpec StructModel BlobProofs.
From Verif Require ListProofs MapProofs.
Local Open Scope Z_scope.

(** ** Alignment *)
Lemma ffi_align_pow v k : 0 <= k -> first_multiple (2 ^ k) v (ffi_align v (2 ^ k)).
Proof.
  intros K. assert (P : 0 < 2 ^ k) by (apply Z.pow_pos_nonneg; lia). unfold ffi_align. set (x := v - 1).
  assert (O : 2 ^ k - 1 = Z.ones k) by (rewrite Z.ones_equiv; lia). rewrite O.
  assert (D : Z.lor x (Z.ones k) / 2 ^ k = x / 2 ^ k).
  { rewrite <- !Z.shiftr_div_pow2 by exact K. rewrite Z.shiftr_lor. rewrite (Z.shiftr_div_pow2 (Z.ones k)) by exact K.
    rewrite (Z.div_small (Z.ones k)) by lia. apply Z.lor_0_r. }
  assert (M : Z.lor x (Z.ones k) mod 2 ^ k = Z.ones k).
  { rewrite <- Z.land_ones by exact K. rewrite Z.land_lor_distr_l, Z.land_diag. apply Z.bits_inj'. intros n Hn. rewrite Z.lor_spec, Z.land_spec.
    destruct (Z.testbit x n), (Z.testbit (Z.ones k) n); reflexivity. }
  pose proof (Z.div_mod (Z.lor x (Z.ones k)) (2 ^ k) ltac:(lia)) as E. rewrite D, M in E. rewrite E.
  pose proof (Z.div_mod x (2 ^ k) ltac:(lia)) as E2. pose proof (Z.mod_pos_bound x (2 ^ k) P) as B. unfold x in *. split.
  - exists ((v - 1) / 2 ^ k + 1). lia.
  - lia.
Qed.
Definition aligns : list Z := [1; 2; 4; 8].
Lemma ffi_align_ok v a : In a aligns -> first_multiple a v (ffi_align v a).
Proof.
  intros I. assert (E : exists k, 0 <= k /\ a = 2 ^ k).
  { destruct I as [<-|[<-|[<-|[<-|[]]]]]; [exists 0|exists 1|exists 2|exists 3]; split; (lia || reflexivity). }
  destruct E as (k & K & ->). now apply ffi_align_pow.
Qed.
Lemma first_multiple_unique a v o o' : 0 < a -> first_multiple a v o -> first_multiple a v o' -> o = o'.
Proof. intros P ((x & ->) & B) ((y & ->) & B'). assert (x = y) by nia. now subst. Qed.
Lemma aligns_max a b : In a aligns -> In b aligns -> In (Z.max a b) aligns.
Proof. intros [<-|[<-|[<-|[<-|[]]]]] [<-|[<-|[<-|[<-|[]]]]]; cbn; tauto. Qed.
Lemma aligns_pos a : In a aligns -> 0 < a.
Proof. intros [<-|[<-|[<-|[<-|[]]]]]; lia. Qed.
Lemma simple_aligns d k : In (d, k) simple_types -> In k aligns.
Proof.
  intros H. assert (F : forallb (fun e => existsb (Z.eqb (snd e)) aligns) simple_types = true) by (vm_compute; reflexivity).
  rewrite forallb_forall in F. specialize (F _ H). cbn [snd] in F. apply existsb_exists in F. destruct F as (x & I & E). apply Z.eqb_eq in E. now subst x.
Qed.

(** ** The layout that C has *)
Scheme laid_mut := Induction for laid Sort Prop with placed_mut := Induction for placed Sort Prop.
Combined Scheme laid_placed_ind from laid_mut, placed_mut.
Lemma laid_facts : (forall c s a offs, laid c s a offs -> In a aligns /\ 0 < s /\ (a | s)) /\
  (forall st l offs e a, placed st l offs e a -> In a aligns /\ st <= e /\ (l <> [] -> st < e)).
Proof.
  apply laid_placed_ind.
  - intros d k I. pose proof (simple_aligns _ _ I) as A. split; [exact A|]. split; [now apply aligns_pos|apply Z.divide_refl].
  - intros fs offs e size align N _ (A & _ & B) (D & F). split; [exact A|]. specialize (B N). split; [lia|exact D].
  - intros s. split; [cbn; tauto|]. split; [lia|]. intros N. now destruct N.
  - intros s c r size align offs o os e a _ (A & B & _) (D & F) _ (G & H & _). split; [now apply aligns_max|]. split; [lia|]. intros _. lia.
Qed.
Lemma simple_unique d k k' : In (d, k) simple_types -> In (d, k') simple_types -> k = k'.
Proof.
  assert (F : forallb (fun e => forallb (fun f => if text_eqb (fst e) (fst f) then snd e =? snd f else true) simple_types) simple_types = true) by (vm_compute; reflexivity).
  intros H H'. rewrite forallb_forall in F. specialize (F _ H). rewrite forallb_forall in F. specialize (F _ H'). cbn [fst snd] in F.
  assert (E : text_eqb d d = true) by now apply MapProofs.text_eqb_spec. rewrite E in F. now apply Z.eqb_eq.
Qed.
Lemma laid_unique_both : (forall c s a offs, laid c s a offs -> forall s' a' offs', laid c s' a' offs' -> s = s' /\ a = a' /\ offs = offs') /\
  (forall st l offs e a, placed st l offs e a -> forall offs' e' a', placed st l offs' e' a' -> offs = offs' /\ e = e' /\ a = a').
Proof.
  apply laid_placed_ind.
  - intros d k I s' a' offs' L. inversion L; subst. pose proof (simple_unique _ _ _ I H0). auto.
  - intros fs offs e size align N P IH F s' a' offs' L. inversion L; subst. destruct (IH _ _ _ H1) as (<- & <- & <-).
    pose proof (proj1 (proj2 laid_facts _ _ _ _ _ P)) as A. repeat split. exact (first_multiple_unique _ _ _ _ (aligns_pos _ A) F ltac:(eassumption)).
  - intros s offs' e' a' P. inversion P; subst. auto.
  - intros s c r size align offs o os e a L IHL F P IHP offs' e' a' Q. inversion Q as [|? ? ? ? ? ? ? ? ? ? L2 F2 P2]; subst. destruct (IHL _ _ _ L2) as (<- & <- & <-).
    pose proof (proj1 (proj1 laid_facts _ _ _ _ L)) as A. pose proof (first_multiple_unique _ _ _ _ (aligns_pos _ A) F F2) as <-.
    destruct (IHP _ _ _ P2) as (<- & <- & <-). auto.
Qed.
Fixpoint ctype_ind2 (P : ctype -> Prop) (Hn : forall d, P (CName d)) (Hs : forall fs, Forall P fs -> P (CStruct fs)) (c : ctype) : P c :=
  match c with
  | CName d => Hn d
  | CStruct fs => Hs fs ((fix all (l : list ctype) : Forall P l := match l with [] => Forall_nil _ | x :: r => Forall_cons _ (ctype_ind2 P Hn Hs x) (all r) end) fs)
  end.
Lemma proper_struct fs : proper (CStruct fs) <-> fs <> [] /\ Forall proper fs.
Proof.
  cbn [proper]. split; intros (N & H); (split; [exact N|]).
  - clear N. induction fs as [|x r IH]; constructor; [tauto|apply IH; tauto].
  - clear N. induction H; [exact I|]. split; assumption.
Qed.
Lemma placed_total l : Forall (fun c => exists s a offs, laid c s a offs) l -> forall st, exists offs e a, placed st l offs e a.
Proof.
  induction 1 as [|c r (s & a & offs & L) _ IH]; intros st; [do 3 eexists; constructor|].
  pose proof (proj1 (proj1 laid_facts _ _ _ _ L)) as A. destruct (IH (ffi_align st a + s)) as (os & e & b & P).
  do 3 eexists. eapply placed_cons; [exact L|apply ffi_align_ok; exact A|exact P].
Qed.
Lemma laid_total c : proper c -> exists s a offs, laid c s a offs.
Proof.
  induction c as [d|fs IH] using ctype_ind2.
  - intros I. cbn [proper] in I. apply in_map_iff in I. destruct I as ((d', k) & <- & I). do 3 eexists. constructor. exact I.
  - rewrite proper_struct. intros (N & F). assert (G : Forall (fun c => exists s a offs, laid c s a offs) fs).
    { clear N. induction F; inversion IH; subst; constructor; auto. }
    destruct (placed_total _ G 0) as (offs & e & a & P). pose proof (proj1 (proj2 laid_facts _ _ _ _ _ P)) as A.
    do 3 eexists. econstructor; [exact N|exact P|apply ffi_align_ok; exact A].
Qed.

(** ** What a pointer to a type stands for *)
Fixpoint cut (l : list (option tref)) : list tref := match l with Some t :: r => t :: cut r | _ => [] end.
Inductive means (ss : structs) : tref -> ctype -> Prop :=
| means_name t d k : In (d, k) simple_types -> map_type d = Some t -> means ss (TPrim t) (CName d)
| means_struct id c l fs : nth_error ss id = Some (Some c) -> c_elems c = Elems l -> Forall2 (means ss) (cut l) fs -> means ss (TStruct id) (CStruct fs).
(** Structures have only older ones as elements, and their elements have an end *)
Definition older (n : nat) (t : tref) : Prop := match t with TStruct i => (i < n)%nat | _ => True end.
Definition wf (ss : structs) : Prop := forall id c l, nth_error ss id = Some (Some c) -> c_elems c = Elems l -> In None l /\ Forall (older id) (cut l).
(** What has a size has the size that C gives it *)
Definition sound (ss : structs) : Prop := forall id c fs, nth_error ss id = Some (Some c) -> means ss (TStruct id) (CStruct fs) -> proper (CStruct fs) -> c_size c <> 0 ->
  exists offs, laid (CStruct fs) (c_size c) (c_align c) offs.
(** Only sizes were added *)
Definition ext (ss ss' : structs) : Prop :=
  length ss' = length ss /\ (forall id c, nth_error ss id = Some (Some c) -> exists c', nth_error ss' id = Some (Some c') /\ c_elems c' = c_elems c /\ (c_size c <> 0 -> c' = c)) /\
  (forall id c', nth_error ss' id = Some (Some c') -> exists c, nth_error ss id = Some (Some c)).
Lemma ext_refl ss : ext ss ss. Proof. split; [reflexivity|]. split; [|eauto]. intros id c E. exists c. auto. Qed.
Lemma ext_trans a b c : ext a b -> ext b c -> ext a c.
Proof.
  intros (L1 & E1 & B1) (L2 & E2 & B2). split; [congruence|]. split.
  - intros id x H. destruct (E1 _ _ H) as (y & Hy & Ey & Sy). destruct (E2 _ _ Hy) as (z & Hz & Ez & Sz).
    exists z. split; [exact Hz|]. split; [congruence|]. intros N. specialize (Sy N). subst y. now apply Sz.
  - intros id z H. destruct (B2 _ _ H) as (y & Y). eauto.
Qed.
Lemma simple_types_map d k : In (d, k) simple_types -> exists t, map_type d = Some t /\ Z.of_nat (fsize t) = k.
Proof.
  intros H. assert (F : forallb (fun e => match map_type (fst e) with Some t => Z.of_nat (fsize t) =? snd e | None => false end) simple_types = true) by (vm_compute; reflexivity).
  rewrite forallb_forall in F. specialize (F _ H). cbn [fst snd] in F. destruct (map_type d) as [t|]; [|discriminate]. exists t. split; [reflexivity|]. now apply Z.eqb_eq.
Qed.
Lemma Forall2_in {A B} (P Q : A -> B -> Prop) l l' : Forall (fun y => forall x, P x y -> Q x y) l' -> Forall2 P l l' -> Forall2 Q l l'.
Proof. intros F H. induction H; inversion F; subst; constructor; auto. Qed.
Lemma means_ext ss ss' : ext ss ss' -> forall c t, means ss t c <-> means ss' t c.
Proof.
  intros (_ & E & B). induction c as [d|fs IH] using ctype_ind2; intros t; split; intros M; inversion M as [? ? ? I1 I2|? ? l ? N El F]; subst; try (econstructor; eassumption).
  - destruct (E _ _ N) as (c' & N' & El' & _). econstructor; [exact N'|rewrite El'; eassumption|].
    eapply Forall2_in; [|exact F]. eapply Forall_impl; [|exact IH]. intros y Y x. apply Y.
  - destruct (B _ _ N) as (x & X). destruct (E _ _ X) as (c' & N' & El' & _). rewrite N in N'. injection N' as <-.
    econstructor; [exact X|rewrite <- El'; eassumption|]. eapply Forall2_in; [|exact F]. eapply Forall_impl; [|exact IH]. intros y Y z. apply Y.
Qed.
Lemma Forall2_imp {A B} (P Q : A -> B -> Prop) l l' : (forall x y, P x y -> Q x y) -> Forall2 P l l' -> Forall2 Q l l'.
Proof. intros H. induction 1; constructor; auto. Qed.

(** ** libffi's loop *)
Definition good (ss : structs) : Prop := wf ss /\ sound ss.
Definition upto (n : nat) (ss ss' : structs) : Prop := forall i, (n <= i)%nat -> nth_error ss' i = nth_error ss i.
Lemma wf_ext ss ss' : ext ss ss' -> wf ss -> wf ss'.
Proof.
  intros (_ & E & B) W id c' l N El. destruct (B _ _ N) as (c & C). destruct (E _ _ C) as (c2 & N2 & El2 & _). rewrite N in N2. injection N2 as <-.
  apply (W id c l C). congruence.
Qed.
Lemma size_ext ss ss' t s a : ext ss ss' -> type_size ss t = Ok (s, a) -> s <> 0 -> type_size ss' t = Ok (s, a).
Proof.
  intros (_ & E & _) T N. destruct t as [t|id|p]; cbn [type_size] in *; [exact T| |exact T].
  destruct (nth_error ss id) as [[c|]|] eqn:C; try discriminate. injection T as <- <-. destruct (E _ _ C) as (c' & -> & _ & S). now rewrite (S N).
Qed.
Lemma size_means ss t c s a : sound ss -> means ss t c -> proper c -> type_size ss t = Ok (s, a) -> s <> 0 -> exists offs, laid c s a offs.
Proof.
  intros S M P T N. inversion M; subst.
  - cbn [type_size] in T. injection T as <- <-. destruct (simple_types_map _ _ H) as (t' & E & K). rewrite E in H0. injection H0 as ->. rewrite K. exists []. now constructor.
  - cbn [type_size] in T. rewrite H in T. injection T as <- <-. exact (S _ _ _ H M P N).
Qed.
Inductive folded (ss : structs) : list tref -> Z -> Z -> Z -> Z -> Prop :=
| folded_nil sz al : folded ss [] sz al sz al
| folded_cons t r sz al s a sz' al' : type_size ss t = Ok (s, a) -> s <> 0 -> folded ss r (ffi_align sz a + s) (Z.max al a) sz' al' -> folded ss (t :: r) sz al sz' al'.
Lemma folded_placed ss ts : sound ss -> forall cs sz al sz' al', folded ss ts sz al sz' al' -> Forall2 (means ss) ts cs -> Forall proper cs ->
  exists offs am, placed sz cs offs sz' am /\ Z.max al am = Z.max al' 1 /\ al <= al' /\ (cs <> [] -> 1 <= al').
Proof.
  intros S. induction ts as [|t r IH]; intros cs sz al sz' al' F M P; inversion F; subst; inversion M; subst.
  - exists [], 1. split; [constructor|]. split; [lia|]. split; [lia|]. intros X. now destruct X.
  - inversion P; subst. destruct (size_means ss t y s a S ltac:(assumption) ltac:(assumption) ltac:(assumption) ltac:(assumption)) as (o & L).
    pose proof (proj1 (proj1 laid_facts _ _ _ _ L)) as A. pose proof (aligns_pos _ A) as AP.
    destruct (IH l' _ _ _ _ ltac:(eassumption) ltac:(eassumption) ltac:(eassumption)) as (os & am & PL & MX & LE & Q).
    exists (ffi_align sz a :: os), (Z.max a am). split; [eapply placed_cons; [exact L|apply ffi_align_ok; exact A|exact PL]|]. split; [lia|]. split; [lia|].
    intros _. pose proof (proj1 (proj2 laid_facts _ _ _ _ _ PL)) as A2. pose proof (aligns_pos _ A2). lia.
Qed.
Section Loop.
Variable n : nat.
Variable ens : structs -> tref -> outcome (option structs).
Hypothesis ens_ok : forall ss t ss', good ss -> older n t -> ens ss t = Ok (Some ss') ->
  ext ss ss' /\ good ss' /\ upto n ss ss' /\ exists s a, type_size ss' t = Ok (s, a) /\ s <> 0.
Lemma agg_ok l : forall ss sz al ss' sz' al', good ss -> Forall (older n) (cut l) -> agg_loop ens ss l sz al = Ok (Some (ss', sz', al')) ->
  ext ss ss' /\ good ss' /\ upto n ss ss' /\ folded ss' (cut l) sz al sz' al'.
Proof.
  induction l as [|[t|] r IH]; intros ss sz al ss' sz' al' G O E; cbn [agg_loop cut] in *; [discriminate| |].
  - inversion O; subst. destruct (ens ss t) as [[ss1|]|] eqn:EN; cbn [obind] in E; try discriminate.
    destruct (ens_ok _ _ _ G H1 EN) as (X1 & G1 & U1 & s & a & T & N). rewrite T in E. cbn [obind] in E.
    destruct (IH _ _ _ _ _ _ G1 H2 E) as (X2 & G2 & U2 & F). split; [eapply ext_trans; eassumption|]. split; [exact G2|]. split.
    + intros i Hi. rewrite (U2 i Hi). now apply U1.
    + econstructor; [eapply size_ext; eassumption|exact N|exact F].
  - injection E as <- <- <-. split; [apply ext_refl|]. split; [exact G|]. split; [intros i _; reflexivity|constructor].
Qed.
Hypothesis ens_go : forall ss t c, good ss -> older n t -> means ss t c -> proper c -> exists ss', ens ss t = Ok (Some ss').
Lemma agg_go l : forall ss sz al cs, good ss -> Forall (older n) (cut l) -> In None l -> Forall2 (means ss) (cut l) cs -> Forall proper cs ->
  exists ss' sz' al', agg_loop ens ss l sz al = Ok (Some (ss', sz', al')).
Proof.
  induction l as [|[t|] r IH]; intros ss sz al cs G O I M P; cbn [agg_loop cut] in *; [destruct I| |eauto].
  inversion O; subst. inversion M; subst. inversion P; subst. destruct (ens_go ss t y G H1 ltac:(assumption) ltac:(assumption)) as (ss1 & EN). rewrite EN. cbn [obind].
  destruct (ens_ok _ _ _ G H1 EN) as (X1 & G1 & U1 & s & a & T & N). rewrite T. cbn [obind].
  destruct I as [I|I]; [discriminate|]. eapply IH; try eassumption. eapply Forall2_imp; [|eassumption]. intros x y' MX. now apply (means_ext _ _ X1).
Qed.
End Loop.
Lemma nth_set_same {A} (l : list A) i x y : nth_error l i = Some y -> nth_error (set_nth l i x) i = Some x.
Proof. intros H. apply set_nth_same. apply nth_error_Some. congruence. Qed.
Lemma nth_set_other {A} (l : list A) i j x y : nth_error l i = Some y -> i <> j -> nth_error (set_nth l i x) j = nth_error l j.
Proof. intros H N. destruct (set_nth_other l i j x N) as [E|L]; [exact E|]. apply nth_error_None in L. congruence. Qed.
Definition inner (k : nat) : structs -> tref -> outcome (option structs) :=
  fun ss' t => do (s, _) <- type_size ss' t; if s =? 0 then match t with TStruct i => init_agg k ss' i | _ => UB end else Ok (Some ss').
Lemma init_eq k ss id : init_agg (S k) ss id =
  match nth_error ss id with
  | Some (Some c) => match c_elems c with
    | NoElems => Ok None | FreedElems => UB
    | Elems l => do r <- agg_loop (inner k) ss l 0 0;
        Ok match r with None => None | Some (ss', sz, al) => let size := ffi_align sz al in if size =? 0 then None else Some (set_nth ss' id (Some (mkC size al (Elems l)))) end
    end
  | _ => UB end.
Proof. reflexivity. Qed.
Lemma means_inv ss id fs c l : means ss (TStruct id) (CStruct fs) -> nth_error ss id = Some (Some c) -> c_elems c = Elems l -> Forall2 (means ss) (cut l) fs.
Proof. intros M N E. inversion M as [|? c0 l0 ? N0 E0 F]; subst. rewrite N in N0. injection N0 as <-. rewrite E in E0. injection E0 as <-. exact F. Qed.

Lemma init_ok n : forall ss id c ss', good ss -> nth_error ss id = Some (Some c) -> c_size c = 0 -> init_agg n ss id = Ok (Some ss') ->
  ext ss ss' /\ good ss' /\ upto (S id) ss ss' /\ exists c', nth_error ss' id = Some (Some c') /\ c_size c' <> 0.
Proof.
  induction n as [|k IH]; intros ss id c ss' G N Z0 E; [discriminate|]. rewrite init_eq, N in E.
  destruct (c_elems c) as [|l|] eqn:El; try discriminate.
  destruct (agg_loop (inner k) ss l 0 0) as [[[[ss1 sz] al]|]|] eqn:L; cbn [obind] in E; try discriminate.
  destruct (Z.eqb_spec (ffi_align sz al) 0) as [|NZ]; [discriminate|]. injection E as <-.
  destruct (proj1 G id c l N El) as (_ & O).
  assert (EO : forall ss t ss', good ss -> older id t -> inner k ss t = Ok (Some ss') -> ext ss ss' /\ good ss' /\ upto id ss ss' /\ exists s a, type_size ss' t = Ok (s, a) /\ s <> 0).
  { clear - IH. intros ss t ss' G O E. unfold inner in E. destruct (type_size ss t) as [(s, a)|] eqn:T; [|discriminate]. cbn [obind] in E. destruct (Z.eqb_spec s 0) as [->|NZ].
    - destruct t as [|i|]; try discriminate. cbn [type_size] in T. destruct (nth_error ss i) as [[c|]|] eqn:N; try discriminate. injection T as TZ TA.
      destruct (IH _ _ _ _ G N TZ E) as (X & G' & U & c' & N' & NZ). split; [exact X|]. split; [exact G'|]. cbn in O. split; [intros j J; apply U; lia|].
      exists (c_size c'), (c_align c'). split; [cbn [type_size]; now rewrite N'|exact NZ].
    - injection E as <-. split; [apply ext_refl|]. split; [exact G|]. split; [intros j _; reflexivity|]. eauto. }
  destruct (agg_ok id (inner k) EO l _ _ _ _ _ _ G O L) as (X & G1 & U & F).
  assert (N1 : nth_error ss1 id = Some (Some c)) by (rewrite (U id); [exact N|lia]).
  set (ss2 := set_nth ss1 id (Some (mkC (ffi_align sz al) al (Elems l)))).
  assert (X2 : ext ss1 ss2).
  { split; [apply set_nth_length; apply nth_error_Some; congruence|]. split.
    - intros j d D. destruct (Nat.eq_dec id j) as [<-|NE].
      + exists (mkC (ffi_align sz al) al (Elems l)). split; [eapply nth_set_same; eassumption|]. rewrite N1 in D. injection D as <-. split; [cbn; congruence|]. intros K. now destruct K.
      + exists d. split; [unfold ss2; erewrite nth_set_other; eassumption|]. auto.
    - intros j d D. destruct (Nat.eq_dec id j) as [<-|NE]; [eauto|]. unfold ss2 in D. erewrite nth_set_other in D by eassumption. eauto. }
  split; [eapply ext_trans; eassumption|]. split; [split|split].
  - eapply wf_ext; [exact X2|exact (proj1 G1)].
  - intros j d fs D M P K. apply (means_ext _ _ X2) in M. destruct (Nat.eq_dec id j) as [<-|NE].
    + unfold ss2 in D. rewrite (nth_set_same _ _ _ _ N1) in D. injection D as <-. cbn [c_size c_align].
      apply proper_struct in P. destruct P as (NN & P). pose proof (means_inv _ _ _ _ _ M N1 El) as MM.
      destruct (folded_placed _ _ (proj2 G1) _ _ _ _ _ F MM P) as (offs & am & PL & MX & _ & GE). specialize (GE NN).
      pose proof (proj1 (proj2 laid_facts _ _ _ _ _ PL)) as A. pose proof (aligns_pos _ A). assert (am = al) by lia. subst am.
      exists offs. econstructor; [exact NN|exact PL|now apply ffi_align_ok].
    + unfold ss2 in D. rewrite (nth_set_other _ _ _ _ _ N1 NE) in D. exact (proj2 G1 _ _ _ D M P K).
  - intros j J. unfold ss2. rewrite (nth_set_other _ _ _ _ _ N1); [|lia]. apply U. lia.
  - exists (mkC (ffi_align sz al) al (Elems l)). split; [eapply nth_set_same; eassumption|exact NZ].
Qed.
Lemma ensure_ok n ss t ss' : good ss -> ensure n ss t = Ok (Some ss') -> ext ss ss' /\ good ss' /\ exists s a, type_size ss' t = Ok (s, a) /\ s <> 0.
Proof.
  intros G E. unfold ensure in E. destruct (type_size ss t) as [(s, a)|] eqn:T; [|discriminate]. cbn [obind] in E. destruct (Z.eqb_spec s 0) as [->|NZ].
  - destruct t as [|i|]; try discriminate. cbn [type_size] in T. destruct (nth_error ss i) as [[c|]|] eqn:N; try discriminate. injection T as TZ TA.
    destruct (init_ok _ _ _ _ _ G N TZ E) as (X & G' & _ & c' & N' & NZ). split; [exact X|]. split; [exact G'|].
    exists (c_size c'), (c_align c'). split; [cbn [type_size]; now rewrite N'|exact NZ].
  - injection E as <-. split; [apply ext_refl|]. split; [exact G|]. eauto.
Qed.
Lemma means_size ss t c : means ss t c -> exists s a, type_size ss t = Ok (s, a) /\ (s = 0 -> exists i, t = TStruct i).
Proof.
  intros M. inversion M as [? ? ? I1 I2|? ? ? ? N]; subst; cbn [type_size].
  - do 2 eexists. split; [reflexivity|]. intros K. destruct (simple_types_map _ _ I1) as (t' & E & KK). rewrite I2 in E. injection E as <-. pose proof (aligns_pos _ (simple_aligns _ _ I1)). lia.
  - rewrite N. do 2 eexists. split; [reflexivity|]. eauto.
Qed.
Lemma init_go n : forall ss id fs, good ss -> (id < n)%nat -> means ss (TStruct id) (CStruct fs) -> proper (CStruct fs) -> (forall c, nth_error ss id = Some (Some c) -> c_size c = 0) ->
  exists ss', init_agg n ss id = Ok (Some ss').
Proof.
  induction n as [|k IH]; intros ss id fs G B M P Z0; [lia|]. rewrite init_eq. inversion M as [|? c l ? N El F]; subst. rewrite N, El. specialize (Z0 _ N).
  destruct (proj1 G id c l N El) as (I & O). apply proper_struct in P. destruct P as (NN & P).
  assert (EO : forall ss t ss', good ss -> older id t -> inner k ss t = Ok (Some ss') -> ext ss ss' /\ good ss' /\ upto id ss ss' /\ exists s a, type_size ss' t = Ok (s, a) /\ s <> 0).
  { clear. intros ss t ss' G O E. unfold inner in E. destruct (type_size ss t) as [(s, a)|] eqn:T; [|discriminate]. cbn [obind] in E. destruct (Z.eqb_spec s 0) as [->|NZ].
    - destruct t as [|i|]; try discriminate. cbn [type_size] in T. destruct (nth_error ss i) as [[c|]|] eqn:N; try discriminate. injection T as TZ TA.
      destruct (init_ok _ _ _ _ _ G N TZ E) as (X & G' & U & c' & N' & NZ). split; [exact X|]. split; [exact G'|]. cbn in O. split; [intros j J; apply U; lia|].
      exists (c_size c'), (c_align c'). split; [cbn [type_size]; now rewrite N'|exact NZ].
    - injection E as <-. split; [apply ext_refl|]. split; [exact G|]. split; [intros j _; reflexivity|]. eauto. }
  assert (EG : forall ss t c, good ss -> older id t -> means ss t c -> proper c -> exists ss', inner k ss t = Ok (Some ss')).
  { clear - IH B. intros ss t c G O M P. unfold inner. destruct (means_size _ _ _ M) as (s & a & T & Q). rewrite T. cbn [obind]. destruct (Z.eqb_spec s 0) as [->|NZ]; [|eauto].
    destruct (Q eq_refl) as (i & ->). cbn in O. inversion M as [|? c0 l ? N El F]; subst. apply (IH _ _ fs G); [lia|exact M|exact P|]. intros x X. cbn [type_size] in T. rewrite X in T. congruence. }
  destruct (agg_go id (inner k) EO EG l ss 0 0 fs G O I F P) as (ss1 & sz & al & L). rewrite L. cbn [obind].
  destruct (agg_ok id (inner k) EO l _ _ _ _ _ _ G O L) as (X & G1 & U & FO).
  assert (F1 : Forall2 (means ss1) (cut l) fs) by (eapply Forall2_imp; [|exact F]; intros x y; apply (means_ext _ _ X)).
  destruct (folded_placed _ _ (proj2 G1) _ _ _ _ _ FO F1 P) as (offs & am & PL & MX & _ & GE). specialize (GE NN).
  pose proof (proj2 laid_facts _ _ _ _ _ PL) as (A & _ & LT). pose proof (aligns_pos _ A). assert (am = al) by lia. subst am. specialize (LT NN).
  destruct (ffi_align_ok sz al A) as (_ & BB). cbv zeta. destruct (Z.eqb_spec (ffi_align sz al) 0); [lia|]. eauto.
Qed.
Lemma ensure_go n ss t c : good ss -> older n t -> means ss t c -> proper c -> exists ss', ensure n ss t = Ok (Some ss').
Proof.
  intros G O M P. unfold ensure. destruct (means_size _ _ _ M) as (s & a & T & Q). rewrite T. cbn [obind]. destruct (Z.eqb_spec s 0) as [->|NZ]; [|eauto].
  destruct (Q eq_refl) as (i & ->). cbn in O. inversion M as [|? c0 l ? N El F]; subst. apply (init_go _ _ _ fs G); [lia|exact M|exact P|]. intros x X. cbn [type_size] in T. rewrite X in T. congruence.
Qed.
Lemma prep_ok n ts : forall ss ss', good ss -> prep_types n ss ts = Ok (Some ss') -> ext ss ss' /\ good ss' /\ Forall (fun t => exists s a, type_size ss' t = Ok (s, a) /\ s <> 0) ts.
Proof.
  induction ts as [|t r IH]; intros ss ss' G E; cbn [prep_types] in E.
  - injection E as <-. split; [apply ext_refl|]. split; [exact G|constructor].
  - destruct (ensure n ss t) as [[ss1|]|] eqn:EN; cbn [obind] in E; try discriminate. destruct (ensure_ok _ _ _ _ G EN) as (X & G1 & s & a & T & NZ).
    destruct (IH _ _ G1 E) as (X2 & G2 & F). split; [eapply ext_trans; eassumption|]. split; [exact G2|]. constructor; [|exact F]. exists s, a. split; [eapply size_ext; eassumption|exact NZ].
Qed.
Lemma prep_go n ts : forall ss cs, good ss -> Forall (older n) ts -> Forall2 (means ss) ts cs -> Forall proper cs -> exists ss', prep_types n ss ts = Ok (Some ss').
Proof.
  induction ts as [|t r IH]; intros ss cs G O M P; cbn [prep_types]; [eauto|]. inversion O; subst. inversion M; subst. inversion P; subst.
  destruct (ensure_go n ss t y G ltac:(assumption) ltac:(assumption) ltac:(assumption)) as (ss1 & EN). rewrite EN. cbn [obind].
  destruct (ensure_ok _ _ _ _ G EN) as (X & G1 & _). eapply IH; try eassumption. eapply Forall2_imp; [|eassumption]. intros x z. apply (means_ext _ _ X).
Qed.

(** ** Programs *)
(** What an object given as a type stands for: a text names a simple type; of the Blobs, [env] tells *)
Inductive stands (env : list (option ctype)) : tobj -> ctype -> Prop :=
| stands_name d : stands env (OText d) (CName d)
| stands_struct b c : nth_error env b = Some (Some c) -> stands env (OBlob b) c.
(** A program that makes structures of known types and links functions with known types (the answer has a simple type) *)
Inductive history (env0 : list (option ctype)) : list op -> list (option ctype) -> Prop :=
| history_start : history env0 [] env0
| history_make ops env a ls fs : history env0 ops env -> ListProofs.fresh a ls -> Forall2 (stands env) ls fs -> proper (CStruct fs) ->
    history env0 (ops ++ [Make (Some a)]) (env ++ [Some (CStruct fs)])
| history_link ops env a ls cs r : history env0 ops env -> ListProofs.fresh a ls -> (length ls <= 20)%nat -> Forall2 (stands env) ls cs -> Forall proper cs ->
    In r (lit "void" :: map fst simple_types) -> history env0 (ops ++ [Link a (RetText r)]) env.
Lemma cstring_simple d : In d (lit "void" :: map fst simple_types) -> cstring d = d /\ exists t, map_type d = Some t.
Proof.
  intros H. assert (F : forallb (fun d => text_eqb (cstring d) d && match map_type d with Some _ => true | None => false end) (lit "void" :: map fst simple_types) = true) by (vm_compute; reflexivity).
  rewrite forallb_forall in F. specialize (F _ H). apply andb_prop in F. destruct F as (A & B). split; [now apply MapProofs.text_eqb_spec|]. destruct (map_type d); [eauto|discriminate].
Qed.
Record linked_up (s : state) (env : list (option ctype)) : Prop := {
  lu_good : good (t_structs s);
  lu_len : length env = length (t_blobs s);
  lu_env : forall b c, nth_error env b = Some (Some c) -> exists id fs, c = CStruct fs /\ nth_error (t_blobs s) b = Some (Some (RStruct id)) /\ means (t_structs s) (TStruct id) c /\ (id < length (t_structs s))%nat
}.
Lemma obj_ok s env o c : linked_up s env -> stands env o c -> proper c -> exists t, map_type_obj s o = Ok (Some t) /\ means (t_structs s) t c /\ older (length (t_structs s)) t.
Proof.
  intros L H P. inversion H; subst.
  - destruct (cstring_simple d (or_intror P)) as (C & t & T). exists (TPrim t). cbn [map_type_obj]. rewrite C, T. split; [reflexivity|]. split; [|exact I].
    cbn [proper] in P. apply in_map_iff in P. destruct P as ((d', k) & <- & I). econstructor; eassumption.
  - destruct (lu_env _ _ L _ _ H0) as (id & fs & -> & B & M & O). exists (TStruct id). cbn [map_type_obj]. rewrite B. auto.
Qed.
Lemma fresh_nth {A} (a : @arr A) ls j x : ListProofs.fresh a ls -> nth_error ls j = Some x -> rd_cell (a_el a) j = Ok x.
Proof.
  intros (rest & E & _) H. unfold rd_cell. rewrite E. cbn [app].
  assert (L : (j < length ls)%nat) by (apply nth_error_Some; congruence).
  rewrite nth_error_app1 by (rewrite map_length; lia). rewrite nth_error_map, H. reflexivity.
Qed.
Lemma fresh_hd {A} (a : @arr A) ls : ListProofs.fresh a ls -> a_head a = length ls.
Proof. intros (rest & E & L & T & Hd). cbn in *. lia. Qed.
Lemma elems_ok s env : linked_up s env -> forall ls el i fs, (forall j x, nth_error ls j = Some x -> rd_cell el (i + j) = Ok x) -> Forall2 (stands env) ls fs -> Forall proper fs ->
  exists ts, map_elems s el i (length ls) = Ok (map Some ts ++ [None]) /\ arg_types s el i (length ls) = Ok (Some ts) /\ Forall2 (means (t_structs s)) ts fs /\ Forall (older (length (t_structs s))) ts.
Proof.
  intros L. induction ls as [|o r IH]; intros el i fs R F P; inversion F; subst; cbn [length map_elems arg_types].
  - exists []. repeat split; constructor.
  - inversion P; subst. pose proof (R O o eq_refl) as R0. rewrite Nat.add_0_r in R0. rewrite R0. cbn [obind].
    destruct (obj_ok _ _ _ _ L H1 H2) as (t & T & M & O). rewrite T. cbn [obind].
    destruct (IH el (S i) l' ltac:(intros j x J; rewrite <- (R (S j) x J); f_equal; lia) ltac:(assumption) ltac:(assumption)) as (ts & E1 & E2 & M2 & O2).
    rewrite E1, E2. cbn [obind option_map]. exists (t :: ts). repeat split; constructor; assumption.
Qed.
Lemma cut_some ts : cut (map Some ts ++ [None]) = ts.
Proof. induction ts as [|t r IH]; [reflexivity|]. cbn. now rewrite IH. Qed.
Lemma means_app ss x c : forall t, means ss t c -> means (ss ++ [x]) t c.
Proof.
  induction c as [d|fs IH] using ctype_ind2; intros t M; inversion M as [? ? ? I1 I2|? ? l ? N El F]; subst; [econstructor; eassumption|].
  econstructor; [rewrite nth_error_app1; [exact N|apply nth_error_Some; congruence]|exact El|]. eapply Forall2_in; [exact IH|exact F].
Qed.
Lemma means_app_back ss x c : wf ss -> forall t, older (length ss) t -> means (ss ++ [x]) t c -> means ss t c.
Proof.
  intros W. induction c as [d|fs IH] using ctype_ind2; intros t O M; inversion M as [? ? ? I1 I2|? c l ? N El F]; subst; [econstructor; eassumption|].
  cbn in O. rewrite nth_error_app1 in N by exact O. econstructor; [exact N|exact El|].
  destruct (W _ _ _ N El) as (_ & OO). assert (OL : Forall (older (length ss)) (cut l)) by (eapply Forall_impl; [|exact OO]; intros [| |] Q; cbn in *; (exact I || lia)).
  clear - IH F OL. induction F; constructor; inversion IH; inversion OL; subst; auto.
Qed.
Lemma good_make ss ts : good ss -> Forall (older (length ss)) ts -> good (ss ++ [Some (mkC 0 0 (Elems (map Some ts ++ [None])))]).
Proof.
  intros (W & S) O. split.
  - intros id c l N E. destruct (Nat.lt_ge_cases id (length ss)) as [L|L].
    + rewrite nth_error_app1 in N by exact L. exact (W _ _ _ N E).
    + rewrite nth_error_app2 in N by exact L. assert (id = length ss). { destruct (id - length ss)%nat as [|m] eqn:D; [lia|]. cbn in N. destruct m; discriminate. }
      subst id. rewrite Nat.sub_diag in N. cbn in N. injection N as <-. cbn in E. injection E as <-. rewrite cut_some. split; [apply in_or_app; right; now left|exact O].
  - intros id c fs N M P K. destruct (Nat.lt_ge_cases id (length ss)) as [L|L].
    + rewrite nth_error_app1 in N by exact L. exact (S _ _ _ N (means_app_back _ _ _ W (TStruct id) L M) P K).
    + rewrite nth_error_app2 in N by exact L. destruct (id - length ss)%nat as [|m]; cbn in N; [|destruct m; discriminate]. injection N as <-. now destruct K.
Qed.
Lemma run_app likes ops : forall s ops' s', run likes s ops = Ok (Some s') -> run likes s (ops ++ ops') = run likes s' ops'.
Proof.
  induction ops as [|[l|a r] q IH]; intros s ops' s' E; cbn [run app] in *.
  - now injection E as <-.
  - destruct (blob_struct s l) as [(s1, b)|]; [|discriminate]. cbn [obind] in *. now apply IH.
  - destruct (link_types likes s a r) as [[e|s1 ts t]|]; cbn [obind] in *; try discriminate. now apply IH.
Qed.
(** One link *)
Lemma link_ok s env a ls cs r : linked_up s env -> ListProofs.fresh a ls -> (length ls <= 20)%nat -> Forall2 (stands env) ls cs -> Forall proper cs -> In r (lit "void" :: map fst simple_types) ->
  exists ss ts t, (forall likes, link_types likes s a (RetText r) = Ok (if likes ts t then LOk (mkT (t_mem s) ss (t_blobs s)) ts t else LErr BadSignature)) /\ map_type r = Some t /\
    ext (t_structs s) ss /\ good ss /\ Forall2 (means ss) ts cs /\ Forall2 (fun t c => exists sz al offs, laid c sz al offs /\ type_size ss t = Ok (sz, al)) ts cs /\ Forall (older (length ss)) ts.
Proof.
  intros L FR B ST P R. pose proof (fresh_hd _ _ FR) as H. destruct (cstring_simple _ R) as (CS & t & T).
  destruct (elems_ok _ _ L ls (a_el a) 0 cs (fun j x J => fresh_nth _ _ _ _ FR J) ST P) as (ts & _ & A & M & O).
  destruct (prep_go (S (length (t_structs s))) ts (t_structs s) cs (lu_good _ _ L) ltac:(eapply Forall_impl; [|exact O]; intros [| |] Q; cbn in *; (exact I || lia)) M P) as (ss & PR).
  destruct (prep_ok _ _ _ _ (lu_good _ _ L) PR) as (X & G & SZ). exists ss, ts, t.
  assert (M2 : Forall2 (means ss) ts cs) by (eapply Forall2_imp; [|exact M]; intros x y; apply (means_ext _ _ X)).
  split; [|split; [exact T|split; [exact X|split; [exact G|split; [exact M2|split]]]]].
  - intros likes. unfold link_types. rewrite H. destruct (Nat.ltb_spec 20 (length ls)); [lia|]. rewrite A. cbn [obind ret_text]. rewrite CS, T, PR. cbn [obind]. now destruct (likes ts t).
  - clear - M2 SZ G P. induction M2; constructor; inversion SZ; inversion P; subst; auto. destruct H2 as (sz & al & T & NZ). destruct (size_means _ _ _ _ _ (proj2 G) H H6 T NZ) as (offs & LA). eauto 6.
  - rewrite (proj1 X). exact O.
Qed.
Definition plain (s : state) : Prop := t_structs s = [] /\ Forall (fun r => match r with Some (RStruct _) => False | _ => True end) (t_blobs s).
Lemma linked_start s : plain s -> linked_up s (map (fun _ => None) (t_blobs s)).
Proof.
  intros (E & _). constructor.
  - rewrite E. split; intros id; destruct id; discriminate.
  - apply map_length.
  - intros b c N. rewrite nth_error_map in N. destruct (nth_error (t_blobs s) b); discriminate.
Qed.
Definition later (ss ss' : structs) : Prop := forall id c, nth_error ss id = Some (Some c) -> exists c', nth_error ss' id = Some (Some c') /\ c_elems c' = c_elems c /\ (c_size c <> 0 -> c' = c).
Lemma later_trans a b c : later a b -> later b c -> later a c.
Proof.
  intros E1 E2 id x H. destruct (E1 _ _ H) as (y & Hy & Ey & Sy). destruct (E2 _ _ Hy) as (z & Hz & Ez & Sz).
  exists z. split; [exact Hz|]. split; [congruence|]. intros N. specialize (Sy N). subst y. now apply Sz.
Qed.
Lemma later_app ss x : later ss (ss ++ [x]).
Proof. intros id c N. exists c. split; [rewrite nth_error_app1; [exact N|apply nth_error_Some; congruence]|auto]. Qed.
Lemma means_later ss ss' c : later ss ss' -> forall t, means ss t c -> means ss' t c.
Proof.
  intros E. induction c as [d|fs IH] using ctype_ind2; intros t M; inversion M as [? ? ? I1 I2|? ? l ? N El F]; subst; [econstructor; eassumption|].
  destruct (E _ _ N) as (c' & N' & El' & _). econstructor; [exact N'|rewrite El'; eassumption|]. eapply Forall2_in; [exact IH|exact F].
Qed.
Lemma size_later ss ss' t s a : later ss ss' -> type_size ss t = Ok (s, a) -> s <> 0 -> type_size ss' t = Ok (s, a).
Proof.
  intros E T N. destruct t as [t|id|p]; cbn [type_size] in *; [exact T| |exact T].
  destruct (nth_error ss id) as [[c|]|] eqn:C; try discriminate. injection T as <- <-. destruct (E _ _ C) as (c' & -> & _ & S). now rewrite (S N).
Qed.
Lemma history_ok likes s0 env0 ops env : (forall ts t, likes ts t = true) -> linked_up s0 env0 -> history env0 ops env ->
  exists s, run likes s0 ops = Ok (Some s) /\ linked_up s env /\ t_mem s = t_mem s0 /\ (exists more, t_blobs s = t_blobs s0 ++ more) /\ later (t_structs s0) (t_structs s) /\ (length (t_structs s0) <= length (t_structs s))%nat.
Proof.
  intros LK PL. induction 1 as [|ops env a ls fs _ IH FR ST P|ops env a ls cs r _ IH FR B ST P R].
  - exists s0. split; [reflexivity|]. split; [exact PL|]. split; [reflexivity|]. split; [exists []; now rewrite app_nil_r|]. split; [|lia]. intros id c N. exists c. auto.
  - destruct IH as (s & RN & L & ME & (more & BL) & LA & LL). apply proper_struct in P. destruct P as (NN & P).
    destruct (elems_ok _ _ L ls (a_el a) 0 fs (fun j x J => fresh_nth _ _ _ _ FR J) ST P) as (ts & E & _ & M & O).
    eexists. split; [rewrite (run_app _ _ _ _ _ RN); cbn [run]; unfold blob_struct; rewrite (fresh_hd _ _ FR), E; cbn [obind]; reflexivity|]. cbn [t_mem t_blobs].
    split; [|split; [exact ME|split; [exists (more ++ [Some (RStruct (length (t_structs s)))]); now rewrite BL, app_assoc|split; [eapply later_trans; [exact LA|cbn [t_structs]; apply later_app]|cbn [t_structs]; rewrite app_length; lia]]]]. constructor; cbn [t_structs t_blobs].
    + apply good_make; [apply (lu_good _ _ L)|exact O].
    + rewrite !app_length, (lu_len _ _ L). reflexivity.
    + intros b c N. destruct (Nat.lt_ge_cases b (length env)) as [LT|GE].
      * rewrite nth_error_app1 in N by exact LT. destruct (lu_env _ _ L _ _ N) as (id & fs' & -> & NB & MM & OO). exists id, fs'. split; [reflexivity|].
        split; [rewrite nth_error_app1; [exact NB|apply nth_error_Some; congruence]|]. split; [now apply means_app|rewrite app_length; cbn; lia].
      * rewrite nth_error_app2 in N by exact GE. destruct (b - length env)%nat as [|m] eqn:D; cbn in N; [|destruct m; discriminate]. injection N as <-.
        assert (b = length (t_blobs s)) by (rewrite <- (lu_len _ _ L); lia). subst b. exists (length (t_structs s)), fs. split; [reflexivity|].
        split; [rewrite nth_error_app2 by lia; rewrite Nat.sub_diag; reflexivity|]. split; [|rewrite app_length; cbn; lia].
        econstructor; [rewrite nth_error_app2 by lia; rewrite Nat.sub_diag; reflexivity|reflexivity|]. rewrite cut_some. eapply Forall2_imp; [|exact M]. intros x y. apply means_app.
  - destruct IH as (s & RN & L & ME & (more & BL) & LA & LL). destruct (link_ok _ _ _ _ _ _ L FR B ST P R) as (ss & ts & t & LI & T & X & G & M & _ & _).
    eexists. split; [rewrite (run_app _ _ _ _ _ RN); cbn [run]; rewrite LI, LK; cbn [obind]; reflexivity|]. cbn [t_mem t_blobs].
    split; [|split; [exact ME|split; [exists more; exact BL|split; [eapply later_trans; [exact LA|exact (proj1 (proj2 X))]|cbn [t_structs]; rewrite (proj1 X); exact LL]]]]. constructor; cbn [t_structs t_blobs]; [exact G|apply (lu_len _ _ L)|].
    intros b c N. destruct (lu_env _ _ L _ _ N) as (id & fs' & -> & NB & MM & OO). exists id, fs'. split; [reflexivity|]. split; [exact NB|]. split; [now apply (means_ext _ _ X)|]. rewrite (proj1 X). exact OO.
Qed.

(** ** Values *)
Lemma load_n_ok m k l : forall n off, blk m k l -> 0 <= off -> off + Z.of_nat n <= Z.of_nat (length l) -> load_n m (PAddr k off) n = Ok (firstn n (skipn (Z.to_nat off) l)).
Proof.
  induction n as [|n IH]; intros off B P L; [reflexivity|]. cbn [load_n].
  destruct (nth_error l (Z.to_nat off)) as [v|] eqn:V; [|apply nth_error_None in V; lia].
  rewrite (load_ok _ _ _ _ _ B P V). cbn [obind padd]. rewrite IH by (assumption || lia). cbn [obind].
  rewrite (skipn_nth _ _ _ V). cbn [firstn]. replace (Z.to_nat (off + 1)) with (S (Z.to_nat off)) by lia. reflexivity.
Qed.
Lemma load_n_short m k l : forall n off, blk m k l -> 0 <= off -> Z.of_nat (length l) < off + Z.of_nat n -> off <= Z.of_nat (length l) -> load_n m (PAddr k off) n = UB.
Proof.
  induction n as [|n IH]; intros off B P L Q; [lia|]. cbn [load_n]. destruct (nth_error l (Z.to_nat off)) as [v|] eqn:V.
  - assert (Z.to_nat off < length l)%nat by (apply nth_error_Some; congruence). rewrite (load_ok _ _ _ _ _ B P V). cbn [obind padd]. rewrite IH by (assumption || lia). reflexivity.
  - apply nth_error_None in V. unfold load. unfold blk in B. rewrite B. destruct (Z.leb_spec 0 off); [|lia]. apply nth_error_None in V. now rewrite V.
Qed.
(** What is passed for a value of type [c]: a structure is the first bytes of the memory of a Blob *)
Inductive passed (s : state) : ctype -> arg -> list mval -> Prop :=
| passed_simple d t a v e : map_type d = Some t -> convert_value (as_st s) t a = Ok (v, e) -> passed s (CName d) a v
| passed_struct fs sz al offs b k off l : laid (CStruct fs) sz al offs -> nth_error (t_blobs s) b = Some (Some (RData (PAddr k off))) -> blk (t_mem s) k l -> 0 <= off ->
    off + sz <= Z.of_nat (length l) -> passed s (CStruct fs) (ABlob b) (firstn (Z.to_nat sz) (skipn (Z.to_nat off) l)).
Lemma as_ptr s b r : nth_error (t_blobs s) b = Some (Some r) -> blob_ptr (as_st s) b = Ok (match r with RStruct _ => PWild | RData p => p end).
Proof. intros N. unfold blob_ptr, as_st. cbn [s_blobs]. now rewrite nth_error_map, N. Qed.
Lemma convert_ok s t c a v sz al offs : means (t_structs s) t c -> laid c sz al offs -> type_size (t_structs s) t = Ok (sz, al) -> passed s c a v -> (exists e, convert_type s t a = Ok (v, e)).
Proof.
  intros M L T P. inversion P; subst.
  - inversion M as [? ? ? I1 I2|]; subst. rewrite H in I2. injection I2 as ->. cbn [convert_type]. eauto.
  - inversion M; subst. destruct (proj1 laid_unique_both _ _ _ _ L _ _ _ H) as (-> & -> & ->). pose proof (proj1 (proj2 (proj1 laid_facts _ _ _ _ L))) as SP.
    unfold convert_type. rewrite T. cbn [obind]. rewrite (as_ptr _ _ _ H0). cbn [obind]. rewrite (load_n_ok _ _ l) by (assumption || lia). cbn [obind]. eauto.
Qed.
Lemma readable_ok ss : wf ss -> forall n t c, older n t -> means ss t c -> readable n ss t = true.
Proof.
  intros W. induction n as [|n IH]; intros t c O M; inversion M as [? ? ? I1 I2|id c0 l fs N El F]; subst; try reflexivity; cbn in O; [lia|].
  cbn [readable]. rewrite N. destruct c0 as [sz al el]. cbn in El. subst el. destruct (W _ _ _ N eq_refl) as (I & OL).
  clear M N. revert fs F. induction l as [|[t|] r IHl]; intros fs F; [destruct I| |reflexivity]. destruct I as [I|I]; [discriminate|].
  cbn [cut] in *. inversion F; inversion OL; subst. rewrite (IH t y); [|destruct t; cbn in *; (exact Logic.I || lia)|assumption]. cbn [andb]. eapply IHl; eassumption.
Qed.
Lemma given_ok s : wf (t_structs s) -> forall ts cs, Forall2 (means (t_structs s)) ts cs -> Forall (older (length (t_structs s))) ts ->
  Forall2 (fun t c => exists sz al offs, laid c sz al offs /\ type_size (t_structs s) t = Ok (sz, al)) ts cs ->
  forall args vs, Forall2 (fun c p => passed s c (fst p) (snd p)) cs (combine args vs) -> length args = length vs -> given s ts args = Ok vs.
Proof.
  intros W ts cs M O L args vs P LE. unfold given.
  assert (C : convert_all s ts args = Ok vs).
  { clear O. revert args vs P LE L. induction M as [|t c ts cs MT M IH]; intros args vs P LE L.
    - destruct args as [|x r], vs as [|y q]; try discriminate; [reflexivity|]. inversion P.
    - destruct args as [|x r], vs as [|y q]; try discriminate; cbn [combine] in P; inversion P as [|? ? ? ? P1 P2]; subst. inversion L as [|? ? ? ? L1 L2]; subst. destruct L1 as (sz & al & offs & LA & T). cbn [fst snd] in P1.
      cbn [convert_all]. destruct (convert_ok _ _ _ _ _ _ _ _ MT LA T P1) as (e & ->). cbn [obind]. rewrite (IH _ q); [reflexivity|assumption|cbn in LE; lia|assumption]. }
  rewrite C. cbn [obind]. assert (R : forallb (readable (S (length (t_structs s))) (t_structs s)) ts = true).
  { clear - M O W. induction M; [reflexivity|]. inversion O; subst. cbn [forallb]. rewrite (readable_ok _ W _ x y); [|destruct x; cbn in *; (exact I || lia)|assumption]. now apply IHM. }
  now rewrite R.
Qed.
