(** Proofs about the Json plugin: reading whole texts, and reading what was written. *)
From Coq Require Import Permutation.
From Verif Require Import Common NumModel NumSpec NumProofs NumFacts TextProofs.
From Verif Require Import JsonModel JsonSpec JsonProofs JsonTok JsonRun JsonGrammar.
Local Open Scope nat_scope.

(** ** Reading *)
Lemma crun_end : forall pos n, crun [] pos n = JDone n [].
Proof. reflexivity. Qed.
Lemma seg_closed : forall b s seg, seg_ok b s seg -> existsb is_open seg = false.
Proof.
  intros b s seg H. destruct (existsb is_open seg) eqn:E; [|reflexivity]. apply existsb_exists in E as (t & I & O).
  apply In_nth_error in I as (j & J). destruct (H _ _ J) as (C & _). congruence.
Qed.
Theorem parse_text : forall room readn name s w t w' v, (forall n, 0 <= n -> n <= room n)%Z ->
  cstring s = w ++ (123%N :: t) ++ w' -> blanks w -> blanks w' -> jval (fun t x => readn t = Ok x) v (123%N :: t) ->
  json_parse room readn name s = Ok (PValue v).
Proof.
  intros room readn name s w t w' v HR E W W' J.
  destruct (grammar room readn name HR) as (G & _). destruct (G _ _ J) as (n & C & L). clear G.
  assert (OK : forall r, ok (123%N :: t) r) by (intros r; left; now exists t).
  destruct (L n (cstring s) w (length w) w' None [] 0 E eq_refl (OK _) I eq_refl ltac:(cbn; lia)) as (seg & LS & SO & RUN & HD & DU).
  destruct (HD t eq_refl) as (o & seg' & -> & TO). clear HD. cbn [bumped] in RUN. rewrite app_nil_l in RUN. rewrite !Nat.add_0_l in RUN.
  assert (CNT : jsmn_count (S (length (cstring s))) (cstring s) 0 0 = JDone n []).
  { change (crun (cstring s) 0 0 = JDone n []). rewrite E at 1. rewrite crun_blanks by assumption.
    rewrite C by apply OK. rewrite <- (app_nil_r w') at 1. rewrite crun_blanks by assumption. reflexivity. }
  assert (LOO : jsmn_loop (S (length (cstring s))) n (cstring s) 0 None [] 0 = JDone n (o :: seg')).
  { change (lrun n (cstring s) 0 None [] 0 = JDone n (o :: seg')). rewrite E at 1. rewrite lrun_blanks by assumption.
    rewrite Nat.add_0_l, RUN. rewrite <- (app_nil_r w') at 1. rewrite lrun_blanks by assumption.
    unfold lrun. cbn [length jsmn_loop]. now rewrite (seg_closed _ _ _ SO). }
  unfold json_parse. rewrite CNT. destruct n as [|n]; [discriminate|]. rewrite LOO, LS, Nat.sub_diag. cbn [repeat].
  rewrite app_nil_r. rewrite Nat.ltb_irrefl, TO. cbn [jtype_eqb negb orb].
  specialize (DU [] [] (S (S n)) eq_refl ltac:(lia)). rewrite app_nil_r in DU. cbn [app length] in DU. rewrite DU. reflexivity.
Qed.

(** Texts of the language contain no NUL bytes. *)
Lemma body_nonul : forall b t, body b t -> ~ In 0%N b.
Proof.
  intros b t H; induction H as [|c b t (C & _) H IH|c d b t P N1 N2 H IH]; [easy| |].
  - intros [A|A]; auto.
  - intros [A|[A|A]]; auto; [discriminate|]. subst d. inversion P.
Qed.
Lemma blanks_nonul : forall w, blanks w -> ~ In 0%N w.
Proof.
  intros w H. unfold blanks in H. rewrite Forall_forall in H. intros I. apply H in I. cbn in I. repeat destruct I as [I|I]; try discriminate I; destruct I.
Qed.
Lemma nonul_cstring : forall t, ~ In 0%N t -> cstring t = t.
Proof.
  induction t as [|c t IH]; intros H; [reflexivity|]. unfold cstring in *. cbn [filter].
  destruct (N.eqb_spec c 0) as [->|_]; [elim H; now left|]. cbn [negb]. f_equal. apply IH. intros I; apply H; now right.
Qed.
Ltac nonul := repeat match goal with H : blanks _ |- _ => apply blanks_nonul in H end;
  repeat match goal with H : body _ _ |- _ => apply body_nonul in H end;
  repeat first [rewrite in_app_iff | cbn [In]]; intuition congruence.
Lemma json_nonul : forall number, (forall v t, jval number v t -> ~ In 0%N t) /\
  (forall l t, jelems number l t -> ~ In 0%N t) /\ (forall kvs t, jmembers number kvs t -> ~ In 0%N t).
Proof.
  intros number. apply json_ind; intros; try nonul.
  destruct H as (_ & F). rewrite Forall_forall in F. intros I. apply F in I. lia.
Qed.
Theorem parse_text' : forall room readn name w t w' v, (forall n, 0 <= n -> n <= room n)%Z ->
  blanks w -> blanks w' -> jval (fun t x => readn t = Ok x) v (123%N :: t) ->
  json_parse room readn name (w ++ (123%N :: t) ++ w') = Ok (PValue v).
Proof.
  intros room readn name w t w' v HR W W' J. apply (parse_text room readn name _ w t w' v); [assumption| |assumption|assumption|assumption]. apply nonul_cstring.
  destruct (json_nonul (fun t x => readn t = Ok x)) as (G & _). apply G in J. apply blanks_nonul in W, W'.
  rewrite !in_app_iff. tauto.
Qed.

(** ** Writing *)
Lemma jv_ind2 : forall P : jv -> Prop, P JNil -> (forall b, P (JBool b)) -> (forall x, P (JNum x)) -> (forall t, P (JText t)) ->
  (forall l, Forall P l -> P (JList l)) -> (forall kvs, Forall (fun kv => P (snd kv)) kvs -> P (JMap kvs)) -> forall v, P v.
Proof.
  intros P H1 H2 H3 H4 H5 H6. fix IH 1. intros [|b|x|t|l|kvs]; [exact H1|apply H2|apply H3|apply H4| |].
  - apply H5. induction l as [|v l IHl]; constructor; [apply IH|apply IHl].
  - apply H6. induction kvs as [|[k v] l IHl]; constructor; [apply IH|apply IHl].
Qed.
Lemma tangles_cons : forall c s, ~ entangled (c :: s) -> ~ entangled s.
Proof. intros c s H (u & d & v & -> & M). apply H. exists (c :: u), d, v. now split. Qed.
Lemma esc_body : forall s, clean s -> body (flat_map (esc_byte esc_chars) s) s.
Proof.
  induction s as [|c s IH]; intros (Z0 & FF & EN); [constructor|]. cbn [flat_map].
  assert (Cs : clean s).
  { split; [intros I; apply Z0; now right|]. split; [intros I; apply FF; now right|]. eapply tangles_cons, EN. }
  specialize (IH Cs).
  assert (C0 : c <> 0%N) by (intros ->; apply Z0; now left).
  assert (C12 : c <> 12%N) by (intros ->; apply FF; now left).
  destruct (in_dec N.eq_dec c esc_chars) as [I|I].
  - assert (exists d, esc_byte esc_chars c = [92; d]%N /\ pair_of c d) as (d & -> & P).
    { unfold esc_chars in I. cbn [In] in I. repeat (destruct I as [<-|I]; [eexists; split; [reflexivity|constructor]|]). destruct I. }
    cbn [app]. apply b_esc; [assumption|assumption| |assumption].
    intros -> x r Er Sx. apply EN. destruct s as [|y s']; [discriminate|].
    exists [], y, s'. split; [reflexivity|]. unfold meaningful.
    destruct (in_dec N.eq_dec y esc_chars) as [Iy|Iy].
    + unfold esc_chars in Iy. cbn [In] in Iy |- *. unfold cQ, cNl, cBs, cCr, cTab, cFf, cB in Iy. tauto.
    + cbn [flat_map] in Er. assert (Ey : esc_byte esc_chars y = [y]).
      { unfold esc_chars in *. cbn [In] in Iy. cbn [esc_byte].
        repeat (match goal with |- context [(y =? ?z)%N] => destruct (N.eqb_spec y z) as [->|_]; [exfalso; tauto|] end). reflexivity. }
      rewrite Ey in Er. cbn [app] in Er. inversion Er; subst x. unfold second in Sx. cbn [In] in Sx |- *. tauto.
  - assert (Ey : esc_byte esc_chars c = [c]).
    { unfold esc_chars in *. cbn [In] in I. cbn [esc_byte].
      repeat (match goal with |- context [(c =? ?z)%N] => destruct (N.eqb_spec c z) as [->|_]; [exfalso; tauto|] end). reflexivity. }
    rewrite Ey. cbn [app]. apply b_raw; [|assumption]. split; [assumption|]. split; intros ->; apply I; unfold esc_chars; cbn; tauto.
Qed.
Lemma esc_body_elem : forall s, clean_elem s -> body (flat_map (esc_byte [cQ]) s) s.
Proof.
  induction s as [|c s IH]; intros (Z0 & BS); [constructor|]. cbn [flat_map].
  assert (Cs : clean_elem s) by (split; [intros I; apply Z0; now right|intros I; apply BS; now right]).
  specialize (IH Cs).
  assert (C0 : c <> 0%N) by (intros ->; apply Z0; now left).
  assert (C92 : c <> 92%N) by (intros ->; apply BS; now left).
  cbn [esc_byte]. unfold cQ. destruct (N.eqb_spec c 34) as [->|C34].
  - cbn. apply b_esc; [constructor|discriminate|discriminate|assumption].
  - cbn [app]. now apply b_raw.
Qed.
Section Write.
Variables (room : Z -> Z) (show : num -> outcome text) (number : text -> num -> Prop) (good : num -> Prop).
Hypothesis HR : forall n, (0 <= n -> n <= room n)%Z.
Hypothesis HG : forall x, good x -> exists t, show x = Ok t /\ numeral_shape t /\ number t x.

Lemma escape_flat : forall chars s, NoDup chars -> chars <> [] -> string_escape room chars s = Ok (flat_map (esc_byte chars) s).
Proof.
  intros chars s ND NE. unfold string_escape. destruct chars as [|x xs]; [congruence|].
  rewrite <- (built_exact room (flat_map (esc_byte (x :: xs)) s) HR) . f_equal. f_equal.
  symmetry. now apply esc_len.
Qed.
Lemma esc_nodup : NoDup esc_chars.
Proof. unfold esc_chars, cQ, cNl, cBs, cCr, cTab, cFf, cB. repeat (apply NoDup_cons; [cbn [In]; intros H; repeat destruct H as [H|H]; try discriminate H; exact H|]). apply NoDup_nil. Qed.
Lemma quoted_clean : forall t, clean t -> exists b, quoted room esc_chars t = Ok (34%N :: b ++ [34%N]) /\ body b t.
Proof.
  intros t H. exists (flat_map (esc_byte esc_chars) t). split; [|now apply esc_body].
  unfold quoted. rewrite escape_flat; [reflexivity|apply esc_nodup|discriminate].
Qed.
Lemma quoted_elem : forall t, clean_elem t -> exists b, quoted room [cQ] t = Ok (34%N :: b ++ [34%N]) /\ body b t.
Proof.
  intros t H. exists (flat_map (esc_byte [cQ]) t). split; [|now apply esc_body_elem].
  unfold quoted. rewrite escape_flat; [reflexivity|repeat constructor; easy|discriminate].
Qed.
Lemma firsts_nodup : forall kvs seen, NoDup (map fst kvs) -> (forall k, In k (map fst kvs) -> existsb (text_eqb k) seen = false) ->
  firsts seen kvs = kvs.
Proof.
  induction kvs as [|[k v] kvs IH]; intros seen ND NS; [reflexivity|]. cbn [firsts map fst] in *. inversion ND as [|? ? NI ND']; subst.
  rewrite NS by (now left). f_equal. apply IH; [assumption|]. intros k' I. cbn [existsb]. rewrite NS by (now right).
  destruct (text_eqb k' k) eqn:E; [|reflexivity]. apply text_eqb_eq in E as ->. contradiction.
Qed.
Lemma denotes_nodup : forall kvs, NoDup (map fst kvs) -> denotes kvs = JMap (rev kvs).
Proof.
  intros kvs ND. unfold denotes. rewrite firsts_nodup; [reflexivity| |reflexivity]. rewrite map_rev. now apply NoDup_rev.
Qed.
Definition writes (p : place) (v : jv) : Prop := exists t v', jsonify room show p v = Ok t /\ jval number v' t /\ same v v'.

Fixpoint jl (l : list jv) : outcome text :=
  match l with
  | [] => Ok []
  | v :: r => do a <- jsonify room show JElem v; do c <- jl r; Ok (a ++ match r with [] => c | _ => [44%N] ++ c end)
  end.
Fixpoint jm (kvs : list (text * jv)) : outcome text :=
  match kvs with
  | [] => Ok []
  | (k, v) :: r => do a <- quoted room esc_chars k; do b <- jsonify room show JVal v; do c <- jm r;
                   Ok (a ++ [58%N] ++ b ++ match r with [] => c | _ => [44; 32]%N ++ c end)
  end.
Lemma jsonify_list : forall l, jsonify room show JVal (JList l) = (do b <- jl l; Ok ([91%N] ++ b ++ [93%N])).
Proof. reflexivity. Qed.
Lemma jsonify_map : forall p kvs, jsonify room show p (JMap kvs) = (do b <- jm kvs; Ok ([123%N] ++ b ++ [125%N])).
Proof. intros [| |] kvs; reflexivity. Qed.
Lemma nil_blanks : blanks []. Proof. constructor. Qed.
Lemma list_writes : forall l, Forall (writes JElem) l -> writes JVal (JList l).
Proof.
  intros l H. destruct l as [|v0 l0].
  { exists [91; 93]%N, (JList []). split; [reflexivity|]. split; [apply (v_list_empty _ [] nil_blanks)|repeat constructor]. }
  unfold writes. rewrite jsonify_list.
  assert (G : exists t l', jl (v0 :: l0) = Ok t /\ jelems number l' t /\ Forall2 same (v0 :: l0) l').
  { clear -H. revert v0 H. induction l0 as [|v1 l0 IH]; intros v0 H; inversion H as [|? ? (t & v' & J & V & S0) H']; subst.
    - exists t, [v']. cbn. rewrite J. cbn. rewrite app_nil_r. split; [reflexivity|]. split; [|now repeat constructor].
      rewrite <- (app_nil_r t). rewrite <- (app_nil_l (t ++ [])). apply e_last; [apply nil_blanks|apply nil_blanks|assumption].
    - destruct (IH v1 H') as (u & l' & J2 & E2 & F2). exists (t ++ 44%N :: u), (v' :: l'). split; [|split].
      + change (jl (v0 :: v1 :: l0)) with (obind (jsonify room show JElem v0) (fun a => obind (jl (v1 :: l0)) (fun c => Ok (a ++ [44%N] ++ c)))).
        rewrite J, J2. reflexivity.
      + change (jelems number (v' :: l') ([] ++ t ++ [] ++ 44%N :: u)). apply e_more; [apply nil_blanks|apply nil_blanks|assumption|assumption].
      + now constructor. }
  destruct G as (t & l' & J & E & F). rewrite J. cbn [obind]. eexists _, (JList l'). split; [reflexivity|].
  split; [now apply v_list|now constructor].
Qed.
Lemma map_writes : forall kvs p, NoDup (map fst kvs) -> Forall (fun kv => clean (fst kv) /\ writes JVal (snd kv)) kvs -> writes p (JMap kvs).
Proof.
  intros kvs p ND H. destruct kvs as [|kv0 l0].
  { exists [123; 125]%N, (JMap []). split; [reflexivity|]. split; [apply (v_map_empty _ [] nil_blanks)|].
    apply (same_map [] [] []); constructor. }
  unfold writes. rewrite jsonify_map.
  assert (G : forall w, blanks w -> exists t l', jm (kv0 :: l0) = Ok t /\ jmembers number l' (w ++ t) /\
            Forall2 (fun a b => fst a = fst b /\ same (snd a) (snd b)) (kv0 :: l0) l').
  { clear -H HR. revert kv0 H. induction l0 as [|kv1 l0 IH]; intros [k v] H w W; inversion H as [|? ? (CK & t & v' & J & V & S0) H']; subst; cbn [fst snd] in *;
      destruct (quoted_clean k CK) as (b & QB & BB).
    - exists ((34%N :: b ++ [34%N]) ++ 58%N :: t), [(k, v')]. split; [|split].
      + change (jm [(k, v)]) with (obind (quoted room esc_chars k) (fun a => obind (jsonify room show JVal v) (fun b => Ok (a ++ [58%N] ++ b ++ [])))).
        rewrite QB, J. cbn [obind]. now rewrite app_nil_r.
      + replace (w ++ (34%N :: b ++ [34%N]) ++ 58%N :: t) with (w ++ 34%N :: b ++ 34%N :: [] ++ 58%N :: [] ++ t ++ []).
        2: { assoc. now rewrite app_nil_r. }
        now apply m_last; try apply nil_blanks.
      + now repeat constructor.
    - destruct (IH kv1 H' [32%N] ltac:(repeat constructor; cbn; tauto)) as (u & l' & J2 & E2 & F2).
      exists ((34%N :: b ++ [34%N]) ++ 58%N :: t ++ 44%N :: 32%N :: u), ((k, v') :: l'). split; [|split].
      + change (jm ((k, v) :: kv1 :: l0)) with (obind (quoted room esc_chars k) (fun a => obind (jsonify room show JVal v) (fun b =>
          obind (jm (kv1 :: l0)) (fun c => Ok (a ++ [58%N] ++ b ++ [44; 32]%N ++ c))))).
        rewrite QB, J, J2. reflexivity.
      + replace (w ++ (34%N :: b ++ [34%N]) ++ 58%N :: t ++ 44%N :: 32%N :: u)
          with (w ++ 34%N :: b ++ 34%N :: [] ++ 58%N :: [] ++ t ++ [] ++ 44%N :: ([32%N] ++ u)) by (now assoc).
        now apply m_more; try apply nil_blanks.
      + now constructor. }
  destruct (G [] nil_blanks) as (t & l' & J & E & F). rewrite J. cbn [obind]. eexists _, (denotes l'). split; [reflexivity|].
  split; [now apply v_map|].
  rewrite denotes_nodup.
  - apply same_map with (p := l'); [apply Permutation_sym, Permutation_rev|assumption].
  - replace (map fst l') with (map fst (kv0 :: l0)); [assumption|]. clear -F. induction F as [|a b x y (E & _) F IH]; [reflexivity|].
    cbn. now rewrite E, IH.
Qed.
Theorem jsonify_grammar : forall v p, fit good p v -> p <> JTop \/ (exists kvs, v = JMap kvs) -> writes p v.
Proof.
  induction v using jv_ind2; intros p F NT.
  - exists t_null, JNil. destruct p; [destruct NT as [NT|(k & E)]; congruence| |]; (split; [reflexivity|]); split; constructor.
  - exists (if b then t_true else t_false), (JBool b).
    destruct p; [destruct NT as [NT|(k & E)]; congruence| |]; (split; [reflexivity|]); (split; [destruct b; constructor|constructor]).
  - inversion F; subst. match goal with G : good _ |- _ => destruct (HG _ G) as (t & S0 & SH & NX) end. exists t, (JNum x).
    destruct p; [destruct NT as [NT|(k & E)]; congruence| |]; (split; [exact S0|]); (split; [now constructor|constructor]).
  - inversion F; subst.
    + match goal with G : clean _ |- _ => destruct (quoted_clean _ G) as (b & Q & B) end. exists (34%N :: b ++ [34%N]), (JText t). split; [exact Q|]. split; [now constructor|constructor].
    + match goal with G : clean_elem _ |- _ => destruct (quoted_elem _ G) as (b & Q & B) end. exists (34%N :: b ++ [34%N]), (JText t). split; [exact Q|]. split; [now constructor|constructor].
  - inversion F as [| | | | |? FL|]; subst. apply list_writes. rewrite Forall_forall in *. intros v I. apply H; [assumption|now apply FL|left; discriminate].
  - inversion F as [| | | | | |? ? ND FL]; subst. apply map_writes; [assumption|]. rewrite Forall_forall in *. intros kv I. destruct (FL _ I) as (C & FV).
    split; [assumption|]. apply H; [assumption|assumption|left; discriminate].
Qed.
End Write.

Theorem there_and_back : forall room show readn name kvs, (forall n, 0 <= n -> n <= room n)%Z ->
  fit (fun x => exists t, show x = Ok t /\ numeral_shape t /\ readn t = Ok x) JTop (JMap kvs) ->
  exists t v, json_jsonify room show (JMap kvs) = Ok t /\ json_parse room readn name t = Ok (PValue v) /\ same (JMap kvs) v.
Proof.
  intros room show readn name kvs HR F.
  destruct (jsonify_grammar room show (fun t x => readn t = Ok x) _ HR ltac:(cbv beta; intros x H; exact H) _ _ F ltac:(right; eauto)) as (t & v & J & V & S0).
  exists t, v. split; [exact J|]. split; [|assumption].
  assert (exists t', t = 123%N :: t') as (t' & ->).
  { rewrite jsonify_map in J. destruct (jm room show kvs); cbn in J; inversion J. eauto. }
  pose proof (parse_text' room readn name [] t' [] v HR nil_blanks nil_blanks V) as P. rewrite app_nil_l, app_nil_r in P. exact P.
Qed.

(** ** Whole numbers *)
Lemma grouped_3 : forall sep ds out, grouped sep ds out -> length ds <= 3 -> out = ds.
Proof. intros sep ds out H L. destruct H as [|ds out a b c G]; [reflexivity|]. rewrite app_length in L. cbn in L. destruct G; [destruct ds; [congruence|cbn in L; lia]|rewrite app_length in L; cbn in L; lia]. Qed.
Lemma grouped_forall : forall (P : N -> Prop) sep ds out, grouped sep ds out -> Forall P ds -> Forall P sep -> Forall P out.
Proof.
  intros P sep ds out H; induction H as [|ds out a b c G IH]; intros D S0; [assumption|].
  apply Forall_app in D as (D1 & D2). apply Forall_app. split; [now apply IH|]. apply Forall_app. now split.
Qed.
Lemma grouped_hd : forall sep ds out, grouped sep ds out -> exists c r r', ds = c :: r /\ out = c :: r'.
Proof.
  intros sep ds out H; induction H as [ds NE L|ds out a b c G (x & r & r' & -> & ->)].
  - destruct ds as [|x r]; [congruence|]. now exists x, r, r.
  - cbn. now eexists _, _, _.
Qed.
Lemma whole_json : forall d t z, (Z.abs z <= 2 ^ 53)%Z -> sep_ok [d] -> sep_ok [t] -> d <> t -> (Z.abs z < 1000)%Z \/ printable t ->
  exists out, number_to_string [d] [t] (zeros 100) None (of_Z z) = Ok out /\ numeral_shape out /\
    number_from_text true [d] [t] (zeros 41) (zeros 41) out = Ok (Some (of_Z z)).
Proof.
  intros d t z H SD STT NE HT. destruct (whole_written z H) as (ip & E & NU & T & DV & LI).
  destruct (to_string_plain d t _ ip [] _ E NU ltac:(simpl; lia) ltac:(lia) SD STT) as (out & LO & T1 & _).
  destruct (whole_there_and_back d t z H SD STT NE) as (out' & T2 & R). rewrite T1 in T2. inversion T2; subst out'.
  exists out. split; [assumption|]. split; [|assumption]. clear T1 T2 R E.
  destruct LO as (g & G & ->). rewrite app_nil_r. destruct NU as (NI & DI & _).
  assert (PD : forall c, digit c -> printable c) by (intros c Hc; unfold digit, printable in *; lia).
  assert (FI : Forall printable ip) by (unfold digits in DI; rewrite Forall_forall in *; auto).
  assert (FG : Forall printable g).
  { destruct HT as [HT|HT]; [|eapply grouped_forall; [exact G|exact FI|constructor; [exact HT|constructor]]].
    assert (L3 : length ip <= 3).
    { destruct T as [[T|T] _]; [rewrite T; cbn; lia|]. destruct ip as [|c ip']; [cbn; lia|].
      pose proof (dvalue_pos c ip' DI T) as P. cbn [length].
      assert (L : (10 ^ Z.of_nat (length ip') < 10 ^ 3)%Z) by lia. apply Z.pow_lt_mono_r_iff in L; lia. }
    now rewrite (grouped_3 _ _ _ G L3). }
  destruct (grouped_hd _ _ _ G) as (c & r & r' & -> & ->). split.
  - destruct (z <? 0)%Z; cbn [sgn app]; [now eexists _, _; split; [reflexivity|left]|].
    exists c, r'. split; [reflexivity|]. right. inversion DI; subst. assumption.
  - apply Forall_app. split; [|exact FG]. destruct (z <? 0)%Z; [|constructor]. constructor; [unfold printable; lia|constructor].
Qed.
Lemma fit_mono : forall (P Q : num -> Prop) v p, (forall x, P x -> Q x) -> fit P p v -> fit Q p v.
Proof.
  intros P Q v. induction v using jv_ind2; intros p0 PQ F; inversion F; subst; constructor; auto.
  - rewrite Forall_forall in *. intros v I. apply H; auto.
  - rewrite Forall_forall in *. match goal with FL : forall x, In x kvs -> _ /\ _ |- _ => intros v I; destruct (FL _ I) end. split; auto.
Qed.
Theorem there_and_back_whole : forall room d t name kvs, (forall n, 0 <= n -> n <= room n)%Z ->
  sep_ok [d] -> sep_ok [t] -> d <> t -> fit (whole_for t) JTop (JMap kvs) ->
  exists j v, json_jsonify room (show_number d t) (JMap kvs) = Ok j /\
    json_parse room (read_number d t) name j = Ok (PValue v) /\ same (JMap kvs) v.
Proof.
  intros room d t name kvs HR SD STT NE F. apply there_and_back; [assumption|].
  eapply fit_mono; [|exact F]. intros x (z & -> & B & HT).
  destruct (whole_json d t z B SD STT NE HT) as (out & T1 & SH & T2).
  exists out. split; [exact T1|]. split; [assumption|]. unfold zeros in T2. unfold read_number. rewrite T2. reflexivity.
Qed.
