(** Proofs about built-in names in every language. *)
From Coq Require Import List String NArith Bool Lia.
From Verif Require Import Common Fuel Txt TextSpec LexModel LexSpec LexProofs ParseModel ParseSpec ParseProofs LayoutProofs
  Dicts LangDicts MapModel MapSpec MapProofs RegTable RegArity RegModel RegSpec RegCheck.
Import ListNotations.
Open Scope list_scope.
Open Scope nat_scope.

(** ** Decision procedures *)
Ltac ands := repeat match goal with H : _ && _ = true |- _ => apply andb_prop in H; destruct H end.
Lemma split_chars_ok : forall fuel t cs, split_chars fuel t = Some cs -> chars_of t cs.
Proof.
  induction fuel as [|n IH]; intros t cs H; [discriminate|]. cbn [split_chars] in H.
  assert (More : forall k r, is_char k -> match split_chars n r with Some cs => Some (k :: cs) | None => None end = Some cs ->
    chars_of (k ++ r) cs).
  { intros k r K E. destruct (split_chars n r) as [cs'|] eqn:S; [|discriminate]. injection E as <-.
    destruct (IH _ _ S) as (F & ->). split; [constructor; auto|reflexivity]. }
  destruct t as [|b r]; [injection H as <-; split; [constructor|reflexivity]|].
  destruct (N.ltb_spec b 128). { apply (More [b]); [now constructor|exact H]. }
  destruct ((192 <=? b)%N && (b <=? 223)%N) eqn:E2.
  { ands. destruct r as [|c1 r]; [discriminate|]. destruct (contb c1) eqn:C1; [|discriminate].
    apply (More [b; c1]); [|exact H]. apply ch2; [split; now apply N.leb_le|now apply contb_ok]. }
  destruct ((224 <=? b)%N && (b <=? 239)%N) eqn:E3.
  { ands. destruct r as [|c1 [|c2 r]]; try discriminate. destruct (contb c1 && contb c2) eqn:C1; [|discriminate]. ands.
    apply (More [b; c1; c2]); [|exact H]. apply ch3; [split; now apply N.leb_le| |]; now apply contb_ok. }
  destruct ((240 <=? b)%N && (b <=? 247)%N) eqn:E4; [|discriminate].
  ands. destruct r as [|c1 [|c2 [|c3 r]]]; try discriminate. destruct (contb c1 && contb c2 && contb c3) eqn:C1; [|discriminate]. ands.
  apply (More [b; c1; c2; c3]); [|exact H]. apply ch4; [split; now apply N.leb_le| | |]; now apply contb_ok.
Qed.
Lemma chars_ok t cs : chars t = Some cs -> chars_of t cs.
Proof. apply split_chars_ok. Qed.

Lemma plain_firstb_ok w : plain_firstb w = true -> plain_first w.
Proof.
  destruct w as [|c r]; [discriminate|]. cbn [plain_firstb]. intros H. apply negb_true_iff in H. exists c, r. split; [reflexivity|].
  now apply inb_not.
Qed.
Lemma nonempty_ok w : nonempty w = true -> w <> [].
Proof. now destruct w. Qed.
Lemma no_digitb_ok w : no_digitb w = true -> forall c r, w = c :: r -> ~ digit c /\ c <> 45%N.
Proof.
  intros H c r ->. cbn in H. apply andb_prop in H. destruct H as (A & B). apply negb_true_iff in A, B.
  split; [now apply digitb_not|]. intros ->. discriminate.
Qed.
Lemma lang_okb_ok d : lang_okb d = true -> lang_ok d.
Proof.
  unfold lang_okb. intros H. rewrite !andb_true_iff in H. cbn [forallb] in H. rewrite !andb_true_iff in H.
  decompose [and] H. clear H. constructor.
  - repeat (apply Forall_cons; [now apply plain_firstb_ok|]); apply Forall_nil.
  - now apply plain_firstb_ok.
  - now apply apartb_ok.
  - split; now apply apartb_ok.
  - split; now apply apartb_ok.
  - repeat split; now apply apartb_ok.
  - repeat (apply Forall_cons; [now apply apartb_ok|]); apply Forall_nil.
  - repeat (apply Forall_cons; [now apply no_digitb_ok|]); apply Forall_nil.
  - match goal with H : _ || text_eqb _ [58]%N = true |- _ => apply orb_prop in H; destruct H as [X|X] end;
      [left; now apply N.eqb_eq|right; now apply text_eqb_spec].
  - split; [now apply nonempty_ok|]. split; [now apply nonempty_ok|]. split; [now apply apartb_ok|].
    match goal with H : text_eqb _ _ || _ = true |- _ => apply orb_prop in H; destruct H as [X|X] end;
      [left; now apply text_eqb_spec|right; now apply apartb_ok].
Qed.
Lemma words_okb_ok d : words_okb d = true -> words_ok d.
Proof.
  unfold words_okb. cbn [forallb]. intros H. rewrite !andb_true_iff in H. decompose [and] H.
  constructor; try now apply nonempty_ok. now apply Nat.leb_le.
Qed.
Lemma no_nulb t : inb 0%N t = false -> LexSpec.no_nul t.
Proof. apply inb_not. Qed.
Lemma marks_okb_ok d : marks_okb d = true -> marks_ok d.
Proof.
  unfold marks_okb. intros H. rewrite !andb_true_iff in H. decompose [and] H. clear H. rewrite !negb_true_iff in *.
  constructor; try (now apply nonempty_ok); try (now apply Nat.leb_le); try (now apply apartb_ok);
    try (split; [now apply inb_not|now apply no_nulb]).
  - repeat split; now apply apartb_ok.
  - split; apply esc_other, inb_not; unfold self_escaped in *; rewrite negb_true_iff in *; assumption.
Qed.
Lemma all_languages : Forall (fun p => lang_ok (snd p) /\ words_ok (snd p) /\ marks_ok (snd p)) languages.
Proof.
  assert (H : forallb (fun p => lang_okb (snd p) && words_okb (snd p) && marks_okb (snd p)) languages = true) by (vm_compute; reflexivity).
  rewrite forallb_forall in H. apply Forall_forall. intros p Hp. specialize (H p Hp). ands.
  split; [now apply lang_okb_ok|]. split; [now apply words_okb_ok|now apply marks_okb_ok].
Qed.

(** ** Written words *)
Lemma apart_prefix w t : apart w t -> forall k, ~ prefix w (t ++ k).
Proof.
  intros (p & x & y & a & b & -> & -> & NE) k (r & E). rewrite <- !app_assoc in E. apply app_inv_head in E. injection E as E _. congruence.
Qed.
Lemma suffixes_in v : forall p q, v = p ++ q -> q <> [] -> In q (suffixes v).
Proof.
  induction v as [|c v IH]; intros p q E NE.
  - destruct p; cbn in E; subst; congruence.
  - destruct p as [|x p]; cbn in E; [left; auto|]. injection E as _ E. right. eapply IH; eauto.
Qed.
Lemma word_spelled d v c k : word_okb d v c = true -> c = 32%N \/ c = d_prefix d -> digitb c = false -> spelled d (ref v) v (c :: k).
Proof.
  unfold word_okb. intros H C DC. rewrite !andb_true_iff in H. destruct H as (((((((A & B) & C1) & D) & E) & F) & G) & I).
  rewrite !negb_true_iff in *. rewrite forallb_forall in I.
  apply sp_name.
  - now apply nonempty_ok.
  - now apply Nat.leb_le.
  - now apply inb_not.
  - now apply inb_not.
  - intros (x & r & -> & X). now apply (digitb_not _ E).
  - intros X. rewrite X in F. cbn in F. rewrite negb_true_iff in F. intros (x & r & Y & Z). destruct (tl v) as [|y t]; cbn in *.
    + injection Y as -> _. now apply (digitb_not _ F).
    + injection Y as -> _. now apply (digitb_not _ F).
  - change (v ++ c :: k) with (v ++ [c] ++ k). rewrite app_assoc. apply apart_prefix. now apply apartb_ok.
  - intros p q EQ NE EN. pose proof (suffixes_in v p q EQ NE) as S. apply I in S. apply andb_prop in S. destruct S as (S1 & S2).
    cbn [forallb] in S1. ands. rewrite negb_true_iff in S2.
    assert (Q : q ++ c :: k = (q ++ [c]) ++ k) by (rewrite <- app_assoc; reflexivity).
    unfold ender in EN. rewrite Q in EN.
    destruct EN as [X|[X|[X|[X|(x & r & X & Y)]]]]; try (eapply apart_prefix; [|exact X]; apply apartb_ok; assumption).
    destruct q as [|y q]; [congruence|]. cbn in X. injection X as -> _. cbn [hd] in S2. apply (inb_not _ _ S2).
    destruct Y as [Y|[->|[->| ->]]]; cbn; try tauto. unfold white in Y. cbn in Y. tauto.
  - right. right. right. right. right. exists c, k. split; [reflexivity|]. destruct C as [->| ->]; [left; cbn; auto|auto].
Qed.
Lemma lay_space d ts k : layout d ts k -> layout d ts (32%N :: k).
Proof.
  intros H. destruct H as [g w G W|g t src ts k G SP L].
  - apply (lay_end d (32%N :: g)); [|exact W]. constructor; [cbn; auto|exact G].
  - apply (lay_cons d (32%N :: g)); auto. constructor; [cbn; auto|exact G].
Qed.
Lemma lay_word d v c ts k : word_okb d v c = true -> c = 32%N \/ c = d_prefix d -> digitb c = false ->
  layout d ts (c :: k) -> layout d (ref v :: ts) (v ++ c :: k).
Proof.
  intros W C D L. apply (lay_cons d [] (ref v) v ts (c :: k)); [constructor|now apply word_spelled|exact L].
Qed.
Lemma piece_word d v : word_okb d v 32%N = true -> piece d [ref v] v.
Proof. intros W rest k L. apply lay_word; auto. Qed.
Lemma lay_colon d ts k : apartb (d_assign d) [d_prefix d; 32]%N = true -> apartb [58; 61]%N [d_prefix d; 32]%N = true ->
  layout d ts (32%N :: k) -> layout d (sign TCOLON :: ts) (d_prefix d :: 32%N :: k).
Proof.
  intros A B L. apply (lay_cons d [] (sign TCOLON) [d_prefix d] ts (32%N :: k)); [constructor| |exact L].
  apply sp_colon. intros w [<-|[<-|[]]]; change (d_prefix d :: 32%N :: k) with ([d_prefix d; 32%N] ++ k);
    apply apart_prefix; now apply apartb_ok.
Qed.
Lemma lay_dot0 d : layout d [sign TDOT] (d_eol d).
Proof.
  rewrite <- (app_nil_r (d_eol d)). apply (lay_cons d [] (sign TDOT) (d_eol d) [] []); [constructor|constructor|].
  apply (lay_end d [] []); [constructor|now left].
Qed.
Lemma lay_dot d : layout d [sign TDOT] (32%N :: d_eol d).
Proof. apply lay_space, lay_dot0. Qed.

(** ** Messages with keywords *)
Definition arg := (node * list tk * text)%type.
Definition a_node (a : arg) : node := fst (fst a).
Definition a_toks (a : arg) : list tk := snd (fst a).
Definition a_text (a : arg) : text := snd a.
Fixpoint ktoks (ws : list text) (args : list arg) : list tk :=
  match ws, args with
  | w :: ws, a :: args => ref w :: sign TCOLON :: a_toks a ++ ktoks ws args
  | _, _ => []
  end.
Lemma fill_word p w r a args : ~ In p w -> fill p (w ++ p :: r) (a :: args) = w ++ p :: 32%N :: a ++ 32%N :: fill p r args.
Proof.
  induction w as [|c w IH]; intros NI; cbn [app fill].
  - now rewrite N.eqb_refl.
  - destruct (N.eqb_spec c p) as [->|NE]; [exfalso; apply NI; now left|]. f_equal. apply IH. intros X. apply NI. now right.
Qed.
Lemma word_no_prefix d w : word_okb d w (d_prefix d) = true -> ~ In (d_prefix d) w.
Proof.
  unfold word_okb. intros H. rewrite !andb_true_iff in H. destruct H as (_ & I). rewrite forallb_forall in I. intros X.
  apply in_split in X. destruct X as (p & q & E). assert (NE : d_prefix d :: q <> []) by discriminate.
  pose proof (suffixes_in w p (d_prefix d :: q) E NE) as S. apply I in S. apply andb_prop in S. destruct S as (_ & S).
  cbn [hd] in S. rewrite negb_true_iff in S. apply (inb_not _ _ S). cbn. tauto.
Qed.
Lemma join_cons p w ws : join_words p (w :: ws) = w ++ p :: join_words p ws.
Proof. unfold join_words. cbn. now rewrite <- app_assoc. Qed.
Lemma keywords_ktoks d ws : forall w a args,
  List.length ws = List.length args -> Forall (fun x => argument d (a_node x) (a_toks x)) (a :: args) ->
  exists ts, ktoks (w :: ws) (a :: args) = ref w :: sign TCOLON :: ts /\
    keywords d (join_words (d_prefix d) ws) (map a_node (a :: args)) ts.
Proof.
  induction ws as [|w' ws IH]; intros w a args L F; destruct args as [|a' args]; try discriminate.
  - exists (a_toks a). cbn [ktoks]. rewrite app_nil_r. split; [reflexivity|]. inversion F; subst. now constructor.
  - injection L as L. inversion F as [|x l Fa Fr]; subst. destruct (IH w' a' args L Fr) as (ts & E & K).
    exists (a_toks a ++ ref w' :: sign TCOLON :: ts). split.
    + cbn [ktoks] in *. now rewrite E.
    + rewrite join_cons. cbn [map] in *. now constructor.
Qed.
Lemma lay_keywords d : apartb (d_assign d) [d_prefix d; 32]%N = true -> apartb [58; 61]%N [d_prefix d; 32]%N = true ->
  digitb (d_prefix d) = false ->
  forall ws args rest k, List.length ws = List.length args -> forallb (fun w => word_okb d w (d_prefix d)) ws = true ->
  Forall (fun x => piece d (a_toks x) (a_text x)) args -> layout d rest k ->
  layout d (ktoks ws args ++ rest) (fill (d_prefix d) (join_words (d_prefix d) ws) (map a_text args) ++ k).
Proof.
  intros A B DP. induction ws as [|w ws IH]; intros args rest k L W P R; destruct args as [|a args]; try discriminate.
  - exact R.
  - injection L as L. cbn [forallb] in W. apply andb_prop in W. destruct W as (W & Ws). inversion P as [|x l Pa Pr]; subst.
    rewrite join_cons. cbn [map]. rewrite fill_word by (now apply word_no_prefix). cbn [ktoks]. rewrite <- app_assoc. cbn [app].
    apply lay_word; auto. apply lay_colon; auto. rewrite <- !app_assoc. cbn [app]. apply lay_space. apply Pa. apply lay_space. now apply IH.
Qed.

(** ** The whole statement *)
Lemma characters_fold : forall t cs, chars_of t cs -> characters t = List.length cs.
Proof.
  intros t cs (F & ->). induction F as [|c cs C F IH]; [reflexivity|]. cbn [concat List.length]. unfold characters in *.
  rewrite filter_app, app_length, IH. change (S (List.length cs)) with (1 + List.length cs). f_equal.
  assert (Cn : forall x, cont x -> leading x = false).
  { intros x (X & Y). unfold leading. apply orb_false_intro; [apply N.ltb_ge; lia|apply N.leb_gt; lia]. }
  assert (Ld : forall x, (x < 128 \/ 192 <= x)%N -> leading x = true).
  { intros x [X|X]; unfold leading; apply orb_true_intro; [left; now apply N.ltb_lt|right; now apply N.leb_le]. }
  destruct C; cbn [filter]; repeat match goal with H : cont ?x |- _ => rewrite (Cn x H); clear H end; rewrite Ld by lia; reflexivity.
Qed.
Section Send.
Variables (d : dict) (LA : lang_ok d) (WO : words_ok d) (MO : marks_ok d).
Lemma send_parses name n r tr sr args o oo :
  name_okb d name n = true -> prim d r tr -> piece d tr sr -> Forall (written_arg d name) args -> List.length args = n ->
  exists s, parse d (sr ++ 32%N :: call (d_prefix d) name (map a_text args) ++ d_eol d) o oo =
    POk [NExpr r [message name (map a_node args)]] s /\ err s = false.
Proof.
  intros OK P PC F LN. unfold name_okb in OK. destruct (chars name) as [cs|] eqn:EC; [|discriminate].
  pose proof (chars_ok _ _ EC) as CO. pose proof (characters_fold _ _ CO) as CF.
  assert (Main : forall m tm code, messages_of d [m] tm -> layout d (tm ++ [sign TDOT]) code ->
    exists s, parse d (sr ++ 32%N :: code) o oo = POk [NExpr r [m]] s /\ err s = false).
  { intros m tm code M L. apply (parse_layout d LA WO MO [NExpr r [m]] ((tr ++ tm) ++ [sign TDOT]) _ o oo).
    - apply (g_scons d (NExpr r [m]) (tr ++ tm) [] []); [|constructor]. exact (g_send d r tr [m] tm P M).
    - rewrite <- app_assoc. apply PC. now apply lay_space. }
  destruct (Nat.eqb_spec (characters name) 1) as [C1|C1].
  - ands. destruct args as [|a [|? ?]]; cbn [List.length] in LN; try (subst n; discriminate).
    cbn [map call message]. destruct (Nat.eqb_spec (characters name) 1) as [_|]; [|contradiction].
    inversion F as [|x l Fa _]; subst. destruct a as ((an & at_) & asrc). unfold written_arg in Fa. cbn [a_text a_node fst snd].
    destruct (Nat.eqb_spec (characters name) 1) as [_|]; [|contradiction]. destruct Fa as (OP & PA).
    rewrite <- app_assoc. cbn [app]. rewrite <- app_assoc. cbn [app].
    apply (Main (MBin name an) (ref name :: at_ ++ [])).
    + apply (g_plain d [] [MBin name an] (ref name :: at_ ++ [])); [constructor|]. constructor; [|exact OP|constructor].
      unfold single. rewrite C1 in CF. destruct cs as [|c [|? ?]]; try discriminate. destruct CO as (FC & ->).
      inversion FC; subst. cbn. now rewrite app_nil_r.
    + rewrite app_nil_r. cbn [app]. apply lay_word; auto. apply lay_space. apply PA. apply lay_dot.
  - destruct (Nat.eqb_spec n 0) as [N0|N0].
    + ands. destruct args as [|a args]; [|cbn in LN; lia]. cbn [map call message]. rewrite <- app_assoc. cbn [app].
      apply (Main (MUna name) [ref name]).
      * apply (g_plain d [name] [] []); [|constructor]. constructor; [|constructor]. exists cs. split; [exact CO|].
        split; [rewrite <- CF; exact C1|].
        match goal with H : word_okb _ _ _ = true |- _ => unfold word_okb in H; rewrite !andb_true_iff in H; decompose [and] H end.
        match goal with H : (List.length name <=? 255) = true |- _ => apply Nat.leb_le in H; clear - H; unfold W64; lia end.
      * cbn [app]. apply lay_word; auto. apply lay_dot.
    + ands. set (ws := split_words (d_prefix d) [] name) in *.
      destruct args as [|a args]; [cbn in LN; lia|].
      match goal with H : text_eqb _ _ = true |- _ => apply text_eqb_spec in H; rename H into EN end.
      match goal with H : (List.length ws =? n) = true |- _ => apply Nat.eqb_eq in H; rename H into LW end.
      match goal with H : (List.length name <=? 255) = true |- _ => apply Nat.leb_le in H; rename H into L255 end.
      destruct ws as [|w ws']; [discriminate|].
      cbn [map call message]. destruct (Nat.eqb_spec (characters name) 1) as [|_]; [contradiction|].
      change (a_text a :: map a_text args) with (map a_text (a :: args)). change (a_node a :: map a_node args) with (map a_node (a :: args)).
      assert (FA : Forall (fun x => argument d (a_node x) (a_toks x)) (a :: args)).
      { eapply Forall_impl; [|exact F]. intros ((xn & xt) & xs) X. unfold written_arg in X.
        destruct (Nat.eqb_spec (characters name) 1) as [|_]; [contradiction|]. apply X. }
      assert (FP : Forall (fun x => piece d (a_toks x) (a_text x)) (a :: args)).
      { eapply Forall_impl; [|exact F]. intros ((xn & xt) & xs) X. unfold written_arg in X. apply X. }
      assert (LL : List.length ws' = List.length args) by (cbn in LW, LN; lia).
      destruct (keywords_ktoks d ws' w a args LL FA) as (ts & EK & K).
      assert (EN' := EN). rewrite join_cons in EN'.
      apply (Main (MKw name (map a_node (a :: args))) (ktoks (w :: ws') (a :: args))).
      * refine (eq_ind_r (messages_of d [MKw name (map a_node (a :: args))]) _ EK). rewrite EN'. apply (g_kw d [] [] [] w _ _ ts); [constructor|constructor|exact K| |].
        -- destruct (chars w) as [cw|] eqn:CW; [|discriminate]. exists cw. now apply chars_ok.
        -- rewrite <- EN'. exact L255.
      * rewrite EN at 1. apply lay_keywords; auto.
        -- pose proof (proj1 (Forall_forall _ _) (la_digits d LA) [d_prefix d]) as DG. cbn beta in DG.
           assert (IN : In [d_prefix d] [d_eol d; d_chain d; d_assign d; d_return d; d_qo d; [d_prefix d]; d_dec d; d_tho d]) by (cbn; tauto).
           specialize (DG IN _ _ eq_refl). destruct DG as (DG & _). unfold digitb.
           destruct (N.leb_spec 48 (d_prefix d)); destruct (N.leb_spec (d_prefix d) 57); auto. exfalso. apply DG. now split.
        -- etransitivity; [exact LW|symmetry; exact LN].
        -- apply lay_dot0.
Qed.
End Send.

(** ** Methods of the built-in objects *)
Section Own.
Variables (d : dict) (ws : list string).
Definition own (rs : list (std * key * string)) (o : std) : list (text * string) :=
  flat_map (fun r => if std_eq_dec (fst (fst r)) o then [(key_text d ws (snd (fst r)), snd r)] else []) rs.
Lemma own_in rs o k f : In (o, k, f) rs -> In (key_text d ws k, f) (own rs o).
Proof.
  intros I. unfold own. apply in_flat_map. exists (o, k, f). split; [exact I|]. cbn [fst snd].
  destruct (std_eq_dec o o); [now left|congruence].
Qed.
Lemma in_own rs o t f : In (t, f) (own rs o) -> exists k, In (o, k, f) rs /\ t = key_text d ws k.
Proof.
  intros I. apply in_flat_map in I. destruct I as (((o' & k) & f') & I & J). cbn [fst snd] in J.
  destruct (std_eq_dec o' o) as [->|]; [|destruct J]. destruct J as [J|[]]. injection J as <- <-. now exists k.
Qed.
Lemma create_funcs_ok hash rs : forall w acc,
  (forall o, rep hash (w_methods w o) (acc o)) -> (forall o, NoDup (map fst (rev (own rs o) ++ acc o))) ->
  exists w', create_funcs hash d ws rs w = Ret w' /\ w_names w' = w_names w /\
    forall o, rep hash (w_methods w' o) (rev (own rs o) ++ acc o).
Proof.
  induction rs as [|((o & k) & f) rs IH]; intros w acc R ND.
  - exists w. repeat split; auto.
  - cbn [create_funcs]. unfold create_func.
    assert (EO : own ((o, k, f) :: rs) o = (key_text d ws k, f) :: own rs o).
    { unfold own. cbn [flat_map fst snd]. destruct (std_eq_dec o o); [reflexivity|congruence]. }
    assert (NE : forall x, x <> o -> own ((o, k, f) :: rs) x = own rs x).
    { intros x NX. unfold own. cbn [flat_map fst snd]. destruct (std_eq_dec o x); [congruence|reflexivity]. }
    assert (NI : ~ In (key_text d ws k) (map fst (acc o))).
    { specialize (ND o). rewrite EO in ND. cbn [rev] in ND. rewrite <- app_assoc, map_app in ND. cbn [app map fst] in ND.
      apply NoDup_remove_2 in ND. intros X. apply ND. apply in_or_app. now right. }
    destruct (add_rep hash _ _ (key_text d ws k) f (R o) NI) as (m & E & Rm & _). rewrite E. cbn [rbind].
    set (w1 := mkWorld _ _). set (acc1 := fun x => if std_eq_dec x o then (key_text d ws k, f) :: acc o else acc x).
    destruct (IH w1 acc1) as (w' & E' & W' & R').
    + intros x. unfold w1, acc1. cbn [w_methods]. destruct (std_eq_dec x o); auto.
    + intros x. specialize (ND x). unfold acc1. destruct (std_eq_dec x o) as [->|NX].
      * rewrite EO in ND. cbn [rev] in ND. rewrite <- app_assoc in ND. exact ND.
      * now rewrite NE in ND.
    + exists w'. split; [exact E'|]. split; [exact W'|]. intros x. specialize (R' x). unfold acc1 in R'. destruct (std_eq_dec x o) as [->|NX].
      * rewrite EO. cbn [rev]. rewrite <- app_assoc. exact R'.
      * now rewrite NE.
Qed.
Lemma create_names_ok hash gs : forall w acc,
  rep hash (w_names w) acc -> NoDup (map fst (rev (map (fun g => (key_text d ws (fst g), snd g)) gs) ++ acc)) ->
  exists w', create_names hash d ws gs w = Ret w' /\ w_methods w' = w_methods w /\
    rep hash (w_names w') (rev (map (fun g => (key_text d ws (fst g), snd g)) gs) ++ acc).
Proof.
  induction gs as [|(k & o) gs IH]; intros w acc R ND.
  - exists w. auto.
  - cbn [create_names map fst snd rev] in *. rewrite <- app_assoc in *. cbn [app] in *. unfold create_name.
    assert (NI : ~ In (key_text d ws k) (map fst acc)).
    { rewrite map_app in ND. cbn [map fst] in ND. apply NoDup_remove_2 in ND. intros X. apply ND. apply in_or_app. now right. }
    destruct (add_rep hash _ _ (key_text d ws k) o R NI) as (m & E & Rm & _). rewrite E. cbn [rbind].
    destruct (IH (mkWorld (w_methods w) m) ((key_text d ws k, o) :: acc) Rm ND) as (w' & E' & M' & R').
    exists w'. auto.
Qed.
End Own.
Lemma nodupb_ok l : nodupb l = true -> NoDup l.
Proof.
  induction l as [|a l IH]; intros H; [constructor|]. cbn [nodupb] in H. apply andb_prop in H. destruct H as (A & B).
  constructor; [|auto]. intros I. rewrite negb_true_iff in A.
  assert (T : existsb (text_eqb a) l = true) by (apply existsb_exists; exists a; split; [auto|now apply text_eqb_spec]). congruence.
Qed.
Lemma key_eqb_ok a b : key_eqb a b = true -> a = b.
Proof. destruct a, b; cbn; try discriminate; intros H; apply String.eqb_eq in H; now subst. Qed.
Lemma all_std_all o : In o all_std. Proof. destruct o; cbn; tauto. Qed.
Lemma each_language_ok check : each_language check = true ->
  forall l d ws, In (lit l, d) languages -> In (l, ws) dictionaries -> check l d ws = true.
Proof.
  unfold each_language. intros H l d ws L D. rewrite forallb_forall in H. specialize (H _ D). rewrite forallb_forall in H.
  specialize (H _ L). cbn [fst snd] in H. replace (text_eqb (lit l) (lit l)) with true in H by (symmetry; now apply text_eqb_spec). exact H.
Qed.
Lemma lookup_in {V} (l : list (text * V)) k v : NoDup (map fst l) -> In (k, v) l -> lookup l k = Some v.
Proof.
  induction l as [|(k' & v') l IH]; intros ND I; [destruct I|]. cbn [map fst] in ND. inversion ND; subst. cbn [lookup].
  destruct I as [I|I]; [injection I as -> ->; destruct (text_dec k k); congruence|].
  destruct (text_dec k' k) as [->|]; [|auto]. exfalso. apply H1. apply (in_map fst) in I. exact I.
Qed.
Lemma world_parts d ws : world_okb d ws = true ->
  forallb (fun o => nodupb (names_of (table d ws) o)) all_std = true /\
  forallb (fun r =>
       forallb (fun a => if existsb (std_eqb (fst (fst a))) (ancestors (fst (fst r)))
                         then key_eqb (snd (fst a)) (snd (fst r)) || negb (text_eqb (snd a) (snd r)) else true) (table d ws)) (table d ws) = true /\
  nodupb (map (fun g => key_text d ws (fst g)) globals) = true /\
  forallb (fun g => word_okb d g 32%N && negb (text_eqb g (d_my d)) && negb (text_eqb g (d_var d)) && negb (text_eqb g [62; 62]%N))
    (map (fun g => key_text d ws (fst g)) globals) = true.
Proof. unfold world_okb. cbv zeta. rewrite !andb_true_iff. tauto. Qed.
Lemma globals_17 : List.length globals = 17. Proof. vm_compute. reflexivity. Qed.
Lemma registrations_267 : List.length registrations = 267. Proof. vm_compute. reflexivity. Qed.
Lemma table_map d ws : table d ws = map (fun r => (fst (fst r), snd (fst r), key_text d ws (snd (fst r)))) registrations.
Proof. reflexivity. Qed.
Lemma link_end o p q : link o = Some p -> link p = Some q -> link q = None.
Proof. intros A B. destruct o; cbn in A; inversion A; subst; cbn in B; inversion B; subst; reflexivity. Qed.
Lemma ancestors_link o p a : link o = Some p -> a = p \/ In a (ancestors p) -> In a (ancestors o).
Proof.
  intros L A. unfold ancestors. rewrite L. destruct A as [->|A]; [now left|]. right. unfold ancestors in A.
  destruct (link p) as [q|] eqn:EP; [|destruct A]. rewrite (link_end _ _ _ L EP) in A. exact A.
Qed.
Lemma ancestors_less o p : link o = Some p -> List.length (ancestors p) < List.length (ancestors o).
Proof.
  intros L. unfold ancestors. rewrite L. destruct (link p) as [q|] eqn:EP; [|cbn; lia].
  rewrite (link_end _ _ _ L EP). cbn. lia.
Qed.
Section World.
Variables (d : dict) (ws : list string).
Hypothesis OKW : world_okb d ws = true.
Local Opaque registrations globals table.
Let ls (o : std) := rev (own d ws registrations o) ++ [].
Lemma names_own rs o : map fst (own d ws rs o) =
  names_of (map (fun r => (fst (fst r), snd (fst r), key_text d ws (snd (fst r)))) rs) o.
Proof.
  induction rs as [|((x & k) & f) rs IH]; [reflexivity|]. unfold own, names_of in *. cbn [flat_map map filter fst snd]. unfold std_eqb at 1.
  destruct (std_eq_dec x o); cbn [app map fst snd]; [f_equal|]; exact IH.
Qed.
Lemma own_nodup o : NoDup (map fst (ls o)).
Proof.
  unfold ls. rewrite app_nil_r, map_rev. apply NoDup_rev. rewrite names_own, <- table_map.
  destruct (world_parts _ _ OKW) as (G & _). rewrite forallb_forall in G. apply nodupb_ok. exact (G o (all_std_all o)).
Qed.
Lemma not_hidden o a k k' f g : In (o, k', f) registrations -> In (a, k, g) registrations -> In a (ancestors o) ->
  key_text d ws k = key_text d ws k' -> k = k'.
Proof.
  intros I J A E. destruct (world_parts _ _ OKW) as (_ & H2 & _). rewrite table_map in H2. rewrite forallb_forall in H2. set (mk := fun r : std * key * string => (fst (fst r), snd (fst r), key_text d ws (snd (fst r)))) in *.
  specialize (H2 _ (in_map mk _ _ I)). rewrite forallb_forall in H2. specialize (H2 _ (in_map mk _ _ J)). cbn [mk fst snd] in H2.
  rewrite E in H2. replace (text_eqb (key_text d ws k') (key_text d ws k')) with true in H2 by (symmetry; now apply text_eqb_spec).
  replace (existsb (std_eqb a) (ancestors o)) with true in H2.
  - rewrite orb_false_r in H2. now apply key_eqb_ok.
  - symmetry. apply existsb_exists. exists a. split; [exact A|]. unfold std_eqb. destruct (std_eq_dec a a); congruence.
Qed.
Lemma understands_from o k f : understands o k f -> exists a, (a = o \/ In a (ancestors o)) /\ In (a, k, f) registrations.
Proof.
  induction 1 as [o k f I|o p k f NI L U (a & A & I)]; [exists o; auto|]. exists a. split; [|exact I]. right. exact (ancestors_link o p a L A).
Qed.
Lemma own_length o : List.length (ls o) <= 267.
Proof.
  unfold ls. rewrite app_nil_r, rev_length. unfold own.
  assert (G : forall rs, List.length (flat_map (fun r => if std_eq_dec (fst (fst r)) o then [(key_text d ws (snd (fst r)), snd r)] else []) rs)
     <= List.length (A := std * key * string) rs).
  { induction rs as [|r rs IH]; [auto|]. cbn [flat_map]. rewrite app_length. destruct (std_eq_dec (fst (fst r)) o); cbn [List.length]; lia. }
  etransitivity; [apply G|]. rewrite registrations_267. auto.
Qed.
Theorem world_works hash : exists w, initialize hash d ws = Ret w /\
  (forall fuel o k f, 300 <= fuel -> understands o k f -> find_method hash fuel w o (key_text d ws k) = Ret (Some f)) /\
  (forall fuel k o, 300 <= fuel -> In (k, o) globals -> find_name hash fuel w (key_text d ws k) = Ret (Some o)).
Proof.
  destruct (create_funcs_ok d ws hash registrations (mkWorld (fun _ => map_new) map_new) (fun _ => [])) as (w1 & E1 & N1 & R1).
  { intros o. apply new_rep. } { apply own_nodup. }
  assert (GN : NoDup (map fst (rev (map (fun g => (key_text d ws (fst g), snd g)) globals) ++ []))).
  { rewrite app_nil_r, map_rev. apply NoDup_rev. rewrite map_map. cbn [fst]. apply nodupb_ok. apply (world_parts _ _ OKW). }
  destruct (create_names_ok d ws hash globals w1 []) as (w2 & E2 & M2 & R2).
  { rewrite N1. apply new_rep. } { exact GN. }
  exists w2. split; [unfold initialize; rewrite E1; exact E2|]. split.
  - intros fuel o k f FU U. assert (G : forall n o k f, 280 + List.length (ancestors o) < n -> understands o k f ->
      find_method hash n w2 o (key_text d ws k) = Ret (Some f)).
    { clear fuel o k f FU U. intros n o k f FU U. revert n FU. induction U as [o k f I|o p k f NI L U IH]; intros n FU.
      - destruct n as [|n]; [lia|]. cbn [find_method]. rewrite M2.
        rewrite (find_rep hash _ _ _ _ (R1 o)) by (pose proof (own_length o) as X; unfold ls in X; lia). cbn [rbind].
        rewrite (lookup_in _ _ f (own_nodup o)); [reflexivity|]. unfold ls. rewrite app_nil_r. apply -> in_rev. now apply own_in.
      - destruct n as [|n]; [lia|]. cbn [find_method]. rewrite M2.
        rewrite (find_rep hash _ _ _ _ (R1 o)) by (pose proof (own_length o) as X; unfold ls in X; lia). cbn [rbind].
        rewrite (lookup_none hash).
        + rewrite L. apply IH. pose proof (ancestors_less o p L). lia.
        + rewrite app_nil_r, map_rev. intros X. apply in_rev in X. apply in_map_iff in X. destruct X as ((t & g) & ET & X). cbn in ET. subst t.
          apply in_own in X. destruct X as (k' & X & ET). destruct (understands_from _ _ _ U) as (a & A & I).
          pose proof (ancestors_link o p a L A) as AO.
          pose proof (not_hidden o a k k' g f X I AO ET) as ->. now apply (NI g). }
    apply G; [|exact U]. assert (List.length (ancestors o) <= 2) by (destruct o; cbn; lia). lia.
  - intros fuel k o FU I. unfold find_name.
    rewrite (find_rep hash _ _ _ _ R2).
    + rewrite (lookup_in _ _ o GN); [reflexivity|]. rewrite app_nil_r. apply -> in_rev.
      exact (in_map (fun g => (key_text d ws (fst g), snd g)) _ _ I).
    + rewrite app_nil_r, rev_length, map_length. rewrite globals_17. lia.
Qed.
Theorem world_names k o : In (k, o) globals ->
  prim d (NRef 0 (key_text d ws k)) [ref (key_text d ws k)] /\ piece d [ref (key_text d ws k)] (key_text d ws k).
Proof.
  intros I. destruct (world_parts _ _ OKW) as (_ & _ & _ & G). rewrite forallb_forall in G.
  specialize (G _ (in_map (fun g => key_text d ws (fst g)) _ _ I)). cbn [fst] in G. ands. rewrite !negb_true_iff in *.
  assert (TE : forall a b, text_eqb a b = false -> a <> b).
  { intros a b X ->. assert (text_eqb b b = true) by now apply text_eqb_spec. congruence. }
  split; [|now apply piece_word]. apply g_ref.
  - unfold is_my. now apply TE.
  - unfold is_var. intros [X|X]; revert X; now apply TE.
Qed.
End World.

(** ** Every language *)
Lemma worlds_ok : each_language (fun _ => world_okb) = true.
Proof. vm_compute. reflexivity. Qed.
Lemma sendable_ok : each_language sendable = true.
Proof. vm_compute. reflexivity. Qed.
Theorem language_world l d ws hash : In (lit l, d) languages -> In (l, ws) dictionaries ->
  exists w, initialize hash d ws = Ret w /\
  (forall fuel o k f, 300 <= fuel -> understands o k f -> find_method hash fuel w o (key_text d ws k) = Ret (Some f)) /\
  (forall fuel k o, 300 <= fuel -> In (k, o) globals -> find_name hash fuel w (key_text d ws k) = Ret (Some o)).
Proof. intros L D. apply world_works. exact (each_language_ok _ worlds_ok l d ws L D). Qed.
Theorem language_names l d ws k o : In (lit l, d) languages -> In (l, ws) dictionaries -> In (k, o) globals ->
  prim d (NRef 0 (key_text d ws k)) [ref (key_text d ws k)] /\ piece d [ref (key_text d ws k)] (key_text d ws k).
Proof. intros L D. apply world_names. exact (each_language_ok _ worlds_ok l d ws L D). Qed.
Theorem language_sends l d ws o k f r tr sr args a b : In (lit l, d) languages -> In (l, ws) dictionaries ->
  In (o, k, f) registrations -> ~ In (l, k) exceptions ->
  prim d r tr -> piece d tr sr -> Forall (written_arg d (key_text d ws k)) args ->
  List.length args = arguments 58%N (key_text dict_en english k) ->
  exists s, parse d (sr ++ 32%N :: call (d_prefix d) (key_text d ws k) (map a_text args) ++ d_eol d) a b =
    POk [NExpr r [message (key_text d ws k) (map a_node args)]] s /\ err s = false.
Proof.
  intros L D R NE P PC F LN. pose proof (each_language_ok _ sendable_ok l d ws L D) as S. unfold sendable in S.
  rewrite forallb_forall in S. specialize (S _ R). cbn [fst snd] in S. apply orb_prop in S. destruct S as [S|S].
  - exfalso. apply NE. unfold exceptional in S. apply existsb_exists in S. destruct S as ((l' & k') & I & E). cbn [fst snd] in E.
    apply andb_prop in E. destruct E as (E1 & E2). apply String.eqb_eq in E1. apply key_eqb_ok in E2. now subst.
  - destruct (proj1 (Forall_forall _ _) all_languages _ L) as (LA & WO & MO). cbn [snd] in *.
    eapply send_parses; eauto.
Qed.

(** ** The arguments of the functions *)
Definition arity_okb : bool :=
  forallb (fun r => existsb (fun q => String.eqb (fst q) (snd r) && Nat.eqb (snd q) (arguments 58%N (key_text dict_en english (snd (fst r))))) takes) registrations.
Lemma arity_checked : arity_okb = true.
Proof. vm_compute. reflexivity. Qed.
Lemma arity_ok o k f : In (o, k, f) registrations -> In (f, arguments 58%N (key_text dict_en english k)) takes.
Proof.
  intros I. assert (A := arity_checked). unfold arity_okb in A. rewrite forallb_forall in A. specialize (A _ I).
  apply existsb_exists in A. destruct A as ((g & n) & J & E). apply andb_prop in E. cbn [fst snd] in E. destruct E as (E1 & E2).
  apply String.eqb_eq in E1. apply Nat.eqb_eq in E2. rewrite <- E1, <- E2. exact J.
Qed.
