(** The parser finds the tree of every program that follows the grammar. *)
From Verif Require Import Common TextModel TextSpec Utf8Proofs TextProofs NumModel LexModel LexSpec LexProofs ParseModel ParseSpec.
From Coq Require Import Lia.
Open Scope nat_scope.

(** ** Fuel *)
Definition le_res {A} (a b : pres A) : Prop := a = PFuel \/ a = b.
Lemma le_refl' A (a : pres A) : le_res a a. Proof. now right. Qed.
Lemma pbind_le A B (a b : pres A) (f g : A -> pst -> pres B) :
  le_res a b -> (forall x s, le_res (f x s) (g x s)) -> le_res (pbind a f) (pbind b g).
Proof. intros [->| ->] H; [now left|]. destruct b; cbn; auto; now right. Qed.
Lemma token_eqb_eq a b : token_eqb a b = true <-> a = b.
Proof. split; [destruct a, b; cbn; congruence|intros ->; destruct b; reflexivity]. Qed.
Lemma token_eqb_refl a : token_eqb a a = true. Proof. now apply token_eqb_eq. Qed.

Section P.
Variable d : dict.
Notation expr := (expr d). Notation receiver := (receiver d). Notation block_body := (block_body d).
Notation messages := (messages d). Notation message := (message d). Notation kw_args := (kw_args d).
Notation params := (params d). Notation tokp := (tokp d).
Notation parse_number := (parse_number d). Notation parse_string := (parse_string d). Notation parse_ref := (parse_ref d).
Notation statement := (statement d). Notation program := (program d).

Lemma expr_S f (mode : nat) (s : pst) : expr (S f) mode s =
      p! r, s <- receiver f s;
      p! (t2, _), s <- tokp s;
      p! (t3, _), s <- tokp s;
      let s := putback (putback s) in
      if (mode =? 1) && token_eqb t2 TREF && token_eqb t3 TCOLON then POk r s
      else
        match t2 with
        | TCOLON | TBLOCKCLOSE => fail s
        | TASSIGN =>
            match r with
            | NRef _ _ =>
                
                p! _, s <- tokp s;
                p! e, s <- expr f 0 s;
                POk (NAssign r e) s
            | _ => fail s
            end
        | TDOT | TPARCLOSE | TCHAIN | TFIN => POk r s
        | _ =>
            p! (t, _), s <- tokp s;
            p! ms, s <- messages f mode [] t s;
            match ms with
            | MNone :: _ => p! _, s <- tokp s; POk r (putback s)
            | _ => POk (NExpr r ms) s
            end
        end.
Proof. reflexivity. Qed.
Lemma receiver_S f (s : pst) : receiver (S f) s =
      p! (t, _), s <- tokp s;
      let s := putback s in
      match t with
      | TNUMBER => parse_number s
      | TQUOTE => parse_string s
      | TREF => parse_ref s
      | TBLOCKOPEN =>
          
          p! _, s <- tokp s;
          p! (t, _), s <- tokp s;
          if token_eqb t TBLOCKCLOSE then fail s
          else
            p! ps, s <- params f t [] s;
            p! body, s <- block_body f [] (putback s);
            POk (NBlock ps body) s
      | TPAROPEN =>
          
          p! _, s <- tokp s;
          p! e, s <- expr f 0 s;
          p! (t, _), s <- tokp s;
          if token_eqb t TPARCLOSE then POk (NNested e) s else fail s
      | _ => fail s
      end.
Proof. reflexivity. Qed.
Lemma block_body_S f (acc : list node) (s : pst) : block_body (S f) acc s =
      p! (t, _), s <- tokp s;
      if token_eqb t TBLOCKCLOSE then POk acc s
      else
        let s := putback s in
        p! n, s <- (if token_eqb t TRET
                    
                    then p! _, s <- tokp s; p! e, s <- expr f 0 s; POk (NRet e) s
                    else expr f 0 s);
        p! (t, _), s <- tokp s;
        if token_eqb t TDOT then block_body f (acc ++ [n]) s else fail s.
Proof. reflexivity. Qed.
Lemma messages_S f (mode : nat) (acc : list msg) (t : token) (s : pst) : messages (S f) mode acc t s =
      if token_eqb t TREF || (token_eqb t TCHAIN && is_kw (last acc MNone)) then
        p! _, s <- (if token_eqb t TCHAIN
                    then p! (t, _), s <- tokp s; if token_eqb t TREF then POk tt s else fail s
                    else POk tt s);
        p! m, s <- message f mode (putback s);
        match m with
        | MNone =>
            match acc with
            | [] => POk [MNone] s
            | _ => p! _, s <- tokp s; POk acc (putback s)
            end
        | _ => p! (t, _), s <- tokp s; messages f mode (acc ++ [m]) t s
        end
      else
        let s := putback s in
        match acc with [] => fail s | _ => POk acc s end.
Proof. reflexivity. Qed.
Lemma message_S f (mode : nat) (s : pst) : message (S f) mode s =
      p! (t, v), s <- tokp s;
      if (255 <? length v) then fail s
      else
        match getutf8len v (length v) with
        | UB => PUB
        | Ok u =>
            p! (la, _), s <- tokp s;
            let s := putback s in
            let isbin := (u =? 1)%Z && negb (token_eqb la TCOLON) in
            if (mode =? 2) && isbin then POk MNone (putback s)
            else if isbin then
              p! a, s <- expr f 2 s;
              POk (MBin v a) s
            else
              p! (la, _), s <- tokp s;
              let s := putback s in
              if token_eqb la TCOLON then
                if 0 <? mode then POk MNone (putback s)
                else if 255 <=? length v then PUB
                else
                  p! _, s <- tokp s;
                  kw_args f (v ++ [d_prefix d]) [] s
              else POk (MUna v) s
        end.
Proof. reflexivity. Qed.
Lemma kw_args_S f (name : text) (acc : list node) (s : pst) : kw_args (S f) name acc s =
      p! a, s <- expr f 1 s;
      p! (t, v), s <- tokp s;
      match t with
      | TDOT | TFIN | TCHAIN | TPARCLOSE => POk (MKw name (acc ++ [a])) (putback s)
      | TREF =>
          if 255 <? length name + length v then fail s
          else if 255 <=? length name + length v then PUB
          else
            p! (t, _), s <- tokp s;
            let s := if token_eqb t TCOLON then s else seterr s in
            kw_args f (name ++ v ++ [d_prefix d]) (acc ++ [a]) s
      | _ => kw_args f name (acc ++ [a]) s
      end.
Proof. reflexivity. Qed.
Lemma params_mono f : forall t acc s g, f <= g -> le_res (params f t acc s) (params g t acc s).
Proof.
  induction f as [|f IH]; intros t acc s g L; [now left|]. destruct g as [|g]; [lia|]. cbn [ParseModel.params].
  destruct (token_eqb t TCOLON); [|now right].
  apply pbind_le; [now right|]. intros [? v] s1. apply pbind_le; [now right|]. intros [? v2] s2. apply IH. lia.
Qed.
Ltac mono1 := match goal with
  | |- le_res ?a ?a => now right
  | |- le_res (pbind _ _) (pbind _ _) => apply pbind_le; [|intros ? ?]
  | |- le_res (match ?x with _ => _ end) _ => destruct x
  | |- le_res (if ?x then _ else _) _ => destruct x
  | |- le_res ((match ?x with _ => _ end) _) _ => destruct x
  | |- le_res _ _ => solve [eauto with arith]
  end.
Lemma mono f : forall g, f <= g ->
  (forall m s, le_res (expr f m s) (expr g m s)) /\ (forall s, le_res (receiver f s) (receiver g s)) /\
  (forall a s, le_res (block_body f a s) (block_body g a s)) /\
  (forall m a t s, le_res (messages f m a t s) (messages g m a t s)) /\
  (forall m s, le_res (message f m s) (message g m s)) /\
  (forall n a s, le_res (kw_args f n a s) (kw_args g n a s)).
Proof.
  induction f as [|f IH]; intros g L; [repeat split; intros; now left|].
  destruct g as [|g]; [lia|]. assert (LG : f <= g) by lia. destruct (IH g LG) as (IE & IR & IB & IM & IS & IK).
  assert (IP : forall t a s, le_res (params f t a s) (params g t a s)) by (intros; now apply params_mono).
  repeat split; intros; rewrite ?expr_S, ?receiver_S, ?block_body_S, ?messages_S, ?message_S, ?kw_args_S; repeat (cbv zeta; mono1).
Qed.

(** ** Results with enough fuel *)
Definition ev {A} (F : nat -> pres A) (r : pres A) : Prop := exists n, forall f, n <= f -> F f = r.
Lemma ev_const A (r : pres A) : ev (fun _ => r) r. Proof. now exists 0. Qed.
Lemma ev_S A (F : nat -> pres A) r : ev (fun f => F (S f)) r -> ev F r.
Proof. intros (n & H). exists (S n). intros f L. destruct f as [|f]; [lia|]. apply H. lia. Qed.
Lemma ev_ext A (F G : nat -> pres A) r : (forall f, F f = G f) -> ev G r -> ev F r.
Proof. intros E (n & H). exists n. intros f L. rewrite E. auto. Qed.
Lemma ev_bind A B (F : nat -> pres A) (G : A -> pst -> nat -> pres B) a s r :
  ev F (POk a s) -> ev (fun f => G a s f) r -> ev (fun f => pbind (F f) (fun a s => G a s f)) r.
Proof. intros (n & H) (m & K). exists (n + m). intros f L. rewrite H by lia. cbn. apply K. lia. Qed.
Lemma ev_tok B (G : token * text -> pst -> nat -> pres B) c o oo e t v c1 r :
  tok d c = LOk (t, v, c1) -> ev (fun f => G (t, v) (mkP c1 c o e) f) r ->
  ev (fun f => pbind (tokp (mkP c o oo e)) (fun a s => G a s f)) r.
Proof. intros E (n & H). exists n. intros f L. unfold ParseModel.tokp. cbn [cur old err]. rewrite E. cbn. auto. Qed.

(** ** Tokens of a text *)
Inductive reads : text -> list tk -> text -> Prop :=
| rd_nil c : reads c [] c
| rd_tok c t v c1 ts rest : t <> TQUOTE -> tok d c = LOk (t, v, c1) -> reads c1 ts rest ->
    reads c ((t, v) :: ts) rest
| rd_quote c c1 v c2 ts rest : tok d c = LOk (TQUOTE, [], c1) -> readstr d false c1 = LOk (v, c2) ->
    reads c2 ts rest -> reads c ((TQUOTE, v) :: ts) rest.
Lemma reads_app a : forall b c rest, reads c (a ++ b) rest -> exists m, reads c a m /\ reads m b rest.
Proof.
  induction a as [|x a IH]; intros b c rest H; [exists c; split; [constructor|exact H]|].
  cbn [app] in H. inversion H; subst;
    match goal with R : reads _ (a ++ b) rest |- _ => destruct (IH _ _ _ R) as (m & R1 & R2) end;
    exists m; (split; [first [eapply rd_quote; eassumption | eapply rd_tok; eassumption]|auto]).
Qed.
Lemma reads_cons t v ts c rest : t <> TQUOTE -> reads c ((t, v) :: ts) rest ->
  exists c1, tok d c = LOk (t, v, c1) /\ reads c1 ts rest.
Proof. intros NQ H. inversion H; subst; [eauto|congruence]. Qed.
Lemma reads_nil c rest : reads c [] rest -> rest = c. Proof. now inversion 1. Qed.

Definition lexable (c : text) : Prop := exists x, tok d c = LOk x.
Definition kind (c : text) (t : token) : Prop := exists v r, tok d c = LOk (t, v, r).
Lemma reads_kind t v ts c rest : reads c ((t, v) :: ts) rest -> kind c t.
Proof. unfold kind. inversion 1; subst; eauto. Qed.
Lemma kind_lexable c t : kind c t -> lexable c. Proof. intros (v & r & H). eexists; eauto. Qed.
Lemma lexable_kind c : lexable c -> exists t, kind c t. Proof. intros (((t & v) & r) & H). exists t, v, r. auto. Qed.
(** A token followed by something readable. *)
Definition then_more (c : text) (t : token) : Prop := exists v r, tok d c = LOk (t, v, r) /\ lexable r.
Definition F0 (c : text) : Prop := then_more c TDOT \/ then_more c TPARCLOSE.
Definition F0c (c : text) : Prop := F0 c \/ then_more c TCHAIN.
Definition keyword_at (c : text) : Prop := exists v r, tok d c = LOk (TREF, v, r) /\ kind r TCOLON.
Definition F1 (c : text) : Prop := F0c c \/ keyword_at c.
Definition binary_at (c : text) : Prop :=
  exists v r t, tok d c = LOk (TREF, v, r) /\ single v /\ kind r t /\ t <> TCOLON.
Definition F2 (c : text) : Prop := F1 c \/ binary_at c.
(** No colon comes next. *)
Definition no_colon (c : text) : Prop := exists t, kind c t /\ t <> TCOLON.
Lemma F2_no_colon c : F2 c -> no_colon c.
Proof.
  intros [[[[H|H]|H]|H]|H]; try (destruct H as (v & r & H & _); eexists; split; [eexists _, _; eauto|discriminate]).
  destruct H as (v & r & t & H & _). eexists; split; [eexists _, _; eauto|discriminate].
Qed.

Hypothesis WO : words_ok d.
Lemma tok_len c t v r : tok d c = LOk (t, v, r) -> length v <= 255.
Proof. intros H. now apply (tok_ok d c t v r WO H). Qed.
Lemma utf8_total v : exists u, getutf8len v (length v) = Ok u.
Proof.
  unfold getutf8len. assert (H : exists j, utf8_extra v (length v) = Ok j).
  { induction v as [|c v (j & IH)]; [eexists; reflexivity|]. cbn. rewrite IH. cbn. eauto. }
  destruct H as (j & ->). cbn. eauto.
Qed.
Lemma utf8_single v : single v -> (Z.of_nat (length v) < W64)%Z -> getutf8len v (length v) = Ok 1%Z.
Proof.
  intros H L. pose proof (getutf8len_prefix [v] []) as E. cbn [concat] in E. rewrite !app_nil_r in E. apply E; [now constructor|exact L].
Qed.
Lemma utf8_several v : several v -> exists u, getutf8len v (length v) = Ok u /\ u <> 1%Z.
Proof.
  intros (cs & (F & ->) & NE & L). pose proof (getutf8len_prefix cs [] F L) as E. rewrite app_nil_r in E.
  rewrite E. eexists. split; [reflexivity|]. lia.
Qed.

(** ** Steps of the parser, whatever positions are remembered *)
Definition atE m c n c' := forall o oo e, exists o' oo', ev (fun f => expr f m (mkP c o oo e)) (POk n (mkP c' o' oo' e)).
Definition atR c n c' := forall o oo e, exists o' oo', ev (fun f => receiver f (mkP c o oo e)) (POk n (mkP c' o' oo' e)).
Definition atM m c x c' := forall o oo e, exists o' oo', ev (fun f => message f m (mkP c o oo e)) (POk x (mkP c' o' oo' e)).
Definition atK nm acc c x c' := forall o oo e, exists o' oo', ev (fun f => kw_args f nm acc (mkP c o oo e)) (POk x (mkP c' o' oo' e)).
Definition mloop (f m : nat) (acc : list msg) (s : pst) : pres (list msg) :=
  p! (t, _), s <- tokp s; messages f m acc t s.
Definition atL m acc c ms c' := forall o oo e, exists o' oo', ev (fun f => mloop f m acc (mkP c o oo e)) (POk ms (mkP c' o' oo' e)).
Definition atB acc c ss c' := forall o oo e, exists o' oo', ev (fun f => block_body f acc (mkP c o oo e)) (POk ss (mkP c' o' oo' e)).

Lemma W255 (v : text) : length v <= 255 -> (Z.of_nat (length v) < W64)%Z. Proof. unfold W64. lia. Qed.
Ltac next T := eapply ev_tok; [exact T|]; cbv beta iota zeta; cbn [token_eqb andb orb negb].
Ltac nocolon la := destruct (token_eqb la TCOLON) eqn:?; [match goal with H : token_eqb la TCOLON = true |- _ => apply token_eqb_eq in H; congruence end|].
Lemma M_una m c v c1 : tok d c = LOk (TREF, v, c1) -> several v -> no_colon c1 -> atM m c (MUna v) c1.
Proof.
  intros T SV (la & (v2 & c2 & T2) & NC) o oo e. pose proof (tok_len _ _ _ _ T) as L.
  destruct (utf8_several _ SV) as (u & U & U1).
  exists c, c. apply ev_S. eapply ev_ext; [intros f; apply message_S|].
  next T. destruct (Nat.ltb_spec 255 (length v)); [lia|]. rewrite U.
  next T2. apply Z.eqb_neq in U1. rewrite U1. cbn [andb]. rewrite andb_false_r.
  next T2. nocolon la. apply ev_const.
Qed.
Lemma M_none_kw m c v c1 : tok d c = LOk (TREF, v, c1) -> kind c1 TCOLON -> 0 < m -> atM m c MNone c.
Proof.
  intros T (v2 & c2 & T2) M o oo e. pose proof (tok_len _ _ _ _ T) as L. destruct (utf8_total v) as (u & U).
  exists c, c. apply ev_S. eapply ev_ext; [intros f; apply message_S|].
  next T. destruct (Nat.ltb_spec 255 (length v)); [lia|]. rewrite U.
  next T2. rewrite !andb_false_r.
  next T2. destruct (Nat.ltb_spec 0 m); [|lia]. apply ev_const.
Qed.
Lemma M_none_bin c v c1 : tok d c = LOk (TREF, v, c1) -> single v -> no_colon c1 -> atM 2 c MNone c.
Proof.
  intros T SV (la & (v2 & c2 & T2) & NC) o oo e. pose proof (tok_len _ _ _ _ T) as L.
  exists c, c. apply ev_S. eapply ev_ext; [intros f; apply message_S|].
  next T. destruct (Nat.ltb_spec 255 (length v)); [lia|].
  rewrite (utf8_single v SV (W255 v L)).
  next T2. nocolon la. cbn [negb andb Nat.eqb Z.eqb Pos.eqb]. apply ev_const.
Qed.
Lemma M_bin m c v c1 a c2 : tok d c = LOk (TREF, v, c1) -> single v -> no_colon c1 -> m < 2 ->
  atE 2 c1 a c2 -> atM m c (MBin v a) c2.
Proof.
  intros T SV (la & (v2 & c3 & T2) & NC) M H o oo e. pose proof (tok_len _ _ _ _ T) as L.
  destruct (H c c e) as (o' & oo' & H'). exists o', oo'.
  apply ev_S. eapply ev_ext; [intros f; apply message_S|].
  next T. destruct (Nat.ltb_spec 255 (length v)); [lia|].
  rewrite (utf8_single v SV (W255 v L)).
  next T2. nocolon la. cbn [negb andb Z.eqb Pos.eqb].
  destruct (Nat.eqb_spec m 2); [lia|]. cbn [andb]. eapply ev_bind; [apply H'|]. apply ev_const.
Qed.
Lemma M_kw c v c1 c2 vv x c3 : tok d c = LOk (TREF, v, c1) -> tok d c1 = LOk (TCOLON, vv, c2) -> length v < 255 ->
  atK (v ++ [d_prefix d]) [] c2 x c3 -> atM 0 c x c3.
Proof.
  intros T T2 L H o oo e. destruct (utf8_total v) as (u & U).
  destruct (H c1 c e) as (o' & oo' & H'). exists o', oo'.
  apply ev_S. eapply ev_ext; [intros f; apply message_S|].
  next T. destruct (Nat.ltb_spec 255 (length v)); [lia|]. rewrite U.
  next T2. rewrite !andb_false_r.
  next T2. change (0 <? 0) with false. cbv iota. destruct (Nat.leb_spec 255 (length v)); [lia|].
  next T2. apply H'.
Qed.

(** ** The loop over messages *)
Lemma L_step m acc c v c1 x c2 ms c3 : tok d c = LOk (TREF, v, c1) -> atM m c x c2 -> x <> MNone ->
  atL m (acc ++ [x]) c2 ms c3 -> atL m acc c ms c3.
Proof.
  intros T H NN K o oo e. destruct (H o o e) as (o1 & oo1 & H'). destruct (K o1 oo1 e) as (o2 & oo2 & K'). exists o2, oo2.
  unfold mloop. next T. apply ev_S. eapply ev_ext; [intros f; apply messages_S|]. cbn [token_eqb orb].
  eapply ev_bind; [apply ev_const|]. eapply ev_bind; [apply H'|]. cbv beta. destruct x; try congruence; exact K'.
Qed.
Lemma L_none m acc c v c1 : tok d c = LOk (TREF, v, c1) -> atM m c MNone c -> acc <> [] -> atL m acc c acc c.
Proof.
  intros T H NE o oo e. destruct (H o o e) as (o1 & oo1 & H'). exists o1, o1.
  unfold mloop. next T. apply ev_S. eapply ev_ext; [intros f; apply messages_S|]. cbn [token_eqb orb].
  eapply ev_bind; [apply ev_const|]. eapply ev_bind; [apply H'|]. cbv beta. destruct acc; [congruence|].
  next T. apply ev_const.
Qed.
Lemma L_none_first m c v c1 : tok d c = LOk (TREF, v, c1) -> atM m c MNone c -> atL m [] c [MNone] c.
Proof.
  intros T H o oo e. destruct (H o o e) as (o1 & oo1 & H'). exists o1, oo1.
  unfold mloop. next T. apply ev_S. eapply ev_ext; [intros f; apply messages_S|]. cbn [token_eqb orb].
  eapply ev_bind; [apply ev_const|]. eapply ev_bind; [apply H'|]. cbv beta iota. apply ev_const.
Qed.
Lemma L_stop m acc c t v c1 : tok d c = LOk (t, v, c1) -> t <> TREF -> (t = TCHAIN -> is_kw (last acc MNone) = false) ->
  acc <> [] -> atL m acc c acc c.
Proof.
  intros T NR NC NE o oo e. exists o, o.
  unfold mloop. next T. apply ev_S. eapply ev_ext; [intros f; apply messages_S|].
  destruct (token_eqb t TREF) eqn:E1; [apply token_eqb_eq in E1; congruence|]. cbn [orb].
  destruct (token_eqb t TCHAIN) eqn:E2; [apply token_eqb_eq in E2; rewrite (NC E2)|]; cbn [andb]; cbv zeta;
    (destruct acc; [congruence|apply ev_const]).
Qed.
Lemma L_chain acc c v c1 v2 c2 x c3 ms c4 : tok d c = LOk (TCHAIN, v, c1) -> is_kw (last acc MNone) = true ->
  tok d c1 = LOk (TREF, v2, c2) -> atM 0 c1 x c3 -> x <> MNone ->
  atL 0 (acc ++ [x]) c3 ms c4 -> atL 0 acc c ms c4.
Proof.
  intros T LK T2 H NN K o oo e. destruct (H c c e) as (o1 & oo1 & H'). destruct (K o1 oo1 e) as (o2 & oo2 & K'). exists o2, oo2.
  unfold mloop. next T. apply ev_S. eapply ev_ext; [intros f; apply messages_S|]. rewrite LK. cbn [token_eqb orb andb].
  eapply ev_bind; [next T2; apply ev_const|]. eapply ev_bind; [apply H'|]. cbv beta. destruct x; try congruence; exact K'.
Qed.

(** ** Expressions *)
Lemma E_plain m c r c1 t v c2 : atR c r c1 -> tok d c1 = LOk (t, v, c2) -> lexable c2 ->
  In t [TDOT; TPARCLOSE; TCHAIN] -> atE m c r c1.
Proof.
  intros R T (((t3 & v3) & c3) & T3) IN o oo e. destruct (R o oo e) as (o1 & oo1 & R'). exists c1, c1.
  apply ev_S. eapply ev_ext; [intros f; apply expr_S|]. eapply ev_bind; [exact R'|]. cbv beta.
  next T. next T3. assert (NR : token_eqb t TREF = false) by (cbn in IN; decompose [or] IN; subst; try reflexivity; contradiction).
  rewrite NR, andb_false_r. cbn [andb]. cbn in IN. decompose [or] IN; subst; try contradiction; apply ev_const.
Qed.
Lemma E_keyword c r c1 : atR c r c1 -> keyword_at c1 -> atE 1 c r c1.
Proof.
  intros R (v & c2 & T & v3 & c3 & T3) o oo e. destruct (R o oo e) as (o1 & oo1 & R'). exists c1, c1.
  apply ev_S. eapply ev_ext; [intros f; apply expr_S|]. eapply ev_bind; [exact R'|]. cbv beta.
  next T. next T3. cbn [Nat.eqb andb]. apply ev_const.
Qed.
Lemma E_assign m c k v c1 vv c2 e c3 : atR c (NRef k v) c1 -> tok d c1 = LOk (TASSIGN, vv, c2) -> lexable c2 ->
  atE 0 c2 e c3 -> atE m c (NAssign (NRef k v) e) c3.
Proof.
  intros R T (((t3 & v3) & c4) & T3) H o oo er. destruct (R o oo er) as (o1 & oo1 & R').
  destruct (H c1 c1 er) as (o2 & oo2 & H'). exists o2, oo2.
  apply ev_S. eapply ev_ext; [intros f; apply expr_S|]. eapply ev_bind; [exact R'|]. cbv beta.
  next T. next T3. rewrite andb_false_r. cbn [andb]. next T. eapply ev_bind; [exact H'|]. apply ev_const.
Qed.
Lemma E_send m c r c1 v c2 ms c3 : atR c r c1 -> tok d c1 = LOk (TREF, v, c2) ->
  (if m =? 1 then no_colon c2 else lexable c2) ->
  atL m [] c1 ms c3 -> hd MNone ms <> MNone -> atE m c (NExpr r ms) c3.
Proof.
  intros R T NC H NN o oo e. destruct (R o oo e) as (o1 & oo1 & R').
  assert (X : exists t3, kind c2 t3 /\ (m = 1 -> t3 <> TCOLON)).
  { destruct (Nat.eqb_spec m 1); [destruct NC as (t & K & N); eauto|]. destruct (lexable_kind _ NC) as (t & K). exists t. split; [auto|congruence]. }
  destruct X as (t3 & (v3 & c4 & T3) & NC3).
  destruct (H c1 c1 e) as (o2 & oo2 & H'). exists o2, oo2.
  apply ev_S. eapply ev_ext; [intros f; apply expr_S|]. eapply ev_bind; [exact R'|]. cbv beta.
  next T. next T3.
  replace ((m =? 1) && true && token_eqb t3 TCOLON) with false.
  - unfold mloop in H'.
    assert (K : ev (fun f => p! ms0, s <- (p! (t, _), s <- tokp (mkP c1 c1 c1 e); messages f m [] t s);
       match ms0 with MNone :: _ => p! _, s <- tokp s; POk r (putback s) | _ => POk (NExpr r ms0) s end) (POk (NExpr r ms) (mkP c3 o2 oo2 e))).
    { eapply ev_bind; [exact H'|]. cbv beta. destruct ms as [|[] ms]; cbn in NN; try congruence; apply ev_const. }
    eapply ev_ext; [|exact K]. intros f. cbv beta. change (putback (putback (mkP c4 c2 c1 e))) with (mkP c1 c1 c1 e). destruct (tokp (mkP c1 c1 c1 e)) as [[]| | | |]; reflexivity.
  - symmetry. rewrite andb_true_r. destruct (Nat.eqb_spec m 1); [|reflexivity]. cbn [andb].
    apply not_true_iff_false. rewrite token_eqb_eq. auto.
Qed.
Lemma E_none m c r c1 v c2 : atR c r c1 -> tok d c1 = LOk (TREF, v, c2) -> lexable c2 -> m = 2 ->
  atL m [] c1 [MNone] c1 -> atE m c r c1.
Proof.
  intros R T (((t3 & v3) & c4) & T3) -> H o oo e. destruct (R o oo e) as (o1 & oo1 & R').
  destruct (H c1 c1 e) as (o2 & oo2 & H'). exists o2, o2.
  apply ev_S. eapply ev_ext; [intros f; apply expr_S|]. eapply ev_bind; [exact R'|]. cbv beta.
  next T. next T3. cbn [Nat.eqb andb]. unfold mloop in H'.
  assert (K : ev (fun f => p! ms0, s <- (p! (t, _), s <- tokp (mkP c1 c1 c1 e); messages f 2 [] t s);
       match ms0 with MNone :: _ => p! _, s <- tokp s; POk r (putback s) | _ => POk (NExpr r ms0) s end) (POk r (mkP c1 o2 o2 e))).
  { eapply ev_bind; [exact H'|]. cbv beta iota. next T. apply ev_const. }
  eapply ev_ext; [|exact K]. intros f. cbv beta. change (putback (putback (mkP c4 c2 c1 e))) with (mkP c1 c1 c1 e).
  destruct (tokp (mkP c1 c1 c1 e)) as [[]| | | |]; reflexivity.
Qed.

(** ** Arguments of keyword messages *)
Lemma K_last nm acc c a c1 t v c2 : atE 1 c a c1 -> tok d c1 = LOk (t, v, c2) -> In t [TDOT; TPARCLOSE; TCHAIN] ->
  atK nm acc c (MKw nm (acc ++ [a])) c1.
Proof.
  intros H T IN o oo e. destruct (H o oo e) as (o1 & oo1 & H'). exists o1, o1.
  apply ev_S. eapply ev_ext; [intros f; apply kw_args_S|]. eapply ev_bind; [exact H'|]. cbv beta. next T.
  cbn in IN. decompose [or] IN; subst; try contradiction; apply ev_const.
Qed.
Lemma K_more nm acc c a c1 v c2 vv c3 x c4 : atE 1 c a c1 -> tok d c1 = LOk (TREF, v, c2) -> tok d c2 = LOk (TCOLON, vv, c3) ->
  length nm + length v < 255 -> atK (nm ++ v ++ [d_prefix d]) (acc ++ [a]) c3 x c4 -> atK nm acc c x c4.
Proof.
  intros H T T2 L K o oo e. destruct (H o oo e) as (o1 & oo1 & H'). destruct (K c2 c1 e) as (o2 & oo2 & K'). exists o2, oo2.
  apply ev_S. eapply ev_ext; [intros f; apply kw_args_S|]. eapply ev_bind; [exact H'|]. cbv beta. next T.
  destruct (Nat.ltb_spec 255 (length nm + length v)); [lia|]. destruct (Nat.leb_spec 255 (length nm + length v)); [lia|].
  next T2. exact K'.
Qed.

(** ** Receivers *)
Ltac recv T := apply ev_S; eapply ev_ext; [intros f; apply receiver_S|]; next T.
Lemma R_num c v c1 : tok d c = LOk (TNUMBER, v, c1) -> atR c (NNum v) c1.
Proof.
  intros T o oo e. exists c, o. recv T. unfold ParseModel.parse_number.
  exists 0. intros f _. unfold ParseModel.tokp, putback. cbn [cur old older err]. rewrite T. reflexivity.
Qed.
Lemma R_str c v c1 c2 : tok d c = LOk (TQUOTE, [], c1) -> readstr d false c1 = LOk (v, c2) -> atR c (NStr v) c2.
Proof.
  intros T S o oo e. exists c, o. recv T. unfold ParseModel.parse_string.
  exists 0. intros f _. unfold ParseModel.tokp, putback. cbn [cur old older err]. rewrite T. cbn [pbind cur]. rewrite S. reflexivity.
Qed.
Lemma text_eqb_false a b : a <> b -> text_eqb a b = false.
Proof. intros H. apply not_true_iff_false. intros E. apply text_eqb_eq in E. auto. Qed.
Lemma text_eqb_same a : text_eqb a a = true. Proof. now apply text_eqb_eq. Qed.
Lemma var_false v : ~ is_var d v -> text_eqb v [62; 62]%N || text_eqb v (d_var d) = false.
Proof. intros H. rewrite !text_eqb_false; [reflexivity| |]; intros ->; apply H; [now left|now right]. Qed.
Lemma var_true v : is_var d v -> text_eqb v [62; 62]%N || text_eqb v (d_var d) = true.
Proof. intros [->| ->]; rewrite text_eqb_same; [apply orb_true_r|reflexivity]. Qed.
Lemma R_ref c v c1 : tok d c = LOk (TREF, v, c1) -> ~ is_my d v -> ~ is_var d v -> atR c (NRef 0 v) c1.
Proof.
  intros T NM NV o oo e. exists c, o. recv T. unfold ParseModel.parse_ref.
  exists 0. intros f _. unfold ParseModel.tokp, putback. cbn [cur old older err]. rewrite T. cbn [pbind].
  rewrite text_eqb_false by exact NM. cbn [pbind]. rewrite var_false by auto. reflexivity.
Qed.
Lemma R_my c w c1 v c2 : tok d c = LOk (TREF, w, c1) -> is_my d w -> tok d c1 = LOk (TREF, v, c2) -> ~ is_var d v ->
  atR c (NRef 1 v) c2.
Proof.
  intros T M T2 NV o oo e. exists c1, c. recv T. unfold ParseModel.parse_ref.
  exists 0. intros f _. unfold ParseModel.tokp, putback. cbn [cur old older err]. rewrite T. cbn [pbind].
  rewrite M, text_eqb_same. cbn [cur]. rewrite T2. cbn [pbind token_eqb]. rewrite var_false by auto. reflexivity.
Qed.
Lemma R_var c w c1 v c2 : tok d c = LOk (TREF, w, c1) -> is_var d w -> ~ is_my d w -> tok d c1 = LOk (TREF, v, c2) ->
  atR c (NRef 2 v) c2.
Proof.
  intros T V NM T2 o oo e. exists c1, c. recv T. unfold ParseModel.parse_ref.
  exists 0. intros f _. unfold ParseModel.tokp, putback. cbn [cur old older err]. rewrite T. cbn [pbind].
  rewrite text_eqb_false by exact NM. cbn [pbind]. rewrite var_true by auto. cbn [cur]. rewrite T2. reflexivity.
Qed.
Lemma R_nested c v c1 n c2 vv c3 : tok d c = LOk (TPAROPEN, v, c1) -> atE 0 c1 n c2 -> tok d c2 = LOk (TPARCLOSE, vv, c3) ->
  atR c (NNested n) c3.
Proof.
  intros T H T2 o oo e. destruct (H c o e) as (o1 & oo1 & H'). exists c2, o1. recv T. next T.
  eapply ev_bind; [exact H'|]. cbv beta. next T2. apply ev_const.
Qed.
(** parameters *)
Lemma params_ok ps : forall c t0 v0 c0 acc o e rest, tok d c = LOk (t0, v0, c0) ->
  reads c (param_tokens ps) rest -> no_colon rest ->
  exists o' v c', tok d rest = LOk (v, c') /\ fst v <> TCOLON /\
    ev (fun f => params f t0 acc (mkP c0 c o e)) (POk (acc ++ ps) (mkP c' rest o' e)).
Proof.
  induction ps as [|p ps IH]; intros c t0 v0 c0 acc o e rest T R NC.
  - apply reads_nil in R. subst rest. destruct NC as (t & (v & r & T2) & N). assert (X := eq_trans (eq_sym T) T2). injection X as <- <- <-.
    exists o, (t0, v0), c0. split; [auto|]. split; [auto|]. apply ev_S.
    exists 0. intros f _. cbn [ParseModel.params]. nocolon t0. now rewrite app_nil_r.
  - cbn [param_tokens] in R. apply reads_cons in R; [|discriminate]. destruct R as (c1 & T1 & R).
    assert (X := eq_trans (eq_sym T) T1). injection X as -> -> ->.
    apply reads_cons in R; [|discriminate]. destruct R as (c2 & T2 & R).
    assert (LX : exists t v r, tok d c2 = LOk (t, v, r)).
    { destruct ps as [|q ps]; [apply reads_nil in R; subst; destruct NC as (t & (v & r & T3) & _); eauto|].
      cbn [param_tokens] in R. apply reads_cons in R; [|discriminate]. destruct R as (c3 & T3 & _). eauto. }
    destruct LX as (t & v & r & T3). destruct (IH c2 t v r (acc ++ [p]) c1 e rest T3 R NC) as (o' & v' & c' & A & B & C).
    exists o', v', c'. split; [auto|]. split; [auto|]. rewrite <- app_assoc in C. cbn [app] in C.
    apply ev_S. eapply ev_ext; [intros f; cbn [ParseModel.params token_eqb]; reflexivity|].
    next T2. next T3. exact C.
Qed.
Lemma R_block c v c1 ps c2 body c3 : tok d c = LOk (TBLOCKOPEN, v, c1) -> ~ kind c1 TBLOCKCLOSE ->
  reads c1 (param_tokens ps) c2 -> no_colon c2 -> atB [] c2 body c3 -> atR c (NBlock ps body) c3.
Proof.
  intros T NB R NC H o oo e.
  assert (LX : exists t v r, tok d c1 = LOk (t, v, r)).
  { destruct ps as [|q ps]; [apply reads_nil in R; subst; destruct NC as (t & (v' & r & T3) & _); eauto|].
    cbn [param_tokens] in R. apply reads_cons in R; [|discriminate]. destruct R as (c4 & T3 & _). eauto. }
  destruct LX as (t & v' & r & T2).
  destruct (params_ok ps c1 t v' r [] c e c2 T2 R NC) as (o' & x & c' & A & B & C).
  destruct (H o' o' e) as (o2 & oo2 & H'). exists o2, oo2. recv T. next T. next T2.
  destruct (token_eqb t TBLOCKCLOSE) eqn:E; [apply token_eqb_eq in E; subst t; elim NB; eexists _, _; eauto|].
  eapply ev_bind; [exact C|]. cbv beta. eapply ev_bind; [exact H'|]. apply ev_const.
Qed.
(** ** Statements *)
Lemma B_end acc c v c1 : tok d c = LOk (TBLOCKCLOSE, v, c1) -> atB acc c acc c1.
Proof. intros T o oo e. exists c, o. apply ev_S. eapply ev_ext; [intros f; apply block_body_S|]. next T. apply ev_const. Qed.
Lemma B_expr acc c t n c1 v c2 ss c3 : kind c t -> t <> TBLOCKCLOSE -> t <> TRET -> atE 0 c n c1 ->
  tok d c1 = LOk (TDOT, v, c2) -> atB (acc ++ [n]) c2 ss c3 -> atB acc c ss c3.
Proof.
  intros (v0 & c0 & T) NB NR H T2 K o oo e. destruct (H o o e) as (o1 & oo1 & H'). destruct (K c1 o1 e) as (o2 & oo2 & K').
  exists o2, oo2. apply ev_S. eapply ev_ext; [intros f; apply block_body_S|]. next T.
  destruct (token_eqb t TBLOCKCLOSE) eqn:E; [apply token_eqb_eq in E; congruence|].
  destruct (token_eqb t TRET) eqn:E2; [apply token_eqb_eq in E2; congruence|].
  eapply ev_bind; [exact H'|]. cbv beta. next T2. exact K'.
Qed.
Lemma B_ret acc c v0 c0 n c1 v c2 ss c3 : tok d c = LOk (TRET, v0, c0) -> atE 0 c0 n c1 ->
  tok d c1 = LOk (TDOT, v, c2) -> atB (acc ++ [NRet n]) c2 ss c3 -> atB acc c ss c3.
Proof.
  intros T H T2 K o oo e. destruct (H c o e) as (o1 & oo1 & H'). destruct (K c1 o1 e) as (o2 & oo2 & K').
  exists o2, oo2. apply ev_S. eapply ev_ext; [intros f; apply block_body_S|]. next T.
  eapply ev_bind; [next T; eapply ev_bind; [exact H'|]; apply ev_const|]. cbv beta. next T2. exact K'.
Qed.

(** ** First tokens *)
Definition begins (ts : list tk) : Prop :=
  exists t v r, ts = (t, v) :: r /\ In t [TNUMBER; TQUOTE; TREF; TPAROPEN; TBLOCKOPEN].
Lemma begins_app a b : begins a -> begins (a ++ b).
Proof. intros (t & v & r & -> & H). exists t, v, (r ++ b). auto. Qed.
Lemma prim_begins n ts : prim d n ts -> begins ts.
Proof. intros H. inversion H; subst; eexists _, _, _; (split; [reflexivity|cbn; tauto]). Qed.
Lemma operand_begins n ts : operand d n ts -> begins ts.
Proof. intros H. inversion H; subst. eauto using begins_app, prim_begins. Qed.
Lemma argument_begins n ts : argument d n ts -> begins ts.
Proof. intros H. inversion H; subst. eauto using begins_app, prim_begins. Qed.
Lemma expression_begins n ts : expression d n ts -> begins ts.
Proof. intros H. inversion H; subst; eauto using begins_app, prim_begins. Qed.
Lemma begins_kind ts c rest : begins ts -> reads c ts rest ->
  exists t, kind c t /\ t <> TCOLON /\ t <> TRET /\ t <> TBLOCKCLOSE /\ t <> TFIN.
Proof.
  intros (t & v & r & -> & IN) R. exists t. split; [eapply reads_kind; eauto|].
  cbn in IN. decompose [or] IN; subst; try contradiction; repeat split; discriminate.
Qed.
Lemma begins_no_colon ts c rest : begins ts -> reads c ts rest -> no_colon c.
Proof. intros B R. destruct (begins_kind _ _ _ B R) as (t & K & N & _). exists t. auto. Qed.
Lemma no_colon_lexable c : no_colon c -> lexable c.
Proof. intros (t & K & _). eapply kind_lexable; eauto. Qed.

Lemma binaries_follow ms ts c rest : binaries d ms ts -> reads c ts rest -> F1 rest -> F2 c.
Proof.
  intros H R F. inversion H; subst; [apply reads_nil in R; subst; now left|].
  apply reads_cons in R; [|discriminate]. destruct R as (c1 & T & R). apply reads_app in R. destruct R as (c2 & R1 & R2).
  destruct (begins_kind _ _ _ (operand_begins _ _ H1) R1) as (t & K & N & _).
  right. exists v, c1, t. auto.
Qed.
Lemma unas_follow us c rest : reads c (map ref us) rest -> no_colon rest -> no_colon c.
Proof.
  destruct us as [|u us]; intros R NC; [apply reads_nil in R; now subst|].
  cbn [map] in R. exists TREF. split; [eapply reads_kind; eauto|discriminate].
Qed.
Lemma L_unas m us : forall acc c rest ms c', Forall several us -> reads c (map ref us) rest -> no_colon rest ->
  atL m (acc ++ map MUna us) rest ms c' -> atL m acc c ms c'.
Proof.
  induction us as [|u us IH]; intros acc c rest ms c' F R NC H.
  - apply reads_nil in R. subst. cbn [map] in H. now rewrite app_nil_r in H.
  - cbn [map] in R. apply reads_cons in R; [|discriminate]. destruct R as (c1 & T & R). inversion F; subst.
    eapply L_step; [exact T|apply M_una; eauto using unas_follow|discriminate|].
    eapply IH; eauto. now rewrite <- app_assoc.
Qed.
Lemma last_app (acc : list msg) x : last (acc ++ [x]) MNone = x. Proof. apply last_last. Qed.
Lemma no_kw_last ms : Forall (fun x => is_kw x = false) ms -> is_kw (last ms MNone) = false.
Proof. induction 1 as [|x ms H F IH]; [reflexivity|]. destruct ms; [exact H|exact IH]. Qed.
Lemma unas_no_kw us : Forall (fun x => is_kw x = false) (map MUna us).
Proof. induction us; constructor; auto. Qed.
Lemma binaries_no_kw ms : forall ts, binaries d ms ts -> Forall (fun x => is_kw x = false) ms.
Proof. induction ms as [|x ms IH]; intros ts H; [constructor|]. inversion H; subst. constructor; eauto. Qed.

(** The end of the loop. *)
Lemma L_end m acc rest : acc <> [] -> is_kw (last acc MNone) = false ->
  match m with 0 => F0 rest | 1 => F1 rest | 2 => F2 rest | _ => False end -> atL m acc rest acc rest.
Proof.
  intros NE NK F.
  assert (A : F0c rest -> atL m acc rest acc rest).
  { intros [[(v & r & T & _)|(v & r & T & _)]|(v & r & T & _)]; eapply L_stop; eauto; discriminate. }
  assert (B : keyword_at rest -> 0 < m -> atL m acc rest acc rest).
  { intros (v & r & T & K) M. eapply L_none; eauto. eapply M_none_kw; eauto. }
  destruct m as [|[|[|m]]]; [apply A; now left|destruct F as [F|F]; [auto|apply B; auto]| |contradiction].
  destruct F as [[F|F]|F]; [auto|apply B; auto|].
  destruct F as (v & r & t & T & SV & K & N). eapply L_none; eauto. eapply M_none_bin; eauto. now exists t.
Qed.
(** A receiver without messages. *)
Lemma E_bare m c r rest : atR c r rest -> match m with 0 => F0 rest | 1 => F1 rest | 2 => F2 rest | _ => False end ->
  atE m c r rest.
Proof.
  intros R F.
  assert (A : F0c rest -> atE m c r rest).
  { intros [[(v & x & T & L)|(v & x & T & L)]|(v & x & T & L)]; eapply E_plain; eauto; cbn; tauto. }
  destruct m as [|[|[|m]]]; [apply A; now left|destruct F as [F|F]; [auto|now apply E_keyword]| |contradiction].
  destruct F as [[F|F]|F]; [auto| |].
  - destruct F as (v & x & T & K). eapply E_none; eauto using kind_lexable.
    eapply L_none_first; eauto. eapply M_none_kw; eauto.
  - destruct F as (v & x & t & T & SV & K & N). eapply E_none; eauto using kind_lexable.
    eapply L_none_first; eauto. eapply M_none_bin; eauto. now exists t.
Qed.

(** ** The parser follows the grammar *)
Scheme prim_mi := Minimality for prim Sort Prop
  with operand_mi := Minimality for operand Sort Prop
  with binaries_mi := Minimality for binaries Sort Prop
  with argument_mi := Minimality for argument Sort Prop
  with keywords_mi := Minimality for keywords Sort Prop
  with messages_of_mi := Minimality for messages_of Sort Prop
  with expression_mi := Minimality for expression Sort Prop
  with statements_mi := Minimality for statements Sort Prop.
Combined Scheme grammar_mi from prim_mi, operand_mi, binaries_mi, argument_mi, keywords_mi, messages_of_mi, expression_mi, statements_mi.

Definition Pprim n ts := forall c rest, reads c ts rest -> lexable rest -> atR c n rest.
Definition Poperand n ts := forall c rest, reads c ts rest -> F2 rest -> atE 2 c n rest.
Definition Pbinaries ms ts := forall m acc c rest res c', m < 2 -> reads c ts rest -> F1 rest ->
  atL m (acc ++ ms) rest res c' -> atL m acc c res c'.
Definition Pargument n ts := forall c rest, reads c ts rest -> F1 rest -> atE 1 c n rest.
Definition Pkeywords name args ts := forall nm acc c rest, reads c ts rest -> F0c rest ->
  length (nm ++ name) <= 255 -> atK nm acc c (MKw (nm ++ name) (acc ++ args)) rest.
Definition Pmessages (ms : list msg) ts := ms <> [] -> forall acc c rest, reads c ts rest -> F0 rest ->
  atL 0 acc c (acc ++ ms) rest.
Definition Pexpression n ts := forall c rest, reads c ts rest -> F0 rest -> atE 0 c n rest.
Definition Pstatements ss ts := forall acc c rest res c', reads c ts rest -> lexable rest ->
  atB (acc ++ ss) rest res c' -> atB acc c res c'.
Lemma L_chain_any acc c0 v c ms c' : tok d c0 = LOk (TCHAIN, v, c) -> kind c TREF -> is_kw (last acc MNone) = true ->
  atL 0 acc c ms c' -> atL 0 acc c0 ms c'.
Proof.
  intros T (v2 & c2 & T2) LK H o oo e. destruct (H c0 o e) as (o1 & oo1 & n & H'). exists o1, oo1.
  unfold mloop. next T. exists (S n). intros f L. destruct f as [|f]; [lia|]. specialize (H' (S f) ltac:(lia)).
  unfold mloop in H'. rewrite messages_S. rewrite LK. cbn [token_eqb orb andb].
  unfold ParseModel.tokp at 1. cbn [cur old err]. rewrite T2. cbn [pbind token_eqb].
  unfold ParseModel.tokp at 1 in H'. cbn [cur old err] in H'. rewrite T2 in H'. cbn [pbind] in H'.
  rewrite messages_S in H'. cbn [token_eqb orb andb] in H'. cbn [pbind] in H'. exact H'.
Qed.
Lemma messages_begin ms ts c rest : messages_of d ms ts -> ms <> [] -> reads c ts rest ->
  exists v c1, tok d c = LOk (TREF, v, c1).
Proof.
  intros H NE R.
  assert (A : forall us x y, (us <> [] \/ exists v r, x = ref v :: r) -> reads c (map ref us ++ x ++ y) rest -> exists v c1, tok d c = LOk (TREF, v, c1)).
  { intros us x y D R'. destruct us as [|u us].
    - destruct D as [D|(v & r & ->)]; [congruence|]. apply reads_cons in R'; [|discriminate]. destruct R' as (c1 & T & _). eauto.
    - apply reads_cons in R'; [|discriminate]. destruct R' as (c1 & T & _). eauto. }
  assert (HB : forall us x ms0 ts0 y, binaries d ms0 ts0 -> (us <> [] \/ ms0 <> [] \/ exists v r, y = ref v :: r) ->
     x = map ref us ++ ts0 ++ y -> reads c x rest -> exists v c1, tok d c = LOk (TREF, v, c1)).
  { intros us x ms0 ts0 y B D -> R'. inversion B; subst.
    - apply (A us y []); [|now rewrite app_nil_r]. destruct D as [D|[D|D]]; auto; congruence.
    - apply (A us (ref v :: ta ++ ts1) y); [eauto|exact R']. }
  inversion H; subst.
  - eapply (HB us _ ms0 ts0 []); eauto; [|now rewrite app_nil_r]. destruct us; [right; left; exact NE|left; discriminate].
  - eapply HB; eauto.
  - eapply HB; eauto.
Qed.
Lemma reads_lexable c ts rest : reads c ts rest -> lexable rest -> lexable c.
Proof. intros R LX. inversion R; subst; [auto| |]; eexists; eauto. Qed.
Lemma sent_cons r ms : ms <> [] -> sent r ms = NExpr r ms. Proof. destruct ms; [congruence|reflexivity]. Qed.
Lemma F1_lexable c : F1 c -> lexable c. Proof. intros F. apply no_colon_lexable, F2_no_colon. now left. Qed.
Lemma F0_F1 c : F0 c -> F1 c. Proof. intros F. left. now left. Qed.
Lemma F2_lexable c : F2 c -> lexable c. Proof. intros F. now apply no_colon_lexable, F2_no_colon. Qed.
Lemma hd_una us ms : us <> [] -> hd MNone (map MUna us ++ ms) <> MNone.
Proof. destruct us; [congruence|discriminate]. Qed.
Lemma hd_bin ms ts : binaries d ms ts -> ms <> [] -> hd MNone ms <> MNone.
Proof. intros H NE. inversion H; subst; [congruence|discriminate]. Qed.
Lemma messages_hd ms ts : messages_of d ms ts -> ms <> [] -> hd MNone ms <> MNone.
Proof.
  intros H NE. inversion H; subst; destruct us; try discriminate; cbn [map app] in *.
  - eapply hd_bin; eauto.
  - inversion H1; subst; discriminate.
  - inversion H1; subst; discriminate.
Qed.
(** The first message of an argument is not followed by a colon. *)
Lemma argument_second us ms ts c rest v c1 : Forall several us -> binaries d ms ts -> reads c (map ref us ++ ts) rest -> F1 rest ->
  us <> [] \/ ms <> [] -> tok d c = LOk (TREF, v, c1) -> no_colon c1.
Proof.
  intros FS HB R F D T. destruct us as [|u us].
  - destruct D as [D|D]; [congruence|]. inversion HB; subst; [congruence|]. cbn [map app] in R.
    apply reads_cons in R; [|discriminate]. destruct R as (c2 & T2 & R). assert (X := eq_trans (eq_sym T) T2). injection X as <- <-.
    apply reads_app in R. destruct R as (c3 & R & _). eauto using begins_no_colon, operand_begins.
  - cbn [map app] in R. apply reads_cons in R; [|discriminate]. destruct R as (c2 & T2 & R). assert (X := eq_trans (eq_sym T) T2). injection X as <- <-.
    apply reads_app in R. destruct R as (c3 & R1 & R2). eapply unas_follow; [exact R1|]. eapply F2_no_colon, binaries_follow; eauto.
Qed.
Lemma keyword_follow us ms ts v tk c rest : Forall several us -> binaries d ms ts ->
  reads c (map ref us ++ ts ++ ref v :: sign TCOLON :: tk) rest ->
  exists c2 c3 c4 c5, reads c (map ref us) c2 /\ reads c2 ts c3 /\ tok d c3 = LOk (TREF, v, c4) /\
    tok d c4 = LOk (TCOLON, [], c5) /\ reads c5 tk rest /\ keyword_at c3.
Proof.
  intros FS HB R. apply reads_app in R. destruct R as (c2 & R1 & R). apply reads_app in R. destruct R as (c3 & R2 & R).
  apply reads_cons in R; [|discriminate]. destruct R as (c4 & T1 & R).
  apply reads_cons in R; [|discriminate]. destruct R as (c5 & T2 & R).
  exists c2, c3, c4, c5. repeat split; auto. exists v, c4. split; [auto|]. eexists _, _; eauto.
Qed.

Theorem grammar :
  (forall n ts, prim d n ts -> Pprim n ts) /\ (forall n ts, operand d n ts -> Poperand n ts) /\
  (forall ms ts, binaries d ms ts -> Pbinaries ms ts) /\ (forall n ts, argument d n ts -> Pargument n ts) /\
  (forall nm args ts, keywords d nm args ts -> Pkeywords nm args ts) /\
  (forall ms ts, messages_of d ms ts -> Pmessages ms ts) /\
  (forall n ts, expression d n ts -> Pexpression n ts) /\ (forall ss ts, statements d ss ts -> Pstatements ss ts).
Proof.
  apply grammar_mi.
  - (* number *) intros v c rest R _. apply reads_cons in R; [|discriminate]. destruct R as (c1 & T & R). apply reads_nil in R. subst.
    now apply R_num.
  - intros v c rest R _. inversion R; subst; [congruence|]. match goal with X : reads _ [] _ |- _ => apply reads_nil in X; subst end.
    eapply R_str; eauto.
  - intros v NM NV c rest R _. apply reads_cons in R; [|discriminate]. destruct R as (c1 & T & R). apply reads_nil in R. subst.
    now apply R_ref.
  - intros w v M NV c rest R _. apply reads_cons in R; [|discriminate]. destruct R as (c1 & T & R).
    apply reads_cons in R; [|discriminate]. destruct R as (c2 & T2 & R). apply reads_nil in R. subst. eapply R_my; eauto.
  - intros w v V NM c rest R _. apply reads_cons in R; [|discriminate]. destruct R as (c1 & T & R).
    apply reads_cons in R; [|discriminate]. destruct R as (c2 & T2 & R). apply reads_nil in R. subst. eapply R_var; eauto.
  - (* nested *) intros e ts _ IH c rest R LX. apply reads_cons in R; [|discriminate]. destruct R as (c1 & T & R).
    apply reads_app in R. destruct R as (c2 & R1 & R2). apply reads_cons in R2; [|discriminate]. destruct R2 as (c3 & T2 & R2).
    apply reads_nil in R2. subst. eapply R_nested; eauto. apply IH; auto. right. eexists _, _; eauto.
  - (* block *) intros ps body ts NE HS IH c rest R LX. apply reads_cons in R; [|discriminate]. destruct R as (c1 & T & R).
    apply reads_app in R. destruct R as (c2 & R1 & R2). apply reads_app in R2. destruct R2 as (c3 & R2 & R3).
    apply reads_cons in R3; [|discriminate]. destruct R3 as (c4 & T2 & R3). apply reads_nil in R3. subst.
    assert (X : exists t, kind c2 t /\ t <> TCOLON /\ (body <> [] -> t <> TBLOCKCLOSE)).
    { inversion HS; subst.
      - apply reads_nil in R2. subst. exists TBLOCKCLOSE. split; [eexists _, _; eauto|]. split; [discriminate|congruence].
      - apply reads_app in R2. destruct R2 as (c5 & R2 & _). destruct (begins_kind _ _ _ (expression_begins _ _ H) R2) as (t & K & A & _ & B & _).
        exists t. auto.
      - exists TRET. split; [eapply reads_kind; eauto|]. split; discriminate. }
    destruct X as (t & K & A & B).
    eapply R_block; eauto.
    + intros K2. destruct ps as [|q ps].
      * apply reads_nil in R1. subst. destruct NE as [NE|NE]; [congruence|].
        destruct K as (x & y & K), K2 as (x' & y' & K2). assert (E := eq_trans (eq_sym K) K2). injection E as -> _ _. now apply (B NE).
      * cbn [param_tokens] in R1. apply reads_cons in R1; [|discriminate]. destruct R1 as (c6 & T3 & _).
        destruct K2 as (x' & y' & K2). congruence.
    + now exists t.
    + eapply IH; eauto; [eexists; eauto|]. eapply B_end; eauto.
  - (* operand *) intros r ts us HP IP FS c rest R F. apply reads_app in R. destruct R as (c1 & R1 & R2).
    pose proof (F2_no_colon _ F) as NC. pose proof (unas_follow _ _ _ R2 NC) as NC1.
    pose proof (IP _ _ R1 (no_colon_lexable _ NC1)) as HR.
    destruct us as [|u us].
    + apply reads_nil in R2. subst. cbn [map sent]. now apply E_bare.
    + rewrite sent_cons by discriminate. assert (R3 := R2). cbn [map] in R3. apply reads_cons in R3; [|discriminate].
      destruct R3 as (c2 & T & R3). eapply E_send; eauto.
      * cbn [Nat.eqb]. eapply no_colon_lexable, unas_follow; eauto.
      * eapply L_unas; eauto. cbn [app]. apply L_end; [discriminate|apply no_kw_last, unas_no_kw|auto].
      * discriminate.
  - (* binaries *) intros m acc c rest res c' _ R _ H. apply reads_nil in R. subst. now rewrite app_nil_r in H.
  - intros v a ta ms ts SV HO IO HB IB m acc c rest res c' M R F H.
    apply reads_cons in R; [|discriminate]. destruct R as (c1 & T & R). apply reads_app in R. destruct R as (c2 & R1 & R2).
    assert (F2c : F2 c2) by (eapply binaries_follow; eauto).
    eapply (L_step m acc c v c1 (MBin v a) c2); [exact T| |discriminate|].
    + eapply M_bin; eauto. eapply begins_no_colon; eauto using operand_begins.
    + eapply IB; eauto. now rewrite <- app_assoc.
  - (* argument *) intros r tr us ms ts HP IP FS HB IB c rest R F.
    apply reads_app in R. destruct R as (c1 & R1 & R). assert (RR := R). apply reads_app in R. destruct R as (c2 & R2 & R3).
    assert (F2c : F2 c2) by (eapply binaries_follow; eauto).
    pose proof (unas_follow _ _ _ R2 (F2_no_colon _ F2c)) as NC1.
    pose proof (IP _ _ R1 (no_colon_lexable _ NC1)) as HR.
    assert (D : (us = [] /\ ms = []) \/ (us <> [] \/ ms <> [])) by (destruct us, ms; auto; right; left + right; discriminate).
    destruct D as [(-> & ->)|D].
    + inversion HB; subst. apply reads_nil in R2, R3. subst. cbn [map app sent]. now apply E_bare.
    + rewrite sent_cons by (destruct us, ms; destruct D; discriminate || congruence).
      assert (BG : exists v c4, tok d c1 = LOk (TREF, v, c4)).
      { destruct us as [|u us]; [|cbn [map] in R2; apply reads_cons in R2; [|discriminate]; destruct R2 as (c4 & T & _); eauto].
        destruct D as [D|D]; [congruence|]. apply reads_nil in R2. subst c2. inversion HB; subst; [congruence|].
        apply reads_cons in R3; [|discriminate]. destruct R3 as (c4 & T & _). eauto. }
      destruct BG as (v & c4 & T). eapply E_send; eauto.
      * cbn [Nat.eqb]. eapply argument_second; eauto.
      * eapply L_unas; eauto using F2_no_colon. cbn [app]. eapply IB; eauto.
        apply L_end; [destruct us, ms; destruct D; discriminate || congruence| |auto].
        apply no_kw_last, Forall_app. split; [apply unas_no_kw|eapply binaries_no_kw; eauto].
      * destruct us as [|u us]; [|discriminate]. destruct D as [D|D]; [congruence|]. eapply hd_bin; eauto.
  - (* keywords *) intros a ta HA IA nm acc c rest R F L. rewrite app_nil_r.
    pose proof (IA _ _ R (or_introl F)) as H.
    destruct F as [[(v & x & T & LX)|(v & x & T & LX)]|(v & x & T & LX)]; eapply K_last; eauto; cbn; tauto.
  - intros a ta v name args ts HA IA HK IK nm acc c rest R F L.
    apply reads_app in R. destruct R as (c1 & R1 & R). apply reads_cons in R; [|discriminate]. destruct R as (c2 & T & R).
    apply reads_cons in R; [|discriminate]. destruct R as (c3 & T2 & R).
    repeat (rewrite app_length in L; cbn [length] in L).
    eapply K_more; eauto.
    + apply IA; auto. right. exists v, c2. split; [auto|]. eexists _, _; eauto.
    + lia.
    + specialize (IK (nm ++ v ++ [d_prefix d]) (acc ++ [a]) c3 rest R F).
      rewrite <- !app_assoc in IK. cbn [app] in IK. apply IK. rewrite !app_length. cbn [length]. lia.
  - (* messages: plain *) intros us ms ts FS HB IB NE acc c rest R F.
    apply reads_app in R. destruct R as (c2 & R2 & R3). pose proof (F0_F1 _ F) as F'.
    assert (F2c : F2 c2) by (eapply binaries_follow; eauto).
    eapply L_unas; eauto using F2_no_colon. eapply IB; eauto. rewrite <- app_assoc.
    destruct F as [(v & x & T & LX)|(v & x & T & LX)]; eapply L_stop; eauto; try discriminate;
      intros E; apply app_eq_nil in E; destruct E as (_ & E); congruence.
  - (* keyword last *) intros us ms ts v name args tk FS HB IB HK IK CV L NE acc c rest R F.
    destruct (keyword_follow _ _ _ _ _ _ _ FS HB R) as (c2 & c3 & c4 & c5 & R1 & R2 & T1 & T2 & R3 & KA).
    assert (F13 : F1 c3) by now right. assert (F2c : F2 c2) by (eapply binaries_follow; eauto).
    eapply L_unas; eauto using F2_no_colon. eapply IB; eauto.
    rewrite app_length in L. cbn [length] in L.
    eapply (L_step 0 _ c3 v c4 (MKw ((v ++ [d_prefix d]) ++ name) args)); [exact T1| |discriminate|].
    + eapply M_kw; eauto; [lia|]. apply IK; eauto; [now left|]. rewrite !app_length. cbn [length]. lia.
    + replace ((acc ++ map MUna us) ++ ms) with (acc ++ map MUna us ++ ms) by now rewrite app_assoc.
      rewrite <- !app_assoc. cbn [app].
      destruct F as [(v' & x & T & LX)|(v' & x & T & LX)]; eapply L_stop; eauto; try discriminate;
        intros E; repeat (apply app_eq_nil in E; destruct E as (_ & E)); discriminate.
  - (* cascade *) intros us ms ts v name args tk ms' ts' FS HB IB HK IK CV L HM IM NE' NE acc c rest R F.
    destruct (keyword_follow us ms ts v (tk ++ sign TCHAIN :: ts') c rest FS HB R) as (c2 & c3 & c4 & c5 & R1 & R2 & T1 & T2 & R3 & KA).
    apply reads_app in R3. destruct R3 as (c6 & R3 & R4). apply reads_cons in R4; [|discriminate]. destruct R4 as (c7 & T3 & R4).
    destruct (messages_begin _ _ _ _ HM NE' R4) as (v8 & c8 & T4).
    assert (F13 : F1 c3) by now right. assert (F2c : F2 c2) by (eapply binaries_follow; eauto).
    eapply L_unas; eauto using F2_no_colon. eapply IB; eauto.
    rewrite app_length in L. cbn [length] in L.
    eapply (L_step 0 _ c3 v c4 (MKw ((v ++ [d_prefix d]) ++ name) args)); [exact T1| |discriminate|].
    + eapply M_kw; eauto; [lia|]. apply IK; eauto; [right; eexists _, _; split; [eauto|eexists; eauto]|]. rewrite !app_length. cbn [length]. lia.
    + eapply L_chain_any; [exact T3|eexists _, _; eauto|rewrite last_last; reflexivity|].
      replace (acc ++ map MUna us ++ ms ++ MKw (v ++ d_prefix d :: name) args :: ms')
        with ((((acc ++ map MUna us) ++ ms) ++ [MKw (v ++ d_prefix d :: name) args]) ++ ms') by (rewrite <- !app_assoc; reflexivity).
      cbn [app]. rewrite <- (app_assoc v [d_prefix d] name). cbn [app]. now apply IM.
  - (* send *) intros r tr ms tm HP IP HM IM c rest R F. apply reads_app in R. destruct R as (c1 & R1 & R2).
    destruct ms as [|x ms].
    + inversion HM; subst; match goal with E : map MUna _ ++ _ = [] |- _ => apply app_eq_nil in E; destruct E as (U & EE) end.
      * apply map_eq_nil in U. subst. match goal with B : binaries d [] _ |- _ => inversion B; subst end. apply reads_nil in R2. subst.
        apply E_bare; [|auto]. apply IP; auto. apply F1_lexable. now apply F0_F1.
      * apply app_eq_nil in EE. destruct EE as (_ & EE). discriminate.
      * apply app_eq_nil in EE. destruct EE as (_ & EE). discriminate.
    + destruct (messages_begin _ _ _ _ HM ltac:(discriminate) R2) as (v & c2 & T).
      rewrite sent_cons by discriminate. eapply E_send; eauto.
      * apply IP; auto. eexists; eauto.
      * cbn [Nat.eqb]. pose proof (F1_lexable _ (F0_F1 _ F)) as LX. destruct F as [(v9 & r9 & T9 & _)|(v9 & r9 & T9 & _)]; (inversion R2; subst; [congruence| |congruence]);
          match goal with Y : tok d c1 = LOk _, Z : reads _ _ rest |- _ => assert (X := eq_trans (eq_sym T) Y); injection X as <- <- <-; eapply reads_lexable; eauto end.
      * apply (IM ltac:(discriminate) []); eauto.
      * eapply messages_hd; eauto. discriminate.
  - (* assign *) intros m v tv e te HP IP HE IE c rest R F. apply reads_app in R. destruct R as (c1 & R1 & R2).
    apply reads_cons in R2; [|discriminate]. destruct R2 as (c2 & T & R2).
    eapply E_assign; eauto; [apply IP; auto; eexists; eauto|].
    eapply no_colon_lexable, begins_no_colon; eauto using expression_begins.
  - (* statements *) intros acc c rest res c' R _ H. apply reads_nil in R. subst. now rewrite app_nil_r in H.
  - intros e te es ts HE IE HS IS acc c rest res c' R LX H. apply reads_app in R. destruct R as (c1 & R1 & R2).
    apply reads_cons in R2; [|discriminate]. destruct R2 as (c2 & T & R2).
    destruct (begins_kind _ _ _ (expression_begins _ _ HE) R1) as (t & K & A & B & C & _).
    eapply B_expr; eauto; [apply IE; auto; left; eexists _, _; split; [eauto|]|].
    + eapply reads_lexable; eauto.
    + eapply IS; eauto. now rewrite <- app_assoc.
  - intros e te es ts HE IE HS IS acc c rest res c' R LX H. apply reads_cons in R; [|discriminate]. destruct R as (c0 & T0 & R).
    apply reads_app in R. destruct R as (c1 & R1 & R2).
    apply reads_cons in R2; [|discriminate]. destruct R2 as (c2 & T & R2).
    eapply B_ret; eauto; [apply IE; auto; left; eexists _, _; split; [eauto|]|].
    + eapply reads_lexable; eauto.
    + eapply IS; eauto. now rewrite <- app_assoc.
Qed.

(** ** Programs *)
Definition atG acc c ss := forall o oo e, exists s', ev (fun f => program f acc (mkP c o oo e)) (POk ss s') /\ err s' = e.
Lemma statement_expr c t n c1 v c2 o oo e : kind c t -> t <> TFIN -> t <> TRET -> atE 0 c n c1 ->
  tok d c1 = LOk (TDOT, v, c2) -> exists o' oo', ev (fun f => statement f (mkP c o oo e)) (POk (Some n) (mkP c2 o' oo' e)).
Proof.
  intros (v0 & c0 & T) NF NR H T2. destruct (H o o e) as (o1 & oo1 & H'). exists c1, o1.
  unfold ParseModel.statement. next T.
  destruct (token_eqb t TFIN) eqn:E; [apply token_eqb_eq in E; congruence|].
  destruct (token_eqb t TRET) eqn:E2; [apply token_eqb_eq in E2; congruence|].
  eapply ev_bind; [exact H'|]. cbv beta. next T2. apply ev_const.
Qed.
Lemma statement_ret c v0 c0 n c1 v c2 o oo e : tok d c = LOk (TRET, v0, c0) -> atE 0 c0 n c1 ->
  tok d c1 = LOk (TDOT, v, c2) -> exists o' oo', ev (fun f => statement f (mkP c o oo e)) (POk (Some (NRet n)) (mkP c2 o' oo' e)).
Proof.
  intros T H T2. destruct (H c o e) as (o1 & oo1 & H'). exists c1, o1. unfold ParseModel.statement. next T.
  eapply ev_bind; [next T; eapply ev_bind; [exact H'|]; apply ev_const|]. cbv beta. next T2. apply ev_const.
Qed.
Lemma program_grammar ss : forall ts, statements d ss ts -> forall c rest acc, reads c ts rest -> kind rest TFIN ->
  atG acc c (acc ++ ss).
Proof.
  destruct grammar as (_ & _ & _ & _ & _ & _ & GE & _).
  induction ss as [|n ss IH]; intros ts HS c rest acc R K o oo e.
  - inversion HS; subst. apply reads_nil in R. subst. destruct K as (v & r & T). exists (mkP r c o e). split; [|reflexivity].
    apply ev_S. eapply ev_ext; [intros f; cbn [ParseModel.program]; unfold ParseModel.statement; reflexivity|].
    eapply ev_bind; [next T; next T; apply ev_const|]. cbv beta iota. rewrite app_nil_r. apply ev_const.
  - assert (G : forall c1 c2 ts0, statements d ss ts0 -> reads c2 ts0 rest ->
       (exists o' oo', ev (fun f => statement f (mkP c o oo e)) (POk (Some c1) (mkP c2 o' oo' e))) -> c1 = n ->
       exists s', ev (fun f => program f acc (mkP c o oo e)) (POk (acc ++ n :: ss) s') /\ err s' = e).
    { intros c1 c2 ts0 HS' R' (o' & oo' & E) ->. destruct (IH ts0 HS' c2 rest (acc ++ [n]) R' K o' oo' e) as (s' & A & B).
      exists s'. split; [|exact B]. rewrite <- app_assoc in A. cbn [app] in A.
      apply ev_S. eapply ev_ext; [intros f; cbn [ParseModel.program]; reflexivity|].
      eapply ev_bind; [exact E|]. cbv beta iota. exact A. }
    inversion HS; subst.
    + apply reads_app in R. destruct R as (c1 & R1 & R2). apply reads_cons in R2; [|discriminate]. destruct R2 as (c2 & T & R2).
      match goal with HE : expression d n _ |- _ => destruct (begins_kind _ _ _ (expression_begins _ _ HE) R1) as (t & KT & A & B & C & D); pose proof (GE _ _ HE c c1 R1) as HH end.
      eapply G; eauto. eapply statement_expr; eauto. apply HH. left. eexists _, _; split; [eauto|].
      eapply reads_lexable; eauto. eapply kind_lexable; eauto.
    + apply reads_cons in R; [|discriminate]. destruct R as (c0 & T0 & R).
      apply reads_app in R. destruct R as (c1 & R1 & R2). apply reads_cons in R2; [|discriminate]. destruct R2 as (c2 & T & R2).
      match goal with HE : expression d _ _ |- _ => pose proof (GE _ _ HE c0 c1 R1) as HH end.
      eapply G; eauto. eapply statement_ret; eauto. apply HH. left. eexists _, _; split; [eauto|].
      eapply reads_lexable; eauto. eapply kind_lexable; eauto.
Qed.

(** ** The parser always finishes *)
Hypothesis QO : 1 <= length (d_qo d) <= 10.
Hypothesis QC : 1 <= length (d_qc d) <= 10.
Definition safe {A} (P : A -> pst -> Prop) (o : pres A) : Prop :=
  match o with POk a s => P a s | PFuel => False | _ => True end.
Lemma safe_bind A B (P : A -> pst -> Prop) (Q : B -> pst -> Prop) o f :
  safe P o -> (forall a s, P a s -> safe Q (f a s)) -> safe Q (pbind o f).
Proof. destruct o; cbn; auto. Qed.
Lemma safe_weaken A (P Q : A -> pst -> Prop) o : safe P o -> (forall a s, P a s -> Q a s) -> safe Q o.
Proof. destruct o; cbn; auto. Qed.
Definition len (s : pst) : nat := length (cur s).
Definition was (s : pst) : nat := length (old s).
Lemma safe_tok s : safe (fun tv s' => old s' = cur s /\ older s' = old s /\ tok d (cur s) = LOk (fst tv, snd tv, cur s') /\
  len s' <= len s /\ (fst tv <> TFIN -> len s' < len s)) (tokp s).
Proof.
  unfold ParseModel.tokp. destruct (tok d (cur s)) as [((t & v) & r)| |] eqn:T; cbn; auto.
  destruct (tok_ok d (cur s) t v r WO T) as (_ & S1 & _ & P). unfold len. cbn. pose proof (suffix_length _ _ S1). auto.
Qed.
Ltac stok := eapply safe_bind; [apply safe_tok|]; let tv := fresh "tv" in let s := fresh "s" in
  intros tv s (? & ? & ? & ? & ?); destruct tv; cbn [fst snd] in *.
Lemma len_pb s : len (putback s) = was s. Proof. reflexivity. Qed.
Lemma safe_params f : forall t acc s, (if token_eqb t TCOLON then len s + 2 else 1) <= f ->
  safe (fun _ s' => was s' <= Nat.max (was s) (len s)) (params f t acc s).
Proof.
  induction f as [|f IH]; intros t acc s L; [destruct (token_eqb t TCOLON); lia|].
  cbn [ParseModel.params]. destruct (token_eqb t TCOLON); [|cbn; lia].
  stok. stok. eapply safe_weaken; [apply IH|].
  - destruct (token_eqb t1 TCOLON) eqn:E; [|lia]. apply token_eqb_eq in E. subst t1. specialize (H8 ltac:(discriminate)). lia.
  - cbv beta. intros _ s2 X. unfold was, len in *. rewrite H4 in X. rewrite ?H in X. lia.
Qed.
Lemma safe_number s : kind (cur s) TNUMBER -> safe (fun _ s' => len s' < len s) (parse_number s).
Proof.
  intros (v & r & T). unfold ParseModel.parse_number. stok. cbn. rewrite T in H1. injection H1 as <- _ _. apply H3. discriminate.
Qed.
Lemma safe_string s : kind (cur s) TQUOTE -> safe (fun _ s' => len s' < len s) (parse_string s).
Proof.
  intros (v & r & T). unfold ParseModel.parse_string. stok. rewrite T in H1. injection H1 as <- _ _. specialize (H3 ltac:(discriminate)).
  destruct (readstr_safe d false (cur s0) QO QC) as (v' & rest & -> & S1 & _). cbn. pose proof (suffix_length _ _ S1). unfold len in *. cbn. lia.
Qed.
Lemma safe_ref s : kind (cur s) TREF -> safe (fun _ s' => len s' < len s) (parse_ref s).
Proof.
  intros (v & r & T). unfold ParseModel.parse_ref. stok. rewrite T in H1. injection H1 as <- _ _. specialize (H3 ltac:(discriminate)).
  eapply (safe_bind _ _ (fun _ s' => len s' < len s)).
  - destruct (text_eqb _ _); [|cbn; lia]. stok. destruct (token_eqb _ _); cbn; [lia|auto].
  - intros [m w] s1 L. destruct (_ || _); [|cbn; lia]. stok. destruct (token_eqb _ _); cbn; [lia|auto].
Qed.
Lemma total f :
  (forall m s, 4 * len s + 2 <= f -> safe (fun _ s' => len s' < len s) (expr f m s)) /\
  (forall s, 4 * len s + 1 <= f -> safe (fun _ s' => len s' < len s) (receiver f s)) /\
  (forall a s, 4 * len s + 3 <= f -> safe (fun _ s' => len s' < len s) (block_body f a s)) /\
  (forall m a t s, (exists v, tok d (old s) = LOk (t, v, cur s)) -> 4 * was s + 2 <= f ->
     safe (fun _ s' => len s' <= was s) (messages f m a t s)) /\
  (forall m s, kind (cur s) TREF -> 4 * len s + 1 <= f ->
     safe (fun x s' => len s' <= len s /\ (x <> MNone -> len s' < len s)) (message f m s)) /\
  (forall n a s, 4 * len s + 3 <= f -> safe (fun _ s' => len s' < len s) (kw_args f n a s)).
Proof.
  induction f as [|f (IE & IR & IB & IM & IS & IK)].
  { repeat split; intros; exfalso; lia. }
  split; [|split; [|split; [|split; [|split]]]].
  - intros m s L. rewrite expr_S. eapply safe_bind; [apply IR; lia|]. cbv beta. intros r s1 L1.
    stok. stok. cbv zeta.
    assert (LP : len (putback (putback s2)) = len s1) by (unfold len, putback; cbn; congruence).
    destruct (_ && _ && _); [cbn [safe]; lia|].
    destruct t; try (cbn [safe fail]; exact I); try (cbn [safe]; lia).
    all: try (eapply safe_bind; [apply safe_tok|]; intros [tt vv] sx (A1 & A2 & A3 & A4 & A5); cbn [fst snd] in *;
      assert (WX : was sx = len (putback (putback s2))) by (unfold was; rewrite A1; reflexivity);
      eapply safe_bind; [apply IM; [exists vv; rewrite A1; exact A3|lia]|];
      cbv beta; intros ms sy L4;
      destruct ms as [|[] ms]; try (cbn [safe]; lia);
      eapply safe_bind; [apply safe_tok|]; intros [tz vz] sz (B1 & B2 & B3 & B4 & B5); cbn [safe];
      rewrite len_pb; unfold was; rewrite B1; change (length (cur sy)) with (len sy); lia).
    destruct r; try (cbn [safe fail]; exact I). stok. eapply safe_bind; [apply IE; lia|]. cbv beta. intros e s4 L4. cbn [safe]. lia.
  - intros s L. rewrite receiver_S. stok. cbv zeta.
    assert (CP : cur (putback s0) = cur s) by (unfold putback; cbn; congruence).
    assert (LP : len (putback s0) = len s) by (unfold len; now rewrite CP).
    assert (KT : kind (cur (putback s0)) t) by (rewrite CP; eexists _, _; eauto).
    destruct t; try (cbn [safe fail]; exact I).
    + rewrite <- LP. now apply safe_ref.
    + rewrite <- LP. now apply safe_string.
    + rewrite <- LP. now apply safe_number.
    + stok. rewrite CP in H6. assert (t = TPAROPEN) by congruence. subst t. specialize (H8 ltac:(discriminate)).
      eapply safe_bind; [apply IE; lia|]. cbv beta. intros e s2 L2. stok. destruct (token_eqb _ _); cbn [safe fail]; [lia|exact I].
    + stok. rewrite CP in H6. assert (t = TBLOCKOPEN) by congruence. subst t. specialize (H8 ltac:(discriminate)).
      stok. destruct (token_eqb t TBLOCKCLOSE); [exact I|].
      eapply safe_bind; [apply safe_params; destruct (token_eqb _ _); lia|]. cbv beta. intros ps s3 L3.
      assert (WS : was s2 = len s1) by (unfold was, len; congruence).
      eapply safe_bind; [apply IB; rewrite len_pb; lia|]. cbv beta. intros body s4 L4. cbn [safe]. rewrite len_pb in L4. lia.
  - intros a s L. rewrite block_body_S. stok. destruct (token_eqb t TBLOCKCLOSE) eqn:EB.
    + apply token_eqb_eq in EB. subst t. cbn [safe]. apply H3. discriminate.
    + cbv zeta. assert (LP : len (putback s0) = len s) by (unfold len, putback; cbn; congruence).
      eapply (safe_bind _ _ (fun _ s' => len s' < len s)).
      * destruct (token_eqb t TRET); [stok; eapply safe_bind; [apply IE; lia|]; cbv beta; intros; cbn [safe]; lia|].
        rewrite <- LP. apply IE. lia.
      * intros n s1 L1. stok. destruct (token_eqb t0 TDOT); [|exact I]. eapply safe_weaken; [apply IB; lia|]. cbv beta. intros. lia.
  - intros m a t s (v & T) L. rewrite messages_S. cbv zeta.
    destruct (token_eqb t TREF || _) eqn:C; [|destruct a; [exact I|cbn [safe]; rewrite len_pb; lia]].
    eapply (safe_bind _ _ (fun _ s' => len (putback s') <= was s /\ kind (cur (putback s')) TREF)).
    + destruct (token_eqb t TCHAIN) eqn:CH.
      * stok. destruct (token_eqb t0 TREF) eqn:TR; [|exact I]. apply token_eqb_eq in TR. subst t0. cbn [safe]. unfold len, was, putback. cbn [cur].
        rewrite H. split; [|eexists _, _; eauto]. apply token_eqb_eq in CH. subst t.
        destruct (tok_ok d _ _ _ _ WO T) as (_ & S1 & _). apply suffix_length in S1. exact S1.
      * rewrite orb_false_r in C. apply token_eqb_eq in C. subst t. cbn [safe]. unfold len, was, putback. cbn [cur]. split; [lia|]. eexists _, _; eauto.
    + intros _ s1 (L1 & K1). eapply safe_bind; [apply IS; [auto|lia]|]. cbv beta. intros x s2 (L2 & L3).
      destruct x; try (specialize (L3 ltac:(discriminate)); stok; eapply safe_weaken; [apply IM; [eexists; rewrite H; eauto|unfold was; rewrite H; unfold len in *; lia]|];
        cbv beta; intros ms s4 L4; unfold was in L4 at 1; rewrite H in L4; unfold len in *; lia).
      destruct a; [cbn [safe]; lia|]. stok. cbn [safe]. rewrite len_pb. unfold was at 1. rewrite H. unfold len in *. lia.
  - intros m s (v & r & T) L. rewrite message_S. stok. rewrite T in H1. injection H1 as <- <- ER. specialize (H3 ltac:(discriminate)).
    destruct (255 <? _); [exact I|]. destruct (getutf8len _ _) as [u|]; [|exact I].
    stok. cbv zeta. assert (CP : cur (putback s1) = cur s0) by (unfold putback; cbn; congruence).
    assert (CPP : cur (putback (putback s1)) = cur s) by (unfold putback; cbn; congruence).
    assert (LP : len (putback s1) = len s0) by (unfold len; now rewrite CP).
    assert (LPP : len (putback (putback s1)) = len s) by (unfold len; now rewrite CPP).
    destruct (_ && _); [cbn [safe]; split; [lia|congruence]|].
    destruct (_ && _); [eapply safe_bind; [apply IE; lia|]; cbv beta; intros; cbn [safe]; lia|].
    stok. assert (CQ : cur (putback s2) = cur s0) by (unfold putback; cbn; congruence).
    assert (CQQ : cur (putback (putback s2)) = cur s).
    { unfold putback in *. cbn in *. congruence. }
    assert (LQ : len (putback s2) = len s0) by (unfold len; now rewrite CQ).
    assert (LQQ : len (putback (putback s2)) = len s) by (unfold len; now rewrite CQQ).
    destruct (token_eqb _ _); [|cbn [safe]; split; [lia|lia]].
    destruct (0 <? m); [cbn [safe]; split; [lia|congruence]|]. destruct (255 <=? _); [exact I|].
    stok. eapply safe_weaken; [apply IK; lia|]. cbv beta. intros. lia.
  - intros n a s L. rewrite kw_args_S. eapply safe_bind; [apply IE; lia|]. cbv beta. intros x s1 L1. stok.
    assert (LP : len (putback s0) = len s1) by (unfold len, putback; cbn; congruence).
    destruct t; try (cbn [safe]; lia).
    all: try (eapply safe_weaken; [apply IK; specialize (H3 ltac:(discriminate)); lia|]; cbv beta; intros; lia).
    destruct (255 <? _); [exact I|]. destruct (255 <=? _); [exact I|]. stok. cbv zeta.
    assert (X : len (if token_eqb t TCOLON then s2 else seterr s2) = len s2) by (destruct (token_eqb t TCOLON); reflexivity).
    eapply safe_weaken; [apply IK; rewrite X; lia|]. cbv beta. intros. lia.
Qed.
Lemma safe_statement f s : 4 * len s + 2 <= f ->
  safe (fun x s' => len s' <= len s /\ (x <> None -> len s' < len s)) (statement f s).
Proof.
  intros L. destruct (total f) as (IE & _). unfold ParseModel.statement.
  eapply safe_bind; [apply safe_tok|]. intros [t v] s0 (A1 & A2 & A3 & A4 & A5). cbn [fst snd] in *. cbv zeta.
  assert (LP : len (putback s0) = len s) by (unfold len, putback; cbn; congruence).
  destruct (token_eqb t TFIN).
  - stok. cbn [safe]. split; [lia|congruence].
  - eapply (safe_bind _ _ (fun _ s' => len s' < len s)).
    + destruct (token_eqb t TRET); [stok; eapply safe_bind; [apply IE; lia|]; cbv beta; intros; cbn [safe]; lia|].
      rewrite <- LP. apply IE. lia.
    + intros n s1 L1. stok. destruct (token_eqb t0 TDOT); [|exact I]. cbn [safe]. lia.
Qed.
Lemma safe_program f : forall acc s, 4 * len s + 3 <= f -> safe (fun _ _ => True) (program f acc s).
Proof.
  induction f as [|f IH]; intros acc s L; [lia|]. cbn [ParseModel.program].
  eapply safe_bind; [apply safe_statement; lia|]. cbv beta. intros [n|] s' (L1 & L2); [|exact I].
  apply IH. assert (Some n <> None) by discriminate. intuition lia.
Qed.
Theorem parse_total code o oo : parse d code o oo <> PFuel.
Proof.
  unfold parse. pose proof (safe_program (4 * length code + 5) [] (mkP code o oo false)) as H.
  unfold len in H. cbn [cur] in H. intros E. unfold parse in E. rewrite E in H. apply H. lia.
Qed.
(** more fuel does not change an answer of [program] *)
Lemma program_mono f : forall g acc s, f <= g -> le_res (program f acc s) (program g acc s).
Proof.
  induction f as [|f IH]; intros g acc s L; [left; reflexivity|]. destruct g as [|g]; [lia|].
  assert (L' : f <= g) by lia. destruct (mono f g L') as (ME & _).
  cbn [ParseModel.program] in *. unfold ParseModel.statement in *.
  repeat (cbv zeta; first [mono1 | apply ME | apply IH; exact L']).
Qed.
(** what the grammar describes, the parser builds *)
Theorem parse_grammar ss ts code rest o oo : statements d ss ts -> reads code ts rest -> kind rest TFIN ->
  exists s, parse d code o oo = POk ss s /\ err s = false.
Proof.
  intros G R K. destruct (program_grammar ss ts G code rest [] R K o oo false) as (s & (n & H) & E).
  exists s. split; [|exact E]. unfold parse. cbn [app] in H.
  destruct (program_mono (4 * length code + 5) (n + (4 * length code + 5)) [] (mkP code o oo false)) as [A|A]; [lia| |].
  - exfalso. apply (parse_total code o oo). exact A.
  - rewrite A. apply H. lia.
Qed.
End P.
