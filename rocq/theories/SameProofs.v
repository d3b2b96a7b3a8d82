(** Corresponding tokens are parsed into corresponding programs. *)
From Verif Require Import Common TextSpec TextModel NumModel LexModel LexSpec LexProofs ParseModel ParseSpec ParseProofs TransModel TransSpec TransLex TransMain TransProofs SameSpec SameLex.
From Coq Require Import Lia.
Open Scope nat_scope.

(** ** Tokens in their context *)
Definition is_colon (t : tk) : bool := match fst t with TCOLON => true | _ => false end.
Definition colon (s : list tk) : bool := match s with t :: _ => is_colon t | [] => false end.
(** The parts of the message in progress that still follow. *)
Fixpoint parts (n : nat) (ts : list tk) : list text :=
  match ts with
  | [] => []
  | (t, v) :: r =>
      match t with
      | TREF => if colon r && (n =? 0) then v :: parts n r else parts n r
      | TDOT | TCHAIN => if n =? 0 then [] else parts n r
      | TPARCLOSE | TBLOCKCLOSE => if n =? 0 then [] else parts (n - 1) r
      | TPAROPEN | TBLOCKOPEN => parts (S n) r
      | _ => parts n r
      end
  end.
(** For every level of brackets, whether a message is in progress; [pc] tells whether the last token was a colon. *)
Definition step (pc : bool) (st : list bool) (t : tk) (s : list tk) : list bool :=
  match fst t, st with
  | TREF, _ :: r => if colon s && negb pc then true :: r else st
  | (TDOT | TCHAIN), _ :: r => false :: r
  | (TPAROPEN | TBLOCKOPEN), _ => false :: st
  | (TPARCLOSE | TBLOCKCLOSE), _ :: r => r
  | _, _ => st
  end.
Fixpoint after (pc : bool) (st : list bool) (ts k : list tk) : bool * list bool :=
  match ts with [] => (pc, st) | t :: r => after (is_colon t) (step pc st t (r ++ k)) r k end.
Lemma after_app a : forall pc st b k, after pc st (a ++ b) k = let '(p, s) := after pc st a (b ++ k) in after p s b k.
Proof. induction a as [|t a IH]; intros pc st b k; cbn [app after]; [reflexivity|]. now rewrite IH, app_assoc. Qed.

Definition nc (k : list tk) : Prop := colon k = false.
Lemma whole_app p a b : whole p (a ++ b) = whole p a ++ whole p b.
Proof. unfold whole. now rewrite map_app, concat_app. Qed.

Local Notation sg := ParseSpec.sign.
Section Balance.
Variable d : dict.
Definition flat (ts : list tk) : Prop := nc ts /\ forall k, nc k ->
  (forall n, parts n (ts ++ k) = parts n k) /\
  (forall st, st <> [] -> after false st ts k = (false, st)) /\
  (ts <> [] -> forall pc st, st <> [] -> after pc st ts k = (false, st)).
Lemma nc_app a b : nc a -> nc b -> nc (a ++ b).
Proof. destruct a; auto. Qed.
Lemma flat_nil : flat [].
Proof. split; [reflexivity|]. intros k K. repeat split; auto. intros H. now destruct H. Qed.
Lemma flat_app a b : flat a -> flat b -> flat (a ++ b).
Proof.
  intros (A0 & A) (B0 & B). split; [now apply nc_app|]. intros k K. destruct (B k K) as (B1 & B2 & B3). destruct (A (b ++ k) (nc_app _ _ B0 K)) as (A1 & A2 & A3).
  split; [intros n; now rewrite <- app_assoc, A1|]. split.
  - intros st H. rewrite after_app, A2 by exact H. now apply B2.
  - intros H pc st S. rewrite after_app. destruct a as [|t a]; [cbn [after]; now apply B3|]. rewrite A3 by (auto; discriminate). now apply B2.
Qed.
Lemma flat_ref v : flat [ref v].
Proof.
  split; [reflexivity|]. intros k K. cbn [app parts ref after is_colon fst step]. rewrite K. cbn [andb].
  repeat split; auto; intros; destruct st; congruence.
Qed.
Lemma flat_refs us : flat (map ref us).
Proof. induction us as [|u us IH]; [apply flat_nil|]. apply (flat_app [ref u]); [apply flat_ref|exact IH]. Qed.
Lemma bracketed o c ts : In (o, c) [(TPAROPEN, TPARCLOSE); (TBLOCKOPEN, TBLOCKCLOSE)] ->
  (forall k n, nc k -> parts (S n) (ts ++ k) = parts (S n) k) -> (forall k s, nc k -> exists f p, after false (false :: s) ts k = (p, f :: s)) ->
  flat (sg o :: ts ++ [sg c]).
Proof.
  intros I P A.
  assert (X : forall k pc st, after pc st (sg o :: ts ++ [sg c]) k = (false, st)).
  { intros k pc st. cbn [after]. assert (step pc st (sg o) ((ts ++ [sg c]) ++ k) = false :: st) as -> by (cbn in I; destruct I as [E|[E|[]]]; injection E as <- <-; destruct st; reflexivity).
    assert (is_colon (sg o) = false) as -> by (cbn in I; destruct I as [E|[E|[]]]; injection E as <- <-; reflexivity).
    rewrite after_app. destruct (A ([sg c] ++ k) st) as (f & p & ->); [cbn in I; destruct I as [E|[E|[]]]; injection E as <- <-; reflexivity|].
    cbn in I; destruct I as [E|[E|[]]]; injection E as <- <-; reflexivity. }
  split; [cbn in I; destruct I as [E|[E|[]]]; injection E as <- <-; reflexivity|]. intros k K. split.
  - intros n. cbn [app]. rewrite <- app_assoc. cbn [app]. cbn in I; destruct I as [E|[E|[]]]; injection E as <- <-; unfold sg; cbn [parts]; fold (sg TPARCLOSE); fold (sg TBLOCKCLOSE); rewrite P by reflexivity; unfold sg; cbn [parts Nat.eqb]; now rewrite Nat.sub_1_r.
  - auto.
Qed.
Lemma params_flow ps k : nc k -> (forall n, parts (S n) (param_tokens ps ++ k) = parts (S n) k) /\ (forall pc s, exists p, after pc (false :: s) (param_tokens ps) k = (p, false :: s)).
Proof.
  intros K. induction ps as [|p ps (IH1 & IH2)]; cbn [param_tokens app]; [split; [auto|intros pc s; now exists pc]|]. split.
  - intros n. cbn [parts ref ParseSpec.sign Nat.eqb]. now rewrite andb_false_r.
  - intros pc s. cbn [after ref ParseSpec.sign is_colon fst step negb]. rewrite andb_false_r. apply IH2.
Qed.

Definition Bprim (n : node) ts := flat ts /\ ts <> [].
Definition Bbinaries (ms : list msg) ts := flat ts.
Definition Bkeywords (name : text) (args : list node) ts := nc ts /\ ts <> [] /\
  (exists ks, (forall k, nc k -> parts 0 (ts ++ k) = ks ++ parts 0 k) /\ name = whole (d_prefix d) ks) /\ forall k, nc k ->
  (forall n, parts (S n) (ts ++ k) = parts (S n) k) /\
  (forall pc s, after pc (true :: s) ts k = (false, true :: s)).
Definition Bmessages (ms : list msg) ts := nc ts /\ forall k, nc k ->
  (forall n, parts (S n) (ts ++ k) = parts (S n) k) /\ (forall s, exists f, after false (false :: s) ts k = (false, f :: s)).
Definition Bexpression (n : node) ts := nc ts /\ ts <> [] /\ forall k, nc k ->
  (forall n, parts (S n) (ts ++ k) = parts (S n) k) /\ (forall pc s, exists f, after pc (false :: s) ts k = (false, f :: s)).
Definition Bstatements (l : list node) ts := nc ts /\ forall k, nc k ->
  (forall n, parts (S n) (ts ++ k) = parts (S n) k) /\ (forall pc s, exists p, after pc (false :: s) ts k = (p, false :: s)).
Lemma kw_flow us ts v name args tk : flat ts -> Bkeywords name args tk ->
  nc (map ref us ++ ts ++ ref v :: sg TCOLON :: tk) /\ forall k, nc k ->
  (forall n, parts (S n) ((map ref us ++ ts ++ ref v :: sg TCOLON :: tk) ++ k) = parts (S n) k) /\
  (forall s, after false (false :: s) (map ref us ++ ts ++ ref v :: sg TCOLON :: tk) k = (false, true :: s)).
Proof.
  intros T (K0 & K1 & _ & K). rewrite app_assoc. assert (F : flat (map ref us ++ ts)) by (apply flat_app; [apply flat_refs|exact T]).
  destruct F as (F0 & F). split; [apply nc_app; [exact F0|reflexivity]|]. intros k N.
  destruct (F (ref v :: sg TCOLON :: tk ++ k) eq_refl) as (F1 & F2 & F3). destruct (K k N) as (K2 & K3). split.
  - intros n. rewrite <- app_assoc. cbn [app]. rewrite F1. cbn [parts ref ParseSpec.sign Nat.eqb]. rewrite andb_false_r. apply K2.
  - intros s. rewrite after_app. cbn [app]. rewrite F2 by discriminate. cbn [after ref ParseSpec.sign step fst is_colon app colon andb negb]. apply K3.
Qed.
Lemma balance :
  (forall n ts, prim d n ts -> Bprim n ts) /\ (forall n ts, operand d n ts -> Bprim n ts) /\ (forall ms ts, binaries d ms ts -> Bbinaries ms ts) /\
  (forall n ts, argument d n ts -> Bprim n ts) /\ (forall name args ts, keywords d name args ts -> Bkeywords name args ts) /\
  (forall ms ts, messages_of d ms ts -> Bmessages ms ts) /\ (forall n ts, expression d n ts -> Bexpression n ts) /\ (forall l ts, statements d l ts -> Bstatements l ts).
Proof.
  apply grammar_mi; unfold Bprim, Bbinaries.
  - intros v. split; [|discriminate]. split; [reflexivity|]. intros k K. repeat split; auto; intros; destruct st; reflexivity.
  - intros v. split; [|discriminate]. split; [reflexivity|]. intros k K. repeat split; auto; intros; destruct st; reflexivity.
  - intros v _ _. split; [apply flat_ref|discriminate].
  - intros w v _ _. split; [apply (flat_refs [w; v])|discriminate].
  - intros w v _ _. split; [apply (flat_refs [w; v])|discriminate].
  - intros e ts _ (E0 & E1 & E). split; [|discriminate]. apply bracketed; [cbn; auto| |].
    + intros k n K. now apply E.
    + intros k s K. destruct (E k K) as (_ & A). destruct (A false s) as (f & ->). eauto.
  - intros ps b ts _ _ (E0 & E). split; [|discriminate]. rewrite app_assoc. apply bracketed; [cbn; auto| |].
    + intros k n K. rewrite <- app_assoc. destruct (params_flow ps (ts ++ k) (nc_app _ _ E0 K)) as (-> & _). now apply E.
    + intros k s K. rewrite after_app. destruct (params_flow ps (ts ++ k) (nc_app _ _ E0 K)) as (_ & A). destruct (A false s) as (p & ->).
      destruct (E k K) as (_ & B). destruct (B p s) as (p' & ->). eauto.
  - intros r ts us _ (F & N) _. split; [|destruct ts; [congruence|discriminate]]. apply flat_app; [exact F|apply flat_refs].
  - apply flat_nil.
  - intros v a ta ms ts _ _ (A & _) _ B. apply (flat_app [ref v]); [apply flat_ref|]. now apply flat_app.
  - intros r tr us ms ts _ (R & N) _ _ B. split; [|destruct tr; [congruence|discriminate]]. apply flat_app; [exact R|]. apply flat_app; [apply flat_refs|exact B].
  - intros a ta _ ((A0 & A) & N). split; [exact A0|]. split; [exact N|]. split.
    + exists []. split; [|reflexivity]. intros k K. now apply A.
    + intros k K. destruct (A k K) as (A1 & A2 & A3). split; [intros; apply A1|]. intros pc s. apply A3; [exact N|discriminate].
  - intros a ta v name args ts _ ((A0 & A) & N) _ (K0 & K1 & (ks & E & ->) & K). split; [now apply nc_app|]. split; [destruct ta; [congruence|discriminate]|]. split.
    + exists (v :: ks). split; [|unfold whole; cbn [map concat]; now rewrite <- app_assoc]. intros k NK. rewrite <- app_assoc. cbn [app].
      destruct (A (ref v :: sg TCOLON :: ts ++ k) eq_refl) as (-> & _). cbn [parts ref ParseSpec.sign colon is_colon fst Nat.eqb andb]. now rewrite E.
    + intros k NK. destruct (K k NK) as (K2 & K3). destruct (A (ref v :: sg TCOLON :: ts ++ k) eq_refl) as (A1 & A2 & A3). split.
      * intros n. rewrite <- app_assoc. cbn [app]. rewrite A1. cbn [parts ref ParseSpec.sign Nat.eqb]. now rewrite andb_false_r.
      * intros pc s. rewrite after_app. cbn [app]. rewrite A3 by (auto; discriminate). cbn [after ref ParseSpec.sign step fst is_colon app colon andb negb]. apply K3.
  - intros us ms ts _ _ B. assert (F : flat (map ref us ++ ts)) by (apply flat_app; [apply flat_refs|exact B]). destruct F as (F0 & F). split; [exact F0|].
    intros k K. destruct (F k K) as (F1 & F2 & _). split; [intros; apply F1|]. intros s. exists false. apply F2. discriminate.
  - intros us ms ts v name args tk _ _ B _ KW _ _. destruct (kw_flow us ts v name args tk B KW) as (N & F). split; [exact N|].
    intros k K. destruct (F k K) as (F1 & F2). split; [exact F1|]. intros s. exists true. apply F2.
  - intros us ms ts v name args tk ms' ts' _ _ B _ KW _ _ _ (M0 & M) _. destruct (kw_flow us ts v name args tk B KW) as (N & F).
    replace (map ref us ++ ts ++ ref v :: sg TCOLON :: tk ++ sg TCHAIN :: ts') with ((map ref us ++ ts ++ ref v :: sg TCOLON :: tk) ++ sg TCHAIN :: ts').
    2:{ rewrite <- !app_assoc. reflexivity. }
    split; [now apply nc_app|]. intros k K. destruct (F (sg TCHAIN :: ts' ++ k) eq_refl) as (F1 & F2). destruct (M k K) as (M1 & M2). split.
    + intros n. rewrite <- app_assoc. cbn [app]. rewrite F1. cbn [parts ParseSpec.sign Nat.eqb]. apply M1.
    + intros s. rewrite after_app. cbn [app]. rewrite F2. cbn [after ParseSpec.sign step fst is_colon]. apply M2.
  - intros r tr ms tm _ ((R0 & R) & N) _ (M0 & M). split; [now apply nc_app|]. split; [destruct tr; [congruence|discriminate]|]. intros k K.
    destruct (R (tm ++ k) (nc_app _ _ M0 K)) as (R1 & R2 & R3). destruct (M k K) as (M1 & M2). split.
    + intros n. rewrite <- app_assoc, R1. apply M1.
    + intros pc s. rewrite after_app, R3 by (auto; discriminate). apply M2.
  - intros m v tv e te _ ((R0 & R) & N) _ (E0 & E1 & E). split; [now apply nc_app|]. split; [destruct tv; [congruence|discriminate]|]. intros k K.
    destruct (R (sg TASSIGN :: te ++ k) eq_refl) as (R1 & R2 & R3). destruct (E k K) as (M1 & M2). split.
    + intros n. rewrite <- app_assoc. cbn [app]. rewrite R1. cbn [parts ParseSpec.sign]. apply M1.
    + intros pc s. rewrite after_app. cbn [app]. rewrite R3 by (auto; discriminate). cbn [after ParseSpec.sign step fst is_colon]. apply M2.
  - split; [reflexivity|]. intros k K. split; [auto|]. intros pc s. now exists pc.
  - intros e te es ts _ (E0 & E1 & E) _ (S0 & S). split; [now apply nc_app|]. intros k K. destruct (E (sg TDOT :: ts ++ k) eq_refl) as (M1 & M2). destruct (S k K) as (S1 & S2). split.
    + intros n. rewrite <- app_assoc. cbn [app]. rewrite M1. cbn [parts ParseSpec.sign Nat.eqb]. apply S1.
    + intros pc s. rewrite after_app. cbn [app]. destruct (M2 pc s) as (f & ->). cbn [after ParseSpec.sign step fst is_colon]. apply S2.
  - intros e te es ts _ (E0 & E1 & E) _ (S0 & S). split; [reflexivity|]. intros k K. destruct (E (sg TDOT :: ts ++ k) eq_refl) as (M1 & M2). destruct (S k K) as (S1 & S2). split.
    + intros n. cbn [app parts ParseSpec.sign]. rewrite <- app_assoc. cbn [app]. change (TDOT, []) with (sg TDOT). rewrite M1. cbn [parts ParseSpec.sign Nat.eqb]. apply S1.
    + intros pc s. cbn [after app ParseSpec.sign step fst is_colon]. change (TDOT, []) with (sg TDOT). rewrite after_app. cbn [app]. destruct (M2 false s) as (f & ->). cbn [after ParseSpec.sign step fst is_colon]. apply S2.
Qed.
End Balance.

(** ** From one language to the other *)
Section Transfer.
Variables d d' : dict.
Variables word msgs txt : text -> text -> Prop.
Variable M : text -> Prop.
Definition fits (pc : bool) (st : list bool) (t t' : tk) (s s' : list tk) : Prop :=
  fst t = fst t' /\
  match fst t with
  | TREF => if colon s && negb pc
            then hd true st = false -> (valid (snd t) -> valid (snd t')) /\ length (whole (d_prefix d') (snd t' :: parts 0 s')) <= 255 /\
                 msgs (whole (d_prefix d) (snd t :: parts 0 s)) (whole (d_prefix d') (snd t' :: parts 0 s'))
            else word (snd t) (snd t') /\ keeps M d d' (snd t) (snd t')
  | TQUOTE => txt (snd t) (snd t')
  | _ => snd t = snd t'
  end.
Fixpoint rel (pc : bool) (st : list bool) (ts ts' k k' : list tk) : Prop :=
  match ts, ts' with
  | [], [] => True
  | t :: r, t' :: r' => fits pc st t t' (r ++ k) (r' ++ k') /\ rel (is_colon t) (step pc st t (r ++ k)) r r' k k'
  | _, _ => False
  end.
Lemma rel_app a : forall pc st b x k k', rel pc st (a ++ b) x k k' ->
  exists a' b', x = a' ++ b' /\ rel pc st a a' (b ++ k) (b' ++ k') /\ (let '(p, s) := after pc st a (b ++ k) in rel p s b b' k k').
Proof.
  induction a as [|t a IH]; intros pc st b x k k' H; cbn [app] in *.
  - exists [], x. cbn [after rel app]. auto.
  - destruct x as [|t' x]; [destruct H|]. destruct H as (F & H). destruct (IH _ _ _ _ _ _ H) as (a' & b' & -> & A & B).
    exists (t' :: a'), b'. split; [reflexivity|]. cbn [rel after]. rewrite !app_assoc. auto.
Qed.
Lemma rel_types ts : forall pc st ts' k k', rel pc st ts ts' k k' -> map fst ts = map fst ts'.
Proof. induction ts as [|t ts IH]; intros pc st [|t' ts'] k k' H; cbn in *; try contradiction; [reflexivity|]. destruct H as ((F & _) & H). f_equal; eauto. Qed.
Lemma nc_types k k' : map fst k = map fst k' -> nc k -> nc k'.
Proof. destruct k as [|(t & v) k], k' as [|(t' & v') k']; cbn; try discriminate; auto. intros H. injection H as -> _. auto. Qed.
Definition stop (k : list tk) : Prop := match k with (TDOT, _) :: _ | (TCHAIN, _) :: _ | (TPARCLOSE, _) :: _ => True | _ => False end.
Lemma stop_types k k' : map fst k = map fst k' -> stop k -> stop k'.
Proof. destruct k as [|(t & v) k], k' as [|(t' & v') k']; cbn; try discriminate; auto. intros H. injection H as -> _. auto. Qed.
Lemma stop_parts k : stop k -> nc k /\ parts 0 k = [].
Proof. destruct k as [|([] & v) k]; try contradiction; split; reflexivity. Qed.

Notation same := (same word msgs txt). Notation all := (all word msgs txt). Notation sends := (sends word msgs txt).
Lemma sends_app a : forall a' b b', sends a a' -> sends b b' -> sends (a ++ b) (a' ++ b').
Proof. induction a; intros a' b b' A B; inversion A; subst; cbn [app]; [exact B|constructor; auto..]. Qed.
Lemma same_sent r r' ms ms' : same r r' -> sends ms ms' -> same (sent r ms) (sent r' ms').
Proof. intros R SM. inversion SM; subst; cbn [sent]; [exact R|now constructor..]. Qed.

Lemma uses_sent r ms : uses M (sent r ms) -> uses M r /\ uses_msgs M ms.
Proof. destruct ms; cbn [sent]; [intros H; split; [exact H|exact I]|auto]. Qed.
Lemma uses_app a b : uses_msgs M (a ++ b) -> uses_msgs M a /\ uses_msgs M b.
Proof. unfold uses_msgs. induction a as [|x a IH]; cbn [app fold_right]; [auto|]. intros (A & B). apply IH in B as (B & C). auto. Qed.
Lemma rel_ref pc st v x k k' : rel pc st [ref v] x k k' -> nc k -> exists v', x = [ref v'] /\ word v v' /\ keeps M d d' v v'.
Proof.
  destruct x as [|(t & v') [|]]; cbn [rel app]; intros H N; try contradiction; [|destruct H as (_ & [])].
  destruct H as ((F & G) & _). cbn [fst snd ref] in *. subst t. unfold nc in N. rewrite N in G. cbn [andb] in G. exists v'. split; [reflexivity|exact G].
Qed.
Lemma rel_sign pc st t x k k' : rel pc st [sg t] x k k' -> t <> TREF -> t <> TQUOTE -> x = [sg t].
Proof.
  destruct x as [|(t' & v') [|]]; cbn [rel app]; intros H N1 N2; try contradiction; [|destruct H as (_ & [])].
  destruct H as ((F & G) & _). cbn [fst snd ParseSpec.sign] in *. subst t'. unfold sg. destruct t; try congruence; subst; reflexivity.
Qed.
Lemma rel_signs pc st t r x k k' : rel pc st (sg t :: r) x k k' -> t <> TREF -> t <> TQUOTE ->
  exists r', x = sg t :: r' /\ rel (is_colon (sg t)) (step pc st (sg t) (r ++ k)) r r' k k'.
Proof.
  intros H N1 N2. destruct (rel_app [sg t] pc st r x k k' H) as (a' & b' & -> & A & B). apply rel_sign in A; [|assumption..]. subst a'. cbn [app] in *. eauto.
Qed.
Lemma rel_refs us : forall st x k k', st <> [] -> rel false st (map ref us) x k k' -> nc k -> Forall several us -> uses_msgs M (map MUna us) ->
  exists us', x = map ref us' /\ Forall several us' /\ sends (map MUna us) (map MUna us').
Proof.
  induction us as [|u us IH]; intros st x k k' S H N F US.
  - destruct x; [|contradiction]. exists []. repeat split; constructor.
  - cbn [map] in H. destruct (rel_app [ref u] false st (map ref us) x k k' H) as (a' & b' & -> & A & B). inversion F as [|? ? F1 F2]; subst.
    assert (NN : nc (map ref us ++ k)) by (destruct us; [exact N|reflexivity]). destruct (rel_ref _ _ _ _ _ _ A NN) as (u' & -> & W & (K2 & _)). destruct US as (US1 & US2). cbn [uses_msg] in US1. destruct (K2 US1) as (_ & K3).
    cbn [after ref step fst is_colon app] in B. unfold nc in NN. rewrite NN in B. cbn [andb] in B. replace (match st with [] | _ => st end) with st in B by (destruct st; reflexivity).
    destruct (IH st b' k k' S B N F2 US2) as (us' & -> & G1 & G2). exists (u' :: us'). split; [reflexivity|]. split; [constructor; auto|]. cbn [map]. now constructor.
Qed.
Lemma rel_params ps : forall pc s x k k', rel pc (false :: s) (param_tokens ps) x k k' ->
  exists ps', x = param_tokens ps' /\ Forall2 word ps ps'.
Proof.
  induction ps as [|p ps IH]; intros pc s x k k' H; cbn [param_tokens] in H.
  - destruct x; [|contradiction]. exists []. split; [reflexivity|constructor].
  - destruct (rel_signs _ _ _ _ _ _ _ H ltac:(discriminate) ltac:(discriminate)) as (r' & -> & B). destruct r' as [|(t & p') r']; [destruct B|].
    destruct B as ((F & G) & B). cbn [fst snd ref is_colon ParseSpec.sign negb] in *. subst t. rewrite andb_false_r in G. cbn [step fst ParseSpec.sign ref app] in B.
    rewrite andb_false_r in B. destruct (IH _ _ _ _ _ B) as (ps' & -> & P). exists (p' :: ps'). split; [reflexivity|]. constructor; [apply G|exact P].
Qed.
Ltac split_rel H a' b' E A B := apply rel_app in H as (a' & b' & E & A & B).

Definition Tprim n ts := uses M n -> forall pc st ts' k k', st <> [] -> nc k -> map fst k = map fst k' -> rel pc st ts ts' k k' -> exists n', prim d' n' ts' /\ same n n'.
Definition Toperand n ts := uses M n -> forall pc st ts' k k', st <> [] -> nc k -> map fst k = map fst k' -> rel pc st ts ts' k k' -> exists n', operand d' n' ts' /\ same n n'.
Definition Targument n ts := uses M n -> forall pc st ts' k k', st <> [] -> nc k -> map fst k = map fst k' -> rel pc st ts ts' k k' -> exists n', argument d' n' ts' /\ same n n'.
Definition Tbinaries ms ts := uses_msgs M ms -> forall st ts' k k', st <> [] -> nc k -> map fst k = map fst k' -> rel false st ts ts' k k' -> exists ms', binaries d' ms' ts' /\ sends ms ms'.
Definition Tkeywords (name : text) args ts := uses_all M args -> forall pc s ts' k k', nc k -> map fst k = map fst k' -> rel pc (true :: s) ts ts' k k' ->
  exists name' args', keywords d' name' args' ts' /\ all args args'.
Definition Tmessages ms ts := uses_msgs M ms -> forall s ts' k k', stop k -> map fst k = map fst k' -> rel false (false :: s) ts ts' k k' -> exists ms', messages_of d' ms' ts' /\ sends ms ms'.
Definition Texpression n ts := uses M n -> forall pc s ts' k k', stop k -> map fst k = map fst k' -> rel pc (false :: s) ts ts' k k' -> exists n', expression d' n' ts' /\ same n n'.
Definition Tstatements ss ts := uses_all M ss -> forall pc s ts' k k', nc k -> map fst k = map fst k' -> rel pc (false :: s) ts ts' k k' -> exists ss', statements d' ss' ts' /\ all ss ss'.

Lemma types_app (a a' b b' : list tk) : map fst a = map fst a' -> map fst b = map fst b' -> map fst (a ++ b) = map fst (a' ++ b').
Proof. intros A B. rewrite !map_app. f_equal; assumption. Qed.

(** The head of a message: unary and binary messages, then the first part. *)
Lemma kw_transfer us ms ts v name args tk s ts' k k' : Forall several us -> binaries d ms ts -> Tbinaries ms ts -> keywords d name args tk -> Tkeywords name args tk ->
  valid v -> uses_msgs M (map MUna us) -> uses_msgs M ms -> uses_all M args -> stop k -> map fst k = map fst k' ->
  rel false (false :: s) (map ref us ++ ts ++ ref v :: sg TCOLON :: tk) ts' k k' ->
  exists us' ms' ts1 v' name' args' tk', ts' = map ref us' ++ ts1 ++ ref v' :: sg TCOLON :: tk' /\ Forall several us' /\ binaries d' ms' ts1 /\
    keywords d' name' args' tk' /\ valid v' /\ length (v' ++ d_prefix d' :: name') <= 255 /\
    sends (map MUna us) (map MUna us') /\ sends ms ms' /\ msgs (v ++ d_prefix d :: name) (v' ++ d_prefix d' :: name') /\ all args args'.
Proof.
  intros U B TB KW TK V U1 U2 U3 ST KK H. specialize (TB U2). specialize (TK U3).
  split_rel H a1 b1 E1 A1 B1. subst ts'. destruct (flat_refs us) as (_ & FU).
  pose proof (proj1 (proj2 (proj2 (balance d))) _ _ B) as FB. destruct FB as (NB & FB).
  destruct (FU ((ts ++ ref v :: sg TCOLON :: tk) ++ k)) as (_ & AU & _); [apply nc_app; [apply nc_app; [exact NB|reflexivity]|apply stop_parts, ST]|].
  rewrite AU in B1 by discriminate. clear AU FU. cbv beta iota in B1.
  destruct (rel_refs us (false :: s) a1 _ _ ltac:(discriminate) A1) as (us' & -> & U' & SU).
  { apply nc_app; [apply nc_app; [exact NB|reflexivity]|apply stop_parts, ST]. }
  { exact U. }
  { exact U1. }
  split_rel B1 a2 b2 E2 A2 B2. subst b1. destruct (FB ((ref v :: sg TCOLON :: tk) ++ k) eq_refl) as (_ & AB & _). rewrite AB in B2 by discriminate. cbv beta iota in B2.
  destruct b2 as [|(t & v') b2]; [destruct B2|]. destruct B2 as ((F1 & F2) & B2). cbn [fst snd ref] in F1, F2. subst t.
  cbn [app colon is_colon fst ParseSpec.sign negb andb] in F2. destruct (F2 eq_refl) as (V' & LEN & MSG). clear F2.
  cbn [is_colon ref fst step app colon ParseSpec.sign negb andb] in B2.
  change ((TCOLON, []) :: tk) with (sg TCOLON :: tk) in B2.
  destruct (rel_signs _ _ _ _ _ _ _ B2 ltac:(discriminate) ltac:(discriminate)) as (tk' & -> & B3). cbn [is_colon fst step ParseSpec.sign] in B3.
  destruct (stop_parts k ST) as (NK & PK). pose proof (stop_types k k' KK ST) as ST'. destruct (stop_parts k' ST') as (NK' & PK').
  assert (TT : map fst (ref v :: sg TCOLON :: tk) = map fst ((TREF, v') :: sg TCOLON :: tk')) by (cbn [map fst ref ParseSpec.sign]; do 2 f_equal; exact (rel_types _ _ _ _ _ _ B3)).
  destruct ((fun a b c => TB _ _ _ _ a b c A2) ltac:(discriminate) eq_refl (types_app _ _ _ _ TT KK)) as (ms' & BM & SM).
  destruct (TK true s tk' k k' NK KK B3) as (name' & args' & KW' & SA).
  pose proof (proj1 (proj2 (proj2 (proj2 (proj2 (balance d))))) _ _ _ KW) as (_ & _ & (ks & PE & NE) & _).
  pose proof (proj1 (proj2 (proj2 (proj2 (proj2 (balance d'))))) _ _ _ KW') as (_ & _ & (ks' & PE' & NE') & _).
  assert (W : forall p w l, whole p (w :: l) = w ++ p :: whole p l) by (intros; unfold whole; cbn [map concat]; now rewrite <- app_assoc).
  cbn [parts app ParseSpec.sign] in LEN, MSG. rewrite PE, PK, app_nil_r, W, <- NE in MSG by exact NK. rewrite PE', PK', app_nil_r, W, <- NE' in MSG, LEN by exact NK'.
  exists us', ms', a2, v', name', args', tk'. repeat (split; [first [reflexivity|assumption|now apply V']|]). exact SA.
Qed.

Lemma transfer :
  (forall n ts, prim d n ts -> prim d n ts /\ Tprim n ts) /\ (forall n ts, operand d n ts -> operand d n ts /\ Toperand n ts) /\ (forall ms ts, binaries d ms ts -> binaries d ms ts /\ Tbinaries ms ts) /\
  (forall n ts, argument d n ts -> argument d n ts /\ Targument n ts) /\ (forall name args ts, keywords d name args ts -> keywords d name args ts /\ Tkeywords name args ts) /\
  (forall ms ts, messages_of d ms ts -> messages_of d ms ts /\ Tmessages ms ts) /\ (forall n ts, expression d n ts -> expression d n ts /\ Texpression n ts) /\
  (forall l ts, statements d l ts -> statements d l ts /\ Tstatements l ts).
Proof.
  destruct (balance d) as (bal1 & bal2 & bal3 & bal4 & bal5 & bal6 & bal7 & bal8).
  apply (grammar_mi d (fun n ts => prim d n ts /\ Tprim n ts) (fun n ts => operand d n ts /\ Toperand n ts) (fun n ts => binaries d n ts /\ Tbinaries n ts)
    (fun n ts => argument d n ts /\ Targument n ts) (fun n a ts => keywords d n a ts /\ Tkeywords n a ts) (fun n ts => messages_of d n ts /\ Tmessages n ts)
    (fun n ts => expression d n ts /\ Texpression n ts) (fun n ts => statements d n ts /\ Tstatements n ts)).
  - intros v. split; [constructor|]. intros UU pc st ts' k k' S N KK H. destruct ts' as [|(t & v') [|]]; try contradiction; [|destruct H as (_ & [])].
    destruct H as ((F & G) & _). cbn [fst snd] in *. subst. eexists. split; constructor.
  - intros v. split; [constructor|]. intros UU pc st ts' k k' S N KK H. destruct ts' as [|(t & v') [|]]; try contradiction; [|destruct H as (_ & [])].
    destruct H as ((F & G) & _). cbn [fst snd] in *. subst. eexists. split; constructor. exact G.
  - intros v MM V. split; [now constructor|]. intros UU pc st ts' k k' S N KK H. destruct (rel_ref _ _ _ _ _ _ H N) as (v' & -> & W & (_ & K3 & K4)).
    exists (NRef 0 v'). split; [|now constructor]. constructor; tauto.
  - intros w v MM V. split; [now constructor|]. intros UU pc st ts' k k' S N KK H. apply (rel_app [ref w]) in H as (a' & b' & -> & A & B).
    destruct (rel_ref _ _ _ _ _ _ A eq_refl) as (w' & -> & W & (_ & K3 & K4)). cbn [after] in B. destruct (rel_ref _ _ _ _ _ _ B N) as (v' & -> & W2 & (_ & K5 & K6)).
    exists (NRef 1 v'). split; [|now constructor]. constructor; tauto.
  - intros w v MM V. split; [now constructor|]. intros UU pc st ts' k k' S N KK H. apply (rel_app [ref w]) in H as (a' & b' & -> & A & B).
    destruct (rel_ref _ _ _ _ _ _ A eq_refl) as (w' & -> & W & (_ & K3 & K4)). cbn [after] in B. destruct (rel_ref _ _ _ _ _ _ B N) as (v' & -> & W2 & (_ & K5 & K6)).
    exists (NRef 2 v'). split; [|now constructor]. constructor; tauto.
  - intros e ts _ (E & TE). split; [now constructor|]. intros UU pc st ts' k k' S N KK H.
    destruct (rel_signs _ _ _ _ _ _ _ H ltac:(discriminate) ltac:(discriminate)) as (r' & -> & B). apply rel_app in B as (a' & b' & -> & A & B).
    assert (b' = [sg TPARCLOSE]) as -> by (destruct (after _ _ ts _); eapply rel_sign; [exact B|discriminate..]).
    replace (step pc st (sg TPAROPEN) ((ts ++ [sg TPARCLOSE]) ++ k)) with (false :: st) in A by (destruct st; reflexivity).
    destruct (TE UU _ _ _ ([sg TPARCLOSE] ++ k) ([sg TPARCLOSE] ++ k') I ltac:(cbn; now f_equal) A) as (e' & E' & SE).
    exists (NNested e'). split; now constructor.
  - intros ps b ts NE _ (E & TE). split; [now constructor|]. intros UU pc st ts' k k' S N KK H.
    destruct (rel_signs _ _ _ _ _ _ _ H ltac:(discriminate) ltac:(discriminate)) as (r' & -> & B).
    match type of B with rel _ ?x _ _ _ _ => replace x with (false :: st) in B by (destruct st; reflexivity) end.
    apply rel_app in B as (a1 & b1 & -> & A1 & B). destruct (rel_params _ _ _ _ _ _ A1) as (ps' & -> & P).
    destruct (bal8 _ _ E) as (NT & FT).
    destruct (params_flow ps ((ts ++ [sg TBLOCKCLOSE]) ++ k)) as (_ & FP); [apply nc_app; [apply nc_app; [exact NT|reflexivity]|exact N]|].
    destruct (FP (is_colon (sg TBLOCKOPEN)) st) as (p & EP). rewrite EP in B. cbv beta iota in B.
    apply rel_app in B as (a2 & b2 & -> & A2 & B). assert (b2 = [sg TBLOCKCLOSE]) as -> by (destruct (after _ _ ts _); eapply rel_sign; [exact B|discriminate..]).
    destruct (TE UU _ _ _ ([sg TBLOCKCLOSE] ++ k) ([sg TBLOCKCLOSE] ++ k') eq_refl ltac:(cbn; now f_equal) A2) as (b' & E' & SB).
    exists (NBlock ps' b'). split; [|now constructor]. constructor; [|exact E']. destruct NE as [NE|NE]; [left|right]; intros ->; [inversion P|inversion SB]; subst; congruence.
  - intros r ts us PR (R & TR) U. split; [now constructor|]. intros UU pc st ts' k k' S N KK H. apply rel_app in H as (a' & b' & -> & A & B).
    destruct (bal1 _ _ R) as ((_ & F) & NE). assert (NN : nc (map ref us ++ k)) by (destruct us; [exact N|reflexivity]).
    destruct (F _ NN) as (_ & _ & F3). rewrite F3 in B by auto. cbv beta iota in B.
    destruct (TR (proj1 (uses_sent _ _ UU)) pc st a' _ _ S NN (types_app _ _ _ _ (rel_types _ _ _ _ _ _ B) KK) A) as (r' & R' & SR).
    destruct (rel_refs us st b' k k' S B N U (proj2 (uses_sent _ _ UU))) as (us' & -> & U' & SU). exists (sent r' (map MUna us')). split; [now constructor|now apply same_sent].
  - split; [constructor|]. intros UU st ts' k k' S N KK H. destruct ts'; [|contradiction]. exists []. split; constructor.
  - intros v a ta ms ts V _ (A & TA) _ (GM & TM). split; [now constructor|]. intros UU st ts' k k' S N KK H. apply (rel_app [ref v]) in H as (a1 & b1 & -> & A1 & B).
    destruct (bal2 _ _ A) as ((NA & FA) & NE). destruct (bal3 _ _ GM) as (NM & FM).
    assert (NN : nc (ts ++ k)) by now apply nc_app. assert (NN2 : nc ((ta ++ ts) ++ k)) by (rewrite <- app_assoc; now apply nc_app).
    destruct (rel_ref _ _ _ _ _ _ A1 NN2) as (v' & -> & W & (K1 & _)). destruct UU as ((UU1 & UU2) & UU3). destruct (K1 UU1) as (K1' & _). specialize (TA UU2). specialize (TM UU3).
    destruct (flat_ref v) as (_ & FR). destruct (FR _ NN2) as (_ & F2 & _). rewrite F2 in B by exact S. cbv beta iota in B.
    apply rel_app in B as (a2 & b2 & -> & A2 & B). destruct (FA _ NN) as (_ & F4 & _). rewrite F4 in B by exact S. cbv beta iota in B.
    destruct (TA _ _ _ _ _ S NN (types_app _ _ _ _ (rel_types _ _ _ _ _ _ B) KK) A2) as (x & X & SX).
    destruct (TM _ _ _ _ S N KK B) as (y & Y & SY). exists (MBin v' x :: y). split; [|now constructor]. apply (g_bcons d' v' x a2 y b2); auto.
  - intros r tr us ms ts _ (R & TR) U _ (GM & TM). split; [now constructor|]. intros UU pc st ts' k k' S N KK H. apply rel_app in H as (a1 & b1 & -> & A & B).
    destruct (bal1 _ _ R) as ((_ & F) & NE). destruct (bal3 _ _ GM) as (NM & FM). assert (NN : nc (ts ++ k)) by now apply nc_app.
    assert (NN2 : nc ((map ref us ++ ts) ++ k)) by (rewrite <- app_assoc; destruct us; [exact NN|reflexivity]).
    destruct (F _ NN2) as (_ & _ & F3). rewrite F3 in B by auto. cbv beta iota in B.
    destruct (TR (proj1 (uses_sent _ _ UU)) pc st a1 _ _ S NN2 (types_app _ _ _ _ (rel_types _ _ _ _ _ _ B) KK) A) as (r' & R' & SR).
    apply rel_app in B as (a2 & b2 & -> & A2 & B). destruct (flat_refs us) as (_ & FU). destruct (FU _ NN) as (_ & F5 & _). rewrite F5 in B by exact S. cbv beta iota in B.
    destruct (rel_refs us st a2 _ _ S A2 NN U (proj1 (uses_app _ _ (proj2 (uses_sent _ _ UU))))) as (us' & -> & U' & SU). destruct (TM (proj2 (uses_app _ _ (proj2 (uses_sent _ _ UU)))) _ _ _ _ S N KK B) as (y & Y & SY).
    exists (sent r' (map MUna us' ++ y)). split; [now constructor|]. apply same_sent; [exact SR|now apply sends_app].
  - intros a ta _ (A & TA). split; [now constructor|]. intros UU pc s ts' k k' N KK H. destruct ((fun a b c => TA (proj1 UU) _ _ _ _ _ a b c H) ltac:(discriminate) N KK) as (a' & A' & SA).
    exists [], [a']. split; [now constructor|]. repeat constructor. exact SA.
  - intros a ta v name args ts _ (A & TA) _ (K & TK). split; [now constructor|]. intros UU pc s ts' k k' N KK H. apply rel_app in H as (a1 & b1 & -> & A1 & B).
    destruct (bal4 _ _ A) as ((NA & FA) & NE). destruct (FA ((ref v :: sg TCOLON :: ts) ++ k) eq_refl) as (_ & _ & F3). rewrite F3 in B by (first [exact NE|discriminate]). cbv beta iota in B.
    destruct ((fun a b c => TA (proj1 UU) _ _ _ _ _ a b c A1) ltac:(discriminate) eq_refl (types_app _ _ _ _ (rel_types _ _ _ _ _ _ B) KK)) as (a' & A' & SA).
    destruct b1 as [|(t & v') b1]; [destruct B|]. destruct B as ((G1 & _) & B). cbn [fst ref] in G1. subst t. cbn [is_colon ref fst step app colon ParseSpec.sign negb andb] in B.
    change ((TCOLON, []) :: ts) with (sg TCOLON :: ts) in B.
    destruct (rel_signs _ _ _ _ _ _ _ B ltac:(discriminate) ltac:(discriminate)) as (tk' & -> & B3). cbn [is_colon fst step ParseSpec.sign] in B3.
    destruct (TK (proj2 UU) _ _ _ _ _ N KK B3) as (name' & args' & K' & SK). exists (v' ++ d_prefix d' :: name'), (a' :: args'). split; [now apply g_kmore|now constructor].
  - intros us ms ts U _ (GM & TM). split; [now constructor|]. intros UU s ts' k k' ST KK H. destruct (stop_parts k ST) as (N & _). apply rel_app in H as (a2 & b2 & -> & A2 & B).
    destruct (bal3 _ _ GM) as (NM & FM). assert (NN : nc (ts ++ k)) by now apply nc_app.
    destruct (flat_refs us) as (_ & FU). destruct (FU _ NN) as (_ & F5 & _). rewrite F5 in B by discriminate. cbv beta iota in B.
    destruct (rel_refs us (false :: s) a2 _ _ ltac:(discriminate) A2 NN U (proj1 (uses_app _ _ UU))) as (us' & -> & U' & SU). destruct ((fun a b c => TM (proj2 (uses_app _ _ UU)) _ _ _ _ a b c B) ltac:(discriminate) N KK) as (y & Y & SY).
    exists (map MUna us' ++ y). split; [now constructor|now apply sends_app].
  - intros us ms ts v name args tk U _ (GM & TM) _ (K & TK) V L. split; [now apply g_kw|]. intros UU s ts' k k' ST KK H.
    apply uses_app in UU as (UU1 & UU2). apply uses_app in UU2 as (UU2 & UU3 & UU4). cbn [uses_msg] in UU3.
    destruct (kw_transfer us ms ts v name args tk s ts' k k' U GM TM K TK V UU1 UU2 UU3 ST KK H) as (us' & ms' & ts1 & v' & name' & args' & tk' & -> & U' & M' & K' & V' & L' & SU & SM & MM & SA).
    exists (map MUna us' ++ ms' ++ [MKw (v' ++ d_prefix d' :: name') args']). split; [now apply g_kw|]. apply sends_app; [exact SU|]. apply sends_app; [exact SM|]. repeat constructor; assumption.
  - intros us ms ts v name args tk ms2 ts2 U _ (GM & TM) _ (K & TK) V L _ (M2 & TM2) NE. split; [now apply g_cascade|]. intros UU s ts' k k' ST KK H.
    replace (map ref us ++ ts ++ ref v :: sg TCOLON :: tk ++ sg TCHAIN :: ts2) with ((map ref us ++ ts ++ ref v :: sg TCOLON :: tk) ++ sg TCHAIN :: ts2) in H.
    2:{ rewrite <- !app_assoc. reflexivity. }
    apply rel_app in H as (a1 & b1 & -> & A & B). destruct (kw_flow d us ts v name args tk (bal3 _ _ GM) (bal5 _ _ _ K)) as (_ & F).
    destruct (F ((sg TCHAIN :: ts2) ++ k) eq_refl) as (_ & F2). rewrite F2 in B. cbv beta iota in B. clear F F2.
    destruct (rel_signs _ _ _ _ _ _ _ B ltac:(discriminate) ltac:(discriminate)) as (ts3 & -> & B3). cbn [is_colon fst step ParseSpec.sign] in B3.
    assert (TT : map fst (sg TCHAIN :: ts2) = map fst (sg TCHAIN :: ts3)) by (cbn [map fst ParseSpec.sign]; f_equal; exact (rel_types _ _ _ _ _ _ B3)).
    apply uses_app in UU as (UU1 & UU2). apply uses_app in UU2 as (UU2 & UU3 & UU4). cbn [uses_msg] in UU3.
    destruct (kw_transfer us ms ts v name args tk s a1 ((sg TCHAIN :: ts2) ++ k) ((sg TCHAIN :: ts3) ++ k') U GM TM K TK V UU1 UU2 UU3 I (types_app _ _ _ _ TT KK) A) as (us' & ms' & ts1 & v' & name' & args' & tk' & -> & U' & M' & K' & V' & L' & SU & SM & MM & SA).
    destruct (TM2 UU4 _ _ _ _ ST KK B3) as (ms3 & M3 & SM3).
    exists (map MUna us' ++ ms' ++ MKw (v' ++ d_prefix d' :: name') args' :: ms3). split.
    + rewrite <- !app_assoc. cbn [app]. apply g_cascade; auto. intros ->. inversion SM3; subst; congruence.
    + apply sends_app; [exact SU|]. apply sends_app; [exact SM|]. constructor; assumption.
  - intros r tr ms tm _ (R & TR) _ (GM & TM). split; [now constructor|]. intros UU pc s ts' k k' ST KK H. apply rel_app in H as (a1 & b1 & -> & A & B).
    destruct (bal1 _ _ R) as ((_ & F) & NE). destruct (bal6 _ _ GM) as (NM & _). destruct (stop_parts k ST) as (N & _). assert (NN : nc (tm ++ k)) by now apply nc_app.
    destruct (F _ NN) as (_ & _ & F3). rewrite F3 in B by (first [exact NE|discriminate]). cbv beta iota in B.
    destruct ((fun a b c => TR (proj1 (uses_sent _ _ UU)) _ _ _ _ _ a b c A) ltac:(discriminate) NN (types_app _ _ _ _ (rel_types _ _ _ _ _ _ B) KK)) as (r' & R' & SR). destruct (TM (proj2 (uses_sent _ _ UU)) _ _ _ _ ST KK B) as (y & Y & SY).
    exists (sent r' y). split; [now constructor|now apply same_sent].
  - intros m v tv e te _ (R & TR) _ (E & TE). split; [now constructor|]. intros UU pc s ts' k k' ST KK H. apply rel_app in H as (a1 & b1 & -> & A & B).
    destruct (bal1 _ _ R) as ((_ & F) & NE). destruct (F ((sg TASSIGN :: te) ++ k) eq_refl) as (_ & _ & F3). rewrite F3 in B by (first [exact NE|discriminate]). cbv beta iota in B.
    destruct ((fun a b c => TR I _ _ _ _ _ a b c A) ltac:(discriminate) eq_refl (types_app _ _ _ _ (rel_types _ _ _ _ _ _ B) KK)) as (r' & R' & SR).
    destruct (rel_signs _ _ _ _ _ _ _ B ltac:(discriminate) ltac:(discriminate)) as (te' & -> & B3). cbn [is_colon fst step ParseSpec.sign] in B3.
    destruct (TE (proj2 UU) _ _ _ _ _ ST KK B3) as (e' & E' & SE). inversion SR; subst. exists (NAssign (NRef m v') e'). split; [now constructor|]. constructor; assumption.
  - split; [constructor|]. intros UU pc s ts' k k' N KK H. destruct ts'; [|contradiction]. exists []. split; constructor.
  - intros e te es ts _ (E & TE) _ (S & TS). split; [now constructor|]. intros UU pc s ts' k k' N KK H. apply rel_app in H as (a1 & b1 & -> & A & B).
    destruct (bal7 _ _ E) as (_ & _ & F). destruct (F ((sg TDOT :: ts) ++ k) eq_refl) as (_ & F2). destruct (F2 pc s) as (f & F3). rewrite F3 in B. cbv beta iota in B.
    destruct ((fun b c => TE (proj1 UU) _ _ _ _ _ b c A) I (types_app _ _ _ _ (rel_types _ _ _ _ _ _ B) KK)) as (e' & E' & SE).
    destruct (rel_signs _ _ _ _ _ _ _ B ltac:(discriminate) ltac:(discriminate)) as (ts2 & -> & B3). cbn [is_colon fst step ParseSpec.sign] in B3.
    destruct (TS (proj2 UU) _ _ _ _ _ N KK B3) as (es' & S' & SS). exists (e' :: es'). split; now constructor.
  - intros e te es ts _ (E & TE) _ (S & TS). split; [now constructor|]. intros UU pc s ts' k k' N KK H.
    destruct (rel_signs _ _ _ _ _ _ _ H ltac:(discriminate) ltac:(discriminate)) as (ts3 & -> & H3). cbn [is_colon fst step ParseSpec.sign] in H3. clear H. rename H3 into H.
    apply rel_app in H as (a1 & b1 & -> & A & B).
    destruct (bal7 _ _ E) as (_ & _ & F). destruct (F ((sg TDOT :: ts) ++ k) eq_refl) as (_ & F2). destruct (F2 false s) as (f & F3). rewrite F3 in B. cbv beta iota in B.
    destruct ((fun b c => TE (proj1 UU) _ _ _ _ _ b c A) I (types_app _ _ _ _ (rel_types _ _ _ _ _ _ B) KK)) as (e' & E' & SE).
    destruct (rel_signs _ _ _ _ _ _ _ B ltac:(discriminate) ltac:(discriminate)) as (ts2 & -> & B3). cbn [is_colon fst step ParseSpec.sign] in B3.
    destruct (TS (proj2 UU) _ _ _ _ _ N KK B3) as (es' & S' & SS). exists (NRet e' :: es'). split; [now constructor|]. constructor; [now constructor|exact SS].
Qed.
End Transfer.

(** ** The tokens of a program and of its translation *)
Section Pieces.
Variables d d' : dict.
Variables T T' : tdict.
Variable trail : text.
Variable M : text -> Prop.
Hypothesis L : lang d.
Hypothesis L' : lang d'.
Lemma placed_nc e key l : placed false key l = true -> nc (tokens e l).
Proof. destruct l as [|(ws & []) l]; intros H; try reflexivity. discriminate. Qed.
Lemma message_nc (a b : dict) (D : tdict) l st x : in_message st = true -> well_formed a b D st l x = true -> nc (tokens a l).
Proof.
  destruct l as [|(ws & []) l]; intros IM H; try reflexivity. cbn [well_formed] in H. apply andb_true_iff in H as (_ & H).
  destruct st as [|(c & f) st]; [discriminate|]. cbn in IM. subst f. destruct c; discriminate.
Qed.
Lemma parts_later (a b : dict) (D : tdict) x l : forall st n c, well_formed a b D st l x = true -> nth_error st n = Some (c, true) ->
  parts n (tokens a l) = map fst (later n l).
Proof.
  induction l as [|(ws & p) l IH]; intros st n c H N; [reflexivity|]. cbn [well_formed] in H. apply andb_true_iff in H as (_ & H).
  destruct (next st p) as [st'|] eqn:E; [|discriminate]. cbn [tokens flat_map]. fold (tokens a l).
  destruct p; cbn [piece_tokens app later].
  - destruct st as [|(b1 & f) st]; [discriminate|]. injection E as <-. cbn [parts]. rewrite <- (IH _ n c H N). destruct n as [|n].
    + cbn in N. injection N as -> ->. rewrite (message_nc a b D l ((c, true) :: st) x eq_refl H). reflexivity.
    + now rewrite andb_false_r.
  - destruct st as [|(b1 & f) st]; [discriminate|]. injection E as <-. cbn [parts colon is_colon fst andb]. destruct n as [|n]; cbn [Nat.eqb].
    + cbn [map fst]. f_equal. apply (IH _ 0 b1 H). reflexivity.
    + apply (IH _ (S n) c H). exact N.
  - destruct st as [|(b1 & f) st]; [discriminate|]. destruct f; [discriminate|]. injection E as <-. destruct n as [|n]; [discriminate|]. cbn [parts Nat.eqb]. rewrite andb_false_r. apply (IH _ (S n) c H N).
  - destruct st as [|(b1 & f) st]; [discriminate|]. injection E as <-. cbn [parts]. apply (IH _ n c H N).
  - destruct st as [|(b1 & f) st]; [discriminate|]. injection E as <-. cbn [parts]. apply (IH _ n c H N).
  - assert (st' = (true, false) :: st) as -> by (destruct st; injection E as <-; reflexivity). cbn [parts]. apply (IH _ (S n) c H N).
  - destruct st as [|([] & f) [|(b2 & f2) st]]; try discriminate. injection E as <-. cbn [parts]. destruct n as [|n]; [reflexivity|]. cbn [Nat.eqb]. rewrite Nat.sub_1_r. cbn [Nat.pred]. apply (IH _ n c H N).
  - assert (st' = (false, false) :: st) as -> by (destruct st; injection E as <-; reflexivity). cbn [parts]. apply (IH _ (S n) c H N).
  - destruct st as [|([] & []) [|(b2 & f2) st]]; try discriminate. injection E as <-. cbn [parts]. destruct n as [|n]; [reflexivity|]. cbn [Nat.eqb]. rewrite Nat.sub_1_r. cbn [Nat.pred]. apply (IH _ n c H N).
  - destruct st as [|(b1 & f) st]; [discriminate|]. injection E as <-. cbn [parts]. destruct n as [|n]; [reflexivity|]. apply (IH _ (S n) c H N).
  - destruct st as [|(b1 & f) st]; [discriminate|]. injection E as <-. cbn [parts]. destruct n as [|n]; [reflexivity|]. apply (IH _ (S n) c H N).
  - destruct st as [|(b1 & []) st]; try discriminate. injection E as <-. cbn [parts]. apply (IH _ n c H N).
  - destruct st as [|(b1 & []) st]; try discriminate. injection E as <-. cbn [parts]. apply (IH _ n c H N).
Qed.
Lemma later_mirror l : forall n, map fst (later n (mirror (tidy l))) = map snd (later n l).
Proof.
  induction l as [|(ws & p) l IH]; intros n; [reflexivity|]. cbn [tidy mirror map].
  destruct p; cbn [mirror_piece later]; try apply IH; try (destruct (n =? 0); [reflexivity|apply IH]).
  destruct (n =? 0); [cbn [map fst snd]; f_equal|]; apply IH.
Qed.
Lemma next_mirror st p : next st (mirror_piece p) = next st p.
Proof. destruct p; reflexivity. Qed.

Lemma num_bytes x y n rest : d_dec d = [x] -> d_tho d = [y] -> num_ok d n rest = true -> Forall (fun c => c = x \/ c = y \/ digit c = true \/ c = 45%N) n.
Proof.
  intros Hx Hy H. unfold num_ok in H. rewrite Hx, Hy in H. repeat match goal with H : (_ && _)%bool = true |- _ => apply andb_true_iff in H as (? & ?) end.
  assert (FR : forall g, fraction_ok g = true -> Forall (fun c => c = x \/ c = y \/ digit c = true \/ c = 45%N) g).
  { induction g as [|c g IH]; intros G; constructor; cbn in G; apply andb_true_iff in G as (G1 & G2); auto. }
  assert (WH : forall g, whole_ok x y g = true -> Forall (fun c => c = x \/ c = y \/ digit c = true \/ c = 45%N) g).
  { induction g as [|c g IH]; intros G; constructor; cbn in G.
    - destruct (digit c); auto. destruct (N.eqb_spec c y); auto. apply andb_true_iff in G as (G & _). apply andb_true_iff in G as (G & _). apply N.eqb_eq in G. auto.
    - destruct (digit c); auto. destruct (N.eqb_spec c y); [apply andb_true_iff in G as (_ & G); auto|]. apply andb_true_iff in G as (_ & G). auto. }
  match goal with H : whole_ok x y (unsigned n) = true |- _ => apply WH in H; rename H into W end.
  destruct n as [|c n]; [constructor|]. cbn [unsigned] in W. destruct (N.eqb_spec c 45); [constructor; auto|exact W].
Qed.
Lemma value_same n rest : num_ok d n rest = true -> value d n = value d' (flat_map (translate_byte d d') n).
Proof.
  intros H. destruct (la_seps d L) as (x & y & Hx & Hy & Nxy & Hs). destruct (la_seps d' L') as (x' & y' & Hx' & Hy' & Nxy' & Hs').
  pose proof (num_bytes x y n rest Hx Hy H) as F. clear H.
  destruct (Hs' x' (or_introl eq_refl)) as (_ & Dx & Mx & _). destruct (Hs' y' (or_intror eq_refl)) as (_ & Dy & My & _).
  induction F as [|c n C F IH]; [reflexivity|]. cbn [flat_map]. unfold value in *. cbn [flat_map]. rewrite flat_map_app, <- IH. f_equal.
  unfold translate_byte. rewrite Hx, Hy, Hx', Hy'. cbn [starts].
  destruct (N.eqb_spec x c); [cbn [andb flat_map starts]; now rewrite N.eqb_refl|]. destruct (N.eqb_spec y c).
  - cbn [andb flat_map starts]. rewrite N.eqb_refl. destruct (N.eqb_spec x' y'); [congruence|reflexivity].
  - cbn [andb flat_map starts]. destruct C as [C|[C|C]]; try congruence.
    destruct (N.eqb_spec x' c); [subst; destruct C; congruence|]. destruct (N.eqb_spec y' c); [subst; destruct C; congruence|]. reflexivity.
Qed.

Lemma program_rel l : forall head key st, well_formed d d' T st l trail = true -> well_formed d' d T' st (mirror (tidy l)) trail = true ->
  placed head key l = true -> Forall (fun '(_, p) => steady M d d' p) l ->
  rel d d' (word_of T) (word_of T) (text_of T) M key (map snd st) (tokens d l) (tokens d' (mirror (tidy l))) [] [].
Proof.
  induction l as [|(ws & p) l IH]; intros head key st H H' P F; [exact I|].
  cbn [tidy mirror map] in H'. fold (tidy l) in H'. fold (mirror (tidy l)) in H'. cbn [well_formed] in H, H'. rewrite next_mirror in H'.
  apply andb_true_iff in H as (H & HN). apply andb_true_iff in H as (_ & HP). apply andb_true_iff in H' as (_ & HN').
  destruct (next st p) as [st'|] eqn:E; [|discriminate]. inversion F as [|? ? FP FL]; subst.
  cbn [tidy mirror map tokens flat_map]. fold (tidy l). fold (mirror (tidy l)). fold (tokens d l). fold (tokens d' (mirror (tidy l))).
  destruct p; cbn [piece_tokens mirror_piece app rel is_colon fst placed steady piece_ok] in *; rewrite ?app_nil_r.
  - destruct st as [|(b1 & f) st]; [discriminate|]. injection E as <-. pose proof (placed_nc d _ _ P) as N. unfold nc in N.
    repeat match goal with H : (_ && _)%bool = true |- _ => apply andb_true_iff in H as (? & ?) end.
    unfold fits. cbn [fst snd step map]. rewrite N. cbn [andb]. split; [|apply (IH false false ((b1, f) :: st)); auto]. repeat (split; [first [reflexivity|assumption|apply FP]|]). apply FP.
  - apply andb_true_iff in P as (K & P). apply negb_true_iff in K. subst key. destruct st as [|(b1 & f) st]; [discriminate|]. injection E as <-.
    split; [|split; [split; reflexivity|]]; cbn [step map fst snd colon is_colon negb andb].
    2:{ apply (IH false true ((b1, true) :: st)); auto. }
    unfold fits. split; [reflexivity|]. cbn [fst snd colon is_colon negb andb hd]. intros ->.
    repeat match goal with H : (_ && _)%bool = true |- _ => apply andb_true_iff in H as (? & ?) end. cbn [in_message orb] in *.
    repeat match goal with H : (_ && _)%bool = true |- _ => apply andb_true_iff in H as (? & ?) end.
    cbn [parts]. rewrite (parts_later d d' T trail l ((b1, true) :: st) 0 b1 HN eq_refl), (parts_later d' d T' trail _ ((b1, true) :: st) 0 b1 HN' eq_refl), later_mirror.
    unfold parts_of in *. cbn [map fst snd] in *. split; [exact FP|]. split; [|assumption].
    match goal with H : (length (whole (d_prefix d') _) <=? 180) = true |- _ => apply Nat.leb_le in H; etransitivity; [exact H|] end. apply Nat.leb_le. reflexivity.
  - apply andb_true_iff in P as (_ & P). destruct st as [|(b1 & []) st]; try discriminate. injection E as <-.
    repeat match goal with H : (_ && _)%bool = true |- _ => apply andb_true_iff in H as (? & ?) end.
    split; [split; reflexivity|]. unfold fits. cbn [fst snd step map negb]. rewrite !andb_false_r. split; [|apply (IH true false ((b1, false) :: st)); auto].
    repeat (split; [first [reflexivity|assumption|apply FP]|]). apply FP.
  - destruct st as [|(b1 & f) st]; [discriminate|]. injection E as <-. split; [|apply (IH false false ((b1, f) :: st)); auto].
    split; [reflexivity|]. cbn [fst snd]. apply andb_true_iff in HP as (_ & HP). unfold text_of. destruct (100 <? length s).
    + apply text_eqb_true in HP. auto.
    + apply orb_true_iff in HP as [HP|HP]; [auto|]. apply andb_true_iff in HP as (HP & _). apply text_eqb_true in HP. auto.
  - destruct st as [|(b1 & f) st]; [discriminate|]. injection E as <-. split; [|apply (IH false false ((b1, f) :: st)); auto].
    split; [reflexivity|]. cbn [fst snd]. repeat match goal with H : (_ && _)%bool = true |- _ => apply andb_true_iff in H as (? & ?) end.
    match goal with H : text_eqb _ _ = true |- _ => apply text_eqb_true in H; subst end. eapply value_same; eassumption.
  - assert (st' = (true, false) :: st) as -> by (destruct st; injection E as <-; reflexivity). split; [split; reflexivity|]. replace (step _ _ _ _) with (map snd ((true, false) :: st)) by (destruct st; reflexivity). apply (IH false false); auto.
  - destruct st as [|([] & f) [|(b2 & f2) st]]; try discriminate. injection E as <-. split; [split; reflexivity|]. apply (IH false false ((b2, f2) :: st)); auto.
  - assert (st' = (false, false) :: st) as -> by (destruct st; injection E as <-; reflexivity). split; [split; reflexivity|]. replace (step _ _ _ _) with (map snd ((false, false) :: st)) by (destruct st; reflexivity). apply (IH true false); auto.
  - destruct st as [|([] & []) [|(b2 & f2) st]]; try discriminate. injection E as <-. split; [split; reflexivity|]. apply (IH false false ((b2, f2) :: st)); auto.
  - destruct st as [|(b1 & f) st]; [discriminate|]. injection E as <-. split; [split; reflexivity|]. apply (IH false false ((b1, false) :: st)); auto.
  - destruct st as [|(b1 & f) st]; [discriminate|]. injection E as <-. split; [split; reflexivity|]. apply (IH false false ((b1, false) :: st)); auto.
  - destruct st as [|(b1 & []) st]; try discriminate. injection E as <-. split; [split; reflexivity|]. apply (IH false false ((b1, false) :: st)); auto.
  - destruct st as [|(b1 & []) st]; try discriminate. injection E as <-. split; [split; reflexivity|]. apply (IH false false ((b1, false) :: st)); auto.
Qed.
End Pieces.

Theorem same_program (M : text -> Prop) d d' ls T T' l trail ss o oo :
  lang_ok d = true -> lang_ok d' = true -> ends_in_word ls = true -> load_dictionary d ls = LOk T -> dict_ok d d' T = true ->
  well_formed d d' T [(false, false)] l trail = true -> well_formed d' d T' [(false, false)] (mirror (tidy l)) trail = true ->
  placed false false l = true -> Forall (fun '(_, p) => steady M d d' p) l -> statements d ss (tokens d l) -> uses_all M ss ->
  exists t ss' s s', translate_program d T (render d l ++ trail) = LOk t /\
    parse d (render d l ++ trail) o oo = POk ss s /\ err s = false /\ parse d' t o oo = POk ss' s' /\ err s' = false /\
    all (word_of T) (word_of T) (text_of T) ss ss'.
Proof.
  intros L L' He H D W W' P F G US. pose proof (lang_intro _ L) as LL. pose proof (lang_intro _ L') as LL'.
  destruct (program_reads d LL d' T l trail _ W) as (r & R & K).
  { eapply Forall_impl; [|exact F]. intros (ws & []) Q; cbn in *; auto. apply Q. }
  destruct (program_reads d' LL' d T' (mirror (tidy l)) trail _ W') as (r' & R' & K').
  { clear - F. induction F as [|(ws & p) l Q F IH]; [constructor|]. cbn [tidy mirror map]. constructor; [|exact IH]. destruct p; cbn in *; auto. apply Q. }
  pose proof (program_rel d d' T T' trail M LL LL' l false false [(false, false)] W W' P F) as RL. cbn [map snd] in RL.
  destruct (transfer d d' (word_of T) (word_of T) (text_of T) M) as (_ & _ & _ & _ & _ & _ & _ & TR). destruct (TR _ _ G) as (_ & TS).
  destruct (TS US false [] (tokens d' (mirror (tidy l))) [] [] eq_refl eq_refl RL) as (ss' & G' & A).
  destruct (parse_grammar d (lang_words d LL) (la_qo_len d LL) (la_qc_len d LL) ss _ _ _ o oo G R K) as (s & E1 & E2).
  destruct (parse_grammar d' (lang_words d' LL') (la_qo_len d' LL') (la_qc_len d' LL') ss' _ _ _ o oo G' R' K') as (s' & E3 & E4).
  exists (render d' (mirror (tidy l)) ++ trail), ss', s, s'. split; [exact (translate_ok d d' ls T l trail L He H D W)|]. auto.
Qed.
