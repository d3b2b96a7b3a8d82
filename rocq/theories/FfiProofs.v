(** Proofs about native functions. *)
From Coq Require Import String SpecFloat QArith.
From Verif Require Import Common Txt NumModel NumSpec NumProofs ListModel ListProofs BlobSpec BlobModel BlobProofs NativeProofs FfiModel.
Require Import ZifyBool ZifyNat ZifyN.
Local Open Scope Z_scope.
Local Notation length := List.length.

(** Argument [i] of type [t] is [a], and is passed as [c]; [e]: an error is raised *)
Inductive passed (s : st) : list ffity -> list arg -> list (list mval) -> bool -> Prop :=
| passed_nil : passed s [] [] [] false
| passed_cons t ts a args c cs e e' : convert_value s t a = Ok (c, e) -> passed s ts args cs e' ->
    passed s (t :: ts) (a :: args) (c :: cs) (e || e').
Lemma passed_lengths s ts args cs e : passed s ts args cs e -> length ts = length args /\ length cs = length args.
Proof. induction 1; cbn; lia. Qed.

(** A function that was linked with the types [ts] *)
Definition takes (f : ffi) (ts : list ffity) : Prop :=
  (length ts <= 20)%nat /\ f_nargs f = length ts /\ f_args f = map Some ts ++ repeat None (20 - length ts).
Lemma takes_nth f ts i t : takes f ts -> nth_error ts i = Some t -> nth_error (f_args f) i = Some (Some t).
Proof.
  intros (_ & _ & ->) H. assert (i < length ts)%nat by (apply nth_error_Some; congruence).
  rewrite nth_error_app1 by now rewrite map_length. now apply map_nth_error.
Qed.
Lemma takes_end f ts i : takes f ts -> (length ts <= i < 20)%nat -> nth_error (f_args f) i = Some None.
Proof.
  intros (_ & _ & ->) H. rewrite nth_error_app2 by (rewrite map_length; lia). rewrite map_length.
  destruct (nth_error (repeat None (20 - length ts)) (i - length ts)) as [x|] eqn:E.
  - apply nth_error_In, repeat_spec in E. now subst.
  - apply nth_error_None in E. rewrite repeat_length in E. lia.
Qed.

Section Calls.
Variable addr : ptr -> N.
Variable native : nat -> mem -> list (list mval) -> outcome (mem * list mval).
Notation finish := (finish addr native).
Notation respond := (respond addr native).

Lemma gather_ok cs : forall pre, gather (map Some (pre ++ cs)) (length pre) (length cs) = Ok cs.
Proof.
  induction cs as [|c cs IH]; intros pre; cbn [gather List.length]; [reflexivity|]. unfold slot.
  rewrite (map_nth_error Some (length pre) (pre ++ c :: cs) (d := c)) by (rewrite nth_error_app2, Nat.sub_diag by lia; reflexivity).
  cbn [obind]. specialize (IH (pre ++ [c])). rewrite <- app_assoc in IH. cbn [app] in IH. rewrite app_length in IH. cbn [List.length] in IH.
  replace (length pre + 1)%nat with (S (length pre)) in IH by lia. rewrite IH. reflexivity.
Qed.
Lemma gather_short v n : forall i, (length v < i + n)%nat -> (i <= length v)%nat -> gather v i n = UB.
Proof.
  induction n as [|n IH]; intros i H1 H2; [lia|]. cbn [gather]. unfold slot.
  destruct (nth_error v i) as [[c|]|] eqn:E; [|reflexivity|reflexivity]. cbn [obind].
  assert (i < length v)%nat by (apply nth_error_Some; congruence). rewrite IH by lia. reflexivity.
Qed.
Lemma fill_ok s f ts args cs e : takes f ts -> forall pre ts' el, ts = pre ++ ts' -> passed s ts' args cs e ->
  (forall j x, nth_error args j = Some x -> rd_cell el (length pre + j) = Ok x) ->
  fill_values s f el (length pre) (length args) = Ok (map Some cs, e).
Proof.
  intros T pre ts' el E P. revert pre E. induction P as [|t ts' a args c cs e e' C P IH]; intros pre E R; cbn [fill_values List.length map]; [reflexivity|].
  destruct T as (T1 & T2 & T3). rewrite T2, E, app_length. cbn [List.length].
  destruct (Nat.ltb_spec (length pre + S (length ts')) (length pre)); [lia|].
  rewrite <- (Nat.add_0_r (length pre)) at 1. rewrite (R 0%nat a eq_refl). cbn [obind].
  unfold convert_arg. rewrite (takes_nth f ts (length pre) t); [|repeat split; auto|subst ts; rewrite nth_error_app2, Nat.sub_diag by lia; reflexivity].
  rewrite C. cbn [obind].
  specialize (IH (pre ++ [t])). rewrite app_length in IH. cbn [List.length] in IH. replace (length pre + 1)%nat with (S (length pre)) in IH by lia.
  rewrite IH; [reflexivity|rewrite E, <- app_assoc; reflexivity|].
  intros j x HJ. replace (S (length pre) + j)%nat with (length pre + S j)%nat by lia. apply R. exact HJ.
Qed.
Lemma fill_too_many s f ts el : takes f ts -> (length ts < 20)%nat -> forall n i, (i <= length ts < i + n)%nat ->
  fill_values s f el i n = UB.
Proof.
  intros T L. induction n as [|n IH]; intros i H; [lia|]. cbn [fill_values]. destruct T as (T1 & T2 & T3). rewrite T2.
  destruct (Nat.ltb_spec (length ts) i); [lia|]. destruct (rd_cell el i) as [a|]; [|reflexivity]. cbn [obind].
  destruct (Nat.eq_dec i (length ts)) as [->|N].
  - unfold convert_arg. rewrite (takes_end f ts (length ts)); [reflexivity|repeat split; auto|lia].
  - destruct (convert_arg s f i a) as [[c e]|]; [|reflexivity]. cbn [obind]. rewrite IH by lia. reflexivity.
Qed.
Lemma fill_length s f el n : forall i v e, fill_values s f el i n = Ok (v, e) -> (length v <= n)%nat.
Proof.
  induction n as [|n IH]; intros i v e H; cbn [fill_values] in H; [injection H as <- <-; cbn; lia|].
  destruct (f_nargs f <? i)%nat; [injection H as <- <-; cbn; lia|]. destruct (rd_cell el i); [|discriminate]. cbn [obind] in H.
  destruct (convert_arg s f i a) as [[c e1]|]; [|discriminate]. cbn [obind] in H.
  destruct (fill_values s f el (S i) n) as [[r e2]|] eqn:E; [|discriminate]. injection H as <- <-. cbn. apply IH in E. lia.
Qed.

(** What a call answers when the native function is called with [cs] *)
Definition outcome_of (s : st) (f : ffi) (cs : list (list mval)) (e : bool) (r : outcome reply) : Prop :=
  match native (f_symbol f) (s_mem s) cs with
  | UB => r = UB
  | Ok (m, c) => match convert_back addr (f_rtype f) c with
                 | UB => r = UB
                 | Ok (BBlob p) => r = Ok (Answer (mkS m (s_blobs s ++ [Some p])) (BBlob p) e)
                 | Ok b => r = Ok (Answer (mkS m (s_blobs s)) b e)
                 end
  end.
Lemma finish_ok s f ts cs e : takes f ts -> length cs = length ts -> outcome_of s f cs e (answer (finish s f (map Some cs) e)).
Proof.
  intros (T1 & T2 & T3) L. unfold FfiModel.finish, answer, outcome_of. rewrite T2, <- L.
  pose proof (gather_ok cs []) as G. cbn [app List.length] in G. rewrite G. cbn [obind]. destruct (native (f_symbol f) (s_mem s) cs) as [[m c]|]; [|reflexivity]. cbn [obind].
  destruct (convert_back addr (f_rtype f) c) as [[]|]; reflexivity.
Qed.
Lemma call_list s props msg f ts al args cs e : find props msg = Some f -> takes f ts -> ListProofs.fresh al args -> passed s ts args cs e ->
  outcome_of s f cs e (respond s props msg (PList al)).
Proof.
  intros F T A P. pose proof (passed_lengths _ _ _ _ _ P) as [L1 L2]. unfold FfiModel.respond. rewrite F.
  rewrite (fresh_head al args A). pose proof T as (T1 & _). destruct (Nat.ltb_spec 20 (length args)); [lia|].
  pose proof (fill_ok s f ts args cs e T [] ts (a_el al) eq_refl P) as G. cbn [List.length plus] in G. rewrite G; [|intros j x H1; now apply fresh_cells with args].
  cbn [obind]. apply finish_ok with ts; [exact T|lia].
Qed.
Lemma call_none s props msg f : find props msg = Some f -> takes f [] -> outcome_of s f [] false (respond s props msg P0).
Proof. intros F T. unfold FfiModel.respond. rewrite F. apply (finish_ok s f [] [] false T eq_refl). Qed.
Lemma call_one s props msg f t a cs e : find props msg = Some f -> takes f [t] -> passed s [t] [a] cs e ->
  outcome_of s f cs e (respond s props msg (P1 a)).
Proof.
  intros F T P. inversion P as [|? ? ? ? c cs' e1 e2 C P' ]; subst. inversion P'; subst. unfold FfiModel.respond. rewrite F.
  unfold convert_arg. rewrite (takes_nth f [t] 0 t T eq_refl), C. cbn [obind]. rewrite orb_false_r.
  apply (finish_ok s f [t] [c] e1 T eq_refl).
Qed.
Lemma call_two s props msg f t1 t2 a b cs e : find props msg = Some f -> takes f [t1; t2] -> passed s [t1; t2] [a; b] cs e ->
  outcome_of s f cs e (respond s props msg (P2 a b)).
Proof.
  intros F T P. inversion P as [|? ? ? ? c cs' e1 e2 C P' ]; subst. inversion P' as [|? ? ? ? d cs'' e3 e4 D P'']; subst. inversion P''; subst.
  unfold FfiModel.respond. rewrite F. unfold convert_arg. rewrite (takes_nth f _ 0 t1 T eq_refl), C. cbn [obind].
  rewrite (takes_nth f _ 1 t2 T eq_refl), D. cbn [obind]. rewrite orb_false_r. apply (finish_ok s f _ [c; d] _ T eq_refl).
Qed.
Lemma call_three s props msg f t1 t2 t3 a b c cs e : find props msg = Some f -> takes f [t1; t2; t3] -> passed s [t1; t2; t3] [a; b; c] cs e ->
  outcome_of s f cs e (respond s props msg (P3 a b c)).
Proof.
  intros F T P. inversion P as [|? ? ? ? x cs' e1 e2 C P' ]; subst. inversion P' as [|? ? ? ? y cs'' e3 e4 D P'']; subst.
  inversion P'' as [|? ? ? ? z cs3 e5 e6 E P3]; subst. inversion P3; subst.
  unfold FfiModel.respond. rewrite F. unfold convert_arg. rewrite (takes_nth f _ 0 t1 T eq_refl), C. cbn [obind].
  rewrite (takes_nth f _ 1 t2 T eq_refl), D. cbn [obind]. rewrite (takes_nth f _ 2 t3 T eq_refl), E. cbn [obind].
  rewrite orb_false_r, orb_assoc. apply (finish_ok s f _ [x; y; z] _ T eq_refl).
Qed.
(** With a number of arguments other than that of the function, nothing can be said. *)
Lemma call_wrong_count s props msg f ts al : find props msg = Some f -> takes f ts -> a_head al <> length ts -> (a_head al <= 20)%nat ->
  respond s props msg (PList al) = UB.
Proof.
  intros F T N L. unfold FfiModel.respond. rewrite F. destruct (Nat.ltb_spec 20 (a_head al)); [lia|].
  destruct (Nat.lt_ge_cases (length ts) (a_head al)) as [G|G].
  - rewrite (fill_too_many s f ts (a_el al) T ltac:(lia) (a_head al) 0) by lia. reflexivity.
  - destruct (fill_values s f (a_el al) 0 (a_head al)) as [[v e]|] eqn:E; [|reflexivity]. cbn [obind].
    apply fill_length in E. unfold FfiModel.finish. destruct T as (T1 & T2 & T3). rewrite T2. rewrite gather_short by lia. reflexivity.
Qed.
Lemma call_too_long s props msg f al : find props msg = Some f -> (20 < a_head al)%nat -> respond s props msg (PList al) = Ok TooManyParameters.
Proof. intros F L. unfold FfiModel.respond. rewrite F. now destruct (Nat.ltb_spec 20 (a_head al)); [|lia]. Qed.
End Calls.

(** ** Linking *)
Section Link.
Variables (nil_text list_text : text).
Variable dlopen : text -> option nat.
Variable dlsym : option nat -> text -> option nat.
Variable prep : option Z -> nat -> list (option ffity) -> ffity -> bool.
Notation media_ffi := (media_ffi nil_text list_text dlopen dlsym prep).
Notation media_link := (media_link nil_text list_text dlopen dlsym prep).

Lemma map_args_ok (l : @arr text) ds ts : (forall j x, nth_error ds j = Some x -> rd_cell (a_el l) j = Ok x) ->
  Forall2 (fun d t => map_type (cstring d) = Some t) ds ts -> forall pre ds', ds = pre ++ ds' -> forall ts', Forall2 (fun d t => map_type (cstring d) = Some t) ds' ts' ->
  map_args l (length pre) (length ds') = Ok (Some (map Some ts')).
Proof.
  intros R _ pre ds'. revert pre. induction ds' as [|d ds' IH]; intros pre E ts' F; inversion F as [|? t ? ts2 M F2]; subst; cbn [map_args List.length map]; [reflexivity|].
  rewrite (R (length pre) d) by (rewrite nth_error_app2, Nat.sub_diag by lia; reflexivity). cbn [obind]. rewrite M.
  specialize (IH (pre ++ [d])). rewrite app_length in IH. cbn [List.length] in IH. replace (length pre + 1)%nat with (S (length pre)) in IH by lia.
  rewrite (IH ltac:(now rewrite <- app_assoc) ts2 F2). reflexivity.
Qed.
Lemma fresh_cells_any {A} (a : @arr A) ls j x : ListProofs.fresh a ls -> nth_error ls j = Some x -> rd_cell (a_el a) j = Ok x.
Proof.
  intros (rest & E & _) H. unfold rd_cell. rewrite E. cbn [app].
  rewrite nth_error_app1 by (rewrite map_length; apply nth_error_Some; congruence).
  rewrite (map_nth_error Some _ _ H). reflexivity.
Qed.
Lemma fresh_head_any {A} (a : @arr A) ls : ListProofs.fresh a ls -> a_head a = length ls.
Proof. intros (rest & _ & _ & H & _). cbn in H. lia. Qed.
Lemma get_args_ok l ds ts : ListProofs.fresh l ds -> (length ds <= 20)%nat -> Forall2 (fun d t => map_type (cstring d) = Some t) ds ts ->
  get_args (ITypes l) = Ok (inr (map Some ts ++ repeat None (20 - length ts), length ts)).
Proof.
  intros F L M. pose proof (Forall2_len _ _ _ M) as LE. unfold get_args. rewrite (fresh_head_any l ds F). destruct (Nat.ltb_spec 20 (length ds)); [lia|].
  pose proof (map_args_ok l ds ts (fun j x H => fresh_cells_any l ds j x F H) M [] ds eq_refl ts M) as G. cbn [List.length] in G. rewrite G. cbn [obind]. now rewrite LE.
Qed.

Lemma find_same {A} (l : list (text * A)) k v : find ((k, v) :: l) k = Some v.
Proof. cbn [find]. assert (E : text_eqb k k = true) by (induction k as [|c k IH]; cbn [text_eqb]; [reflexivity|now rewrite N.eqb_refl, IH]). now rewrite E. Qed.
Lemma find_other {A} (l : list (text * A)) k k' v : k <> k' -> find ((k, v) :: l) k' = find l k'.
Proof. intros N. cbn [find]. destruct (text_eqb k k') eqn:E; [apply text_eqb_eq in E; congruence|reflexivity]. Qed.
Lemma find_filter {A} (l : list (text * A)) k k' : k <> k' -> find (filter (fun kv => negb (text_eqb (fst kv) k)) l) k' = find l k'.
Proof.
  intros N. induction l as [|[q v] l IH]; [reflexivity|]. cbn [filter fst]. destruct (text_eqb q k) eqn:E; cbn [negb find].
  - apply text_eqb_eq in E. subst q. rewrite IH. destruct (text_eqb k k') eqn:E2; [apply text_eqb_eq in E2; congruence|reflexivity].
  - destruct (text_eqb q k'); auto.
Qed.

(** A specification for the function [sym] of the library [h], with the types [ts] and [r]; [obj] is [None] for the
    object of the function that was linked before *)
Definition spec_of (spec : @arr item) (obj : option text) (msg : text) (h sym : nat) (ts : list ffity) (r : ffity) : Prop :=
  exists lib name rt l ds,
    ListProofs.fresh spec [IText lib; IText name; ITypes l; IText rt; match obj with Some o => IText o | None => INil end; IText msg] /\
    ListProofs.fresh l ds /\ (length ds <= 20)%nat /\ Forall2 (fun d t => map_type (cstring d) = Some t) ds ts /\
    map_type (cstring rt) = Some r /\
    text_eqb (cstring lib) (lit "@structtest") = false /\ text_eqb (cstring name) (lit "@structtest") = false /\
    dlopen (cstring lib) = Some h /\ dlsym (Some h) (cstring name) = Some sym /\
    prep None (length ts) (map Some ts ++ repeat None (20 - length ts)) r = true.
(** The function [f] of the object with that name *)
Definition bound (w : world) (obj msg : text) (f : ffi) : Prop :=
  exists o props, find (w_objects w) obj = Some o /\ nth_error (w_owners w) o = Some props /\ find props msg = Some f.
(** Every object of the world has its properties *)
Definition sound (w : world) : Prop :=
  (forall n o, find (w_objects w) n = Some o -> (o < length (w_owners w))%nat) /\
  (forall f, w_prev w = Some f -> (f_owner f < length (w_owners w))%nat).

Lemma ffi_steps w spec obj msg h sym ts r : spec_of spec obj msg h sym ts r ->
  media_ffi w spec = match get_owner nil_text list_text w (match obj with Some o => IText o | None => INil end) with
                     | inl e => Ok (inl (e, w))
                     | inr (w1, owner) => Ok (inr (set_message w1 (cstring msg) (mkF (Some h) sym (map Some ts ++ repeat None (20 - length ts)) r (length ts) owner)))
                     end.
Proof.
  intros (lib & name & rt & l & ds & F & FL & L & M & R & NL & NN & O & S & P). unfold FfiModel.media_ffi.
  rewrite (fresh_head_any spec _ F). cbn [List.length Nat.ltb Nat.leb Nat.eqb].
  rewrite (fresh_cells_any spec _ 0 _ F eq_refl), (fresh_cells_any spec _ 1 _ F eq_refl), (fresh_cells_any spec _ 2 _ F eq_refl),
    (fresh_cells_any spec _ 3 _ F eq_refl), (fresh_cells_any spec _ 4 _ F eq_refl), (fresh_cells_any spec _ 5 _ F eq_refl).
  cbn [obind]. cbn [get_handle get_symbol]. unfold text_of. cbn [item_text]. rewrite NL, O. cbn beta iota. rewrite NN, S. rewrite (get_args_ok l ds ts FL L M). cbn [obind].
  rewrite R. cbn [fixed_args obind]. rewrite P. cbn [negb]. destruct (get_owner _ _ _ _) as [e|[w1 owner]]; reflexivity.
Qed.

Lemma bound_takes h sym ts r o : (length ts <= 20)%nat -> takes (mkF (Some h) sym (map Some ts ++ repeat None (20 - length ts)) r (length ts) o) ts.
Proof. intros L. repeat split; auto. Qed.
Lemma spec_len spec obj msg h sym ts r : spec_of spec obj msg h sym ts r -> (length ts <= 20)%nat.
Proof. intros (lib & name & rt & l & ds & F & FL & L & M & _). apply Forall2_len in M. lia. Qed.

Lemma link_new w spec obj msg h sym ts r : sound w -> spec_of spec (Some obj) msg h sym ts r ->
  exists w' f, media_link w (LSpec spec) = Ok (w', None) /\ sound w' /\ w_prev w' = Some f /\
    bound w' obj (cstring msg) f /\ takes f ts /\ f_symbol f = sym /\ f_rtype f = r /\
    (forall obj' msg' g, obj' <> obj -> (bound w' obj' msg' g <-> bound w obj' msg' g)) /\
    (forall msg' g, msg' <> cstring msg -> ~ bound w' obj msg' g).
Proof.
  intros [S1 S2] SP. cbn [FfiModel.media_link]. rewrite (ffi_steps w spec (Some obj) msg h sym ts r SP). cbn [get_owner obind].
  unfold text_of. cbn [item_text]. eexists _, _. split; [reflexivity|]. unfold set_message. cbn [w_owners w_objects w_prev f_owner].
  set (n := length (w_owners w)). set (f := mkF _ _ _ _ _ _).
  assert (NE : nth_error (w_owners w ++ [[]]) n = Some []) by (unfold n; rewrite nth_error_app2, Nat.sub_diag by lia; reflexivity).
  rewrite NE. cbn [filter].
  assert (LA : length (w_owners w ++ [[]]) = S n) by (rewrite app_length; cbn; unfold n; lia).
  assert (LS : length (set_nth (w_owners w ++ [[]]) n [(cstring msg, f)]) = S n) by (rewrite set_nth_length; lia).
  assert (ATn : nth_error (set_nth (w_owners w ++ [[]]) n [(cstring msg, f)]) n = Some [(cstring msg, f)]) by (apply set_nth_same; lia).
  assert (ATo : forall o, (o < n)%nat -> nth_error (set_nth (w_owners w ++ [[]]) n [(cstring msg, f)]) o = nth_error (w_owners w) o).
  { intros o Ho. destruct (set_nth_other (w_owners w ++ [[]]) n o [(cstring msg, f)]) as [E|E]; [lia| |lia]. rewrite E. now rewrite nth_error_app1. }
  split; [|split; [reflexivity|split; [|split; [|split; [reflexivity|split; [reflexivity|split]]]]]].
  - split; cbn [w_objects w_owners w_prev].
    + intros k o H. rewrite LS. cbn [find] in H. destruct (text_eqb obj k); [injection H as <-; lia|]. apply S1 in H. unfold n. lia.
    + intros g [= <-]. cbn [f_owner]. rewrite LS. unfold f. cbn [f_owner]. lia.
  - exists n, [(cstring msg, f)]. cbn [w_objects w_owners]. split; [apply find_same|]. split; [exact ATn|apply find_same].
  - unfold f. apply bound_takes. eapply spec_len; exact SP.
  - intros obj' msg' g NO. unfold bound. cbn [w_objects w_owners]. rewrite find_other by auto. split; intros (o & props & H1 & H2 & H3).
    + exists o, props. rewrite ATo in H2; auto. apply S1 in H1. exact H1.
    + exists o, props. rewrite ATo; auto. apply S1 in H1. exact H1.
  - intros msg' g NM (o & props & H1 & H2 & H3). cbn [w_objects w_owners] in *. rewrite find_same in H1. injection H1 as <-.
    rewrite ATn in H2. injection H2 as <-. rewrite find_other in H3 by auto. discriminate.
Qed.

Lemma link_again w spec msg h sym ts r p : sound w -> w_prev w = Some p -> spec_of spec None msg h sym ts r ->
  exists w' f, media_link w (LSpec spec) = Ok (w', None) /\ sound w' /\ w_prev w' = Some f /\
    takes f ts /\ f_symbol f = sym /\ f_rtype f = r /\ f_owner f = f_owner p /\
    (forall obj, find (w_objects w) obj = Some (f_owner p) -> bound w' obj (cstring msg) f) /\
    (forall obj msg' g, msg' <> cstring msg \/ find (w_objects w) obj <> Some (f_owner p) -> (bound w' obj msg' g <-> bound w obj msg' g)).
Proof.
  intros [S1 S2] PV SP. cbn [FfiModel.media_link]. rewrite (ffi_steps w spec None msg h sym ts r SP). cbn [get_owner]. rewrite PV. cbn [obind].
  eexists _, _. split; [reflexivity|]. unfold set_message. cbn [w_owners w_objects w_prev f_owner].
  set (n := f_owner p). assert (Hn : (n < length (w_owners w))%nat) by now apply S2. set (f := mkF _ _ _ _ _ _).
  destruct (nth_error (w_owners w) n) as [props|] eqn:NE; [|apply nth_error_None in NE; lia].
  set (np := (cstring msg, f) :: _).
  assert (LS : length (set_nth (w_owners w) n np) = length (w_owners w)) by now apply set_nth_length.
  assert (ATn : nth_error (set_nth (w_owners w) n np) n = Some np) by now apply set_nth_same.
  assert (ATo : forall o, o <> n -> nth_error (set_nth (w_owners w) n np) o = nth_error (w_owners w) o).
  { intros o Ho. destruct (set_nth_other (w_owners w) n o np) as [E|E]; [congruence|exact E|lia]. }
  split; [|split; [reflexivity|split; [|split; [reflexivity|split; [reflexivity|split; [reflexivity|split]]]]]].
  - split; cbn [w_objects w_owners w_prev].
    + intros k o H. rewrite LS. now apply S1 with k.
    + intros g [= <-]. rewrite LS. exact Hn.
  - unfold f. apply bound_takes. eapply spec_len; exact SP.
  - intros obj H. exists n, np. cbn [w_objects w_owners]. split; [exact H|]. split; [exact ATn|apply find_same].
  - intros obj msg' g HD. unfold bound. cbn [w_objects w_owners]. split; intros (o & q & H1 & H2 & H3).
    + destruct (Nat.eq_dec o n) as [->|N].
      * rewrite ATn in H2. injection H2 as <-. exists n, props. split; [exact H1|]. split; [exact NE|].
        destruct HD as [HD|HD]; [|contradiction]. unfold np in H3. rewrite find_other in H3 by auto. now rewrite find_filter in H3 by auto.
      * exists o, q. rewrite ATo in H2; auto.
    + destruct (Nat.eq_dec o n) as [->|N].
      * rewrite NE in H2. injection H2 as <-. exists n, np. split; [exact H1|]. split; [exact ATn|].
        destruct HD as [HD|HD]; [|contradiction]. unfold np. rewrite find_other by auto. now rewrite find_filter by auto.
      * exists o, q. rewrite ATo; auto.
Qed.

(** What is reported for a specification of six entries that is not proper: the first problem *)
Definition not_test (t : text) : Prop := text_eqb (cstring t) (lit "@structtest") = false.
Inductive wrong (w : world) : list item -> ffi_error -> Prop :=
| wr_few ls : (length ls < 6)%nat -> wrong w ls TooFew
| wr_handle b c d e f : w_prev w = None -> wrong w [INil; b; c; d; e; f] NoHandle
| wr_open lib b c d e f : not_test lib -> dlopen (cstring lib) = None -> wrong w [IText lib; b; c; d; e; f] NotOpened
| wr_symbol lib h c d e f : not_test lib -> dlopen (cstring lib) = Some h -> w_prev w = None ->
    wrong w [IText lib; INil; c; d; e; f] NoSymbolBefore
| wr_found lib h n c d e f : not_test lib -> dlopen (cstring lib) = Some h -> not_test n -> dlsym (Some h) (cstring n) = None ->
    wrong w [IText lib; IText n; c; d; e; f] NotFound
| wr_args lib h n s c d e f : not_test lib -> dlopen (cstring lib) = Some h -> not_test n -> dlsym (Some h) (cstring n) = Some s ->
    (forall l, c <> ITypes l) -> wrong w [IText lib; IText n; c; d; e; f] NoArguments
| wr_many lib h n s l ds d e f : not_test lib -> dlopen (cstring lib) = Some h -> not_test n -> dlsym (Some h) (cstring n) = Some s ->
    ListProofs.fresh l ds -> (20 < length ds)%nat -> wrong w [IText lib; IText n; ITypes l; d; e; f] TooMany
| wr_type lib h n s l ds x d e f : not_test lib -> dlopen (cstring lib) = Some h -> not_test n -> dlsym (Some h) (cstring n) = Some s ->
    ListProofs.fresh l ds -> (length ds <= 20)%nat -> In x ds -> map_type (cstring x) = None ->
    wrong w [IText lib; IText n; ITypes l; d; e; f] BadType
| wr_return lib h n s l ds ts rt e f : not_test lib -> dlopen (cstring lib) = Some h -> not_test n -> dlsym (Some h) (cstring n) = Some s ->
    ListProofs.fresh l ds -> (length ds <= 20)%nat -> Forall2 (fun d t => map_type (cstring d) = Some t) ds ts ->
    map_type (cstring rt) = None -> wrong w [IText lib; IText n; ITypes l; IText rt; e; f] BadReturn
| wr_bridge lib h n s l ds ts rt r f : not_test lib -> dlopen (cstring lib) = Some h -> not_test n -> dlsym (Some h) (cstring n) = Some s ->
    ListProofs.fresh l ds -> (length ds <= 20)%nat -> Forall2 (fun d t => map_type (cstring d) = Some t) ds ts ->
    map_type (cstring rt) = Some r -> prep None (length ts) (map Some ts ++ repeat None (20 - length ts)) r = true -> w_prev w = None ->
    wrong w [IText lib; IText n; ITypes l; IText rt; INil; f] NoBridge.
Lemma map_args_bad (l : @arr text) ds : (forall j x, nth_error ds j = Some x -> rd_cell (a_el l) j = Ok x) ->
  forall ds' pre, ds = pre ++ ds' -> (exists x, In x ds' /\ map_type (cstring x) = None) -> map_args l (length pre) (length ds') = Ok None.
Proof.
  intros R. induction ds' as [|d ds' IH]; intros pre E (x & I & M); [destruct I|]. cbn [map_args List.length].
  rewrite (R (length pre) d) by (rewrite E, nth_error_app2, Nat.sub_diag by lia; reflexivity). cbn [obind].
  destruct (map_type (cstring d)) as [t|] eqn:T; [|reflexivity].
  specialize (IH (pre ++ [d])). rewrite app_length in IH. cbn [List.length] in IH. replace (length pre + 1)%nat with (S (length pre)) in IH by lia.
  rewrite IH; [reflexivity|now rewrite <- app_assoc|]. destruct I as [->|I]; [congruence|]. now exists x.
Qed.
Lemma ffi_wrong w spec ls e : ListProofs.fresh spec ls -> wrong w ls e -> media_ffi w spec = Ok (inl (e, w)).
Proof.
  intros F W. unfold FfiModel.media_ffi. rewrite (fresh_head_any spec _ F).
  assert (C : forall a b c d x y, ls = [a; b; c; d; x; y] ->
    rd_cell (a_el spec) 0 = Ok a /\ rd_cell (a_el spec) 1 = Ok b /\ rd_cell (a_el spec) 2 = Ok c /\
    rd_cell (a_el spec) 3 = Ok d /\ rd_cell (a_el spec) 4 = Ok x /\ rd_cell (a_el spec) 5 = Ok y).
  { intros a b c d x y ->. repeat split; eapply fresh_cells_any; try exact F; reflexivity. }
  destruct W as [ls L|b c d e f P|lib b c d e f NT O|lib h c d e f NT O P|lib h n c d e f NT O NN S|lib h n s c d e f NT O NN S NL
    |lib h n s l ds d e f NT O NN S FL L|lib h n s l ds x d e f NT O NN S FL L I M|lib h n s l ds ts rt e f NT O NN S FL L M R
    |lib h n s l ds ts rt r f NT O NN S FL L M R PR P].
  - destruct (Nat.ltb_spec (length ls) 6); [reflexivity|lia].
  - destruct (C _ _ _ _ _ _ eq_refl) as (R0 & R1 & R2 & R3 & R4 & R5). rewrite R0, R1, R2, R3, R4, R5.
    cbn [obind List.length Nat.ltb Nat.leb Nat.eqb get_handle]. now rewrite P.
  - destruct (C _ _ _ _ _ _ eq_refl) as (R0 & R1 & R2 & R3 & R4 & R5). rewrite R0, R1, R2, R3, R4, R5.
    cbn [obind List.length Nat.ltb Nat.leb Nat.eqb get_handle]. unfold text_of. cbn [item_text]. rewrite NT, O. reflexivity.
  - destruct (C _ _ _ _ _ _ eq_refl) as (R0 & R1 & R2 & R3 & R4 & R5). rewrite R0, R1, R2, R3, R4, R5.
    cbn [obind List.length Nat.ltb Nat.leb Nat.eqb get_handle]. unfold text_of. cbn [item_text]. rewrite NT, O. cbn [get_symbol]. now rewrite P.
  - destruct (C _ _ _ _ _ _ eq_refl) as (R0 & R1 & R2 & R3 & R4 & R5). rewrite R0, R1, R2, R3, R4, R5.
    cbn [obind List.length Nat.ltb Nat.leb Nat.eqb get_handle]. unfold text_of. cbn [item_text]. rewrite NT, O. cbn [get_symbol]. unfold text_of. cbn [item_text]. now rewrite NN, S.
  - destruct (C _ _ _ _ _ _ eq_refl) as (R0 & R1 & R2 & R3 & R4 & R5). rewrite R0, R1, R2, R3, R4, R5.
    cbn [obind List.length Nat.ltb Nat.leb Nat.eqb get_handle]. unfold text_of. cbn [item_text]. rewrite NT, O. cbn [get_symbol]. unfold text_of. cbn [item_text]. rewrite NN, S.
    destruct c; try reflexivity. exfalso. now apply (NL l).
  - destruct (C _ _ _ _ _ _ eq_refl) as (R0 & R1 & R2 & R3 & R4 & R5). rewrite R0, R1, R2, R3, R4, R5.
    cbn [obind List.length Nat.ltb Nat.leb Nat.eqb get_handle]. unfold text_of. cbn [item_text]. rewrite NT, O. cbn [get_symbol]. unfold text_of. cbn [item_text]. rewrite NN, S.
    unfold get_args. rewrite (fresh_head_any l ds FL). destruct (Nat.ltb_spec 20 (length ds)); [reflexivity|lia].
  - destruct (C _ _ _ _ _ _ eq_refl) as (R0 & R1 & R2 & R3 & R4 & R5). rewrite R0, R1, R2, R3, R4, R5.
    cbn [obind List.length Nat.ltb Nat.leb Nat.eqb get_handle]. unfold text_of. cbn [item_text]. rewrite NT, O. cbn [get_symbol]. unfold text_of. cbn [item_text]. rewrite NN, S.
    unfold get_args. rewrite (fresh_head_any l ds FL). destruct (Nat.ltb_spec 20 (length ds)); [lia|].
    pose proof (map_args_bad l ds (fun j y H => fresh_cells_any l ds j y FL H) ds [] eq_refl (ex_intro _ x (conj I M))) as G. cbn [List.length] in G. rewrite G. reflexivity.
  - destruct (C _ _ _ _ _ _ eq_refl) as (R0 & R1 & R2 & R3 & R4 & R5). rewrite R0, R1, R2, R3, R4, R5.
    cbn [obind List.length Nat.ltb Nat.leb Nat.eqb get_handle]. unfold text_of. cbn [item_text]. rewrite NT, O. cbn [get_symbol]. unfold text_of. cbn [item_text]. rewrite NN, S.
    rewrite (get_args_ok l ds ts FL L M). cbn [obind]. now rewrite R.
  - destruct (C _ _ _ _ _ _ eq_refl) as (R0 & R1 & R2 & R3 & R4 & R5). rewrite R0, R1, R2, R3, R4, R5.
    cbn [obind List.length Nat.ltb Nat.leb Nat.eqb get_handle]. unfold text_of. cbn [item_text]. rewrite NT, O. cbn [get_symbol]. unfold text_of. cbn [item_text]. rewrite NN, S.
    rewrite (get_args_ok l ds ts FL L M). cbn [obind]. rewrite R. cbn [fixed_args obind]. rewrite PR. cbn [negb get_owner]. now rewrite P.
Qed.

(** Errors leave the objects as they were, except the last one *)
Lemma ffi_error_same w spec e w1 : media_ffi w spec = Ok (inl (e, w1)) -> e <> NoMessage -> w1 = w.
Proof.
  unfold FfiModel.media_ffi. intros H N. destruct (a_head spec <? 6)%nat; [congruence|].
  destruct (rd_cell (a_el spec) 0) as [a1|]; [|discriminate]. cbn [obind] in H.
  destruct (rd_cell (a_el spec) 1) as [a2|]; [|discriminate]. cbn [obind] in H.
  destruct (rd_cell (a_el spec) 2) as [a3|]; [|discriminate]. cbn [obind] in H.
  destruct (rd_cell (a_el spec) 3) as [a4|]; [|discriminate]. cbn [obind] in H.
  destruct (rd_cell (a_el spec) 4) as [a5|]; [|discriminate]. cbn [obind] in H.
  destruct (rd_cell (a_el spec) 5) as [a6|]; [|discriminate]. cbn [obind] in H.
  match type of H with obind ?o _ = _ => destruct o as [a7|]; [|discriminate] end. cbn [obind] in H.
  destruct (get_handle nil_text list_text dlopen w a1) as [e1|h]; [congruence|].
  destruct (get_symbol nil_text list_text dlsym w h a2) as [e1|sy]; [congruence|].
  destruct (get_args a3) as [[e1|[args n]]|]; [cbn [obind] in H; congruence| |discriminate]. cbn [obind] in H.
  destruct (map_type _) as [r|]; [|congruence]. destruct (fixed_args a7) as [v|]; [|discriminate]. cbn [obind] in H.
  destruct (negb _); [congruence|]. destruct (get_owner nil_text list_text w a5) as [e1|[w2 o]]; [congruence|].
  destruct a6; congruence.
Qed.
End Link.

(** ** Calls, in words of types *)
Inductive passed_as (s : st) : string -> arg -> list mval -> Prop :=
| pa_int name lo hi k a z bs : In (name, (lo, hi, k)) c_types -> is_number (tonum a) z -> lo <= z <= hi -> bytes_for z bs -> length bs = k ->
    passed_as s name a (map Byte bs)
| pa_nil : passed_as s "pointer" ANil (repeat (Byte 0) 8)
| pa_blob b p : blob_ptr s b = Ok p -> passed_as s "pointer" (ABlob b) (ptr_cells p)
| pa_real name t a c : In name real_types -> map_type (lit name) = Some t -> convert_value s t a = Ok (c, false) -> passed_as s name a c.
Inductive all_passed (s : st) : list string -> list arg -> list (list mval) -> Prop :=
| ap_nil : all_passed s [] [] []
| ap_cons n ns a args c cs : passed_as s n a c -> all_passed s ns args cs -> all_passed s (n :: ns) (a :: args) (c :: cs).
Lemma passed_as_ok s name t a c : passed_as s name a c -> map_type (lit name) = Some t -> convert_value s t a = Ok (c, false).
Proof.
  intros P M. inversion P as [n lo hi k a' z bs I N R B L| |b p BP|n t' a' c' I M' C]; subst.
  - destruct (c_type_size _ _ _ _ I) as (sg & M' & -> & -> & K). rewrite M' in M. injection M as <-.
    destruct N as [F V]. rewrite (int_there s sg _ a z K (trunc_whole _ _ F V) R). now rewrite <- (bytes_of_unique z bs B).
  - injection M as <-. reflexivity.
  - injection M as <-. cbn [convert_value]. rewrite BP. reflexivity.
  - congruence.
Qed.
Lemma all_passed_ok s ns args cs : all_passed s ns args cs -> forall ts, Forall2 (fun n t => map_type (lit n) = Some t) ns ts -> passed s ts args cs false.
Proof.
  induction 1 as [|n ns a args c cs P A IH]; intros ts F; inversion F as [|? t ? ts' M F']; subst; [constructor|].
  change false with (false || false). constructor; [now apply passed_as_ok with n|now apply IH].
Qed.
(** The ways to give arguments *)
Inductive given : params -> list arg -> Prop :=
| given_none : given P0 []
| given_one a : given (P1 a) [a]
| given_two a b : given (P2 a b) [a; b]
| given_three a b c : given (P3 a b c) [a; b; c]
| given_list al args : ListProofs.fresh al args -> given (PList al) args.

Section Called.
Variable addr : ptr -> N.
Variable native : nat -> mem -> list (list mval) -> outcome (mem * list mval).
Lemma call_ok s props msg f ts ps args cs e : find props msg = Some f -> takes f ts -> given ps args -> passed s ts args cs e ->
  outcome_of addr native s f cs e (respond addr native s props msg ps).
Proof.
  intros F T G P. inversion G; subst.
  - inversion P; subst. now apply call_none.
  - inversion P as [|t ts' ? ? c cs' e1 e2 C P']; subst. inversion P'; subst. eapply call_one; [exact F|exact T|exact P].
  - inversion P as [|t ts' ? ? c cs' e1 e2 C P']; subst. inversion P' as [|t2 ts2 ? ? c2 cs2 e3 e4 C2 P2']; subst. inversion P2'; subst.
    eapply call_two; [exact F|exact T|exact P].
  - inversion P as [|t ts' ? ? c' cs' e1 e2 C P']; subst. inversion P' as [|t2 ts2 ? ? c2 cs2 e3 e4 C2 P2']; subst.
    inversion P2' as [|t3 ts3 ? ? c3 cs3 e5 e6 C3 P3']; subst. inversion P3'; subst. eapply call_three; [exact F|exact T|exact P].
  - eapply call_list; [exact F|exact T| |exact P]. assumption.
Qed.
Lemma back_prefix t c c' : (8 <= length (c ++ c'))%nat -> length c = fsize t -> convert_back addr t (c ++ c') = convert_back addr t c.
Proof.
  intros L E. unfold convert_back. rewrite app_length.
  rewrite (proj2 (Nat.ltb_ge (length c + length c') (match t with FVoid => 0 | _ => fsize t end)%nat)) by (destruct t; lia).
  rewrite (proj2 (Nat.ltb_ge (length c) (match t with FVoid => 0 | _ => fsize t end)%nat)) by (destruct t; lia).
  rewrite firstn_app, <- E, Nat.sub_diag, firstn_all. cbn [firstn]. now rewrite app_nil_r.
Qed.
Lemma call_answers s props msg f ns ts rn ps args cs m c c' : find props msg = Some f -> takes f ts -> Forall2 (fun n t => map_type (lit n) = Some t) ns ts ->
  map_type (lit rn) = Some (f_rtype f) -> given ps args -> all_passed s ns args cs ->
  native (f_symbol f) (s_mem s) cs = Ok (m, c ++ c') -> (8 <= length (c ++ c'))%nat ->
  (rn = "void"%string -> respond addr native s props msg ps = Ok (Answer (mkS m (s_blobs s)) BNil false)) /\
  (forall lo hi k z bs x, In (rn, (lo, hi, k)) c_types -> c = map Byte bs -> length bs = k -> bytes_for z bs -> lo <= z <= hi -> is_number x z ->
     exists y, is_number y z /\ respond addr native s props msg ps = Ok (Answer (mkS m (s_blobs s)) (BNum y) false)) /\
  (forall p, rn = "pointer"%string -> c = ptr_cells p ->
     respond addr native s props msg ps = Ok (Answer (mkS m (s_blobs s ++ [Some p])) (BBlob p) false)).
Proof.
  intros F T NS RN G A NA L8. pose proof (call_ok s props msg f ts ps args cs false F T G (all_passed_ok s ns args cs A ts NS)) as O.
  unfold outcome_of in O. rewrite NA in O. split; [|split].
  - intros ->. injection RN as RN. rewrite <- RN in O. cbn in O. exact O.
  - intros lo hi k z bs x I -> LB B R X. destruct (c_type_size _ _ _ _ I) as (sg & M' & -> & -> & K). rewrite M' in RN. injection RN as RN.
    rewrite <- RN in O. rewrite back_prefix in O by (auto; cbn [fsize]; now rewrite map_length).
    destruct (int_back addr sg k z x K R X) as (y & E & Y). rewrite (bytes_of_unique z bs B), LB, E in O. eauto.
  - intros p -> ->. injection RN as RN. rewrite <- RN in O. rewrite back_prefix, pointer_back in O by (auto; apply ptr_cells_length). exact O.
Qed.
End Called.
