(** Proofs about files. *)
From Verif Require Import Common JsonModel FileModel FileSpec.
Local Open Scope nat_scope.

Lemma cstring_free : forall p, nul_free p -> cstring p = p.
Proof.
  unfold nul_free, cstring. induction p as [|c p IH]; intros H; [reflexivity|]. cbn [filter]. destruct (N.eqb_spec c 0) as [->|_]; [elim H; now left|].
  cbn [negb]. f_equal. apply IH. intros I; apply H; now right.
Qed.
Lemma until_free : forall p, nul_free p -> until_nul p = p.
Proof.
  unfold nul_free. induction p as [|c p IH]; intros H; [reflexivity|]. cbn [until_nul]. destruct (N.eqb_spec c 0) as [->|_]; [elim H; now left|].
  f_equal. apply IH. intros I; apply H; now right.
Qed.
Lemma to_int_small : forall z, (0 <= z < 2147483648)%Z -> to_int z = z.
Proof. intros z H. unfold to_int. rewrite Z.mod_small by lia. lia. Qed.
Lemma at_eq : forall A (f : N -> A) k x, at_N f k x k = x.
Proof. intros. unfold at_N. now rewrite N.eqb_refl. Qed.
Lemma at_ne : forall A (f : N -> A) k x j, j <> k -> at_N f k x j = f j.
Proof. intros. unfold at_N. destruct (N.eqb_spec j k); [contradiction|reflexivity]. Qed.

Section Files.
Variables (place : text -> option N) (readable writable creatable removable : os -> N -> bool)
          (fresh : os -> N) (taken : os -> N -> text -> nat).
Let PF := perform place readable writable creatable removable fresh taken.
Let FW := file_write place readable writable creatable fresh taken.
Let FA := file_append place readable writable creatable fresh taken.

(** *** One message *)
Lemma write_opened : forall s p t s' a e l, nul_free p -> place p = Some l -> unused s (fresh s) ->
  (forall s i, length t <= taken s i t) -> FW s (Some p) t = Ok (s', a, e) ->
  (s' = s /\ a = ANil /\ e = true) \/
  (a = AMe /\ e = false /\ exists i, entry s' l = Some (Regular i) /\ bytes s' i = t /\
     (entry s l = Some (Regular i) \/ entry s l = None /\ unused s i) /\
     (forall l', l' <> l -> entry s' l' = entry s l') /\ (forall j, j <> i -> bytes s' j = bytes s j)).
Proof.
  intros s p t s' a e l NF PL UN TK. unfold FW, file_write. rewrite until_free by assumption. unfold open_write. rewrite PL.
  destruct (entry s l) as [[|i]|] eqn:E.
  - intros X; inversion X; subst. now left.
  - destruct (readable s l && writable s l); [|intros X; inversion X; subst; now left].
    intros X; inversion X; subst. right. split; [reflexivity|]. split; [reflexivity|]. exists i. unfold fwrite. cbn [entry bytes].
    rewrite !at_eq, firstn_all2 by apply TK. split; [assumption|]. split; [reflexivity|]. split; [now left|]. split; [reflexivity|].
    intros j NJ. now rewrite !at_ne by assumption.
  - destruct (creatable s l); [|intros X; inversion X; subst; now left].
    intros X; inversion X; subst. right. split; [reflexivity|]. split; [reflexivity|]. exists (fresh s). unfold fwrite. cbn [entry bytes].
    rewrite !at_eq, firstn_all2 by apply TK. split; [reflexivity|]. split; [reflexivity|]. split; [now right|]. split.
    + intros l' NL. now rewrite at_ne by assumption.
    + intros j NJ. now rewrite !at_ne by assumption.
Qed.
Lemma append_opened : forall s p t s' a e l, nul_free p -> place p = Some l -> unused s (fresh s) ->
  (forall s i, length t <= taken s i t) -> FA s (Some p) t = Ok (s', a, e) ->
  (s' = s /\ a = ANil /\ e = true) \/
  (a = AMe /\ e = false /\ exists i, entry s' l = Some (Regular i) /\
     (entry s l = Some (Regular i) /\ bytes s' i = bytes s i ++ t \/ entry s l = None /\ unused s i /\ bytes s' i = t) /\
     (forall l', l' <> l -> entry s' l' = entry s l') /\ (forall j, j <> i -> bytes s' j = bytes s j)).
Proof.
  intros s p t s' a e l NF PL UN TK. unfold FA, file_append. rewrite cstring_free by assumption. unfold open_write. rewrite PL.
  destruct (entry s l) as [[|i]|] eqn:E.
  - intros X; inversion X; subst. now left.
  - destruct (readable s l && writable s l); [|intros X; inversion X; subst; now left].
    intros X; inversion X; subst. right. split; [reflexivity|]. split; [reflexivity|]. exists i. unfold fwrite. cbn [entry bytes].
    rewrite !at_eq, firstn_all2 by apply TK. split; [assumption|]. split; [now left|]. split; [reflexivity|].
    intros j NJ. now rewrite !at_ne by assumption.
  - destruct (creatable s l); [|intros X; inversion X; subst; now left].
    intros X; inversion X; subst. right. split; [reflexivity|]. split; [reflexivity|]. exists (fresh s). unfold fwrite. cbn [entry bytes].
    rewrite !at_eq, firstn_all2 by apply TK. split; [reflexivity|]. split; [now right|]. split.
    + intros l' NL. now rewrite at_ne by assumption.
    + intros j NJ. now rewrite !at_ne by assumption.
Qed.

(** After a successful [write:] the text is read, whoever else may share the file. *)
Theorem write_then_read : forall s p t s' e, nul_free p -> unused s (fresh s) ->
  (forall s i, length t <= taken s i t) -> FW s (Some p) t = Ok (s', AMe, e) ->
  e = false /\
  (forall l, place p = Some l -> readable s' l = true ->
     file_read place readable s' (Some p) = Ok (s', AText t, false) /\
     file_exists place readable s' (Some p) = Ok (s', ABool true, false) /\
     ((Z.of_nat (length t) < 2147483648)%Z ->
      file_size place readable s' (Some p) = Ok (s', ANumber (Z.of_nat (length t)), false))).
Proof.
  intros s p t s' e NF UN TK W. destruct (place p) as [l|] eqn:PL.
  2: { exfalso. unfold FW, file_write, open_write in W. rewrite until_free, PL in W by assumption. discriminate. }
  destruct (write_opened _ _ _ _ _ _ _ NF PL UN TK W) as [(_ & X & _)|(_ & -> & i & E & B & _)]; [discriminate|].
  split; [reflexivity|]. intros l' X R. inversion X; subst l'. unfold file_read, file_exists, file_size, open_read.
  rewrite cstring_free, PL, E, R by assumption. rewrite B. split; [reflexivity|]. split; [reflexivity|].
  intros L. rewrite to_int_small by lia. reflexivity.
Qed.

(** After a successful [append:] the text stands at the end. *)
Theorem append_then_read : forall s p t s' e l, nul_free p -> unused s (fresh s) -> place p = Some l ->
  (forall s i, length t <= taken s i t) -> FA s (Some p) t = Ok (s', AMe, e) -> readable s' l = true ->
  e = false /\ exists old, (view s l = Some (AFile old) \/ view s l = None /\ old = []) /\
    file_read place readable s' (Some p) = Ok (s', AText (old ++ t), false).
Proof.
  intros s p t s' e l NF UN PL TK W R.
  destruct (append_opened _ _ _ _ _ _ _ NF PL UN TK W) as [(_ & X & _)|(_ & -> & i & E & K & _)]; [discriminate|].
  split; [reflexivity|]. unfold file_read, open_read, view. rewrite cstring_free, PL, E, R by assumption.
  destruct K as [(K & B)|(K & _ & B)]; rewrite K, B; [exists (bytes s i)|exists []]; auto.
Qed.
(** After a successful [delete] the file is gone. *)
Theorem delete_then : forall s p s' e, file_delete place removable s (Some p) = Ok (s', AMe, e) ->
  e = false /\ file_exists place readable s' (Some p) = Ok (s', ABool false, false) /\
  file_read place readable s' (Some p) = Ok (s', ANil, true) /\
  file_size place readable s' (Some p) = Ok (s', ANumber 0, false).
Proof.
  intros s p s' e H. unfold file_delete in H. destruct (place (cstring p)) as [l|] eqn:PL; [|discriminate].
  destruct (entry s l); [|discriminate]. destruct (removable s l); [|discriminate]. inversion H; subst.
  unfold file_exists, file_read, file_size, open_read. rewrite PL. cbn [entry]. rewrite at_eq. auto.
Qed.

(** A message answered with an error leaves everything as it was; so do read, exists and size. *)
Theorem error_changes_nothing : forall s p o s' a e, PF s p o = Ok (s', a, e) ->
  (e = true -> s' = s /\ a = ANil) /\
  (o = ORead \/ o = OExists \/ o = OSize -> s' = s).
Proof.
  intros s p o s' a e H. unfold PF, perform, file_read, file_write, file_append, file_exists, file_delete, file_size in H.
  destruct o, p as [p|]; repeat match type of H with
    | context [match ?x with _ => _ end] => destruct x
    end; inversion H; subst; (split; [|intros [|[|]]; congruence]); intros; split; congruence.
Qed.

(** Other files: their places and, unless they are the same file under another name, their
    contents stay. *)
Theorem others_untouched : forall s p o s' a e l, nul_free p -> place p = Some l -> unused s (fresh s) ->
  (forall t s i, length t <= taken s i t) -> PF s (Some p) o = Ok (s', a, e) ->
  forall l', l' <> l -> entry s' l' = entry s l' /\
    forall j, entry s l' = Some (Regular j) -> entry s l <> Some (Regular j) -> bytes s' j = bytes s j.
Proof.
  intros s p o s' a e l NF PL UN TK H l' NL. destruct o as [|t|t| | |].
  - apply error_changes_nothing in H as (_ & ->); auto.
  - destruct (write_opened _ _ _ _ _ _ _ NF PL UN (TK t) H) as [(-> & _)|(_ & _ & i & E & B & K & E2 & B2)]; [auto|].
    split; [now apply E2|]. intros j EJ NJ. apply B2. intros ->. destruct K as [K|(_ & K)]; [congruence|now apply K in EJ].
  - destruct (append_opened _ _ _ _ _ _ _ NF PL UN (TK t) H) as [(-> & _)|(_ & _ & i & E & K & E2 & B2)]; [auto|].
    split; [now apply E2|]. intros j EJ NJ. apply B2. intros ->. destruct K as [(K & _)|(_ & K & _)]; [congruence|now apply K in EJ].
  - apply error_changes_nothing in H as (_ & ->); auto.
  - unfold PF, perform, file_delete in H. rewrite cstring_free, PL in H by assumption.
    destruct (entry s l); [destruct (removable s l)|]; inversion H; subst; auto. cbn [entry bytes]. split; [now rewrite at_ne by assumption|auto].
  - apply error_changes_nothing in H as (_ & ->); auto.
Qed.

(** *** Histories *)
Hypothesis AR : forall s l, readable s l = true.
Hypothesis AW : forall s l, writable s l = true.
Hypothesis AC : forall s l, creatable s l = true.
Hypothesis AD : forall s l, removable s l = true.
Hypothesis AF : forall s, unused s (fresh s).
Hypothesis AT : forall s i t, length t <= taken s i t.

Lemma does_ext : forall w w' l o, (forall l, w l = w' l) ->
  match does w l o, does w' l o with
  | Some (w1, a, e), Some (w1', a', e') => (forall l, w1 l = w1' l) /\ a = a' /\ e = e'
  | None, None => True
  | _, _ => False
  end.
Proof.
  intros w w' l o H. unfold does. rewrite <- (H l).
  assert (C : forall x j, change w l x j = change w' l x j) by (intros x j; unfold change; now rewrite H).
  destruct o, (w l) as [[|u]|]; auto.
Qed.
Lemma view_eq : forall s l x, view s l = Some (AFile x) -> exists i, entry s l = Some (Regular i) /\ bytes s i = x.
Proof. intros s l x H. unfold view in H. destruct (entry s l) as [[|i]|]; try discriminate. inversion H. now exists i. Qed.
Lemma view_changed : forall s s' l i t, unshared s -> entry s' l = Some (Regular i) -> bytes s' i = t ->
  (entry s l = Some (Regular i) \/ entry s l = None /\ unused s i) ->
  (forall l', l' <> l -> entry s' l' = entry s l') -> (forall j, j <> i -> bytes s' j = bytes s j) ->
  unshared s' /\ forall j, view s' j = change (view s) l (Some (AFile t)) j.
Proof.
  intros s s' l i t US E B K E2 B2. split.
  - intros a b x Ea Eb. destruct (N.eq_dec a l) as [->|Na], (N.eq_dec b l) as [->|Nb]; auto.
    + rewrite E in Ea. inversion Ea; subst x. rewrite E2 in Eb by assumption. destruct K as [K|(_ & K)]; [now apply (US l b i)|now apply K in Eb].
    + rewrite E in Eb. inversion Eb; subst x. rewrite E2 in Ea by assumption. destruct K as [K|(_ & K)]; [now apply (US a l i)|now apply K in Ea].
    + rewrite E2 in Ea, Eb by assumption. now apply (US a b x).
  - intros j. unfold view, change. destruct (N.eqb_spec j l) as [->|NJ]; [now rewrite E, B|].
    rewrite E2 by assumption. destruct (entry s j) as [[|x]|] eqn:Ej; auto. f_equal. f_equal. apply B2. intros ->.
    destruct K as [K|(_ & K)]; [apply NJ; now apply (US j l i)|now apply K in Ej].
Qed.
Lemma step : forall s p l o s' a e, nul_free p -> place p = Some l -> unshared s -> small (view s) ->
  PF s (Some p) o = Ok (s', a, e) ->
  unshared s' /\ exists w, does (view s) l o = Some (w, a, e) /\ forall j, view s' j = w j.
Proof.
  intros s p l o s' a e NF PL US SM H.
  assert (OR : open_read place readable s p = entry s l).
  { unfold open_read. rewrite PL. destruct (entry s l); [now rewrite AR|reflexivity]. }
  assert (V : view s l = match entry s l with None => None | Some Folder => Some AFolder | Some (Regular i) => Some (AFile (bytes s i)) end) by reflexivity.
  destruct o as [|t|t| | |].
  - unfold PF, perform, file_read in H. rewrite cstring_free, OR in H by assumption. unfold does. rewrite V.
    destruct (entry s l) as [[|i]|]; inversion H; subst; (split; [assumption|]); eexists; (split; [reflexivity|reflexivity]).
  - pose proof H as H0. unfold PF in H0. cbn [perform] in H0.
    destruct (write_opened _ _ _ _ _ _ _ NF PL (AF s) (fun s i => AT s i t) H0) as [(-> & -> & ->)|(-> & -> & i & E & B & K & E2 & B2)].
    + split; [assumption|]. exists (view s). split; [|reflexivity]. unfold does. rewrite V.
      unfold file_write, open_write in H0. rewrite until_free, PL in H0 by assumption.
      destruct (entry s l) as [[|i]|]; [reflexivity|rewrite AR, AW in H0; discriminate|rewrite AC in H0; discriminate].
    + destruct (view_changed _ _ _ _ _ US E B K E2 B2) as (US' & VC). split; [assumption|].
      exists (change (view s) l (Some (AFile t))). split; [|assumption]. unfold does. rewrite V.
      destruct K as [K|(K & _)]; rewrite K; reflexivity.
  - pose proof H as H0. unfold PF in H0. cbn [perform] in H0.
    destruct (append_opened _ _ _ _ _ _ _ NF PL (AF s) (fun s i => AT s i t) H0) as [(-> & -> & ->)|(-> & -> & i & E & K & E2 & B2)].
    + split; [assumption|]. exists (view s). split; [|reflexivity]. unfold does. rewrite V.
      unfold file_append, open_write in H0. rewrite cstring_free, PL in H0 by assumption.
      destruct (entry s l) as [[|i]|]; [reflexivity|rewrite AR, AW in H0; discriminate|rewrite AC in H0; discriminate].
    + assert (K' : entry s l = Some (Regular i) \/ entry s l = None /\ unused s i) by tauto.
      destruct (view_changed _ _ _ _ _ US E eq_refl K' E2 B2) as (US' & VC). split; [assumption|].
      exists (change (view s) l (Some (AFile (bytes s' i)))). split; [|assumption]. unfold does. rewrite V.
      destruct K as [(K & B)|(K & _ & B)]; rewrite K, B; reflexivity.
  - unfold PF, perform, file_exists in H. rewrite cstring_free, OR in H by assumption. unfold does. rewrite V.
    destruct (entry s l) as [[|i]|]; inversion H; subst; (split; [assumption|]); eexists; (split; [reflexivity|reflexivity]).
  - unfold PF, perform, file_delete in H. rewrite cstring_free, PL in H by assumption. unfold does. rewrite V.
    destruct (entry s l) as [n|] eqn:E.
    + rewrite AD in H. inversion H; subst. split.
      * intros x y i. cbn [entry]. unfold at_N. destruct (x =? l)%N; [discriminate|]. destruct (y =? l)%N; [discriminate|]. apply US.
      * exists (change (view s) l None). split; [destruct n; reflexivity|]. intros j. unfold view, change. cbn [entry bytes]. unfold at_N.
        now destruct (j =? l)%N.
    + inversion H; subst. split; [assumption|]. eexists; (split; [reflexivity|reflexivity]).
  - unfold PF, perform, file_size in H. rewrite cstring_free, OR in H by assumption. unfold does. rewrite V.
    destruct (entry s l) as [[|i]|] eqn:E; inversion H; subst; (split; [assumption|]); eexists; (split; [|reflexivity]); [|reflexivity].
    rewrite to_int_small; [reflexivity|]. split; [lia|]. apply (SM l). unfold view. now rewrite E.
Qed.

(** Every history of messages to files behaves like the same history on a plain store. *)
Theorem histories : forall h s s' r, unshared s ->
  (forall p o, In (p, o) h -> nul_free p /\ place p <> None) ->
  (forall h1 h2 s1 r1, h = h1 ++ h2 -> history place readable writable creatable removable fresh taken s h1 = Ok (s1, r1) -> small (view s1)) ->
  history place readable writable creatable removable fresh taken s h = Ok (s', r) ->
  lives place (view s) h (view s') r.
Proof.
  assert (G : forall h s s' r w, unshared s -> (forall j, view s j = w j) ->
    (forall p o, In (p, o) h -> nul_free p /\ place p <> None) ->
    (forall h1 h2 s1 r1, h = h1 ++ h2 -> history place readable writable creatable removable fresh taken s h1 = Ok (s1, r1) -> small (view s1)) ->
    history place readable writable creatable removable fresh taken s h = Ok (s', r) -> lives place w h (view s') r).
  { induction h as [|[p o] h IH]; intros s s' r w US VW HP HS H.
    - cbn in H. inversion H; subst. constructor. intros l. now rewrite VW.
    - cbn [history] in H. destruct (perform _ _ _ _ _ _ _ s (Some p) o) as [[[s1 a] e]|] eqn:E; [|discriminate]. cbn [obind] in H.
      destruct (history _ _ _ _ _ _ _ s1 h) as [[s2 l]|] eqn:E2; [|discriminate]. cbn [obind] in H. inversion H; subst.
      destruct (HP p o (or_introl eq_refl)) as (NF & PN). destruct (place p) as [lp|] eqn:PL; [|congruence].
      destruct (step s p lp o s1 a e NF PL US (HS [] _ s [] eq_refl eq_refl) E) as (US1 & w1 & D & V1).
      pose proof (does_ext (view s) w lp o VW) as DX. rewrite D in DX. destruct (does w lp o) as [[[w2 a2] e2]|] eqn:D2; [|contradiction].
      destruct DX as (WX & <- & <-). eapply lives_cons; [exact PL|exact D2|].
      apply (IH s1 s' l w2 US1); [intros j; rewrite V1; apply WX|intros q o' I; apply (HP q o'); now right| |assumption].
      intros h1 h2 s3 r3 EH EX. apply (HS ((p, o) :: h1) h2 s3 ((a, e) :: r3)); [now rewrite EH|].
      cbn [history]. rewrite E. cbn [obind]. rewrite EX. reflexivity. }
  intros h s s' r US HP HS H. now apply (G h s s' r (view s)).
Qed.
End Files.

(** ** Listing *)
Lemma list_loop_ok : forall kind path names, (forall d, In d names -> length path + 1 + length d <= PATH_MAX /\ 2 + length d <= PATH_MAX) ->
  exists l, list_loop kind path names = Ok l /\
    map fst l = filter (fun d => match kind (path ++ 47%N :: d) with Some _ => true | None => false end) names /\
    (forall d k, In (d, k) l -> kind (path ++ 47%N :: d) = Some k).
Proof.
  intros kind path; induction names as [|d r IH]; intros H.
  - exists []. repeat split. intros d k [].
  - destruct IH as (l & E & M & K); [intros x I; apply H; now right|]. destruct (H d (or_introl eq_refl)) as (H1 & H2).
    unfold dirsep in *. cbn [list_loop]. unfold dirsep. cbn [length].
    destruct (Nat.ltb_spec PATH_MAX (1 + 1 + length d)); [lia|]. destruct (Nat.ltb_spec PATH_MAX (length path + 1 + length d)); [lia|].
    rewrite E. cbn [obind app filter]. destruct (kind (path ++ 47%N :: d)) as [k|] eqn:Kd.
    + eexists; split; [reflexivity|]. split; [cbn; now rewrite M|]. intros x y [X|X]; [now inversion X; subst|now apply K].
    + eexists; split; [reflexivity|]. split; [assumption|assumption].
Qed.
Theorem listing : forall opendir kind path names, opendir (cstring path) = Some names ->
  (forall d, In d names -> length (cstring path) + 1 + length d <= 4096 /\ length d <= 255) ->
  exists l, file_list opendir kind path = Ok (Some l) /\
    map fst l = filter (fun d => match kind (cstring path ++ 47%N :: d) with Some _ => true | None => false end) names /\
    (forall d k, In (d, k) l -> kind (cstring path ++ 47%N :: d) = Some k).
Proof.
  intros opendir kind path names O H. destruct (list_loop_ok kind (cstring path) names) as (l & E & M & K).
  { intros d I. destruct (H d I) as (A & B). assert (P : PATH_MAX = 4096) by reflexivity. rewrite P. split; lia. }
  exists l. unfold file_list. rewrite O, E. cbn [obind]. auto.
Qed.
