(** Proofs about the texts of errors. *)
From Coq Require Import String.
From Verif Require TextSpec.
From Verif Require Import Common Txt NumModel NumSpec NumProofs ErrSpec ErrDicts ErrModel.
Local Open Scope N_scope.

Lemma printf_plain a : forall r args, no_places a -> printf (a ++ r) args = do t <- printf r args; Ok (a ++ t)%list.
Proof.
  induction a as [|c a IH]; intros r args H; cbn [app].
  - destruct (printf r args); reflexivity.
  - inversion H as [|? ? C T]; subst. assert (E : printf (c :: a ++ r) args = do t <- printf (a ++ r) args; Ok (c :: t)).
    { cbn [printf]. unfold percent in C. destruct c as [|p]; [reflexivity|]. do 6 (destruct p as [p|p|]; try reflexivity). now elim C. }
    rewrite E, (IH r args T). destruct (printf r args); reflexivity.
Qed.
Lemma printf_str r u a : printf ([percent; 115] ++ r) (Str u :: a) = do t <- printf r a; Ok (u ++ t)%list.
Proof. reflexivity. Qed.
Lemma printf_int r z a : printf ([percent; 100] ++ r) (Int z :: a) = do t <- printf r a; Ok (written_int z ++ t)%list.
Proof. reflexivity. Qed.
Lemma printf_none a args : no_places a -> printf a args = Ok a.
Proof. intros H. rewrite <- (app_nil_r a) at 1. rewrite (printf_plain a [] args H). cbn [printf obind]. now rewrite app_nil_r. Qed.
Lemma printf_one m a b u : one_place m a b -> printf m [Str u] = Ok (a ++ u ++ b)%list.
Proof.
  intros (-> & A & B). rewrite (printf_plain a _ _ A), printf_str, (printf_none b _ B). reflexivity.
Qed.
Lemma printf_three m a b c d u v z : three_places m a b c d -> printf m [Str u; Str v; Int z] = Ok (a ++ u ++ b ++ v ++ c ++ written_int z ++ d)%list.
Proof.
  intros (-> & A & B & C & D). rewrite (printf_plain a _ _ A), printf_str, (printf_plain b _ _ B), printf_str, (printf_plain c _ _ C), printf_int, (printf_none d _ D).
  cbn [obind]. reflexivity.
Qed.

(** ** The messages of all languages *)
Definition clean (t : text) : bool := forallb (fun c => negb (c =? 37)) t.
Lemma clean_ok t : clean t = true -> no_places t.
Proof. unfold clean. rewrite forallb_forall. intros H. apply Forall_forall. intros c I E. specialize (H c I). rewrite E in H. discriminate. Qed.
(** up to the first place *)
Fixpoint cut (k : N) (t : text) : option (text * text) :=
  match t with
  | 37 :: c :: r => if c =? k then Some ([], r) else None
  | 37 :: [] => None
  | c :: r => match cut k r with Some (a, b) => Some (c :: a, b) | None => None end
  | [] => None
  end.
Lemma cut_ok k t : forall a b, cut k t = Some (a, b) -> t = (a ++ [percent; k] ++ b)%list /\ no_places a.
Proof.
  induction t as [|c t IH]; intros a b H; [discriminate|].
  destruct (N.eq_dec c 37) as [->|NE].
  - cbn [cut] in H. destruct t as [|k' t]; [discriminate|]. destruct (k' =? k) eqn:E; [|discriminate]. apply N.eqb_eq in E. subst k'.
    injection H as <- <-. split; [reflexivity|constructor].
  - assert (E : cut k (c :: t) = match cut k t with Some (a, b) => Some (c :: a, b) | None => None end).
    { cbn [cut]. destruct c as [|p]; [reflexivity|]. do 6 (destruct p as [p|p|]; try reflexivity). now elim NE. }
    rewrite E in H. destruct (cut k t) as [[a' b']|]; [|discriminate]. injection H as <- <-. destruct (IH a' b' eq_refl) as [-> P].
    split; [reflexivity|]. constructor; assumption.
Qed.
Definition three (t : text) : option (text * text * text * text) :=
  match cut 115 t with
  | Some (a, r) => match cut 115 r with Some (b, r2) => match cut 100 r2 with Some (c, d) => if clean d then Some (a, b, c, d) else None | None => None end | None => None end
  | None => None
  end.
Lemma three_ok t a b c d : three t = Some (a, b, c, d) -> three_places t a b c d.
Proof.
  unfold three. destruct (cut 115 t) as [[a' r]|] eqn:E1; [|discriminate]. destruct (cut 115 r) as [[b' r2]|] eqn:E2; [|discriminate].
  destruct (cut 100 r2) as [[c' d']|] eqn:E3; [|discriminate]. destruct (clean d') eqn:E4; [|discriminate].
  intros [= -> -> -> ->]. apply cut_ok in E1. apply cut_ok in E2. apply cut_ok in E3. apply clean_ok in E4.
  destruct E1 as [-> A], E2 as [-> B], E3 as [-> C]. repeat split; auto.
Qed.
Definition silent (l : lang) : bool := (code l =? "hy")%string || (code l =? "ky")%string || (code l =? "ps")%string.
Definition plain_fine (l : lang) : bool := forallb (fun m => clean (lit m) && (List.length (lit m) <? 500)%nat) (plain l).
Definition hint_fine (l : lang) : bool := forallb (fun m => clean (lit m) && (List.length (lit m) <=? 235)%nat) (hints l).
Definition open_fine (l : lang) : bool := silent l || match cut 115 (lit (open_err l)) with Some (_, b) => clean b | None => false end.
Definition syntax_fine (l : lang) : bool :=
  match three (lit (syntax_err l)) with Some _ => (List.length (lit (syntax_err l)) <=? 111)%nat | None => false end.
Lemma all_fine : forallb (fun l => plain_fine l && hint_fine l && open_fine l && syntax_fine l) langs = true.
Proof. vm_compute. reflexivity. Qed.
Lemma fine l : In l langs -> plain_fine l = true /\ hint_fine l = true /\ open_fine l = true /\ syntax_fine l = true.
Proof.
  intros H. pose proof (proj1 (forallb_forall _ _) all_fine l H) as F. apply andb_prop in F. destruct F as [F D]. apply andb_prop in F. destruct F as [F C].
  apply andb_prop in F. destruct F as [A B]. auto.
Qed.

Lemma plain_ok l m reason : In l langs -> In m (plain l) -> error (lit m) reason = Ok (lit m).
Proof.
  intros L M. destruct (fine l L) as (P & _). pose proof (proj1 (forallb_forall _ _) P m M) as F. apply andb_prop in F. destruct F as [A B].
  apply clean_ok in A. apply Nat.ltb_lt in B. unfold error, snprintf. rewrite (printf_none _ _ A). cbn [obind]. f_equal. apply firstn_all2. lia.
Qed.
Lemma open_ok l reason : In l langs -> ~ In (code l) ["hy"; "ky"; "ps"]%string ->
  exists a b, one_place (lit (open_err l)) a b /\ error (lit (open_err l)) reason = Ok (firstn 499 (a ++ reason ++ b)).
Proof.
  intros L S. destruct (fine l L) as (_ & _ & O & _). unfold open_fine in O.
  assert (SI : silent l = false).
  { unfold silent. rewrite !orb_false_iff, !String.eqb_neq. repeat split; intros E; apply S; rewrite E; cbn; auto. }
  rewrite SI in O. cbn [orb] in O. destruct (cut 115 (lit (open_err l))) as [[a b]|] eqn:C; [|discriminate]. apply cut_ok in C. apply clean_ok in O.
  exists a, b. assert (P : one_place (lit (open_err l)) a b) by (destruct C; split; auto). split; [exact P|].
  unfold error, snprintf. rewrite (printf_one _ _ _ _ P). reflexivity.
Qed.
Lemma describe_len t : (List.length (describe t) <= 15)%nat. Proof. destruct t; vm_compute; lia. Qed.
Lemma describe_clean t : no_places (describe t). Proof. apply clean_ok. destruct t; reflexivity. Qed.
Lemma digits_clean ds : digits ds -> no_places ds.
Proof. apply Forall_impl. intros c D E. subst. unfold digit, percent in D. lia. Qed.
Lemma no_places_app a b : no_places a -> no_places b -> no_places (a ++ b). Proof. intros. now apply Forall_app. Qed.
Lemma no_places_firstn n a : no_places a -> no_places (firstn n a).
Proof. intros H. apply Forall_forall. intros c I. apply (proj1 (Forall_forall _ _) H). rewrite <- (firstn_skipn n a). apply in_or_app. now left. Qed.
Definition hinted (l : lang) (hint : option text) : Prop := hint = None \/ exists h, In h (hints l) /\ hint = Some (lit h).
Definition hint_text (hint : option text) : text := match hint with Some h => h | None => [] end.
Lemma hint_ok l hint : In l langs -> hinted l hint -> no_places (hint_text hint) /\ (List.length (hint_text hint) <= 235)%nat.
Proof.
  intros L [->|(h & I & ->)]; cbn [hint_text]; [split; [constructor|cbn; lia]|]. destruct (fine l L) as (_ & H & _).
  pose proof (proj1 (forallb_forall _ _) H h I) as F. apply andb_prop in F. destruct F as [A B]. apply clean_ok in A. apply Nat.leb_le in B. auto.
Qed.
Lemma parse_any l t hint path line reason : In l langs -> hinted l hint -> no_places path -> (0 <= line < 2147483647)%Z ->
  exists a b c d ds, three_places (lit (syntax_err l)) a b c d /\ written (line + 1) ds /\
    parse_error (lit (syntax_err l)) t hint path line reason =
      Ok (firstn 249 (a ++ describe t ++ b ++ path ++ c ++ ds ++ d) ++ hint_text hint)%list /\
    (List.length path <= 110 -> List.length (a ++ describe t ++ b ++ path ++ c ++ ds ++ d) <= 249)%nat.
Proof.
  intros L HT P LN. destruct (fine l L) as (_ & _ & _ & S). unfold syntax_fine in S.
  destruct (three (lit (syntax_err l))) as [[[[a b] c] d]|] eqn:T; [|discriminate]. apply three_ok in T. apply Nat.leb_le in S.
  destruct (dec_spec (Z.to_N (line + 1))) as (D1 & D2 & D3 & D4).
  exists a, b, c, d, (dec (Z.to_N (line + 1))). split; [exact T|]. split; [unfold written; rewrite D4; repeat split; auto; lia|].
  destruct (hint_ok l hint L HT) as [HC HL].
  assert (W : written_int (line + 1) = dec (Z.to_N (line + 1))) by (unfold written_int; destruct (line + 1 <? 0)%Z eqn:E; [apply Z.ltb_lt in E; lia|reflexivity]).
  assert (DL : (List.length (dec (Z.to_N (line + 1))) <= 10)%nat) by (apply dec_len; [lia|]; rewrite Z2N.id by lia; change (10 ^ Z.of_nat 10)%Z with 10000000000%Z; lia).
  split.
  - unfold parse_error. assert (I : in_int (line + 1) = true) by (apply in_int_iff; lia). rewrite I. unfold snprintf at 1.
    rewrite (printf_three _ _ _ _ _ _ _ _ T). cbn [obind]. rewrite W. change (250 - 1)%nat with 249%nat.
    assert (HM : snprintf 250 [37; 115] [Str (match hint with Some h => h | None => [] end)] = Ok (hint_text hint)).
    { unfold snprintf. cbn [printf obind]. f_equal. fold (hint_text hint). rewrite app_nil_r. apply firstn_all2. lia. }
    rewrite HM. cbn [obind]. set (e := firstn 249 _).
    assert (EL : (List.length e <= 249)%nat) by (unfold e; rewrite firstn_length; lia).
    assert (FM : snprintf 500 [37; 115; 37; 115] [Str e; Str (hint_text hint)] = Ok (e ++ hint_text hint)%list).
    { unfold snprintf. cbn [printf obind]. f_equal. rewrite app_nil_r. apply firstn_all2. rewrite app_length. lia. }
    rewrite FM. cbn [obind]. unfold error, snprintf.
    assert (EC : no_places (e ++ hint_text hint)).
    { apply no_places_app; [|exact HC]. unfold e. apply no_places_firstn. destruct T as (_ & TA & TB & TC & TD).
      repeat apply no_places_app; auto using describe_clean, digits_clean. }
    rewrite (printf_none _ _ EC). cbn [obind]. f_equal. apply firstn_all2. rewrite app_length. lia.
  - intros PL. destruct T as (T & _). pose proof (f_equal (@List.length N) T) as LT. rewrite !app_length in LT. cbn [List.length] in LT.
    rewrite !app_length. pose proof (describe_len t). clear -LT S PL DL H. lia.
Qed.
Lemma parse_whole l t hint path line reason : In l langs -> hinted l hint -> no_places path -> (List.length path <= 110)%nat -> (0 <= line < 2147483647)%Z ->
  exists a b c d ds, three_places (lit (syntax_err l)) a b c d /\ written (line + 1) ds /\
    parse_error (lit (syntax_err l)) t hint path line reason = Ok (a ++ describe t ++ b ++ path ++ c ++ ds ++ d ++ hint_text hint)%list.
Proof.
  intros L HT P PL LN. destruct (parse_any l t hint path line reason L HT P LN) as (a & b & c & d & ds & T & W & E & F).
  exists a, b, c, d, ds. split; [exact T|]. split; [exact W|]. rewrite E. f_equal. rewrite firstn_all2 by (apply F, PL). now rewrite <- !app_assoc.
Qed.
Lemma any_ok m reason : no_places m -> error m reason = Ok (firstn 499 m).
Proof. intros H. unfold error, snprintf. now rewrite (printf_none _ _ H). Qed.
Lemma describe_inj a b : describe a = describe b -> a = b.
Proof. destruct a, b; intros H; try reflexivity; vm_compute in H; discriminate. Qed.
(** a text that ends with the first byte of a longer character is not well formed *)
Lemma is_char_last c : TextSpec.is_char c -> last c 0 < 192.
Proof. destruct 1; cbn [last]; unfold TextSpec.cont in *; lia. Qed.
Lemma chars_last cs : Forall TextSpec.is_char cs -> last (concat cs) 0 < 192.
Proof.
  intros F. destruct cs as [|c cs] using rev_ind; [cbn; lia|]. clear IHcs. rewrite concat_app. cbn [concat]. rewrite app_nil_r.
  apply Forall_app in F. destruct F as [_ F]. inversion F as [|? ? C _]; subst.
  pose proof (is_char_last c C) as L. assert (NE : c <> []) by (intros ->; inversion C). destruct (exists_last NE) as (h & z & ->).
  rewrite app_assoc, last_last. now rewrite last_last in L.
Qed.
Lemma cut_unique k t : forall a b, t = (a ++ [percent; k] ++ b)%list -> no_places a -> cut k t = Some (a, b).
Proof.
  induction t as [|c t IH]; intros a b E A; [destruct a; discriminate|]. destruct a as [|c' a].
  - cbn [app] in E. injection E as -> ->. cbn [cut percent]. now rewrite N.eqb_refl.
  - cbn [app] in E. injection E as -> E. inversion A as [|? ? NE2 A2].
    assert (X : cut k (c' :: t) = match cut k t with Some (a, b) => Some (c' :: a, b) | None => None end).
    { unfold percent in NE2. cbn [cut]. destruct c' as [|p]; [reflexivity|]. do 6 (destruct p as [p|p|]; try reflexivity). now elim NE2. }
    rewrite X, (IH a b E A2). reflexivity.
Qed.
