From Coq Require Import String.
From Verif Require Import Common Txt NumModel FileSpec ProgSpec ProgModel ReqSpec ReqModel.
From Verif Require ProgProofs.
Local Open Scope N_scope.
Local Notation length := List.length.
Local Notation "'tx' s" := (lit s%string) (at level 8, s at level 0).

Lemma text_eqb_refl t : text_eqb t t = true.
Proof. induction t as [|c t IH]; cbn [text_eqb]; [reflexivity|]. rewrite N.eqb_refl, IH. reflexivity. Qed.
Lemma text_eqb_eq : forall a b, text_eqb a b = true -> a = b.
Proof.
  induction a as [|x a IH]; intros [|y b] H; cbn [text_eqb] in H; try discriminate; [reflexivity|].
  apply andb_true_iff in H. destruct H as (H1 & H2). apply N.eqb_eq in H1. rewrite H1, (IH b H2). reflexivity.
Qed.
Lemma text_eqb_sym a b : text_eqb a b = text_eqb b a.
Proof.
  destruct (text_eqb a b) eqn:E; [apply text_eqb_eq in E; rewrite E, text_eqb_refl; reflexivity|].
  destruct (text_eqb b a) eqn:E'; [apply text_eqb_eq in E'; rewrite E', text_eqb_refl in E; discriminate|reflexivity].
Qed.

(** * Variables *)
Definition add_all (v : varlist) (fs : fields) : varlist := fold_left (fun v f => add_var v (fst f) (snd f)) fs v.

Lemma find_add v m x n : findvar (add_var v m x) n =
  if text_eqb m n then Some (match findvar v n with Some xs => xs ++ [x] | None => [x] end) else findvar v n.
Proof.
  induction v as [|(k, xs) v IH]; cbn [add_var findvar].
  - destruct (text_eqb m n); reflexivity.
  - destruct (text_eqb k m) eqn:E; cbn [findvar].
    + apply text_eqb_eq in E. subst k. destruct (text_eqb m n); reflexivity.
    + destruct (text_eqb k n) eqn:E2.
      * apply text_eqb_eq in E2. subst k. rewrite text_eqb_sym, E. reflexivity.
      * exact IH.
Qed.
Lemma find_add_all : forall fs v n, findvar (add_all v fs) n =
  match findvar v n, values_of n fs with
  | Some xs, ys => Some (xs ++ ys)
  | None, [] => None
  | None, ys => Some ys
  end.
Proof.
  induction fs as [|(m, x) fs IH]; intros v n.
  - cbn [add_all fold_left values_of filter map]. destruct (findvar v n) as [xs|]; [rewrite app_nil_r|]; reflexivity.
  - change (add_all v ((m, x) :: fs)) with (add_all (add_var v m x) fs). rewrite IH, find_add.
    unfold values_of. cbn [filter fst]. destruct (text_eqb m n); cbn [map snd].
    + destruct (findvar v n) as [xs|]; [rewrite <- app_assoc|]; reflexivity.
    + reflexivity.
Qed.
Lemma request_string_ok fs n : ~ In 0 n -> request_string (add_all [] fs) n = value_of n fs.
Proof.
  intros Z. unfold request_string, lookup, value_of.
  assert (K : key n = n).
  { unfold key. clear -Z. induction n as [|c n IH]; cbn [filter]; [reflexivity|].
    destruct (N.eqb_spec c 0) as [->|]; [exfalso; apply Z; left; reflexivity|]. cbn [negb]. f_equal. apply IH. intros H; apply Z; right; exact H. }
  rewrite K, find_add_all. cbn [findvar]. destruct (values_of n fs); reflexivity.
Qed.
Lemma request_array_ok fs n : ~ In 0 n -> request_array (add_all [] fs) n = values_of n fs.
Proof.
  intros Z. unfold request_array, lookup_all.
  assert (K : key n = n).
  { unfold key. clear -Z. induction n as [|c n IH]; cbn [filter]; [reflexivity|].
    destruct (N.eqb_spec c 0) as [->|]; [exfalso; apply Z; left; reflexivity|]. cbn [negb]. f_equal. apply IH. intros H; apply Z; right; exact H. }
  rewrite K, find_add_all. cbn [findvar]. destruct (values_of n fs); reflexivity.
Qed.
Lemma request_file_ok fs n : ~ In 0 n -> request_file (add_all [] fs) n = match values_of n fs with x :: y :: r => x :: y :: r | _ => [] end.
Proof.
  intros Z. pose proof (request_array_ok fs n Z) as H. unfold request_array in H. unfold request_file.
  destruct (lookup_all (add_all [] fs) (key n)) as [xs|]; rewrite <- H; [|reflexivity].
  destruct xs as [|x [|y r]]; reflexivity.
Qed.

(** * Query strings *)
Lemma hex_same c : hex c = hex_digit c.
Proof.
  unfold hex, hex_digit. destruct ((48 <=? c) && (c <=? 57)); [reflexivity|].
  destruct ((65 <=? c) && (c <=? 70)) eqn:E1; [apply andb_true_iff in E1; destruct E1 as (E1 & E2); apply N.leb_le in E1; f_equal; lia|].
  destruct ((97 <=? c) && (c <=? 102)) eqn:E2; [apply andb_true_iff in E2; destruct E2 as (E2 & E3); apply N.leb_le in E2; f_equal; lia|reflexivity].
Qed.
Lemma hex_bound c d : hex_digit c = Some d -> d < 16.
Proof.
  unfold hex_digit. intros H.
  destruct ((48 <=? c) && (c <=? 57)) eqn:E; [|destruct ((65 <=? c) && (c <=? 70)) eqn:E1; [|destruct ((97 <=? c) && (c <=? 102)) eqn:E2; [|discriminate]]];
    injection H as <-; repeat match goal with H : (_ && _)%bool = true |- _ => apply andb_true_iff in H; destruct H end;
    repeat match goal with H : (_ <=? _) = true |- _ => apply N.leb_le in H end; lia.
Qed.
Lemma hex_not c d : hex_digit c = Some d -> c <> 38 /\ c <> 61.
Proof. intros H. split; intros ->; vm_compute in H; discriminate. Qed.

Lemma cut0_zero t : cut0 t = to_zero t. Proof. reflexivity. Qed.
Lemma to_zero_app a b k : nth_error a k = Some 0 -> to_zero (a ++ b) = to_zero a.
Proof.
  revert k. induction a as [|c a IH]; intros k H; [destruct k; discriminate|]. cbn [app to_zero]. destruct (N.eqb_spec c 0); [reflexivity|].
  destruct k as [|k]; cbn [nth_error] in H; [congruence|]. f_equal. apply (IH k H).
Qed.

Lemma un_hex x y r l h : hex_digit x = Some l -> hex_digit y = Some h -> unescaped (37 :: x :: y :: r) = (16 * l + h) :: unescaped r.
Proof. intros H1 H2. cbn [unescaped]. change (37 =? 43) with false. change (37 =? 37) with true. cbv iota. rewrite H1, H2. reflexivity. Qed.
Lemma un_pct r : (forall x y r', r = x :: y :: r' -> hex_digit x = None \/ hex_digit y = None) -> unescaped (37 :: r) = 37 :: unescaped r.
Proof.
  intros H. destruct r as [|x [|y r']]; [reflexivity|reflexivity|].
  change (unescaped (37 :: x :: y :: r')) with (match hex_digit x, hex_digit y with Some l, Some h => (16 * l + h) :: unescaped r' | _, _ => 37 :: unescaped (x :: y :: r') end).
  destruct (H x y r' eq_refl) as [-> | ->]; [reflexivity|]. destruct (hex_digit x); reflexivity.
Qed.

(** the field under way, with [buf] written and [s] to come *)
Definition rest_of (buf s : text) : fields :=
  let '(n, o) := before_after 61 s in
  [(to_zero (buf ++ unescaped n), match o with None => [] | Some x => to_zero (unescaped x) end)].
Definition now (buf : text) (name : option nat) (s : text) : fields :=
  match name with
  | Some k => [(to_zero buf, to_zero (skipn (k + 1) (buf ++ unescaped s)))]
  | None => match buf with [] => field_of s | _ => rest_of buf s end
  end.
Lemma field_rest s : no_leading 61 s = s -> s <> [] -> field_of s = rest_of [] s.
Proof.
  intros E NE. unfold field_of, rest_of. rewrite E. destruct s as [|c s]; [contradiction|].
  destruct (before_after 61 (c :: s)) as (n, o). cbn [app]. destruct o; reflexivity.
Qed.
Definition still (buf : text) (name : option nat) (q : text) : fields :=
  match split_on 38 q with [] => [] | s :: ss => now buf name s ++ flat_map field_of ss end.

Lemma split_cons c q : c <> 38 -> exists s ss, split_on 38 q = s :: ss /\ split_on 38 (c :: q) = (c :: s) :: ss.
Proof.
  intros NE. cbn [split_on]. destruct (N.eqb_spec c 38); [contradiction|].
  destruct (split_on 38 q) as [|s ss] eqn:E.
  - exfalso. destruct q as [|d q]; cbn [split_on] in E; [discriminate|]. destruct (d =? 38); [discriminate|]. destruct (split_on 38 q); discriminate.
  - exists s, ss. split; reflexivity.
Qed.
Lemma split_prefix : forall q s ss, split_on 38 q = s :: ss -> exists r, q = s ++ r.
Proof.
  induction q as [|c q IH]; intros s ss H.
  - injection H as <- <-. exists []. reflexivity.
  - cbn [split_on] in H. destruct (c =? 38).
    + injection H as <- <-. exists (c :: q). reflexivity.
    + destruct (split_on 38 q) as [|s' ss'] eqn:E.
      * injection H as <- <-. exists q. reflexivity.
      * injection H as <- <-. destruct (IH s' ss' eq_refl) as (r & ->). exists r. reflexivity.
Qed.
Lemma before_prefix : forall s n o, before_after 61 s = (n, o) -> exists r, s = n ++ r.
Proof.
  induction s as [|c s IH]; intros n o H; cbn [before_after] in H.
  - injection H as <- <-. exists []. reflexivity.
  - destruct (c =? 61).
    + injection H as <- <-. exists (c :: s). reflexivity.
    + destruct (before_after 61 s) as (a, b) eqn:E. injection H as <- <-. destruct (IH a b eq_refl) as (r & ->). exists r. reflexivity.
Qed.

(** one byte [d] is written while [e] is read, neither of which is a sign *)
Lemma now_step buf name e d s :
  (forall n r, s = n ++ r -> unescaped (e ++ n) = d :: unescaped n) -> (forall c, In c e -> c <> 61) -> e <> [] ->
  (forall k, name = Some k -> nth_error buf k = Some 0) ->
  now buf name (e ++ s) = now (buf ++ [d]) name s.
Proof.
  intros HU HE NE HK. unfold now. destruct name as [k|].
  - rewrite (to_zero_app buf [d] k (HK k eq_refl)). rewrite (HU s []) by (rewrite app_nil_r; reflexivity).
    rewrite <- app_assoc. reflexivity.
  - assert (HB : before_after 61 (e ++ s) = let '(n, o) := before_after 61 s in (e ++ n, o)).
    { clear -HE. induction e as [|c e IH]; cbn [app before_after]; [destruct (before_after 61 s); reflexivity|].
      destruct (N.eqb_spec c 61) as [->|]; [exfalso; apply (HE 61); [left|]; reflexivity|].
      rewrite IH by (intros x Hx; apply HE; right; exact Hx). destruct (before_after 61 s). reflexivity. }
    assert (HR : forall b, rest_of b (e ++ s) = rest_of (b ++ [d]) s).
    { intros b. unfold rest_of. rewrite HB. destruct (before_after 61 s) as (n, o) eqn:EB.
      destruct (before_prefix s n o EB) as (r & ->). rewrite (HU n r eq_refl). rewrite <- app_assoc. reflexivity. }
    destruct buf as [|b0 buf].
    + cbn [app]. rewrite field_rest; [apply (HR [])| |].
      * destruct e as [|c e]; [contradiction|]. cbn [app no_leading]. destruct (N.eqb_spec c 61) as [->|]; [exfalso; apply (HE 61); [left|]; reflexivity|reflexivity].
      * destruct e; [contradiction|discriminate].
    + cbn [app]. rewrite HR. reflexivity.
Qed.

Lemma split_cons2 e q s ss : (forall c, In c e -> c <> 38) -> split_on 38 q = s :: ss -> split_on 38 (e ++ q) = (e ++ s) :: ss.
Proof.
  intros HE H. induction e as [|c e IH]; [exact H|]. cbn [app].
  destruct (split_cons c (e ++ q)) as (s' & ss' & E1 & E2); [apply HE; left; reflexivity|].
  rewrite IH in E1 by (intros x Hx; apply HE; right; exact Hx). injection E1 as <- <-. exact E2.
Qed.

Lemma still_step buf name e d q :
  (forall n r, q = n ++ r -> unescaped (e ++ n) = d :: unescaped n) -> (forall c, In c e -> c <> 61 /\ c <> 38) -> e <> [] ->
  (forall k, name = Some k -> nth_error buf k = Some 0) ->
  still buf name (e ++ q) = still (buf ++ [d]) name q.
Proof.
  intros HU HE NE HK. unfold still. destruct (split_on 38 q) as [|s ss] eqn:E.
  { exfalso. destruct q as [|x q]; cbn [split_on] in E; [discriminate|]. destruct (x =? 38); [discriminate|]. destruct (split_on 38 q); discriminate. }
  rewrite (split_cons2 e q s ss) by (try exact E; intros c Hc; apply HE; exact Hc).
  f_equal. destruct (split_prefix q s ss E) as (r & ->).
  apply now_step; try assumption; [|intros c Hc; apply HE; exact Hc].
  intros n r' ->. apply (HU n (r' ++ r)). rewrite <- app_assoc. reflexivity.
Qed.

Definition good (buf : text) (name : option nat) : Prop := forall k, name = Some k -> nth_error buf k = Some 0.
Lemma good_app buf name x : good buf name -> good (buf ++ x) name.
Proof. intros G k E. rewrite nth_error_app1; [apply G; exact E|]. apply nth_error_Some. rewrite (G k E). discriminate. Qed.

Lemma end_field_ok size buf name v : (length buf < size)%nat -> good buf name ->
  end_field size buf name v = Ok (add_all v (now buf name [])).
Proof.
  intros L G. unfold end_field. destruct (Nat.ltb_spec (length buf) size); [|lia]. f_equal. unfold now. change cut0 with to_zero.
  destruct name as [k|].
  - cbn [unescaped]. rewrite app_nil_r. reflexivity.
  - destruct buf as [|c buf]; [reflexivity|]. unfold rest_of. cbn [before_after unescaped]. rewrite app_nil_r. reflexivity.
Qed.
Lemma put_ok size buf c : (length buf < size)%nat -> put size buf c = Ok (buf ++ [c]).
Proof. intros L. unfold put. destruct (Nat.ltb_spec (length buf) size); [reflexivity|lia]. Qed.

Lemma query_loop_ok : forall n q size buf name v, (length q <= n)%nat -> (length buf + length q < size)%nat -> good buf name ->
  query_loop size q buf name v = Ok (add_all v (still buf name q)).
Proof.
  induction n as [|n IH]; intros q size buf name v Ln L G.
  { destruct q; [|cbn [length] in Ln; lia]. cbn [query_loop]. rewrite end_field_ok by (cbn [length] in L; try lia; exact G).
    unfold still. cbn [split_on flat_map]. rewrite app_nil_r. reflexivity. }
  destruct q as [|c q].
  { cbn [query_loop]. rewrite end_field_ok by (cbn [length] in L; try lia; exact G).
    unfold still. cbn [split_on flat_map]. rewrite app_nil_r. reflexivity. }
  cbn [length] in L, Ln.
  (* a byte that stands for itself *)
  assert (PLAIN : c <> 61 -> c <> 38 -> (forall m r, q = m ++ r -> unescaped (c :: m) = c :: unescaped m) ->
    (do b <- put size buf c; query_loop size q b name v) = Ok (add_all v (still buf name (c :: q)))).
  { intros N1 N2 HU. rewrite put_ok by lia. cbn [obind]. rewrite IH; [|lia|rewrite app_length; cbn [length]; lia|apply good_app; exact G].
    f_equal. f_equal. symmetry. apply (still_step buf name [c] c q); [|intros d [<-|[]]; split; assumption|discriminate|exact G].
    intros m r E. apply (HU m r E). }
  assert (SIMPLE : c <> 43 -> c <> 37 -> forall m r, q = m ++ r -> unescaped (c :: m) = c :: unescaped m).
  { intros N1 N2 m r _. cbn [unescaped]. destruct (N.eqb_spec c 43); [contradiction|]. destruct (N.eqb_spec c 37); [contradiction|]. reflexivity. }
  cbn [query_loop]. destruct (N.eqb_spec c 61) as [->|N61].
  - (* = *)
    destruct name as [k|].
    + rewrite put_ok by lia. cbn [obind]. rewrite IH; [|lia|rewrite app_length; cbn [length]; lia|apply good_app; exact G].
      f_equal. f_equal. unfold still. destruct (split_cons 61 q ltac:(discriminate)) as (s & ss & E1 & E2). rewrite E1, E2. f_equal.
      unfold now. rewrite (to_zero_app buf [61] k (G k eq_refl)).
      change (unescaped (61 :: s)) with (61 :: unescaped s). rewrite <- app_assoc. reflexivity.
    + destruct buf as [|b0 buf].
      * cbn [length]. change (0 <? 0)%nat with false. cbv iota. rewrite IH; [|lia|cbn [length] in *; lia|intros k E; discriminate].
        f_equal. f_equal. unfold still. destruct (split_cons 61 q ltac:(discriminate)) as (s & ss & E1 & E2). rewrite E1, E2. reflexivity.
      * cbn [length]. change (0 <? S (length buf))%nat with true. cbv iota. cbn [length] in L. rewrite put_ok by (cbn [length]; lia). cbn [obind].
        rewrite IH; [|lia|rewrite app_length; cbn [length]; lia|].
        -- f_equal. f_equal. unfold still. destruct (split_cons 61 q ltac:(discriminate)) as (s & ss & E1 & E2). rewrite E1, E2. f_equal.
           unfold now, rest_of. cbn [before_after]. change (61 =? 61) with true. cbv iota. cbn [unescaped]. rewrite app_nil_r.
           f_equal. f_equal.
           ++ clear. generalize (b0 :: buf). intros t. induction t as [|c t IHt]; cbn [app to_zero]; [reflexivity|]. destruct (c =? 0); [reflexivity|]. f_equal. exact IHt.
           ++ f_equal. rewrite skipn_app. rewrite skipn_all2 by (rewrite app_length; cbn [length]; lia).
              rewrite app_length. cbn [length]. replace (S (length buf) + 1 - (S (length buf) + 1))%nat with 0%nat by lia. reflexivity.
        -- intros k E. injection E as <-. rewrite nth_error_app2 by (cbn [length]; lia). cbn [length]. rewrite Nat.sub_diag. reflexivity.
  - destruct (N.eqb_spec c 38) as [->|N38].
    + rewrite end_field_ok by (try lia; exact G). cbn [obind]. rewrite IH; [|lia|cbn [length]; lia|intros k E; discriminate].
      f_equal. unfold still. cbn [split_on]. change (38 =? 38) with true. cbv iota. cbn [flat_map].
      destruct (split_on 38 q) as [|s ss]; [|]; cbn [flat_map]; unfold add_all; rewrite !fold_left_app; reflexivity.
    + destruct (N.eqb_spec c 43) as [->|N43].
      * rewrite put_ok by lia. cbn [obind]. rewrite IH; [|lia|rewrite app_length; cbn [length]; lia|apply good_app; exact G].
        f_equal. f_equal. symmetry. apply (still_step buf name [43] 32 q); [|intros d [<-|[]]; split; discriminate|discriminate|exact G].
        intros m r _. reflexivity.
      * destruct (N.eqb_spec c 37) as [->|N37]; [|apply (PLAIN N61 N38), (SIMPLE N43 N37)].
        destruct q as [|x [|y q3]].
        -- apply PLAIN; [assumption..|]. intros m r E. destruct m; [reflexivity|discriminate].
        -- apply PLAIN; [assumption..|]. intros m r E. apply un_pct. intros x' y' r' ->. destruct r'; discriminate.
        -- rewrite !hex_same. destruct (hex_digit x) as [l|] eqn:EX; [destruct (hex_digit y) as [h|] eqn:EY|].
           ++ pose proof (hex_bound x l EX). pose proof (hex_bound y h EY).
              rewrite N.mod_small by lia. rewrite put_ok by lia. cbn [obind]. cbn [length] in L, Ln.
              rewrite IH; [|lia|rewrite app_length; cbn [length]; lia|apply good_app; exact G].
              f_equal. f_equal. symmetry. apply (still_step buf name [37; x; y] (16 * l + h) q3); [|..|discriminate|exact G].
              ** intros m r _. cbn [app]. apply un_hex; assumption.
              ** pose proof (hex_not x l EX). pose proof (hex_not y h EY). intros d [<-|[<-|[<-|[]]]]; [split; discriminate|tauto|tauto].
           ++ apply PLAIN; [assumption..|]. intros m r E. apply un_pct. intros x' y' r' ->. injection E as -> -> _. right. exact EY.
           ++ apply PLAIN; [assumption..|]. intros m r E. apply un_pct. intros x' y' r' ->. injection E as -> -> _. left. exact EX.
Qed.

Lemma decode_query_ok v q : decode_query v q = Ok (add_all v (query_fields q)).
Proof.
  unfold decode_query. rewrite (query_loop_ok (length q) q) by (try intros k E; try discriminate; cbn [length]; lia).
  f_equal. f_equal. unfold still, query_fields. destruct (split_on 38 q) as [|s ss]; [reflexivity|]. reflexivity.
Qed.

(** ** Encoded fields *)
Lemma is_hex_digit c d : is_hex c d -> hex_digit c = Some d.
Proof.
  unfold hex_digit. intros [(H & ->)|[(H & ->)|(H & ->)]].
  - destruct (N.leb_spec 48 c), (N.leb_spec c 57); try lia. reflexivity.
  - destruct (N.leb_spec 48 c), (N.leb_spec c 57), (N.leb_spec 65 c), (N.leb_spec c 70); try lia. reflexivity.
  - destruct (N.leb_spec 48 c), (N.leb_spec c 57), (N.leb_spec 65 c), (N.leb_spec c 70), (N.leb_spec 97 c), (N.leb_spec c 102); try lia. reflexivity.
Qed.
Lemma encodes_un (raw : N -> Prop) t e : (forall c, raw c -> c <> 37 /\ c <> 43) -> encodes raw t e -> unescaped e = t.
Proof.
  intros HR H. induction H as [|c t e Hc H IH|t e H IH|c t e x y l r Hx Hy -> H IH].
  - reflexivity.
  - destruct (HR c Hc) as (N1 & N2). cbn [unescaped]. destruct (N.eqb_spec c 43); [contradiction|]. destruct (N.eqb_spec c 37); [contradiction|].
    rewrite IH. reflexivity.
  - cbn [unescaped]. change (43 =? 43) with true. cbv iota. rewrite IH. reflexivity.
  - rewrite (un_hex x y e l r (is_hex_digit _ _ Hx) (is_hex_digit _ _ Hy)), IH. reflexivity.
Qed.
Lemma encodes_free (raw : N -> Prop) t e c : (forall d, raw d -> d <> c) -> (c = 38 \/ c = 61) -> encodes raw t e -> ~ In c e.
Proof.
  intros HR HC H. induction H as [|d t e Hd H IH|t e H IH|d t e x y l r Hx Hy -> H IH]; intros HI.
  - destruct HI.
  - destruct HI as [->|HI]; [apply (HR c Hd); reflexivity|exact (IH HI)].
  - destruct HI as [E|HI]; [lia|exact (IH HI)].
  - apply is_hex_digit in Hx, Hy. pose proof (hex_not x l Hx). pose proof (hex_not y r Hy).
    destruct HI as [E|[E|[E|HI]]]; [lia|lia|lia|exact (IH HI)].
Qed.
Lemma encodes_nil raw t : encodes raw t [] -> t = [].
Proof. intros H. inversion H. reflexivity. Qed.
Lemma to_zero_id t : no_zero t -> to_zero t = t.
Proof.
  unfold no_zero. induction t as [|c t IH]; intros H; cbn [to_zero]; [reflexivity|].
  destruct (N.eqb_spec c 0) as [->|]; [exfalso; apply H; left; reflexivity|]. f_equal. apply IH. intros HI. apply H. right. exact HI.
Qed.
Lemma before_free a b : ~ In 61 a -> before_after 61 (a ++ 61 :: b) = (a, Some b).
Proof.
  induction a as [|c a IH]; intros H; cbn [app before_after].
  - change (61 =? 61) with true. reflexivity.
  - destruct (N.eqb_spec c 61) as [->|]; [exfalso; apply H; left; reflexivity|]. rewrite IH by (intros HI; apply H; right; exact HI). reflexivity.
Qed.
Lemma before_none a : ~ In 61 a -> before_after 61 a = (a, None).
Proof.
  induction a as [|c a IH]; intros H; cbn [before_after]; [reflexivity|].
  destruct (N.eqb_spec c 61) as [->|]; [exfalso; apply H; left; reflexivity|]. rewrite IH by (intros HI; apply H; right; exact HI). reflexivity.
Qed.
Lemma no_leading_id c a b : ~ In c a -> a <> [] -> no_leading c (a ++ b) = a ++ b.
Proof.
  intros H NE. destruct a as [|d a]; [contradiction|]. cbn [app no_leading].
  destruct (N.eqb_spec d c) as [->|]; [exfalso; apply H; left; reflexivity|reflexivity].
Qed.
Lemma raw_name_ok c : raw_name c -> c <> 37 /\ c <> 43 /\ c <> 38 /\ c <> 61.
Proof. unfold raw_name. intros H. repeat split; intros ->; apply H; cbn [In]; auto 6. Qed.
Lemma raw_value_ok c : raw_value c -> c <> 37 /\ c <> 43 /\ c <> 38.
Proof. unfold raw_value. intros H. repeat split; intros ->; apply H; cbn [In]; auto 6. Qed.
Lemma written_ok f w : written_field f w -> field_of w = [f] /\ ~ In 38 w.
Proof.
  intros H. destruct H as [n x en ex NE Zn Zx Hn Hx|n en NE Zn Hn].
  - assert (F1 : ~ In 61 en) by (apply (encodes_free raw_name n en 61); [intros d Hd; apply (raw_name_ok d Hd)|auto|exact Hn]).
    assert (F2 : ~ In 38 en) by (apply (encodes_free raw_name n en 38); [intros d Hd; apply (raw_name_ok d Hd)|auto|exact Hn]).
    assert (F3 : ~ In 38 ex) by (apply (encodes_free raw_value x ex 38); [intros d Hd; apply (raw_value_ok d Hd)|auto|exact Hx]).
    assert (NEe : en <> []) by (intros ->; apply NE; apply (encodes_nil raw_name); exact Hn).
    split.
    + rewrite field_rest by (try (apply no_leading_id; assumption); destruct en; discriminate). unfold rest_of. rewrite before_free by exact F1. cbn [app].
      rewrite (encodes_un raw_name n en) by (try exact Hn; intros d Hd; destruct (raw_name_ok d Hd) as (? & ? & _); auto).
      rewrite (encodes_un raw_value x ex) by (try exact Hx; intros d Hd; destruct (raw_value_ok d Hd) as (? & ? & _); auto).
      rewrite !to_zero_id by assumption. reflexivity.
    + intros HI. apply in_app_or in HI. destruct HI as [HI|[HI|HI]]; [exact (F2 HI)|discriminate|exact (F3 HI)].
  - assert (F1 : ~ In 61 en) by (apply (encodes_free raw_name n en 61); [intros d Hd; apply (raw_name_ok d Hd)|auto|exact Hn]).
    assert (F2 : ~ In 38 en) by (apply (encodes_free raw_name n en 38); [intros d Hd; apply (raw_name_ok d Hd)|auto|exact Hn]).
    assert (NEe : en <> []) by (intros ->; apply NE; apply (encodes_nil raw_name); exact Hn).
    split; [|exact F2]. rewrite field_rest by (try exact NEe; rewrite <- (app_nil_r en); apply no_leading_id; assumption).
    unfold rest_of. rewrite before_none by exact F1. cbn [app].
    rewrite (encodes_un raw_name n en) by (try exact Hn; intros d Hd; destruct (raw_name_ok d Hd) as (? & ? & _); auto).
    rewrite to_zero_id by assumption. reflexivity.
Qed.
Lemma split_free w q : ~ In 38 w -> split_on 38 (w ++ 38 :: q) = w :: split_on 38 q.
Proof.
  intros H. induction w as [|c w IH]; cbn [app split_on].
  - change (38 =? 38) with true. reflexivity.
  - destruct (N.eqb_spec c 38) as [->|]; [exfalso; apply H; left; reflexivity|]. rewrite IH by (intros HI; apply H; right; exact HI). reflexivity.
Qed.
Lemma split_one w : ~ In 38 w -> split_on 38 w = [w].
Proof.
  intros H. induction w as [|c w IH]; cbn [split_on]; [reflexivity|].
  destruct (N.eqb_spec c 38) as [->|]; [exfalso; apply H; left; reflexivity|]. rewrite IH by (intros HI; apply H; right; exact HI). reflexivity.
Qed.
Lemma query_of_fields fs q : query_of fs q -> query_fields q = fs.
Proof.
  intros (ws & H & ->). unfold query_fields. induction H as [|f w fs ws Hf H IH]; [reflexivity|].
  destruct (written_ok f w Hf) as (E & F). destruct ws as [|w' ws].
  - inversion H. subst. cbn [joined_by]. rewrite split_one by exact F. cbn [flat_map]. rewrite E. reflexivity.
  - change (joined_by [38] (w :: w' :: ws)) with (w ++ 38 :: joined_by [38] (w' :: ws)). rewrite split_free by exact F.
    cbn [flat_map]. rewrite E, IH. reflexivity.
Qed.

(** * Cookies *)
Lemma span_app f a r : forallb f a = true -> span f (a ++ r) = (a ++ fst (span f r), snd (span f r)).
Proof.
  induction a as [|c a IH]; intros H; cbn [app span].
  - destruct (span f r); reflexivity.
  - cbn [forallb] in H. apply andb_true_iff in H. destruct H as (-> & H). rewrite (IH H). reflexivity.
Qed.
Lemma span_stop f a c r : forallb f a = true -> f c = false -> span f (a ++ c :: r) = (a, c :: r).
Proof. intros H HC. rewrite span_app by exact H. cbn [span]. rewrite HC. cbn [fst snd]. rewrite app_nil_r. reflexivity. Qed.
Lemma span_end f a : forallb f a = true -> span f a = (a, []).
Proof. intros H. rewrite <- (app_nil_r a) at 1. rewrite span_app by exact H. cbn [span fst snd]. rewrite app_nil_r. reflexivity. Qed.
Lemma all_not c a : ~ In c a -> forallb (fun d => negb (d =? c)) a = true.
Proof.
  intros H. apply forallb_forall. intros d Hd. destruct (N.eqb_spec d c) as [->|]; [contradiction|reflexivity].
Qed.
Lemma scanspaces_id n : (forall c r, n = c :: r -> c <> 32 /\ c <> 9) -> scanspaces n = n.
Proof.
  intros H. destruct n as [|c r]; [reflexivity|]. destruct (H c r eq_refl) as (H1 & H2). cbn [scanspaces].
  destruct (N.eqb_spec c 32); [contradiction|]. destruct (N.eqb_spec c 9); [contradiction|]. reflexivity.
Qed.
Definition after (more : list (text * text * option N)) : text := match more with [] => [] | _ => [59; 32] ++ cookies_text more end.
Definition next_text (more : list (text * text * option N)) : text := match more with [] => [] | _ => 32 :: cookies_text more end.
Lemma cookies_cons k more : cookies_text (k :: more) = cookie_text k ++ after more.
Proof. unfold cookies_text, after. destruct more as [|k2 more]; cbn [map joined_by]; [rewrite app_nil_r|]; reflexivity. Qed.
Lemma scan_name n t : cookie_name n -> span (fun c => negb (c =? 61)) (scanspaces (n ++ 61 :: t)) = (n, 61 :: t).
Proof.
  intros (NE & H61 & _ & HS). rewrite scanspaces_id.
  - apply span_stop; [apply all_not; exact H61|reflexivity].
  - intros c r E. destruct n as [|d n]; [contradiction|]. injection E as -> _. apply (HS c n eq_refl).
Qed.
Lemma scanspaces_one t : scanspaces (32 :: t) = scanspaces t.
Proof. reflexivity. Qed.
Lemma scanattr_space t : scanattr (32 :: t) = scanattr t.
Proof. reflexivity. Qed.
Lemma quote_ok c : In c quotes <-> ((c =? 34) || (c =? 39) || (c =? 96))%bool = true.
Proof.
  unfold quotes. cbn [In]. rewrite !orb_true_iff, !N.eqb_eq. intuition congruence.
Qed.
Lemma scan_quoted n c x t : cookie_name n -> In c quotes -> ~ In c x ->
  scanattr (n ++ 61 :: c :: x ++ c :: t) = Some (n, x, match t with d :: t' => if d =? 59 then t' else t | [] => [] end).
Proof.
  intros Hn Hc Hx. unfold scanattr. rewrite (scan_name n _ Hn). apply quote_ok in Hc. rewrite Hc.
  rewrite (span_stop (fun d => negb (d =? c)) x c t) by (try (apply all_not; exact Hx); rewrite N.eqb_refl; reflexivity).
  destruct Hn as (NE & _). destruct n; [contradiction|]. reflexivity.
Qed.
Lemma scan_cookie k more : cookie_ok k -> scanattr (cookie_text k ++ after more) = Some (fst k, next_text more).
Proof.
  destruct k as ((n, x), [c|]); cbn [cookie_ok cookie_text fst]; intros (Hn & H).
  - destruct H as (Hc & Hx & _). replace ((n ++ [61; c] ++ x ++ [c]) ++ after more) with (n ++ 61 :: c :: x ++ c :: after more).
    + rewrite scan_quoted by assumption. destruct more; reflexivity.
    + rewrite <- !app_assoc. reflexivity.
  - destruct H as (HF & HQ). rewrite <- app_assoc.
    unfold scanattr. change (n ++ ([61] ++ x) ++ after more) with (n ++ 61 :: (x ++ after more)). rewrite (scan_name n _ Hn).
    set (f := fun c => negb ((c =? 59) || (c =? 32) || (c =? 9) || (c =? 13) || (c =? 10))).
    assert (FX : forallb f x = true).
    { apply forallb_forall. intros d Hd. unfold f.
      destruct (N.eqb_spec d 59) as [->|]; [exfalso; apply (HF 59); [cbn; tauto|exact Hd]|].
      destruct (N.eqb_spec d 32) as [->|]; [exfalso; apply (HF 32); [cbn; tauto|exact Hd]|].
      destruct (N.eqb_spec d 9) as [->|]; [exfalso; apply (HF 9); [cbn; tauto|exact Hd]|].
      destruct (N.eqb_spec d 13) as [->|]; [exfalso; apply (HF 13); [cbn; tauto|exact Hd]|].
      destruct (N.eqb_spec d 10) as [->|]; [exfalso; apply (HF 10); [cbn; tauto|exact Hd]|]. reflexivity. }
    assert (SX : span f (x ++ after more) = (x, after more)).
    { unfold after. destruct more as [|k2 more]; [rewrite app_nil_r; apply span_end; exact FX|]. apply span_stop; [exact FX|reflexivity]. }
    destruct Hn as (NE & _). destruct n as [|n0 n]; [contradiction|].
    destruct (x ++ after more) as [|q r] eqn:E.
    + destruct x; [|discriminate]. destruct more; [|discriminate]. reflexivity.
    + assert (Q : ((q =? 34) || (q =? 39) || (q =? 96))%bool = false).
      { destruct x as [|x0 x].
        - destruct more; [discriminate|]. injection E as <- _. reflexivity.
        - injection E as -> _. destruct (((q =? 34) || (q =? 39) || (q =? 96))%bool) eqn:Q; [|reflexivity].
          apply quote_ok in Q. exfalso. apply (HQ q x eq_refl Q). }
      rewrite Q, SX. unfold after, next_text. destruct more; reflexivity.
Qed.
Lemma cookie_loop_ok : forall ks fuel v, (length ks <= fuel)%nat -> Forall cookie_ok ks ->
  cookie_loop fuel v (cookies_text ks) = add_all v (cookie_fields ks) /\ cookie_loop fuel v (next_text ks) = add_all v (cookie_fields ks).
Proof.
  induction ks as [|k ks IH]; intros fuel v L H.
  - destruct fuel; split; reflexivity.
  - destruct fuel as [|fuel]; [cbn [length] in L; lia|]. cbn [length] in L. inversion H as [|? ? Hk H']. subst.
    assert (E : cookie_loop (S fuel) v (cookies_text (k :: ks)) = add_all v (cookie_fields (k :: ks))).
    { rewrite cookies_cons. cbn [cookie_loop]. rewrite (scan_cookie k ks Hk). destruct k as ((n, x), q). cbn [fst].
      destruct (IH fuel (add_var v n x) ltac:(lia) H') as (_ & E). exact E. }
    split; [exact E|]. rewrite <- E. unfold next_text. cbn [cookie_loop]. rewrite scanattr_space. reflexivity.
Qed.
Lemma cookies_length ks : Forall cookie_ok ks -> (length ks <= length (cookies_text ks))%nat.
Proof.
  induction 1 as [|k ks Hk H IH]; [cbn; lia|]. rewrite cookies_cons, app_length. cbn [length].
  assert (1 <= length (cookie_text k))%nat.
  { destruct k as ((n, x), [c|]); cbn [cookie_text]; rewrite !app_length; cbn [length]; lia. }
  unfold after. destruct ks as [|k2 ks]; [cbn [length] in *; lia|]. rewrite app_length. cbn [length] in *. lia.
Qed.
Lemma get_cookie_ok v ks : Forall cookie_ok ks -> get_cookie v (Some (cookies_text ks)) = add_all v (cookie_fields ks).
Proof. intros H. unfold get_cookie. apply cookie_loop_ok; [apply cookies_length; exact H|exact H]. Qed.

(** * Forms with uploads *)
(** ** The bytes in front of the boundary *)
Lemma firstn_snoc {A} (b : list A) m d x : nth_error b m = Some x -> firstn (m + 1) b = firstn m b ++ [nth m b d].
Proof.
  revert m. induction b as [|c b IH]; intros [|m] H; try discriminate; cbn [firstn nth app Nat.add].
  - reflexivity.
  - f_equal. apply IH. exact H.
Qed.
Lemma occurs_app_r t u s : occurs_in t s -> occurs_in t (u ++ s).
Proof. intros (a & c & ->). exists (u ++ a), c. rewrite app_assoc. reflexivity. Qed.
(** where a text that begins with its only [13] can occur *)
Lemma only_start b' x rest p s : let b := 13 :: b' in ~ In 13 b' ->
  firstn p b ++ s = x ++ b ++ rest -> (p <= length b)%nat -> x = [] \/ exists x', x = firstn p b ++ x' /\ s = x' ++ b ++ rest.
Proof.
  cbv zeta. intros H13 E L. destruct (Nat.le_gt_cases p (length x)) as [G|G].
  - right. exists (skipn p x).
    assert (LF : length (firstn p (13 :: b')) = p) by (apply firstn_length_le; exact L).
    assert (E1 : firstn p (firstn p (13 :: b') ++ s) = firstn p (x ++ (13 :: b') ++ rest)) by (rewrite E; reflexivity).
    assert (E2 : skipn p (firstn p (13 :: b') ++ s) = skipn p (x ++ (13 :: b') ++ rest)) by (rewrite E; reflexivity).
    rewrite firstn_app, LF, Nat.sub_diag, firstn_O, app_nil_r, firstn_firstn, Nat.min_id in E1.
    rewrite firstn_app in E1. replace (p - length x)%nat with 0%nat in E1 by lia. rewrite firstn_O, app_nil_r in E1.
    rewrite skipn_app, LF, Nat.sub_diag, skipn_O in E2. rewrite (skipn_all2 (firstn p (13 :: b'))) in E2 by lia. cbn [app] in E2.
    rewrite skipn_app in E2. replace (p - length x)%nat with 0%nat in E2 by lia. rewrite skipn_O in E2.
    split; [|exact E2]. rewrite E1. symmetry. apply firstn_skipn.
  - left. destruct x as [|x0 x]; [reflexivity|]. exfalso. apply H13.
    assert (N1 : nth_error (firstn p (13 :: b') ++ s) (length (x0 :: x)) = Some 13).
    { rewrite E, nth_error_app2, Nat.sub_diag by lia. reflexivity. }
    rewrite nth_error_app1 in N1 by (rewrite firstn_length_le by exact L; exact G).
    destruct p as [|p]; [cbn [length] in G; lia|]. cbn [firstn length nth_error] in N1.
    apply nth_error_In in N1. revert N1. clear. revert p. induction b' as [|c b' IH]; intros [|p] H; cbn [firstn] in H; try contradiction.
    destruct H as [->|H]; [left; reflexivity|right; apply (IH p H)].
Qed.
Lemma nth_low (b : text) m : (forall c, In c b -> 0 < c < 128) -> (m < length b)%nat -> nth_error b m = Some (nth m b 0) /\ 0 < nth m b 0 < 128.
Proof.
  intros H L. split; [apply nth_error_nth'; exact L|]. apply H. apply nth_In. exact L.
Qed.
Lemma copy_loop_ok b' : b' <> [] -> ~ In 13 b' -> (forall c, In c b' -> 0 < c < 128) ->
  forall s m acc x rest, (m < S (length b'))%nat -> firstn m (13 :: b') ++ s = x ++ (13 :: b') ++ rest -> ~ occurs_in (13 :: b') x ->
  copy_loop (13 :: b') s m acc = (acc ++ x, rest).
Proof.
  intros NE H13 HL. set (b := 13 :: b').
  assert (HB : forall c, In c b -> 0 < c < 128) by (intros c [<-|Hc]; [lia|apply HL; exact Hc]).
  assert (LB : (2 <= length b)%nat) by (unfold b; destruct b'; [contradiction|cbn [length]; lia]).
  assert (LE : length b = S (length b')) by reflexivity.
  induction s as [|c s IH]; intros m acc x rest L E NO; rewrite <- LE in L.
  { exfalso. apply (f_equal (@length N)) in E. rewrite app_nil_r, !app_length, firstn_length_le in E by lia. lia. }
  cbn [copy_loop]. destruct (nth_low b m HB L) as (Em & Bm). unfold at_b.
  (* a byte that goes on with the boundary *)
  assert (GO : forall acc, c = nth m b 0 ->
    (if nth (m + 1) b 0 =? 0 then (acc, s) else copy_loop b s (m + 1) acc) = (acc ++ x, rest)).
  { intros acc0 EC. assert (E1 : firstn (m + 1) b ++ s = x ++ b ++ rest).
    { rewrite (firstn_snoc b m 0 _ Em), <- EC, <- app_assoc. exact E. }
    destruct (Nat.lt_ge_cases (m + 1) (length b)) as [L1|L1].
    - destruct (nth_low b (m + 1) HB L1) as (_ & B1). destruct (N.eqb_spec (nth (m + 1) b 0) 0); [lia|]. apply IH; assumption.
    - rewrite (nth_overflow b) by lia. change (0 =? 0) with true. cbv iota. rewrite firstn_all2 in E1 by lia.
      destruct (only_start b' x rest (length b) s H13) as [->|(x' & -> & _)].
      + fold b. rewrite firstn_all2 by lia. exact E1.
      + apply le_n.
      + cbn [app] in E1. injection E1 as E1. apply app_inv_head in E1. rewrite app_nil_r, E1. reflexivity.
      + exfalso. apply NO. exists [], x'. fold b. rewrite firstn_all2 by lia. reflexivity. }
  destruct (same c (nth m b 0)) eqn:S.
  - replace ((0 <? m)%nat && negb true)%bool with false by (destruct (0 <? m)%nat; reflexivity). rewrite S.
    unfold same in S. apply andb_true_iff in S. destruct S as (S & _). apply N.eqb_eq in S. apply GO. exact S.
  - assert (NC : c <> nth m b 0).
    { intros EC. unfold same in S. rewrite EC, N.eqb_refl in S. destruct (N.ltb_spec (nth m b 0) 128); [discriminate|lia]. }
    (* the boundary does not begin in what was matched *)
    destruct (only_start b' x rest m (c :: s) H13 E ltac:(fold b; lia)) as [->|(x' & -> & E')].
    { exfalso. apply NC. assert (N1 : nth_error (firstn m b ++ c :: s) m = nth_error ([] ++ b ++ rest) m) by (rewrite E; reflexivity).
      cbn [app] in N1. rewrite nth_error_app2 in N1 by (rewrite firstn_length_le by lia; lia). rewrite firstn_length_le, Nat.sub_diag in N1 by lia.
      rewrite nth_error_app1, Em in N1 by exact L. injection N1 as N1. exact N1. }
    fold b in E', NO. fold b.
    assert (NO' : ~ occurs_in b x') by (intros HO; apply NO, occurs_app_r; exact HO).
    assert (ST : (if (0 <? m)%nat && negb false then (acc ++ firstn m b, O) else (acc, m)) = (acc ++ firstn m b, O)).
    { destruct (Nat.ltb_spec 0 m) as [G|G]; [reflexivity|]. replace m with 0%nat by lia. cbn [andb firstn]. rewrite app_nil_r. reflexivity. }
    rewrite ST. rewrite app_assoc. set (acc' := acc ++ firstn m b).
    change (nth 0 b 0) with 13. unfold same. change (13 <? 128) with true. rewrite andb_true_r.
    destruct (N.eqb_spec c 13) as [->|N13].
    + change (0 + 1)%nat with 1%nat. destruct (nth_low b 1 HB ltac:(lia)) as (_ & B1). destruct (N.eqb_spec (nth 1 b 0) 0); [lia|].
      apply IH; [lia| |exact NO']. exact E'.
    + destruct x' as [|y x']; [exfalso; injection E' as E'; contradiction|]. injection E' as <- E'.
      rewrite (IH 0%nat (acc' ++ [c]) x' rest); [rewrite <- app_assoc; reflexivity|lia|exact E'|].
      intros HO. apply NO'. apply (occurs_app_r b [c]). exact HO.
Qed.
Lemma copyvalue_ok b' x rest : b' <> [] -> ~ In 13 b' -> (forall c, In c b' -> 0 < c < 128) -> ~ occurs_in (13 :: b') x ->
  copyvalue (13 :: b') (x ++ (13 :: b') ++ rest) = (x, rest).
Proof. intros H1 H2 H3 H4. unfold copyvalue. rewrite (copy_loop_ok b' H1 H2 H3 _ 0 [] x rest); [reflexivity|cbn [length]; lia|reflexivity|exact H4]. Qed.

(** ** Lines *)
Lemma read_on_line l r : ~ In 10 l -> read_on (l ++ 10 :: r) = (l ++ [10], r).
Proof.
  induction l as [|c l IH]; intros H; cbn [app read_on]; [reflexivity|].
  destruct (N.eqb_spec c 10) as [->|]; [exfalso; apply H; left; reflexivity|]. rewrite IH by (intros HI; apply H; right; exact HI). reflexivity.
Qed.
Lemma readline_line l r : ~ In 10 l -> readline (l ++ crlf ++ r) = Some (l ++ crlf, r).
Proof.
  intros H. unfold readline. change (l ++ crlf ++ r) with (l ++ [13] ++ 10 :: r). rewrite app_assoc.
  destruct ((l ++ [13]) ++ 10 :: r) eqn:E; [destruct l; discriminate|]. rewrite <- E, read_on_line.
  - rewrite <- app_assoc. reflexivity.
  - intros HI. apply in_app_or in HI. destruct HI as [HI|[HI|[]]]; [exact (H HI)|discriminate].
Qed.
Lemma cut0_id t : ~ In 0 t -> cut0 t = t. Proof. apply to_zero_id. Qed.

(** ** The head of a part *)
Lemma scan_disposition t : scanheader (tx "Content-Disposition: form-data;" ++ t) = Some (s_disposition, s_formdata, t).
Proof. reflexivity. Qed.
Lemma scan_crlf : scanattr crlf = None. Proof. reflexivity. Qed.
Lemma name_ok : cookie_name s_name. Proof. repeat split; try discriminate; try (vm_compute; intuition discriminate); injection H as <- _; discriminate. Qed.
Lemma filename_ok : cookie_name s_filename. Proof. repeat split; try discriminate; try (vm_compute; intuition discriminate); injection H as <- _; discriminate. Qed.
Lemma attrs_field f n : ~ In 34 n -> attrs (S (S f)) (tx " name=""" ++ n ++ tx """" ++ crlf) None None = (Some n, None).
Proof.
  intros H. cbn [attrs]. change (tx " name=""" ++ n ++ tx """" ++ crlf) with (32 :: (s_name ++ 61 :: 34 :: n ++ 34 :: crlf)).
  rewrite scanattr_space, scan_quoted by (try exact name_ok; try exact H; vm_compute; tauto).
  reflexivity.
Qed.
Lemma attrs_upload f n g : ~ In 34 n -> ~ In 34 g ->
  attrs (S (S (S f))) (tx " name=""" ++ n ++ tx """; filename=""" ++ g ++ tx """" ++ crlf) None None = (Some n, Some g).
Proof.
  intros H H'. cbn [attrs].
  change (tx " name=""" ++ n ++ tx """; filename=""" ++ g ++ tx """" ++ crlf)
    with (32 :: (s_name ++ 61 :: 34 :: n ++ 34 :: 59 :: 32 :: (s_filename ++ 61 :: 34 :: g ++ 34 :: crlf))).
  rewrite scanattr_space, scan_quoted by (try exact name_ok; try exact H; vm_compute; tauto).
  change (case_eq s_name s_name) with true. change (59 =? 59) with true. cbv iota.
  rewrite scanattr_space, scan_quoted by (try exact filename_ok; try exact H'; vm_compute; tauto).
  reflexivity.
Qed.
Definition head_of (p : part) : option text * option text := match p with Field n _ => (Some n, None) | Upload n f _ _ => (Some n, Some f) end.
Lemma not_in_app c (a b : text) : ~ In c a -> ~ In c b -> ~ In c (a ++ b).
Proof. intros H1 H2 H. apply in_app_or in H. tauto. Qed.
Lemma lit_free c s : existsb (N.eqb c) (lit s) = false -> ~ In c (lit s).
Proof.
  intros H HI. assert (existsb (N.eqb c) (lit s) = true) by (apply existsb_exists; exists c; split; [exact HI|apply N.eqb_refl]). congruence.
Qed.
Lemma crlf_zero : ~ In 0 crlf. Proof. vm_compute. intuition discriminate. Qed.
Lemma headers_blank fuel r name fname : headers (S fuel) (crlf ++ r) name fname = (Some crlf, (name, fname), r).
Proof.
  cbn [headers]. pose proof (readline_line [] r (fun H => H)) as E. cbn [app] in E. change (13 :: 10 :: r) with (crlf ++ r) in E.
  rewrite E. reflexivity.
Qed.
Lemma scan_type t : exists x p, scanheader (tx "Content-Type: " ++ t) = Some (tx "Content-Type", x, p).
Proof.
  change (scanheader (tx "Content-Type: " ++ t)) with
    (let '(x, s) := span (fun c => negb ((c =? 59) || (c =? 13) || (c =? 10))) (scanspaces (32 :: t)) in
     Some (tx "Content-Type", x, match s with [] => [] | _ :: s1 => s1 end)).
  destruct (span _ _) as (x, s). eexists _, _. reflexivity.
Qed.
Lemma headers_type fuel t r name fname : ~ In 10 t -> ~ In 0 t ->
  headers (S fuel) (tx "Content-Type: " ++ t ++ crlf ++ r) name fname = headers fuel r name fname.
Proof.
  intros H1 H2. cbn [headers]. rewrite app_assoc. rewrite readline_line by (apply not_in_app; [apply lit_free; reflexivity|exact H1]).
  rewrite cut0_id by (apply not_in_app; [apply not_in_app; [apply lit_free; reflexivity|exact H2]|exact crlf_zero]).
  rewrite <- app_assoc. destruct (scan_type (t ++ crlf)) as (x & p & ->).
  change (case_eq (tx "Content-Type") s_disposition) with false. reflexivity.
Qed.
Lemma headers_line fuel (l : text) r name fname : ~ In 10 l -> ~ In 0 l ->
  headers (S fuel) (tx "Content-Disposition: form-data;" ++ l ++ crlf ++ r) name fname =
  (let '(name', fname') := attrs (length (l ++ crlf)) (l ++ crlf) name fname in headers fuel r name' fname').
Proof.
  intros H1 H2. cbn [headers]. rewrite app_assoc. rewrite readline_line by (apply not_in_app; [apply lit_free; reflexivity|exact H1]).
  rewrite cut0_id by (apply not_in_app; [apply not_in_app; [apply lit_free; reflexivity|exact H2]|exact crlf_zero]).
  rewrite <- app_assoc, scan_disposition. reflexivity.
Qed.
Lemma quotable_free n : quotable n -> ~ In 0 n /\ ~ In 10 n /\ ~ In 34 n.
Proof. intros H. repeat split; apply H; cbn; tauto. Qed.
Lemma headers_ok b p s fuel : part_ok b p -> (3 <= fuel)%nat -> headers fuel (part_head p ++ s) None None = (Some crlf, head_of p, s).
Proof.
  intros (_ & H) L. destruct fuel as [|[|[|fuel]]]; try lia. destruct p as [n x|n f ct x]; cbn [head_of].
  - destruct H as (Hn & _). destruct (quotable_free n Hn) as (Z & L10 & Q).
    replace (part_head (Field n x) ++ s) with (tx "Content-Disposition: form-data;" ++ (tx " name=""" ++ n ++ tx """") ++ crlf ++ (crlf ++ s))
      by (unfold part_head; rewrite <- !app_assoc; reflexivity).
    rewrite headers_line by (apply not_in_app; [apply lit_free; reflexivity|apply not_in_app; [assumption|apply lit_free; reflexivity]]).
    rewrite <- !app_assoc. rewrite !app_length. change (length (tx " name=""")) with 7%nat. cbn [Nat.add].
    rewrite attrs_field by exact Q. apply headers_blank.
  - destruct H as (Hn & Hf & Ht). destruct (quotable_free n Hn) as (Z & L10 & Q). destruct (quotable_free f Hf) as (Z' & L10' & Q').
    replace (part_head (Upload n f ct x) ++ s) with (tx "Content-Disposition: form-data;" ++ (tx " name=""" ++ n ++ tx """; filename=""" ++ f ++ tx """") ++ crlf ++
        ((match ct with None => [] | Some t => tx "Content-Type: " ++ t ++ crlf end) ++ crlf ++ s))
      by (unfold part_head; rewrite <- !app_assoc; reflexivity).
    rewrite headers_line by (apply not_in_app; [apply lit_free; reflexivity|apply not_in_app; [assumption|apply not_in_app; [apply lit_free; reflexivity|apply not_in_app; [assumption|apply lit_free; reflexivity]]]]).
    rewrite <- !app_assoc. rewrite !app_length. change (length (tx " name=""")) with 7%nat. cbn [Nat.add].
    rewrite attrs_upload by assumption. destruct ct as [t|]; [|apply headers_blank].
    destruct (Ht t eq_refl) as (H1 & H2). rewrite <- !app_assoc. rewrite headers_type by assumption. apply headers_blank.
Qed.

(** ** The parts *)
Definition full_boundary (b : text) : text := [13; 10; 45; 45] ++ b.
Lemma boundary_facts b : boundary_ok b -> ~ In 13 ([10; 45; 45] ++ b) /\ (forall c, In c ([10; 45; 45] ++ b) -> 0 < c < 128).
Proof.
  intros (_ & H). split.
  - cbn [app]. intros [E|[E|[E|HI]]]; try discriminate. destruct (H 13 HI) as (_ & HN). apply HN. cbn. tauto.
  - cbn [app]. intros c [<-|[<-|[<-|HI]]]; try lia. apply (H c HI).
Qed.
Definition after_parts (mk : nat -> option text) (ps : list part) (st : form) : form :=
  let '(fs, ups) := form_fields mk (f_made st) ps in
  mkF (add_all (f_vars st) fs) (f_made st + uploads ps) (f_ups st ++ ups).
Lemma part_head_length p : (2 <= length (part_head p))%nat.
Proof. apply Nat.leb_le. destruct p; reflexivity. Qed.
Lemma parts_ok mk b : boundary_ok b -> forall ps p st fuel, part_ok b p -> Forall (part_ok b) ps -> (length ps < fuel)%nat ->
  parts mk (full_boundary b) fuel (part_head p ++ part_body p ++ crlf ++ tx "--" ++ b ++ form_parts b ps) st = after_parts mk (p :: ps) st.
Proof.
  intros HB. destruct (boundary_facts b HB) as (H13 & HL).
  set (one := fun (p : part) (st : form) =>
    match p with
    | Field n x => mkF (add_var (f_vars st) n x) (f_made st) (f_ups st)
    | Upload n [] _ x => st
    | Upload n file _ x => match mk (f_made st) with
         | Some path => mkF (add_var (add_var (f_vars st) n path) n file) (S (f_made st)) (f_ups st ++ [(path, x)])
         | None => mkF (f_vars st) (S (f_made st)) (f_ups st)
         end
    end).
  assert (STEP : forall p ps st, after_parts mk (p :: ps) st = after_parts mk ps (one p st)).
  { intros p ps st. unfold after_parts, one. destruct p as [n x|n [|g0 g] ct x].
    - unfold uploads. cbn [form_fields filter is_upload f_made f_vars f_ups]. destruct (form_fields mk (f_made st) ps) as (fs, ups). reflexivity.
    - unfold uploads. cbn [form_fields filter is_upload]. destruct (form_fields mk (f_made st) ps) as (fs, ups). reflexivity.
    - unfold uploads. cbn [form_fields filter is_upload length]. destruct (mk (f_made st)) as [path|]; cbn [f_made f_vars f_ups];
        destruct (form_fields mk (S (f_made st)) ps) as (fs, ups); f_equal; try lia. rewrite <- app_assoc. reflexivity. }
  assert (ONE : forall p s st fuel, part_ok b p ->
    parts mk (full_boundary b) (S fuel) (part_head p ++ part_body p ++ full_boundary b ++ s) st =
    match readline s with
    | Some (l2, s3) => if is_last (cut0 l2) then one p st else parts mk (full_boundary b) fuel s3 (one p st)
    | None => parts mk (full_boundary b) fuel s (one p st)
    end).
  { intros p s st fuel Hp. cbn [parts].
    rewrite (headers_ok b p) by (try exact Hp; rewrite app_length; pose proof (part_head_length p); lia).
    assert (CV : copyvalue (full_boundary b) (part_body p ++ full_boundary b ++ s) = (part_body p, s))
      by (apply (copyvalue_ok ([10; 45; 45] ++ b)); [discriminate|exact H13|exact HL|apply Hp]).
    destruct p as [n x|n g ct x]; cbn [head_of part_body] in *; change (is_crlf crlf) with true; cbv iota; rewrite CV.
    - rewrite cut0_id by apply Hp. reflexivity.
    - destruct g; reflexivity. }
  induction ps as [|p2 ps IH]; intros p st fuel Hp H L; (destruct fuel as [|fuel]; [lia|]); rewrite STEP.
  - change (crlf ++ tx "--" ++ b ++ form_parts b []) with (full_boundary b ++ tx "--" ++ crlf ++ []). rewrite ONE by exact Hp.
    rewrite readline_line by (apply lit_free; reflexivity). change (is_last (cut0 (tx "--" ++ crlf))) with true. cbv iota.
    unfold after_parts, uploads. cbn [form_fields filter length add_all fold_left]. rewrite app_nil_r, Nat.add_0_r. destruct (one p st); reflexivity.
  - inversion H as [|? ? Hp2 H']. subst. cbn [length] in L.
    change (crlf ++ tx "--" ++ b ++ form_parts b (p2 :: ps)) with (full_boundary b ++ [] ++ crlf ++ (part_head p2 ++ part_body p2 ++ crlf ++ tx "--" ++ b ++ form_parts b ps)).
    rewrite ONE by exact Hp. rewrite readline_line by (intros []). change (is_last (cut0 ([] ++ crlf))) with false. cbv iota.
    apply IH; [exact Hp2|exact H'|lia].
Qed.

(** ** The whole form *)
Lemma form_parts_length b ps : (length ps < length (form_parts b ps))%nat.
Proof. induction ps as [|p ps IH]; cbn [form_parts]; rewrite !app_length; cbn [length lit crlf]; [lia|]. lia. Qed.
Lemma case_starts_app a b : case_starts (a ++ b) a = true.
Proof. unfold case_starts. rewrite firstn_app, Nat.sub_diag, firstn_O, app_nil_r, firstn_all. unfold case_eq. apply text_eqb_refl. Qed.
Lemma boundary_name : cookie_name s_boundary. Proof. repeat split; try discriminate; try (vm_compute; intuition discriminate); injection H as <- _; discriminate. Qed.
Lemma scan_boundary b q : boundary_ok b -> exists r, scanattr (skipn 20 (form_type b q)) = Some (s_boundary, b, r).
Proof.
  intros (NE & H). destruct q; unfold form_type.
  - change (skipn 20 (tx "multipart/form-data; boundary=""" ++ b ++ tx """")) with (32 :: (s_boundary ++ 61 :: 34 :: b ++ 34 :: [])).
    rewrite scanattr_space, scan_quoted; [eexists; reflexivity|exact boundary_name|vm_compute; tauto|].
    intros HI. destruct (H 34 HI) as (_ & HN). apply HN. cbn. tauto.
  - change (skipn 20 (tx "multipart/form-data; boundary=" ++ b)) with (32 :: (s_boundary ++ 61 :: b)). rewrite scanattr_space.
    pose proof (scan_cookie (s_boundary, b, None) []) as K. unfold after in K. cbn [cookie_text fst] in K. rewrite app_nil_r in K.
    change (s_boundary ++ [61] ++ b) with (s_boundary ++ 61 :: b) in K. rewrite K; [eexists; reflexivity|]. split; [exact boundary_name|]. split.
    + intros c Hc HI. destruct (H c HI) as (H0 & HN). cbn [In] in Hc. destruct Hc as [<-|Hc]; [lia|]. apply HN. cbn. tauto.
    + intros c r -> HQ. destruct (H c ltac:(left; reflexivity)) as (_ & HN). apply HN. unfold quotes in HQ. cbn in *. tauto.
Qed.
Lemma firstn_nth_app (a c : text) : firstn (length a) (a ++ c) = a /\ forall k, nth (length a + k) (a ++ c) 0 = nth k c 0.
Proof. split; [rewrite firstn_app, Nat.sub_diag, firstn_O, app_nil_r; apply firstn_all|]. intros k. rewrite app_nth2 by lia. f_equal. lia. Qed.
Lemma read_multipart_ok mk b q ps v : boundary_ok b -> Forall (part_ok b) ps ->
  read_multipart mk (Some (form_type b q)) (form_body b ps) v = after_parts mk ps (mkF v 0 []).
Proof.
  intros HB H. unfold read_multipart.
  assert (CS : case_starts (form_type b q) s_multipart = true).
  { destruct q; [change (form_type b true) with (s_multipart ++ (tx " boundary=""" ++ b ++ tx """"))|change (form_type b false) with (s_multipart ++ (tx " boundary=" ++ b))];
      apply case_starts_app. }
  rewrite CS. destruct (scan_boundary b q HB) as (r & ->). change (case_eq s_boundary s_boundary) with true. cbv iota zeta.
  destruct (boundary_facts b HB) as (H13 & HL). fold (full_boundary b).
  assert (L10 : ~ In 10 (tx "--" ++ b)).
  { apply not_in_app; [apply lit_free; reflexivity|]. intros HI. destruct HB as (_ & HB). destruct (HB 10 HI) as (_ & HN). apply HN. cbn. tauto. }
  assert (L0 : ~ In 0 (tx "--" ++ b)).
  { apply not_in_app; [apply lit_free; reflexivity|]. intros HI. destruct HB as (_ & HB). destruct (HB 0 HI) as (HN & _). lia. }
  change (skipn 2 (full_boundary b)) with (tx "--" ++ b).
  replace (length (full_boundary b) - 2)%nat with (length (tx "--" ++ b)) by reflexivity.
  destruct ps as [|p ps].
  - change (form_body b []) with (tx "--" ++ b ++ tx "--" ++ crlf ++ []). rewrite !app_assoc, <- (app_assoc _ crlf []).
    rewrite readline_line by (apply not_in_app; [exact L10|apply lit_free; reflexivity]).
    rewrite cut0_id by (apply not_in_app; [apply not_in_app; [exact L0|apply lit_free; reflexivity]|exact crlf_zero]).
    rewrite <- (app_assoc _ (tx "--") crlf). destruct (firstn_nth_app (tx "--" ++ b) (tx "--" ++ crlf)) as (E1 & E2).
    pose proof (E2 0%nat) as E0. rewrite Nat.add_0_r in E0. rewrite E0. change (nth 0 (tx "--" ++ crlf) 0 =? 13) with false. rewrite andb_false_r. reflexivity.
  - inversion H as [|? ? Hp H']. subst.
    replace (form_body b (p :: ps)) with ((tx "--" ++ b) ++ crlf ++ (part_head p ++ part_body p ++ crlf ++ tx "--" ++ b ++ form_parts b ps))
      by (unfold form_body; cbn [form_parts]; rewrite <- !app_assoc; reflexivity).
    rewrite readline_line by exact L10. rewrite cut0_id by (apply not_in_app; [exact L0|exact crlf_zero]).
    destruct (firstn_nth_app (tx "--" ++ b) crlf) as (E1 & E2). rewrite E1, text_eqb_refl.
    pose proof (E2 0%nat) as E0. rewrite Nat.add_0_r in E0. rewrite E0, (E2 1%nat). cbn [nth crlf andb].
    change (13 =? 13) with true. change (10 =? 10) with true. cbn [andb].
    apply parts_ok; [exact HB|exact Hp|exact H'|]. pose proof (form_parts_length b ps). rewrite !app_length. lia.
Qed.

(** * Requests *)
Lemma get_query_ok v env : get_query v env = Ok (add_all v (match env with None => [] | Some q => query_fields q end)).
Proof. unfold get_query. destruct env; [apply decode_query_ok|reflexivity]. Qed.
Lemma get_post_safe mk ct clen s v : (forall t, clen = Some t -> exists n, in_digits t n /\ (n < INT_MAX)%Z) ->
  exists f, get_post mk ct clen s v = Ok f.
Proof.
  intros H. unfold get_post. destruct ct as [ct|]; [|eexists; reflexivity]. destruct clen as [t|]; [|eexists; reflexivity].
  destruct (case_starts ct s_urlencoded); [|eexists; reflexivity].
  destruct (H t eq_refl) as (n & D & L). rewrite (ProgProofs.atoi_written t n D) by lia. cbn [obind].
  destruct (0 <? n)%Z; [|eexists; reflexivity]. destruct (Z.eqb_spec n INT_MAX); [lia|].
  destruct (Z.of_nat (length s) <? n)%Z; [eexists; reflexivity|]. rewrite decode_query_ok. eexists. reflexivity.
Qed.
Lemma begin_ok mk r : (forall t, r_clen r = Some t -> exists n, in_digits t n /\ (n < INT_MAX)%Z) -> exists s, begin mk r = Ok s.
Proof.
  intros H. unfold begin. rewrite get_query_ok. cbn [obind]. destruct (get_post_safe mk (r_ctype r) (r_clen r) (r_in r) [] H) as (f & ->).
  eexists. reflexivity.
Qed.
Lemma begin_inv mk r s : begin mk r = Ok s -> exists f, get_post mk (r_ctype r) (r_clen r) (r_in r) [] = Ok f /\
  s = mkSeen (add_all [] (match r_query r with None => [] | Some q => query_fields q end)) (f_vars f) (get_cookie [] (r_cookie r)) (f_ups f).
Proof.
  unfold begin. rewrite get_query_ok. cbn [obind]. destruct (get_post mk (r_ctype r) (r_clen r) (r_in r) []) as [f|]; [|discriminate].
  cbn [obind]. intros E. injection E as <-. exists f. split; reflexivity.
Qed.
Lemma query_msg mk r s q n : begin mk r = Ok s -> r_query r = Some q -> no_zero n ->
  request_string (s_get s) n = value_of n (query_fields q) /\ request_array (s_get s) n = values_of n (query_fields q).
Proof.
  intros B Q Z. destruct (begin_inv mk r s B) as (f & _ & ->). cbn [s_get]. rewrite Q.
  split; [apply request_string_ok|apply request_array_ok]; exact Z.
Qed.
Lemma query_none mk r s n : begin mk r = Ok s -> r_query r = None -> request_string (s_get s) n = None /\ request_array (s_get s) n = [].
Proof.
  intros B Q. destruct (begin_inv mk r s B) as (f & _ & ->). cbn [s_get]. rewrite Q. split; reflexivity.
Qed.
Lemma query_fields_msg mk r s q fs n : begin mk r = Ok s -> r_query r = Some q -> query_of fs q -> no_zero n ->
  request_string (s_get s) n = value_of n fs /\ request_array (s_get s) n = values_of n fs.
Proof. intros B Q F Z. rewrite <- (query_of_fields fs q F). apply (query_msg mk r); assumption. Qed.
Lemma cookie_msg mk r s ks n : begin mk r = Ok s -> r_cookie r = Some (cookies_text ks) -> Forall cookie_ok ks -> no_zero n ->
  request_string (s_cookie s) n = value_of n (cookie_fields ks) /\ request_array (s_cookie s) n = values_of n (cookie_fields ks).
Proof.
  intros B Q K Z. destruct (begin_inv mk r s B) as (f & _ & ->). cbn [s_cookie]. rewrite Q, get_cookie_ok by exact K.
  split; [apply request_string_ok|apply request_array_ok]; exact Z.
Qed.

(** posted fields *)
Lemma encodes_zero (raw : N -> Prop) t e : (forall c, raw c -> c <> 0) -> encodes raw t e -> ~ In 0 e.
Proof.
  intros HR H. induction H as [|c t e Hc H IH|t e H IH|c t e x y l r Hx Hy -> H IH]; intros HI.
  - destruct HI.
  - destruct HI as [->|HI]; [apply (HR 0 Hc); reflexivity|exact (IH HI)].
  - destruct HI as [E|HI]; [discriminate|exact (IH HI)].
  - unfold is_hex in *. destruct HI as [E|[E|[E|HI]]]; [lia|lia|lia|exact (IH HI)].
Qed.
Lemma written_zero f w : written_field f w -> ~ In 0 w.
Proof.
  assert (R1 : forall c, raw_name c -> c <> 0) by (intros c H ->; apply H; cbn; tauto).
  assert (R2 : forall c, raw_value c -> c <> 0) by (intros c H ->; apply H; cbn; tauto).
  intros H. destruct H as [n x en ex _ _ _ Hn Hx|n en _ _ Hn]; [|apply (encodes_zero raw_name n); assumption].
  apply not_in_app; [apply (encodes_zero raw_name n); assumption|]. intros [E|HI]; [discriminate|]. revert HI. apply (encodes_zero raw_value x); assumption.
Qed.
Lemma query_zero fs q : query_of fs q -> ~ In 0 q.
Proof.
  intros (ws & H & ->). induction H as [|f w fs ws Hf H IH]; [intros []|]. pose proof (written_zero f w Hf) as Z.
  destruct ws as [|w2 ws]; [exact Z|]. change (joined_by [38] (w :: w2 :: ws)) with (w ++ [38] ++ joined_by [38] (w2 :: ws)).
  apply not_in_app; [exact Z|]. apply not_in_app; [intros [E|[]]; discriminate|exact IH].
Qed.
Lemma urlencoded_same : form_urlencoded = s_urlencoded. Proof. reflexivity. Qed.
Lemma case_self a b : case_starts (a ++ b) a = true. Proof. apply case_starts_app. Qed.
Lemma not_multipart params : case_starts (form_urlencoded ++ params) s_multipart = false.
Proof. reflexivity. Qed.
Lemma post_msg mk ct_params t body extra fs v : query_of fs body -> in_digits t (Z.of_nat (length body)) -> (Z.of_nat (length body) < INT_MAX)%Z ->
  get_post mk (Some (form_urlencoded ++ ct_params)) (Some t) (body ++ extra) v = Ok (mkF (add_all v fs) 0 []).
Proof.
  intros F D L. unfold get_post. rewrite urlencoded_same, case_starts_app. rewrite (ProgProofs.atoi_written t _ D) by lia. cbn [obind].
  destruct (Z.ltb_spec 0 (Z.of_nat (length body))) as [G|G].
  - destruct (Z.eqb_spec (Z.of_nat (length body)) INT_MAX); [lia|]. rewrite app_length.
    destruct (Z.ltb_spec (Z.of_nat (length body + length extra)) (Z.of_nat (length body))); [lia|].
    rewrite Nat2Z.id, firstn_app, Nat.sub_diag, firstn_O, app_nil_r, firstn_all. rewrite cut0_id by (apply (query_zero fs); exact F).
    rewrite decode_query_ok, (query_of_fields fs body F). reflexivity.
  - destruct body; [|cbn [length] in G; lia]. pose proof (query_of_fields fs [] F) as E. cbn in E. subst fs.
    unfold read_multipart. change s_urlencoded with form_urlencoded. rewrite not_multipart. reflexivity.
Qed.
Lemma post_short mk ct_params t n s v : in_digits t n -> (Z.of_nat (length s) < n < INT_MAX)%Z ->
  get_post mk (Some (form_urlencoded ++ ct_params)) (Some t) s v = Ok (mkF v 0 []).
Proof.
  intros D L. unfold get_post. rewrite urlencoded_same, case_starts_app. rewrite (ProgProofs.atoi_written t _ D) by lia. cbn [obind].
  destruct (Z.ltb_spec 0 n); [|lia]. destruct (Z.eqb_spec n INT_MAX); [lia|]. destruct (Z.ltb_spec (Z.of_nat (length s)) n); [reflexivity|lia].
Qed.
Lemma post_request mk r body extra t params fs : query_of fs body -> in_digits t (Z.of_nat (length body)) -> (Z.of_nat (length body) < INT_MAX)%Z ->
  r_ctype r = Some (form_urlencoded ++ params) -> r_clen r = Some t -> r_in r = body ++ extra ->
  exists s, begin mk r = Ok s /\ s_ups s = [] /\
    forall n, no_zero n -> request_string (s_post s) n = value_of n fs /\ request_array (s_post s) n = values_of n fs.
Proof.
  intros F D L C1 C2 C3. unfold begin. rewrite get_query_ok, C1, C2, C3. cbn [obind]. rewrite (post_msg mk params t body extra fs) by assumption.
  cbn [obind]. eexists. split; [reflexivity|]. cbn [s_ups s_post f_ups f_vars]. split; [reflexivity|]. intros n Z.
  split; [apply request_string_ok|apply request_array_ok]; exact Z.
Qed.
Lemma post_short_request mk r t k params : in_digits t k -> (Z.of_nat (length (r_in r)) < k < INT_MAX)%Z ->
  r_ctype r = Some (form_urlencoded ++ params) -> r_clen r = Some t ->
  exists s, begin mk r = Ok s /\ s_ups s = [] /\ forall n, request_string (s_post s) n = None /\ request_array (s_post s) n = [].
Proof.
  intros D L C1 C2. unfold begin. rewrite get_query_ok, C1, C2. cbn [obind]. rewrite (post_short mk params t k) by assumption.
  cbn [obind]. eexists. split; [reflexivity|]. split; [reflexivity|]. intros n. split; reflexivity.
Qed.

(** forms with uploads *)
Lemma not_urlencoded b q : case_starts (form_type b q) s_urlencoded = false.
Proof. destruct q; reflexivity. Qed.
Lemma multi_msg mk b q clen ps : boundary_ok b -> Forall (part_ok b) ps ->
  get_post mk (Some (form_type b q)) clen (form_body b ps) [] = Ok (after_parts mk ps (mkF [] 0 [])).
Proof.
  intros HB H. unfold get_post. rewrite read_multipart_ok by assumption. rewrite not_urlencoded. destruct clen; reflexivity.
Qed.
Lemma multi_request mk r b q ps : boundary_ok b -> Forall (part_ok b) ps -> r_ctype r = Some (form_type b q) -> r_in r = form_body b ps ->
  exists s, begin mk r = Ok s /\ s_ups s = snd (form_fields mk 0 ps) /\
    forall n, no_zero n -> request_string (s_post s) n = value_of n (fst (form_fields mk 0 ps)) /\
      request_array (s_post s) n = values_of n (fst (form_fields mk 0 ps)) /\
      request_file (s_post s) n = match values_of n (fst (form_fields mk 0 ps)) with x :: y :: r => x :: y :: r | _ => [] end.
Proof.
  intros HB H C1 C2. unfold begin. rewrite get_query_ok, C1, C2. cbn [obind]. rewrite multi_msg by assumption. cbn [obind].
  unfold after_parts. cbn [f_made]. destruct (form_fields mk 0 ps) as (fs, ups). eexists. split; [reflexivity|].
  cbn [s_ups s_post f_ups f_vars fst snd app]. split; [reflexivity|]. intros n Z.
  split; [apply request_string_ok; exact Z|]. split; [apply request_array_ok; exact Z|apply request_file_ok; exact Z].
Qed.
Lemma form_fields_app mk : forall ps1 k ps2, form_fields mk k (ps1 ++ ps2) =
  (fst (form_fields mk k ps1) ++ fst (form_fields mk (k + uploads ps1) ps2), snd (form_fields mk k ps1) ++ snd (form_fields mk (k + uploads ps1) ps2)).
Proof.
  unfold uploads. induction ps1 as [|p ps1 IH]; intros k ps2.
  - cbn [app form_fields fst snd filter length]. rewrite Nat.add_0_r. destruct (form_fields mk k ps2); reflexivity.
  - destruct p as [n x|n [|f0 f] ct x]; cbn [app form_fields filter is_upload length].
    + rewrite IH. destruct (form_fields mk k ps1). reflexivity.
    + rewrite IH. reflexivity.
    + rewrite IH. replace (k + S (length (filter is_upload ps1)))%nat with (S k + length (filter is_upload ps1))%nat by lia.
      destruct (form_fields mk (S k) ps1). destruct (mk k); reflexivity.
Qed.
Lemma other_names mk n : forall ps k, Forall (fun p => part_name p <> n) ps -> values_of n (fst (form_fields mk k ps)) = [].
Proof.
  assert (V : forall m x fs, m <> n -> values_of n ((m, x) :: fs) = values_of n fs).
  { intros m x fs NE. unfold values_of. cbn [filter fst]. destruct (text_eqb m n) eqn:E; [apply text_eqb_eq in E; contradiction|reflexivity]. }
  induction ps as [|p ps IH]; intros k H; [reflexivity|]. inversion H as [|? ? Hp H']. subst.
  destruct p as [m x|m [|f0 f] ct x]; cbn [form_fields part_name] in *.
  - specialize (IH k H'). destruct (form_fields mk k ps). cbn [fst] in *. rewrite V by exact Hp. exact IH.
  - apply IH. exact H'.
  - specialize (IH (S k) H'). destruct (form_fields mk (S k) ps). destruct (mk k); cbn [fst] in *; [|exact IH].
    rewrite !V by exact Hp. exact IH.
Qed.
Lemma values_app n a b : values_of n (a ++ b) = values_of n a ++ values_of n b.
Proof. unfold values_of. rewrite filter_app, map_app. reflexivity. Qed.
Lemma upload_request mk r b q ps1 n f ct x ps2 : boundary_ok b -> Forall (part_ok b) (ps1 ++ Upload n f ct x :: ps2) -> f <> [] -> 
  Forall (fun p => part_name p <> n) ps1 -> Forall (fun p => part_name p <> n) ps2 ->
  r_ctype r = Some (form_type b q) -> r_in r = form_body b (ps1 ++ Upload n f ct x :: ps2) ->
  exists s, begin mk r = Ok s /\
    match mk (uploads ps1) with
    | Some path => request_file (s_post s) n = [path; f] /\ In (path, x) (s_ups s)
    | None => request_file (s_post s) n = []
    end.
Proof.
  intros HB H NE O1 O2 C1 C2. destruct (multi_request mk r b q _ HB H C1 C2) as (s & B & U & V). exists s. split; [exact B|].
  assert (Zn : no_zero n).
  { apply Forall_app in H. destruct H as (_ & H). inversion H as [|? ? Hp _]. subst. destruct Hp as (_ & (Hn & _)). apply (quotable_free n Hn). }
  destruct (V n Zn) as (_ & _ & F). rewrite F, U. rewrite form_fields_app. cbn [fst snd Nat.add].
  rewrite values_app, other_names by exact O1. cbn [app]. destruct f as [|f0 f]; [contradiction|]. cbn [form_fields].
  pose proof (other_names mk n ps2 (S (uploads ps1)) O2) as E. destruct (form_fields mk (S (uploads ps1)) ps2) as (fs, ups). cbn [fst] in E.
  destruct (mk (uploads ps1)) as [path|].
  - cbn [fst snd]. unfold values_of in *. cbn [filter fst]. rewrite text_eqb_refl. cbn [map snd]. rewrite E. split; [reflexivity|].
    apply in_or_app. right. left. reflexivity.
  - cbn [fst]. rewrite E. reflexivity.
Qed.
