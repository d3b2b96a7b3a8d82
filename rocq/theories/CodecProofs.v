(** Proofs about the codes of the C CGI library. *)
From Coq Require Import String.
From Verif Require Import Common Txt ReqSpec ReqModel ReqProofs CodecSpec CodecModel.
Local Open Scope N_scope.
Local Notation length := List.length.
Ltac Zify.zify_post_hook ::= Z.to_euclidean_division_equations.

(** ** Writing *)
Lemma ended_ok size buf : (length buf < size)%nat -> ended size buf = Ok buf.
Proof. intros H. unfold ended. apply Nat.ltb_lt in H. now rewrite H. Qed.
Lemma puts_ok : forall t size buf, (length buf + length t <= size)%nat -> puts size buf t = Ok (buf ++ t).
Proof.
  induction t as [|c t IH]; intros size buf H; cbn [puts length] in *; [now rewrite app_nil_r|].
  rewrite put_ok by lia. cbn [obind]. rewrite IH; [now rewrite <- app_assoc|]. rewrite app_length. cbn. lia.
Qed.
Lemma below16 (P : N -> Prop) : P 0 -> P 1 -> P 2 -> P 3 -> P 4 -> P 5 -> P 6 -> P 7 -> P 8 -> P 9 -> P 10 -> P 11 -> P 12 -> P 13 -> P 14 -> P 15 -> forall i, i < 16 -> P i.
Proof.
  intros P0 P1 P2 P3 P4 P5 P6 P7 P8 P9 P10 P11 P12 P13 P14 P15 i H.
  assert (E : i = 0 \/ i = 1 \/ i = 2 \/ i = 3 \/ i = 4 \/ i = 5 \/ i = 6 \/ i = 7 \/ i = 8 \/ i = 9 \/ i = 10 \/ i = 11 \/ i = 12 \/ i = 13 \/ i = 14 \/ i = 15) by lia.
  repeat (destruct E as [->|E]; [assumption|]). now subst i.
Qed.
Lemma hexdigit_ok i : i < 16 -> exists x, rd hexdigit (N.to_nat i) = Ok x /\ is_hex x i.
Proof.
  revert i. apply below16; match goal with |- exists x, ?a = _ /\ _ => let v := eval vm_compute in a in match v with Ok ?c => exists c end end; (split; [reflexivity|]);
    (left; split; [split; discriminate|reflexivity]) || (right; left; split; [split; discriminate|reflexivity]).
Qed.
Lemma land15 c : N.land c 15 = c mod 16.
Proof. change 15 with (N.ones 4). now rewrite N.land_ones. Qed.
Lemma shr4 c : N.shiftr c 4 = c / 16.
Proof. now rewrite N.shiftr_div_pow2. Qed.
Lemma shl4 c : N.shiftl c 4 = 16 * c.
Proof. rewrite N.shiftl_mul_pow2. change (2 ^ 4) with 16. lia. Qed.

(** ** Addresses *)
Lemma isalnum_ok c : isalnum c = true <-> plain c.
Proof. unfold isalnum, plain. rewrite !orb_true_iff, !andb_true_iff, !N.leb_le. tauto. Qed.
Lemma kept_ok keep c : kept keep c = true <-> match keep with Some k => In c k | None => False end.
Proof.
  destruct keep as [k|]; cbn; [|split; [discriminate|tauto]]. rewrite existsb_exists. split.
  - intros (x & I & E). apply N.eqb_eq in E. now subst x.
  - intros I. exists c. split; [exact I|apply N.eqb_refl].
Qed.
Lemma urlencode_ok keep : forall p, bytes p -> exists e, length e = urlcount keep p /\ encodes (raw_of keep) p e /\
  forall size buf, (length buf + urlcount keep p < size)%nat -> urlencode size keep p buf = Ok (buf ++ e).
Proof.
  induction p as [|c p IH]; intros B.
  - exists []. split; [reflexivity|]. split; [constructor|]. intros size buf H. cbn in *. rewrite app_nil_r. apply ended_ok. lia.
  - inversion B as [|? ? BC BP]; subst. destruct (IH BP) as (e & LE & EN & U). cbn [urlcount urlencode].
    destruct (isalnum c || kept keep c)%bool eqn:R.
    + assert (RC : raw_of keep c). { apply orb_true_iff in R as [R|R]; [left; now apply isalnum_ok|right; now apply kept_ok]. }
      exists (c :: e). assert (RR : ((isalnum c || (c =? 32)) || kept keep c)%bool = true) by (destruct (isalnum c), (c =? 32), (kept keep c); try reflexivity; discriminate R).
      rewrite RR. split; [cbn; lia|]. split; [now constructor|]. intros size buf H. rewrite put_ok by lia. cbn [obind]. rewrite U; [now rewrite <- app_assoc|]. rewrite app_length. cbn. lia.
    + destruct (N.eqb_spec c 32) as [->|NS].
      * cbn. exists (43 :: e). split; [cbn; lia|]. split; [now constructor|]. intros size buf H. rewrite put_ok by lia. cbn [obind]. rewrite U; [now rewrite <- app_assoc|]. rewrite app_length. cbn. lia.
      * rewrite orb_false_r, R. destruct (hexdigit_ok (N.land (N.shiftr c 4) 15)) as (x & X & HX); [rewrite land15; lia|]. destruct (hexdigit_ok (N.land c 15)) as (y & Y & HY); [rewrite land15; lia|].
        rewrite land15, shr4 in HX. rewrite land15 in HY. exists (37 :: x :: y :: e). split; [cbn; lia|]. split; [eapply enc_hex; [exact HX|exact HY| |exact EN]; lia|].
        intros size buf H. rewrite X, Y. cbn [obind]. rewrite puts_ok by (cbn; lia). cbn [obind]. rewrite U; [now rewrite <- app_assoc|]. rewrite app_length. cbn. lia.
Qed.
Lemma decode_loop_ok : forall n p size buf, (length p <= n)%nat -> (length buf + length p < size)%nat -> decode_loop size p buf = Ok (buf ++ unescaped p).
Proof.
  induction n as [|n IH]; intros p size buf L H; (destruct p as [|c p]; [cbn; rewrite app_nil_r; apply ended_ok; cbn in H; lia|]); [cbn in L; lia|].
  cbn [length] in L, H. assert (G : forall d r, (length r <= n)%nat -> (length buf + length r + 1 < size)%nat -> (do b <- put size buf d; decode_loop size r b) = Ok (buf ++ d :: unescaped r)).
  { intros d r LR HR. rewrite put_ok by lia. cbn [obind]. rewrite IH; [now rewrite <- app_assoc|lia|rewrite app_length; cbn; lia]. }
  cbn [decode_loop]. destruct (N.eqb_spec c 43) as [->|N43]; [rewrite G by lia; reflexivity|]. destruct (N.eqb_spec c 37) as [->|N37].
  - destruct p as [|x [|y r]]; [now rewrite G by lia|now rewrite G by lia|]. rewrite !hex_same. destruct (hex_digit x) as [l|] eqn:X; [destruct (hex_digit y) as [h|] eqn:Y|].
    + pose proof (hex_bound _ _ X). pose proof (hex_bound _ _ Y). rewrite shl4. rewrite N.mod_small by lia. cbn [length] in *. rewrite G by lia. now rewrite (un_hex _ _ _ _ _ X Y).
    + rewrite G by lia. rewrite un_pct; [reflexivity|]. intros x0 y0 r0 E. injection E as -> -> ->. now right.
    + rewrite G by lia. rewrite un_pct; [reflexivity|]. intros x0 y0 r0 E. injection E as -> -> ->. now left.
  - rewrite G by lia. cbn [unescaped]. destruct (N.eqb_spec c 43); [congruence|]. destruct (N.eqb_spec c 37); [congruence|]. reflexivity.
Qed.
Lemma decode_url_ok p : fits (length p + 1) = true -> decode_url p = Ok (unescaped p).
Proof. intros F. unfold decode_url. rewrite F. apply (decode_loop_ok (length p)); cbn; lia. Qed.
Lemma urlcount_3 keep : forall p, (urlcount keep p <= 3 * length p)%nat.
Proof. induction p as [|c p IH]; cbn [urlcount length]; [lia|]. destruct (_ || _)%bool; lia. Qed.
Lemma fits_le a b : (a <= b)%nat -> fits b = true -> fits a = true.
Proof. unfold fits. rewrite !Z.leb_le. lia. Qed.
Lemma raw_safe keep c : safe_keep keep -> raw_of keep c -> raw_name c.
Proof.
  intros S [P|K]; unfold raw_name.
  - intros I. cbn in I. unfold plain in P. repeat (destruct I as [<-|I]; [lia|]). exact I.
  - destruct keep as [k|]; [|easy]. now apply S.
Qed.
Lemma encodes_mono (r r' : N -> Prop) t e : (forall c, r c -> r' c) -> encodes r t e -> encodes r' t e.
Proof. intros H E. induction E; econstructor; eauto. Qed.
Lemma name_value c : raw_name c -> raw_value c.
Proof. unfold raw_name, raw_value. cbn. tauto. Qed.
Lemma encode_url_ok keep p : bytes p -> fits (3 * length p + 1) = true -> exists e, encode_url keep p = Ok e /\ encodes (raw_of keep) p e /\ (length e <= 3 * length p)%nat.
Proof.
  intros B F. destruct (urlencode_ok keep p B) as (e & LE & EN & U). pose proof (urlcount_3 keep p). exists e. unfold encode_url.
  rewrite (fits_le (urlcount keep p + 1) (3 * length p + 1)) by (lia || exact F). rewrite U by (cbn; lia). repeat split; [exact EN|]. lia.
Qed.
Lemma url_round keep p : bytes p -> safe_keep keep -> fits (3 * length p + 1) = true -> exists e, encode_url keep p = Ok e /\ encodes (raw_of keep) p e /\ decode_url e = Ok p.
Proof.
  intros B S F. destruct (encode_url_ok keep p B F) as (e & E & EN & L). exists e. split; [exact E|]. split; [exact EN|]. rewrite decode_url_ok by (eapply fits_le; [|exact F]; lia). f_equal.
  eapply encodes_un; [|exact EN]. intros c R. apply (raw_safe _ _ S) in R. apply raw_name_ok in R. tauto.
Qed.

(** ** Query strings *)
Definition led (buf q : text) : text := match buf with [] => q | _ => 38 :: q end.
Lemma pairs_ok keep : safe_keep keep -> forall fs, Forall good_field fs -> exists ws, Forall2 written_field fs ws /\
  forall size buf, fs <> [] -> (length buf + counted keep (flat fs) < size + match buf with [] => 1 | _ => 0 end)%nat ->
  pairs_loop size keep (flat fs) buf = Ok (buf ++ led buf (joined_by [38] ws)).
Proof.
  intros S. induction fs as [|[n x] fs IH]; intros F; [exists []; split; [constructor|]; intros size buf NE; congruence|].
  inversion F as [|? ? (N1 & N2 & N3 & N4 & N5) FF]; subst. cbn [fst snd] in *. destruct (IH FF) as (ws & W & P). clear IH.
  destruct (urlencode_ok keep n N4) as (en & LN & EN & UN). destruct (urlencode_ok keep x N5) as (ex & LX & EX & UX).
  exists ((en ++ 61 :: ex) :: ws). split.
  { constructor; [|exact W]. apply wf_both; try assumption; [eapply encodes_mono; [|exact EN]; intros c; now apply raw_safe|eapply encodes_mono; [|exact EX]; intros c R; apply name_value; revert R; now apply raw_safe]. }
  intros size buf _ H. change (flat ((n, x) :: fs)) with (n :: x :: flat fs) in *. unfold counted in H. cbn [fold_right] in H. fold (counted keep (flat fs)) in H. cbn [pairs_loop].
  assert (G : forall b0, (length b0 + urlcount keep n + 1 + urlcount keep x + counted keep (flat fs) < size)%nat ->
    (do b <- urlencode size keep n b0; do b1 <- put size b 61; do b2 <- urlencode size keep x b1; pairs_loop size keep (flat fs) b2) = Ok (b0 ++ joined_by [38] ((en ++ 61 :: ex) :: ws))).
  { intros b0 H0. rewrite UN by lia. cbn [obind]. rewrite put_ok by (rewrite app_length; lia). cbn [obind]. rewrite UX by (rewrite !app_length; cbn; lia). cbn [obind].
    destruct fs as [|f fs].
    - inversion W; subst. cbn [joined_by flat flat_map pairs_loop]. rewrite ended_ok by (rewrite !app_length; cbn; lia). f_equal. now rewrite <- !app_assoc.
    - rewrite P; [|discriminate|]. 
      + inversion W; subst. set (ws' := _ :: _) in *. rewrite <- !app_assoc. f_equal. f_equal. cbn [joined_by]. rewrite <- app_assoc. f_equal. cbn [app]. f_equal. f_equal.
        destruct (b0 ++ en ++ 61 :: ex) eqn:Z; [destruct b0; [destruct en|]; discriminate Z|]. unfold ws'. reflexivity.
      + rewrite !app_length. cbn [length]. lia. }
  destruct buf as [|c buf].
  - cbn [obind]. rewrite G by (cbn in *; lia). reflexivity.
  - rewrite put_ok by (cbn in *; lia). cbn [obind]. rewrite G by (rewrite app_length; cbn in *; lia). rewrite <- app_assoc. reflexivity.
Qed.
Lemma counted_sizes keep : forall fs, (counted keep (flat fs) <= sizes fs)%nat.
Proof.
  induction fs as [|[n x] fs IH]; [cbn; lia|]. change (flat ((n, x) :: fs)) with (n :: x :: flat fs). unfold counted, sizes in *. cbn [fold_right fst snd]. pose proof (urlcount_3 keep n). pose proof (urlcount_3 keep x). lia.
Qed.
Lemma counted_pos keep fs : fs <> [] -> (counted keep (flat fs) =? 0)%nat = false.
Proof. intros N. apply Nat.eqb_neq. destruct fs as [|[n x] fs]; [congruence|]. cbn. lia. Qed.
Lemma encode_query_ok keep fs : safe_keep keep -> fs <> [] -> Forall good_field fs -> fits (sizes fs) = true -> exists q, encode_query keep (flat fs) = Ok (Some q) /\ query_of fs q.
Proof.
  intros S N F Z. destruct (pairs_ok keep S fs F) as (ws & W & P). exists (joined_by [38] ws). split; [|now exists ws].
  unfold encode_query. rewrite counted_pos by exact N. rewrite (fits_le _ _ (counted_sizes keep fs) Z). rewrite P; [reflexivity|exact N|]. cbn [length]. lia.
Qed.
Lemma vars_pairs keep size : forall l buf, vars_loop size keep l buf = pairs_loop size keep (flat l) buf.
Proof.
  induction l as [|[n x] l IH]; intros buf; [reflexivity|]. change (flat ((n, x) :: l)) with (n :: x :: flat l). cbn [vars_loop pairs_loop].
  destruct (match buf with [] => Ok buf | _ => put size buf 38 end) as [b|]; [|reflexivity]. cbn [obind]. destruct (urlencode size keep n b) as [b1|]; [|reflexivity]. cbn [obind].
  destruct (put size b1 61) as [b2|]; [|reflexivity]. cbn [obind]. destruct (urlencode size keep x b2) as [b3|]; [|reflexivity]. cbn [obind]. apply IH.
Qed.
Lemma counted_vars_ok keep : forall l, counted_vars keep l = counted keep (flat l).
Proof. induction l as [|[n x] l IH]; [reflexivity|]. change (flat ((n, x) :: l)) with (n :: x :: flat l). unfold counted_vars, counted in *. cbn [fold_right fst snd]. lia. Qed.
Lemma add_var_new : forall acc n x, ~ In n (map fst acc) -> add_var acc n x = acc ++ [(n, [x])].
Proof.
  induction acc as [|[m xs] acc IH]; intros n x N; [reflexivity|]. cbn in *. destruct (text_eqb m n) eqn:E; [apply text_eqb_eq in E; tauto|]. rewrite IH by tauto. reflexivity.
Qed.
Lemma add_var_old : forall acc n xs x, ~ In n (map fst acc) -> add_var (acc ++ [(n, xs)]) n x = acc ++ [(n, xs ++ [x])].
Proof.
  induction acc as [|[m ys] acc IH]; intros n xs x N; cbn in *; [now rewrite text_eqb_refl|]. destruct (text_eqb m n) eqn:E; [apply text_eqb_eq in E; tauto|]. rewrite IH by tauto. reflexivity.
Qed.
Lemma add_values : forall ys acc n xs, ~ In n (map fst acc) -> add_all (acc ++ [(n, xs)]) (map (fun x => (n, x)) ys) = acc ++ [(n, xs ++ ys)].
Proof.
  induction ys as [|y ys IH]; intros acc n xs N; [now rewrite app_nil_r|]. cbn [map]. unfold add_all. cbn [fold_left fst snd]. rewrite add_var_old by exact N. fold (add_all (acc ++ [(n, xs ++ [y])]) (map (fun x => (n, x)) ys)). rewrite IH by exact N. now rewrite <- app_assoc.
Qed.
Lemma add_all_app v a b : add_all v (a ++ b) = add_all (add_all v a) b.
Proof. apply fold_left_app. Qed.
Lemma rebuilt : forall v acc, NoDup (map fst acc ++ map fst v) -> Forall (fun e => snd e <> []) v -> add_all acc (all_values v) = acc ++ v.
Proof.
  induction v as [|[n xs] v IH]; intros acc D F; [now rewrite app_nil_r|]. inversion F as [|? ? NE FF]; subst. cbn [snd map fst] in *. unfold all_values. cbn [flat_map fst snd]. fold (all_values v). rewrite add_all_app.
  destruct xs as [|x xs]; [congruence|]. cbn [map]. assert (NI : ~ In n (map fst acc)). { apply NoDup_remove_2 in D. rewrite in_app_iff in D. tauto. }
  unfold add_all at 2. cbn [fold_left fst snd]. rewrite add_var_new by exact NI. fold (add_all (acc ++ [(n, [x])]) (map (fun x => (n, x)) xs)). rewrite add_values by exact NI.
  rewrite IH; [now rewrite <- app_assoc| |exact FF]. rewrite map_app. cbn. rewrite <- app_assoc. exact D.
Qed.
Lemma values_good v : Forall (fun e => snd e <> [] /\ Forall (fun x => good_field (fst e, x)) (snd e)) v -> Forall good_field (all_values v).
Proof.
  induction 1 as [|[n xs] v [_ H] F IH]; [constructor|]. unfold all_values. cbn [flat_map fst snd] in *. apply Forall_app. split; [|exact IH]. now apply Forall_map.
Qed.
Lemma varlist_round keep v : safe_keep keep -> v <> [] -> good_vars v -> fits (sizes (all_values v)) = true -> exists q, encode_varlist keep v = Ok (Some q) /\ decode_query [] q = Ok v.
Proof.
  intros S N [D G] Z. assert (NA : all_values v <> []). { destruct v as [|[n xs] v]; [congruence|]. inversion G as [|? ? [NE _] _]; subst. cbn in NE. unfold all_values. cbn. destruct xs; [congruence|]. discriminate. }
  destruct (encode_query_ok keep (all_values v) S NA (values_good v G) Z) as (q & E & Q). exists q. split.
  - unfold encode_varlist. unfold encode_query in E. rewrite counted_vars_ok. rewrite counted_pos in E |- * by exact NA. rewrite (fits_le _ _ (counted_sizes keep _) Z) in E |- *. rewrite vars_pairs. exact E.
  - rewrite decode_query_ok, (query_of_fields _ _ Q). f_equal. apply (rebuilt v []); [exact D|]. eapply Forall_impl; [|exact G]. cbn. tauto.
Qed.
Lemma query_round keep fs : safe_keep keep -> fs <> [] -> Forall good_field fs -> fits (sizes fs) = true ->
  exists q v, encode_query keep (flat fs) = Ok (Some q) /\ query_of fs q /\ decode_query [] q = Ok v /\
    forall n, lookup v n = value_of n fs /\ lookup_all v n = match values_of n fs with [] => None | xs => Some xs end.
Proof.
  intros S N F Z. destruct (encode_query_ok keep fs S N F Z) as (q & E & Q). exists q, (add_all [] fs). split; [exact E|]. split; [exact Q|]. split; [now rewrite decode_query_ok, (query_of_fields _ _ Q)|].
  intros n. unfold lookup, lookup_all, value_of. rewrite find_add_all. cbn. destruct (values_of n fs); cbn; [split; reflexivity|]. split; reflexivity.
Qed.
