(** Proofs about the calendar and moments. *)
From Coq Require Import QArith Qabs Lia ZArith.
From Verif Require Import Common NumModel FloatSpec NumSpec NumProofs NumFacts JsonModel ClockModel ClockSpec.
Local Open Scope Z_scope.

(** * The calendar *)
Ltac divs := Z.to_euclidean_division_equations; lia.

Lemma leap_parts e c q n : 0 <= c <= 3 -> 0 <= q <= 24 -> 0 <= n <= 3 ->
  leap (400 * e + 100 * c + 4 * q + n + 1) = (n =? 3) && (negb (q =? 24) || (c =? 3)).
Proof.
  intros C Q N. unfold leap.
  assert (A : (400 * e + 100 * c + 4 * q + n + 1) mod 4 = (n + 1) mod 4) by divs.
  assert (B : (400 * e + 100 * c + 4 * q + n + 1) mod 100 = (4 * q + n + 1) mod 100) by divs.
  assert (D : (400 * e + 100 * c + 4 * q + n + 1) mod 400 = (100 * c + 4 * q + n + 1) mod 400) by divs.
  rewrite A, B, D. clear A B D.
  destruct (Z.eqb_spec n 3) as [->|Nn].
  - change ((3 + 1) mod 4 =? 0) with true. cbn [andb].
    destruct (Z.eqb_spec q 24) as [->|Nq].
    + change ((4 * 24 + 3 + 1) mod 100 =? 0) with true. cbn [negb orb].
      destruct (Z.eqb_spec c 3); destruct (Z.eqb_spec ((100 * c + 4 * 24 + 3 + 1) mod 400) 0); try reflexivity; exfalso; divs.
    + replace ((4 * q + 3 + 1) mod 100 =? 0) with false; [reflexivity|]. symmetry. apply Z.eqb_neq. divs.
  - replace ((n + 1) mod 4 =? 0) with false; [reflexivity|]. symmetry. apply Z.eqb_neq. divs.
Qed.
Lemma year_start_parts e c q n : 0 <= c <= 3 -> 0 <= q <= 24 -> 0 <= n <= 3 ->
  year_start (400 * e + 100 * c + 4 * q + n + 1) = 146097 * e + 36524 * c + 1461 * q + 365 * n.
Proof.
  intros C Q N. unfold year_start.
  replace (400 * e + 100 * c + 4 * q + n + 1 - 1) with (400 * e + 100 * c + 4 * q + n) by lia.
  assert (A : (400 * e + 100 * c + 4 * q + n) / 4 = 100 * e + 25 * c + q) by divs.
  assert (B : (400 * e + 100 * c + 4 * q + n) / 100 = 4 * e + c) by divs.
  assert (D : (400 * e + 100 * c + 4 * q + n) / 400 = e) by divs.
  rewrite A, B, D. lia.
Qed.
Lemma year_parts y : exists e c q n, y = 400 * e + 100 * c + 4 * q + n + 1 /\ 0 <= c <= 3 /\ 0 <= q <= 24 /\ 0 <= n <= 3.
Proof.
  exists ((y - 1) / 400), ((y - 1) mod 400 / 100), ((y - 1) mod 100 / 4), ((y - 1) mod 4).
  assert ((y - 1) mod 100 = (y - 1) mod 400 mod 100) by divs.
  assert ((y - 1) mod 4 = (y - 1) mod 100 mod 4) by divs.
  repeat split; divs.
Qed.
Definition year_days (y : Z) : Z := if leap y then 366 else 365.
Lemma year_start_next y : year_start (y + 1) = year_start y + year_days y.
Proof.
  destruct (year_parts y) as (e & c & q & n & -> & C & Q & N). unfold year_days.
  rewrite leap_parts, year_start_parts by lia.
  destruct (Z.eqb_spec n 3) as [->|Nn]; cbn [andb].
  2:{ replace (400 * e + 100 * c + 4 * q + n + 1 + 1) with (400 * e + 100 * c + 4 * q + (n + 1) + 1) by lia.
      rewrite year_start_parts by lia. lia. }
  destruct (Z.eqb_spec q 24) as [->|Nq]; cbn [negb orb].
  2:{ replace (400 * e + 100 * c + 4 * q + 3 + 1 + 1) with (400 * e + 100 * c + 4 * (q + 1) + 0 + 1) by lia.
      rewrite year_start_parts by lia. lia. }
  destruct (Z.eqb_spec c 3) as [->|Nc].
  2:{ replace (400 * e + 100 * c + 4 * 24 + 3 + 1 + 1) with (400 * e + 100 * (c + 1) + 4 * 0 + 0 + 1) by lia.
      rewrite year_start_parts by lia. lia. }
  replace (400 * e + 100 * 3 + 4 * 24 + 3 + 1 + 1) with (400 * (e + 1) + 100 * 0 + 4 * 0 + 0 + 1) by lia.
  rewrite year_start_parts by lia. lia.
Qed.
Lemma year_of_ok d y doy : year_of d = (y, doy) -> year_start y + doy = d + 719162 /\ 0 <= doy < year_days y.
Proof.
  unfold year_of. set (r := (d + 719162) mod 146097). set (e := (d + 719162) / 146097).
  set (c := Z.min (r / 36524) 3). set (r1 := r - c * 36524). set (q := r1 / 1461). set (r2 := r1 mod 1461).
  set (n := Z.min (r2 / 365) 3). intros H. apply pair_equal_spec in H. destruct H as (<- & <-).
  assert (R : d + 719162 = 146097 * e + r /\ 0 <= r < 146097) by (unfold e, r; divs).
  assert (C : 0 <= c <= 3 /\ c * 36524 <= r /\ (c < 3 -> r < c * 36524 + 36524)) by (unfold c; divs).
  assert (Q : r1 = 1461 * q + r2 /\ 0 <= r2 < 1461) by (unfold q, r2; divs).
  assert (Q' : 0 <= q <= 24) by lia.
  assert (N : 0 <= n <= 3 /\ n * 365 <= r2 /\ (n < 3 -> r2 < n * 365 + 365)) by (unfold n; divs).
  unfold year_days. rewrite year_start_parts, leap_parts by lia.
  split; [lia|].
  destruct (Z.eqb_spec n 3); cbn [andb]; [|lia].
  destruct (Z.eqb_spec q 24); cbn [negb orb]; [|lia].
  destruct (Z.eqb_spec c 3); lia.
Qed.
Lemma year_start_le a b : a <= b -> year_start a <= year_start b.
Proof.
  intros L. replace b with (a + Z.of_nat (Z.to_nat (b - a))) by lia.
  generalize (Z.to_nat (b - a)). clear. induction n; [now rewrite Z.add_0_r|].
  rewrite Nat2Z.inj_succ. replace (a + Z.succ (Z.of_nat n)) with (a + Z.of_nat n + 1) by lia.
  rewrite year_start_next. unfold year_days. destruct (leap _); lia.
Qed.
Lemma year_unique y1 d1 y2 d2 : year_start y1 + d1 = year_start y2 + d2 ->
  0 <= d1 < year_days y1 -> 0 <= d2 < year_days y2 -> y1 = y2 /\ d1 = d2.
Proof.
  intros E A B.
  assert (~ y1 < y2). { intros L. pose proof (year_start_le (y1 + 1) y2 ltac:(lia)). rewrite year_start_next in H. lia. }
  assert (~ y2 < y1). { intros L. pose proof (year_start_le (y2 + 1) y1 ltac:(lia)). rewrite year_start_next in H0. lia. }
  assert (y1 = y2) by lia. subst. lia.
Qed.
Lemma year_of_unique d y doy : year_start y + doy = d + 719162 -> 0 <= doy < year_days y -> year_of d = (y, doy).
Proof.
  intros E B. destruct (year_of d) as [y' doy'] eqn:Y. destruct (year_of_ok _ _ _ Y) as (E' & B').
  destruct (year_unique y doy y' doy'); try assumption; [lia|]. now subst.
Qed.
Lemma month_cases m : 0 <= m < 12 -> In m [0; 1; 2; 3; 4; 5; 6; 7; 8; 9; 10; 11].
Proof. intros. cbn. lia. Qed.
Ltac months M := apply month_cases in M; cbn in M; decompose [or] M; try contradiction; subst; clear M.
Definition month_end (l : bool) (m : Z) : Z := month_start l m + month_days l m.
Lemma month_next l m : 0 <= m < 11 -> month_start l (m + 1) = month_end l m.
Proof. intros M. assert (M' : 0 <= m < 12) by lia. months M'; try lia; destruct l; reflexivity. Qed.
Lemma month_end_year l m : 0 <= m < 12 -> month_end l m <= if l then 366 else 365.
Proof. intros M. months M; destruct l; unfold month_end; vm_compute; discriminate. Qed.
Lemma month_of_ok l doy k : 0 <= doy -> (k <= 11)%nat ->
  (doy < month_end l (Z.of_nat k)) ->
  0 <= month_of l doy k <= Z.of_nat k /\ month_start l (month_of l doy k) <= doy < month_end l (month_of l doy k).
Proof.
  intros D. induction k; intros K L.
  - cbn [month_of]. change (Z.of_nat 0) with 0 in *. destruct l; cbn in L |- *; lia.
  - cbn [month_of]. destruct (Z.leb_spec (month_start l (Z.of_nat (S k))) doy); [lia|].
    assert (month_start l (Z.of_nat (S k)) = month_end l (Z.of_nat k)).
    { rewrite Nat2Z.inj_succ. apply month_next. lia. }
    destruct IHk as (A & B); lia.
Qed.
Lemma month_apart l a b : 0 <= a < b -> b < 12 -> month_end l a <= month_start l b.
Proof.
  intros A B. replace b with (a + 1 + Z.of_nat (Z.to_nat (b - a - 1))) in * by lia.
  revert A B. generalize (Z.to_nat (b - a - 1)). clear b. intros n A B.
  induction n; [rewrite Z.add_0_r in *; rewrite month_next by lia; lia|].
  rewrite Nat2Z.inj_succ in *. replace (a + 1 + Z.succ (Z.of_nat n)) with (a + 1 + Z.of_nat n + 1) in * by lia.
  rewrite month_next by lia. unfold month_end at 2.
  assert (0 <= month_days l (a + 1 + Z.of_nat n)).
  { assert (M : 0 <= a + 1 + Z.of_nat n < 12) by lia. revert M. generalize (a + 1 + Z.of_nat n). intros m M.
    months M; destruct l; vm_compute; discriminate. }
  specialize (IHn ltac:(lia) ltac:(lia)). lia.
Qed.
Lemma month_of_unique l doy m : 0 <= m < 12 -> 0 <= month_start l m <= doy -> doy < month_end l m -> month_of l doy 11 = m.
Proof.
  intros M H H'.
  assert (doy < month_end l 11).
  { destruct (Z.eq_dec m 11) as [->|Ne]; [assumption|]. pose proof (month_apart l m 11 ltac:(lia) ltac:(lia)).
    unfold month_end at 1. assert (0 <= month_days l 11) by (destruct l; vm_compute; discriminate). lia. }
  destruct (month_of_ok l doy 11) as (A & B); [lia|lia|assumption|].
  change (Z.of_nat 11) with 11 in A.
  destruct (Z.lt_trichotomy m (month_of l doy 11)) as [L|[E|L]]; [|congruence|].
  - pose proof (month_apart l m (month_of l doy 11) ltac:(lia) ltac:(lia)). lia.
  - pose proof (month_apart l (month_of l doy 11) m ltac:(lia) ltac:(lia)). lia.
Qed.

Lemma fields_valid s : valid (fields s).
Proof.
  unfold fields. destruct (year_of (s / 86400)) as [y doy] eqn:Y.
  destruct (year_of_ok _ _ _ Y) as (E & B).
  destruct (month_of_ok (leap y) doy 11) as (A & C); [lia|lia| |].
  { unfold year_days in B. destruct (leap y); [change (doy < 366)|change (doy < 365)]; lia. }
  unfold valid. cbn [tm_year tm_mon tm_mday tm_hour tm_min tm_sec].
  replace (y - 1900 + 1900) with y by lia. unfold month_end in C.
  repeat split; try divs.
Qed.
Lemma secs_fields s : secs (fields s) = s.
Proof.
  unfold secs, fields. destruct (year_of (s / 86400)) as [y doy] eqn:Y.
  destruct (year_of_ok _ _ _ Y) as (E & B).
  destruct (month_of_ok (leap y) doy 11) as (A & C); [lia|lia| |].
  { unfold year_days in B. destruct (leap y); [change (doy < 366)|change (doy < 365)]; lia. }
  set (m := month_of (leap y) doy 11) in *.
  cbn [tm_year tm_mon tm_mday tm_hour tm_min tm_sec]. unfold day_number.
  assert (D : m / 12 = 0) by divs. assert (D' : m mod 12 = m) by divs.
  rewrite D, D'. replace (y - 1900 + 1900 + 0) with y by lia. clear D D'. clearbody m. divs.
Qed.
Lemma fields_secs f : valid f -> fields (secs f) = f.
Proof.
  destruct f as [y mo d h mi s]. unfold valid, secs.
  cbn [tm_year tm_mon tm_mday tm_hour tm_min tm_sec]. intros (M & D & H & I & S).
  unfold day_number. assert (X : mo / 12 = 0) by divs. assert (X' : mo mod 12 = mo) by divs.
  rewrite X, X'. replace (y + 1900 + 0) with (y + 1900) by lia.
  set (l := leap (y + 1900)) in *. set (doy := month_start l mo + (d - 1)).
  set (dn := year_start (y + 1900) + month_start l mo + (d - 1) - 719162).
  assert (P : 0 <= month_start l mo) by (clear - M; months M; destruct l; vm_compute; discriminate).
  pose proof (month_end_year l mo M) as ME. unfold month_end in ME.
  assert (E : (dn * 86400 + h * 3600 + mi * 60 + s) / 86400 = dn) by (clear - H I S; clearbody dn; divs).
  assert (E' : (dn * 86400 + h * 3600 + mi * 60 + s) mod 86400 = h * 3600 + mi * 60 + s) by (clear - H I S; clearbody dn; divs).
  unfold fields. rewrite E, E'.
  rewrite (year_of_unique dn (y + 1900) doy); [|unfold dn, doy; lia|unfold doy, year_days; fold l; destruct l; lia].
  fold l. rewrite (month_of_unique l doy mo M); [|unfold doy; lia|unfold doy, month_end; lia].
  f_equal; try lia; clear - H I S; divs.
Qed.
Lemma day_number_in y m d : 0 <= m < 12 -> day_number y m d = year_start y + month_start (leap y) m + (d - 1) - 719162.
Proof.
  intros M. unfold day_number. assert (X : m / 12 = 0) by divs. assert (X' : m mod 12 = m) by divs.
  rewrite X, X'. now rewrite Z.add_0_r.
Qed.
Lemma days_pos l m : 0 <= m < 12 -> 28 <= month_days l m <= 31.
Proof. intros M. months M; destruct l; vm_compute; split; discriminate. Qed.
Lemma next_second_ok f : valid f -> valid (next_second f) /\ secs (next_second f) = secs f + 1.
Proof.
  destruct f as [y mo d h mi s]. unfold valid, next_second. cbn [tm_year tm_mon tm_mday tm_hour tm_min tm_sec].
  intros (M & D & H & I & X).
  assert (K : forall y' mo' d' h' mi' s', 0 <= mo' < 12 -> secs (mkTm y' mo' d' h' mi' s') =
     (year_start (y' + 1900) + month_start (leap (y' + 1900)) mo' + (d' - 1) - 719162) * 86400 + h' * 3600 + mi' * 60 + s').
  { intros. unfold secs. cbn [tm_year tm_mon tm_mday tm_hour tm_min tm_sec]. now rewrite day_number_in. }
  pose proof (fun l => days_pos l mo M) as P.
  destruct (Z.ltb_spec s 59); [cbn [tm_year tm_mon tm_mday tm_hour tm_min tm_sec]; rewrite !K by lia; lia|].
  destruct (Z.ltb_spec mi 59); [cbn [tm_year tm_mon tm_mday tm_hour tm_min tm_sec]; rewrite !K by lia; lia|].
  destruct (Z.ltb_spec h 23); [cbn [tm_year tm_mon tm_mday tm_hour tm_min tm_sec]; rewrite !K by lia; lia|].
  destruct (Z.ltb_spec d (month_days (leap (y + 1900)) mo)); [cbn [tm_year tm_mon tm_mday tm_hour tm_min tm_sec]; rewrite !K by lia; lia|].
  destruct (Z.ltb_spec mo 11); cbn [tm_year tm_mon tm_mday tm_hour tm_min tm_sec]; rewrite !K by lia.
  - rewrite (month_next _ mo) by lia. unfold month_end.
    pose proof (days_pos (leap (y + 1900)) (mo + 1) ltac:(lia)). lia.
  - assert (mo = 11) by lia. subst mo.
    replace (y + 1 + 1900) with (y + 1900 + 1) by lia. rewrite year_start_next. unfold year_days.
    pose proof (days_pos (leap (y + 1900 + 1)) 0 ltac:(lia)).
    assert (E : month_start (leap (y + 1900)) 11 + month_days (leap (y + 1900)) 11 = if leap (y + 1900) then 366 else 365)
      by (destruct (leap (y + 1900)); reflexivity).
    assert (E' : month_start (leap (y + 1900 + 1)) 0 = 0) by (destruct (leap (y + 1900 + 1)); reflexivity).
    rewrite E'. destruct (leap (y + 1900)); lia.
Qed.
Lemma calendar_next s : fields (s + 1) = next_second (fields s).
Proof.
  destruct (next_second_ok (fields s) (fields_valid s)) as (V & E).
  rewrite secs_fields in E. rewrite <- E. now apply fields_secs.
Qed.
Lemma year_start_bound y : 146097 * (y - 1) - 1200 <= 400 * year_start y <= 146097 * (y - 1) + 1200.
Proof. unfold year_start. divs. Qed.
Lemma year_near s : Z.abs s <= 9000001000000000 -> in_int (tm_year (fields s)) = true.
Proof.
  intros B. apply in_int_iff. unfold fields. destruct (year_of (s / 86400)) as [y doy] eqn:Y.
  destruct (year_of_ok _ _ _ Y) as (E & B'). cbn [tm_year]. pose proof (year_start_bound y).
  assert (0 <= doy < 366) by (unfold year_days in B'; destruct (leap y); lia). clear Y B'. divs.
Qed.

(** * Words *)
Lemma strncmp_refl a : forall n, (n <= length a)%nat -> strncmp0 n a a = Ok true.
Proof.
  induction a as [|x a IH]; intros [|n] L; try reflexivity; [cbn in L; lia|].
  cbn [strncmp0]. rewrite N.eqb_refl. destruct (x =? 0)%N; [reflexivity|]. apply IH. cbn in L. lia.
Qed.
Lemma is_unit_ok u w : ~ In 0%N u -> is_unit u w = Ok true <-> prefix u w.
Proof.
  unfold is_unit. revert w. induction u as [|x u IH]; intros w N0.
  - cbn. split; [now exists w|reflexivity].
  - cbn [length strncmp0]. destruct w as [|y w]; cbn [app].
    + destruct (N.eqb_spec x 0) as [->|]; [elim N0; now left|].
      split; [discriminate|intros (c & H); discriminate].
    + destruct (N.eqb_spec x y) as [<-|Ne].
      * destruct (N.eqb_spec x 0) as [->|]; [elim N0; now left|].
        rewrite IH by (intros I; apply N0; now right). split; intros (c & H); exists c; cbn in *; congruence.
      * split; [discriminate|]. intros (c & H). cbn in H. congruence.
Qed.
Lemma is_unit_total u w : ~ In 0%N u -> exists b, is_unit u w = Ok b.
Proof.
  unfold is_unit. revert w. induction u as [|x u IH]; intros w N0; [now exists true|].
  cbn [length strncmp0]. destruct w as [|y w]; cbn [app].
  - destruct (x =? 0)%N eqn:E; [|now exists false]. apply N.eqb_eq in E. subst. elim N0. now left.
  - destruct (x =? y)%N; [|now exists false]. destruct (x =? 0)%N; [now exists true|]. apply IH. intros I. apply N0. now right.
Qed.
Lemma is_unit_not u w : ~ In 0%N u -> ~ prefix u w -> is_unit u w = Ok false.
Proof.
  intros N0 P. destruct (is_unit_total u w N0) as ([] & E); [|assumption]. elim P. now apply is_unit_ok.
Qed.
Lemma is_unit_self u : ~ In 0%N u -> is_unit u u = Ok true.
Proof. intros N0. apply is_unit_ok; [assumption|]. exists []. now rewrite app_nil_r. Qed.

(** * Moments *)
Lemma c_int64_trunc x z : finite x -> is_trunc (SF2Q x) z -> in_reach z -> c_int64 x = Ok z.
Proof.
  intros F T R. destruct (trunc_spec x F) as (z' & E & T'). rewrite (is_trunc_unique _ _ _ T T') in *.
  unfold c_int64. rewrite E. unfold in_reach in R.
  assert (L : in_long z' = true) by (unfold in_long, LONG_MAX; apply andb_true_iff; rewrite !Z.leb_le; lia).
  now rewrite L.
Qed.
Lemma at_of_Z t z : in_reach t -> at_second (mkClock (of_Z t) z) t.
Proof.
  unfold in_reach. intros B. destruct (of_Z_ok t) as (F & V); [lia|]. split; [assumption|]. cbn [c_time].
  destruct (trunc_spec (of_Z t) F) as (z' & E & T). rewrite (trunc_whole _ _ F V) in E. injection E as <-. exact T.
Qed.
Lemma localtime_near z t : zone_ok z -> in_reach t -> localtime z t = Some (fields (local z t), z_summer z t).
Proof.
  unfold in_reach, localtime, local. intros O B. specialize (O (z_summer z t)).
  now rewrite year_near by lia.
Qed.
Lemma mktime_near find z f b : zone_ok z -> in_reach (secs f - offset z b) -> mktime find z f (Some b) = secs f - offset z b.
Proof.
  unfold in_reach, mktime, local. intros O B. rewrite year_near; [reflexivity|].
  specialize (O (z_summer z (secs f - offset z b))). lia.
Qed.
Lemma bump_whole field y n : 0 <= field <= 100 -> finite y -> SF2Q y == inject_Z n -> Z.abs n <= 2147483500 ->
  bump field y = Ok (field + n).
Proof.
  intros B F V L. unfold bump. destruct (of_Z_ok field) as (Ff & Vf); [lia|].
  destruct (add_whole (of_Z field) y field n) as (Fa & Va); try assumption; [lia|].
  apply c_int_whole; try assumption. lia.
Qed.
Lemma day_number_add y m d k : day_number y m (d + k) = day_number y m d + k.
Proof. unfold day_number. lia. Qed.
Lemma valid_small f : valid f -> 0 <= tm_hour f <= 100 /\ 0 <= tm_min f <= 100 /\ 0 <= tm_sec f <= 100 /\ 0 <= tm_mday f <= 100 /\ 0 <= tm_mon f <= 100.
Proof.
  unfold valid. intros (M & D & H & I & X). pose proof (days_pos (leap (tm_year f + 1900)) (tm_mon f) M). lia.
Qed.
Ltac units WD := 
  let N := fresh "N" in let D := fresh "D" in
  destruct WD as (N & D);
  repeat match goal with H : Forall _ (_ :: _) |- _ =>
     let a := fresh "N" in let b := fresh "R" in pose proof (Forall_inv H) as a; pose proof (Forall_inv_tail H) as b; clear H; cbn beta in a end;
  cbn [distinct] in D;
  repeat match goal with H : _ /\ _ |- _ => destruct H end;
  repeat match goal with H : Forall _ (_ :: _) |- _ =>
     let a := fresh "P" in let b := fresh "R" in pose proof (Forall_inv H) as a; pose proof (Forall_inv_tail H) as b; clear H; cbn beta in a end.
Ltac pick := unfold change_fields;
  repeat first [rewrite is_unit_self by assumption | rewrite is_unit_not by assumption]; cbn [obind].
Lemma change_fixed w f u len k y n : words_distinct w -> valid f -> fixed_unit w u len k ->
  finite y -> SF2Q y == inject_Z n -> Z.abs (n * k) <= 2147483500 ->
  exists f', change_fields w f u y = Ok f' /\ secs f' = secs f + n * len.
Proof.
  intros WD V U F Y B. pose proof (valid_small f V) as (H1 & H2 & H3 & H4 & H5).
  units WD.
  destruct U; pick.
  - rewrite (bump_whole _ y n) by (assumption || lia). cbn [obind]. eexists. split; [reflexivity|].
    unfold secs. cbn [tm_year tm_mon tm_mday tm_hour tm_min tm_sec]. lia.
  - rewrite (bump_whole _ y n) by (assumption || lia). cbn [obind]. eexists. split; [reflexivity|].
    unfold secs. cbn [tm_year tm_mon tm_mday tm_hour tm_min tm_sec]. lia.
  - rewrite (bump_whole _ y n) by (assumption || lia). cbn [obind]. eexists. split; [reflexivity|].
    unfold secs. cbn [tm_year tm_mon tm_mday tm_hour tm_min tm_sec]. lia.
  - rewrite (bump_whole _ y n) by (assumption || lia). cbn [obind]. eexists. split; [reflexivity|].
    unfold secs. cbn [tm_year tm_mon tm_mday tm_hour tm_min tm_sec]. rewrite day_number_add. lia.
  - destruct (of_Z_ok 7) as (F7 & V7); [lia|]. destruct (mul_whole y (of_Z 7) n 7) as (Fm & Vm); try assumption; [lia|].
    rewrite (bump_whole _ _ (n * 7)) by (assumption || lia). cbn [obind]. eexists. split; [reflexivity|].
    unfold secs. cbn [tm_year tm_mon tm_mday tm_hour tm_min tm_sec]. rewrite day_number_add. lia.
Qed.
Definition signed (forward : bool) (n : Z) : Z := if forward then n else - n.
Lemma signed_whole (forward : bool) x n : finite x -> SF2Q x == inject_Z n -> Z.abs n <= 2147483500 ->
  finite (mul64 x (of_Z (if forward then 1 else -1))) /\
  SF2Q (mul64 x (of_Z (if forward then 1 else -1))) == inject_Z (signed forward n).
Proof.
  intros F V B. destruct (of_Z_ok (if forward then 1 else -1)) as (F1 & V1); [destruct forward; lia|].
  destruct (mul_whole x _ n (if forward then 1 else -1) F F1 V V1) as (Fm & Vm); [destruct forward; lia|].
  split; [assumption|]. rewrite Vm. replace (signed forward n) with (n * (if forward then 1 else -1)) by (destruct forward; cbn; lia). reflexivity.
Qed.
Lemma clock_change_ok zones find w c forward x u t f' n :
  zone_ok (zones (cstring (c_zone c))) -> at_second c t -> in_reach t -> 
  finite x -> SF2Q x == inject_Z n -> Z.abs n <= 2147483500 ->
  let z := zones (cstring (c_zone c)) in
  (forall y : num, finite y -> SF2Q y == inject_Z (signed forward n) -> change_fields w (fields (local z t)) u y = Ok f') ->
  in_reach (secs f' - offset z (z_summer z t)) ->
  clock_change zones find w c forward x (Some u) = Ok (mkClock (of_Z (secs f' - offset z (z_summer z t))) (c_zone c)).
Proof.
  intros O (Ft & T) B F V L z C B'. unfold clock_change.
  rewrite (c_int64_trunc _ t Ft T B). cbn [obind]. fold z. rewrite (localtime_near z t O B).
  destruct (signed_whole forward x n F V L) as (Fs & Vs). rewrite (C _ Fs Vs). cbn [obind].
  now rewrite (mktime_near find z f' (z_summer z t) O B').
Qed.
Lemma fixed_pos w u len k : fixed_unit w u len k -> 1 <= k.
Proof. destruct 1; lia. Qed.
Lemma clock_change_fixed zones find w c forward x u len k n t :
  zone_ok (zones (cstring (c_zone c))) -> words_distinct w -> fixed_unit w u len k ->
  at_second c t -> in_reach t -> finite x -> SF2Q x == inject_Z n -> Z.abs (n * k) <= 2147483500 ->
  in_reach (t + signed forward n * len) ->
  exists c', clock_change zones find w c forward x (Some u) = Ok c' /\ at_second c' (t + signed forward n * len) /\ c_zone c' = c_zone c.
Proof.
  intros O WD U T B F V L B'. set (z := zones (cstring (c_zone c))) in *.
  pose proof (fixed_pos _ _ _ _ U) as K.
  assert (A : exists f', (forall y : num, finite y -> SF2Q y == inject_Z (signed forward n) -> change_fields w (fields (local z t)) u y = Ok f') /\
     secs f' = local z t + signed forward n * len).
  { destruct (of_Z_ok (signed forward n)) as (F1 & V1); [destruct forward; cbn; nia|].
    destruct (change_fixed w (fields (local z t)) u len k _ (signed forward n) WD (fields_valid _) U F1 V1) as (f' & E & S).
    { destruct forward; cbn [signed]; lia. }
    rewrite secs_fields in S. exists f'. split; [|assumption]. intros y Fy Vy.
    destruct (change_fixed w (fields (local z t)) u len k y (signed forward n) WD (fields_valid _) U Fy Vy) as (f'' & E' & S').
    { destruct forward; cbn [signed]; lia. }
    rewrite E'. pose proof (valid_small _ (fields_valid (local z t))) as (H1 & H2 & H3 & H4 & H5).
    assert (Lk : Z.abs (signed forward n * k) <= 2147483500) by (destruct forward; cbn [signed]; lia).
    revert E E'. units WD. destruct U; pick;
    try (rewrite !(bump_whole _ _ (signed forward n)) by (assumption || lia); cbn [obind]; congruence).
    destruct (of_Z_ok 7) as (F7 & V7); [lia|].
    destruct (mul_whole y (of_Z 7) (signed forward n) 7) as (Fm & Vm); try assumption; [lia|].
    destruct (mul_whole (of_Z (signed forward n)) (of_Z 7) (signed forward n) 7) as (Fm' & Vm'); try assumption; [lia|].
    rewrite !(bump_whole _ _ (signed forward n * 7)) by (assumption || lia). cbn [obind]. congruence. }
  destruct A as (f' & C & S).
  assert (E : secs f' - offset z (z_summer z t) = t + signed forward n * len) by (rewrite S; unfold local; lia).
  eexists. split; [eapply clock_change_ok with (n := n) (f' := f') (t := t); try eassumption|].
  - nia.
  - fold z. now rewrite E.
  - fold z. rewrite E. split; [now apply at_of_Z|reflexivity].
Qed.
Lemma clock_change_unknown zones find w c forward x u n t :
  zone_ok (zones (cstring (c_zone c))) -> ~ In 0%N u ->
  Forall (fun a => ~ prefix u a) [w_hour w; w_minute w; w_second w; w_day w; w_month w; w_year w; w_week w] ->
  at_second c t -> in_reach t -> finite x -> SF2Q x == inject_Z n -> Z.abs n <= 2147483500 ->
  exists c', clock_change zones find w c forward x (Some u) = Ok c' /\ at_second c' t /\ c_zone c' = c_zone c.
Proof.
  intros O N0 P T B F V L. set (z := zones (cstring (c_zone c))) in *.
  assert (E : secs (fields (local z t)) - offset z (z_summer z t) = t) by (rewrite secs_fields; unfold local; lia).
  eexists. split; [eapply clock_change_ok with (n := n) (f' := fields (local z t)) (t := t); try eassumption|].
  - intros y _ _. fold z. repeat match goal with H : Forall _ (_ :: _) |- _ =>
      let a := fresh "P" in let b := fresh "R" in pose proof (Forall_inv H) as a; pose proof (Forall_inv_tail H) as b; clear H; cbn beta in a end.
    unfold change_fields. do 7 (rewrite is_unit_not by assumption; cbn [obind]). reflexivity.
  - fold z. now rewrite E.
  - fold z. rewrite E. split; [now apply at_of_Z|reflexivity].
Qed.

(** ** Months and years *)
Lemma bump_far field y n : Z.abs field <= 2147483647 -> finite y -> SF2Q y == inject_Z n -> Z.abs n <= 2147483647 ->
  in_int (field + n) = true -> bump field y = Ok (field + n).
Proof.
  intros B F V L I. unfold bump. destruct (of_Z_ok field) as (Ff & Vf); [lia|].
  destruct (add_whole (of_Z field) y field n) as (Fa & Va); try assumption; [lia|].
  apply c_int_whole; try assumption. now apply in_int_iff.
Qed.
Lemma secs_months f n : secs (mkTm (tm_year f) (tm_mon f + n) (tm_mday f) (tm_hour f) (tm_min f) (tm_sec f)) = secs (months_later f n).
Proof.
  unfold secs, months_later. cbn [tm_year tm_mon tm_mday tm_hour tm_min tm_sec]. unfold day_number.
  set (m := tm_mon f + n).
  assert (X : m mod 12 / 12 = 0) by divs. assert (X' : (m mod 12) mod 12 = m mod 12) by divs.
  rewrite X, X'. replace (tm_year f + m / 12 + 1900 + 0) with (tm_year f + 1900 + m / 12) by lia. reflexivity.
Qed.
Lemma get_time_near zones c t p : zone_ok (zones (cstring (c_zone c))) -> at_second c t -> in_reach t ->
  get_time zones c p = Ok (part_of (fields (local (zones (cstring (c_zone c))) t)) p).
Proof.
  intros O (F & T) B. unfold get_time. rewrite (c_int64_trunc _ t F T B). cbn [obind].
  rewrite (localtime_near _ t O B). destruct p; reflexivity.
Qed.
Lemma later zones find w c forward x u n t f' f'' :
  let z := zones (cstring (c_zone c)) in
  zone_ok z -> at_second c t -> in_reach t -> finite x -> SF2Q x == inject_Z n -> Z.abs n <= 2147483500 ->
  (forall y : num, finite y -> SF2Q y == inject_Z (signed forward n) -> change_fields w (fields (local z t)) u y = Ok f') ->
  secs f' = secs f'' -> valid f'' -> in_reach (secs f'' - offset z (z_summer z t)) ->
  exists c' t', clock_change zones find w c forward x (Some u) = Ok c' /\ at_second c' t' /\ c_zone c' = c_zone c /\
    t' = secs f'' - offset z (z_summer z t) /\
    (z_summer z t' = z_summer z t -> forall p, get_time zones c' p = Ok (part_of f'' p)).
Proof.
  intros z O T B F V L C S VF B'.
  exists (mkClock (of_Z (secs f' - offset z (z_summer z t))) (c_zone c)), (secs f'' - offset z (z_summer z t)).
  split; [|split; [|split; [reflexivity|split; [reflexivity|]]]].
  - eapply clock_change_ok with (n := n); try eassumption. fold z. now rewrite S.
  - rewrite S. now apply at_of_Z.
  - intros SM p. rewrite S.
    rewrite (get_time_near zones _ (secs f'' - offset z (z_summer z t)) p); [|exact O|now apply at_of_Z|assumption].
    cbn [c_zone]. fold z. f_equal. f_equal. unfold local. rewrite SM.
    replace (_ - _ + _) with (secs f'') by lia. now apply fields_secs.
Qed.
Lemma clock_months zones find w c forward x n t :
  let z := zones (cstring (c_zone c)) in
  zone_ok z -> words_distinct w -> at_second c t -> in_reach t -> finite x -> SF2Q x == inject_Z n -> Z.abs n <= 2147483500 ->
  let f'' := months_later (fields (local z t)) (signed forward n) in
  valid f'' -> in_reach (secs f'' - offset z (z_summer z t)) ->
  exists c' t', clock_change zones find w c forward x (Some (w_month w)) = Ok c' /\ at_second c' t' /\ c_zone c' = c_zone c /\
    t' = secs f'' - offset z (z_summer z t) /\
    (z_summer z t' = z_summer z t -> forall p, get_time zones c' p = Ok (part_of f'' p)).
Proof.
  intros z O WD T B F V L f'' VF B'. pose proof (valid_small _ (fields_valid (local z t))) as (H1 & H2 & H3 & H4 & H5).
  eapply later with (n := n); try eassumption; [|apply secs_months].
  intros y Fy Vy. fold z. units WD. pick. 
  rewrite (bump_whole _ y (signed forward n)); [reflexivity|lia|assumption|assumption|].
  destruct forward; cbn [signed]; lia.
Qed.
Lemma clock_years zones find w c forward x n t :
  let z := zones (cstring (c_zone c)) in
  zone_ok z -> words_distinct w -> at_second c t -> in_reach t -> finite x -> SF2Q x == inject_Z n -> Z.abs n <= 2147483500 ->
  let f'' := years_later (fields (local z t)) (signed forward n) in
  valid f'' -> in_reach (secs f'' - offset z (z_summer z t)) ->
  exists c' t', clock_change zones find w c forward x (Some (w_year w)) = Ok c' /\ at_second c' t' /\ c_zone c' = c_zone c /\
    t' = secs f'' - offset z (z_summer z t) /\
    (z_summer z t' = z_summer z t -> forall p, get_time zones c' p = Ok (part_of f'' p)).
Proof.
  intros z O WD T B F V L f'' VF B'.
  eapply later with (n := n) (f' := f''); try eassumption; [|reflexivity].
  intros y Fy Vy. fold z. unfold f'' in *.
  assert (I : in_int (tm_year (fields (local z t))) = true).
  { apply year_near. unfold in_reach in B. unfold local. specialize (O (z_summer z t)). lia. }
  assert (I' : in_int (tm_year (fields (local z t)) + signed forward n) = true).
  { pose proof (fields_secs _ VF) as E.
    assert (Y : in_int (tm_year (fields (secs (years_later (fields (local z t)) (signed forward n))))) = true).
    { apply year_near. unfold in_reach in B'. specialize (O (z_summer z t)). lia. }
    rewrite E in Y. exact Y. }
  assert (Bf : Z.abs (tm_year (fields (local z t))) <= 2147483647).
  { unfold fields. destruct (year_of (local z t / 86400)) as [yy doy] eqn:Y. destruct (year_of_ok _ _ _ Y) as (E & B2).
    cbn [tm_year]. pose proof (year_start_bound yy).
    assert (0 <= doy < 366) by (unfold year_days in B2; destruct (leap yy); lia). unfold in_reach in B.
    assert (Z.abs (local z t) <= 9000000000604800) by (unfold local; specialize (O (z_summer z t)); lia).
    clear - H H0 H1 E. divs. }
  units WD. pick. 
  rewrite (bump_far _ y (signed forward n)); [reflexivity|assumption|assumption|assumption| |assumption].
  destruct forward; cbn [signed]; lia.
Qed.

(** ** Setting a part *)
Lemma mktime_find find z f t0 : zone_ok z -> finds find -> local z t0 = secs f -> Z.abs (secs f) <= 8999999999000000 ->
  local z (mktime find z f None) = secs f /\ in_reach (mktime find z f None).
Proof.
  intros O W E B. unfold mktime. pose proof (W z t0) as L. rewrite E in L.
  rewrite L, year_near by lia. split; [assumption|]. unfold in_reach. unfold local in L.
  specialize (O (z_summer z (find z (secs f)))). lia.
Qed.
Lemma set_part_ok f p x n f' : Z.abs (tm_year f) <= 2147483647 -> finite x -> SF2Q x == inject_Z n ->
  valid f' -> in_int (tm_year f') = true ->
  (forall q, part_of f' q = with_part (part_of f) p n q) -> set_part f p x = Ok f'.
Proof.
  intros B F V VF I P.
  pose proof (valid_small _ VF) as (S1 & S2 & S3 & S4 & S5). apply in_int_iff in I.
  destruct (of_Z_ok 1900) as (F1 & V1); [lia|]. destruct (of_Z_ok 1) as (F2 & V2); [lia|].
  assert (R : forall q, q = p -> part_of f' q = n) by (intros q ->; rewrite P; unfold with_part; now rewrite Nat.compare_refl).
  pose proof (R p eq_refl) as Rp. clear R.
  pose proof (P Year) as P1; pose proof (P Month) as P2; pose proof (P Day) as P3; pose proof (P Hour) as P4; pose proof (P Minute) as P5; pose proof (P Second) as P6.
  clear P. destruct f' as [y mo d h mi s]. cbn [tm_year tm_mon tm_mday tm_hour tm_min tm_sec] in *.
  destruct p; cbn in P1, P2, P3, P4, P5, P6, Rp; unfold set_part.
  - destruct (sub_whole x (of_Z 1900) n 1900 F F1 V V1) as (Fs & Vs); [lia|].
    rewrite (c_int_whole _ (n - 1900) Fs Vs) by lia. cbn [obind]. f_equal. f_equal; lia.
  - destruct (sub_whole x (of_Z 1) n 1 F F2 V V2) as (Fs & Vs); [lia|].
    rewrite (c_int_whole _ (n - 1) Fs Vs) by lia. cbn [obind]. f_equal. f_equal; lia.
  - rewrite (c_int_whole _ n F V) by lia. cbn [obind]. f_equal. f_equal; lia.
  - rewrite (c_int_whole _ n F V) by lia. cbn [obind]. f_equal. f_equal; lia.
  - rewrite (c_int_whole _ n F V) by lia. cbn [obind]. f_equal. f_equal; lia.
  - rewrite (c_int_whole _ n F V) by lia. cbn [obind]. f_equal. f_equal; lia.
Qed.
Lemma set_get zones find c p x n t t0 f' :
  let z := zones (cstring (c_zone c)) in
  zone_ok z -> finds find -> at_second c t -> in_reach t -> finite x -> SF2Q x == inject_Z n ->
  (forall q, part_of f' q = with_part (part_of (fields (local z t))) p n q) -> valid f' ->
  local z t0 = secs f' -> Z.abs (secs f') <= 8999999999000000 ->
  exists c', set_time zones find c p x = Ok c' /\ c_zone c' = c_zone c /\
    forall q, get_time zones c' q = Ok (part_of f' q).
Proof.
  intros z O W T B F V P VF E B'. unfold set_time. pose proof T as (Ft & Tt).
  rewrite (c_int64_trunc _ t Ft Tt B). cbn [obind]. fold z. rewrite (localtime_near z t O B).
  assert (I : in_int (tm_year f') = true).
  { rewrite <- (fields_secs _ VF). apply year_near. lia. }
  assert (Bf : Z.abs (tm_year (fields (local z t))) <= 2147483647).
  { unfold fields. destruct (year_of (local z t / 86400)) as [yy doy] eqn:Y. destruct (year_of_ok _ _ _ Y) as (E2 & B2).
    cbn [tm_year]. pose proof (year_start_bound yy).
    assert (0 <= doy < 366) by (unfold year_days in B2; destruct (leap yy); lia). unfold in_reach in B.
    assert (Z.abs (local z t) <= 9000000000604800) by (unfold local; specialize (O (z_summer z t)); lia).
    clear - H H0 H1 E2. divs. }
  rewrite (set_part_ok _ p x n f' Bf F V VF I P). cbn [obind].
  destruct (mktime_find find z f' t0 O W E B') as (L & NM).
  eexists. split; [reflexivity|]. split; [reflexivity|]. intros q.
  rewrite (get_time_near zones _ (mktime find z f' None) q); [|exact O|now apply at_of_Z|assumption].
  cbn [c_zone]. fold z. now rewrite L, fields_secs.
Qed.

(** ** Equality *)
Lemma clock_time_near c t : at_second c t -> in_reach t -> clock_time c = Ok (of_Z t).
Proof. intros (F & T) B. unfold clock_time. now rewrite (c_int64_trunc _ t F T B). Qed.
Lemma of_Z_eqb a b : in_reach a -> in_reach b -> SFeqb (of_Z a) (of_Z b) = (a =? b).
Proof.
  unfold in_reach. intros A B. destruct (of_Z_ok a) as (Fa & Va); [lia|]. destruct (of_Z_ok b) as (Fb & Vb); [lia|].
  now apply SF2Q_whole_lt.
Qed.
Lemma equals_refl a t : at_second a t -> in_reach t -> clock_equals a a = Ok true.
Proof.
  intros A B. unfold clock_equals. rewrite (clock_time_near a t A B). cbn [obind].
  rewrite of_Z_eqb, Z.eqb_refl by assumption. now apply strncmp_refl.
Qed.
Lemma strncmp_same_length a : forall b, length a = length b -> ~ In 0%N a ->
  strncmp0 (length a) a b = Ok (if list_eq_dec N.eq_dec a b then true else false).
Proof.
  induction a as [|x a IH]; intros [|y b] L N0; try discriminate; [reflexivity|].
  cbn [length strncmp0]. injection L as L. destruct (N.eqb_spec x y) as [<-|Ne].
  - destruct (N.eqb_spec x 0) as [->|_]; [elim N0; now left|].
    rewrite IH; [|assumption|intros I; apply N0; now right].
    destruct (list_eq_dec N.eq_dec a b); destruct (list_eq_dec N.eq_dec (x :: a) (x :: b)); congruence.
  - destruct (list_eq_dec N.eq_dec (x :: a) (y :: b)); congruence.
Qed.
Lemma equals_ok a b ta tb : at_second a ta -> in_reach ta -> at_second b tb -> in_reach tb ->
  length (c_zone a) = length (c_zone b) -> ~ In 0%N (c_zone a) ->
  exists e, clock_equals a b = Ok e /\ clock_neq a b = Ok (negb e) /\ (e = true <-> ta = tb /\ c_zone a = c_zone b).
Proof.
  intros A Na B Nb L N0. 
  assert (E : clock_equals a b = Ok ((ta =? tb) && if list_eq_dec N.eq_dec (c_zone a) (c_zone b) then true else false)).
  { unfold clock_equals. rewrite (clock_time_near a ta A Na), (clock_time_near b tb B Nb). cbn [obind].
    rewrite of_Z_eqb by assumption. destruct (ta =? tb); [|reflexivity]. now apply strncmp_same_length. }
  eexists. unfold clock_neq. rewrite E. split; [reflexivity|]. split; [reflexivity|].
  destruct (Z.eqb_spec ta tb); destruct (list_eq_dec N.eq_dec (c_zone a) (c_zone b)); cbn [andb]; intuition congruence.
Qed.
Lemma copy_ok a t : at_second a t -> in_reach t ->
  exists b, clock_copy a = Ok b /\ at_second b t /\ c_zone b = c_zone a /\ clock_equals a b = Ok true /\ clock_equals b a = Ok true.
Proof.
  intros A B. unfold clock_copy. rewrite (clock_time_near a t A B). cbn [obind].
  exists (mkClock (of_Z t) (c_zone a)). pose proof (at_of_Z t (c_zone a) B) as A'.
  split; [reflexivity|]. split; [assumption|]. split; [reflexivity|].
  unfold clock_equals. rewrite (clock_time_near a t A B), (clock_time_near _ t A' B). cbn [obind c_zone].
  rewrite of_Z_eqb, Z.eqb_refl by assumption. rewrite strncmp_refl by lia. auto.
Qed.
Lemma find_std_ok : finds find_std.
Proof.
  intros z t. unfold find_std. destruct (Z.eqb_spec (local z (local z t - z_std z)) (local z t)) as [E|Ne]; [exact E|].
  assert (S : z_summer z t = true).
  { destruct (z_summer z t) eqn:S; [reflexivity|]. elim Ne.
    replace (local z t - z_std z) with t; [reflexivity|]. unfold local, offset. rewrite S. lia. }
  replace (local z t - z_dst z) with t; [reflexivity|]. unfold local, offset. rewrite S. lia.
Qed.

(** ** Back and forth *)
Lemma there_and_back zones find w c forward x u len k n t :
  zone_ok (zones (cstring (c_zone c))) -> words_distinct w -> fixed_unit w u len k ->
  at_second c t -> in_reach t -> finite x -> SF2Q x == inject_Z n -> Z.abs (n * k) <= 2147483500 ->
  in_reach (t + signed forward n * len) ->
  exists c1 c2, clock_change zones find w c forward x (Some u) = Ok c1 /\
    clock_change zones find w c1 (negb forward) x (Some u) = Ok c2 /\
    at_second c1 (t + signed forward n * len) /\ c_zone c1 = c_zone c /\
    at_second c2 t /\ c_zone c2 = c_zone c /\ clock_equals c2 c = Ok true.
Proof.
  intros O WD U T B F V L B'.
  destruct (clock_change_fixed zones find w c forward x u len k n t O WD U T B F V L B') as (c1 & E1 & T1 & Z1).
  assert (E : t + signed forward n * len + signed (negb forward) n * len = t) by (destruct forward; cbn; lia).
  destruct (clock_change_fixed zones find w c1 (negb forward) x u len k n _ ltac:(now rewrite Z1) WD U T1 B' F V L) as (c2 & E2 & T2 & Z2).
  { now rewrite E. }
  rewrite E in T2. exists c1, c2. repeat (split; [assumption || congruence|]).
  unfold clock_equals. rewrite (clock_time_near c2 t T2 B), (clock_time_near c t T B). cbn [obind].
  rewrite of_Z_eqb, Z.eqb_refl by assumption. rewrite Z2, Z1. now apply strncmp_refl.
Qed.
