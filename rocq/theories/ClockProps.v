(** Properties C43, C74 and C75: moments. *)
From Coq Require Import QArith Lia String.
From Verif Require Import Common NumModel FloatSpec NumSpec NumProofs JsonModel Txt ClockModel ClockSpec ClockProofs ClockDicts.
Local Open Scope Z_scope.
Local Notation "'tx' s" := (lit s%string) (at level 8, s at level 0).

(** A zone with summer time from March 29 to October 25, 2020, and the words of English. *)
Definition london : zone := mkZone 0 3600 (fun t => (1585443600 <=? t) && (t <? 1603587600)).
Definition hawaii : zone := mkZone (-36000) (-36000) (fun _ => false).
Definition all_london (_ : text) : zone := london.
Definition en : words := mkWords (tx "hour") (tx "minute") (tx "second") (tx "day") (tx "month") (tx "year") (tx "week").
Definition noon : clock := mkClock (of_Z 1585396800) (tx "Europe/London").
Lemma london_ok : zone_ok london.
Proof. intros []; cbn; lia. Qed.
Lemma en_listed : In (tx "en", en) unit_words.
Proof. apply nth_error_In with (n := 16%nat). vm_compute. reflexivity. Qed.
Lemma en_distinct : words_distinct en.
Proof. exact (proj1 (Forall_forall _ _) languages _ en_listed). Qed.
Lemma noon_at : at_second noon 1585396800.
Proof. apply at_of_Z. unfold in_reach. lia. Qed.

(** * C43: adding and subtracting, equality *)
(** [n] units of a fixed length later is [n] times that length later, in every zone and in
    every language. *)
Theorem C43_elapsed zones find lang w c x u len k n t :
  In (lang, w) unit_words -> zone_ok (zones (cstring (c_zone c))) -> fixed_unit w u len k ->
  at_second c t -> in_reach t -> finite x -> SF2Q x == inject_Z n -> Z.abs (n * k) <= 2147483500 ->
  (in_reach (t + n * len) ->
   exists c', clock_add zones find w c x (Some u) = Ok c' /\ at_second c' (t + n * len) /\ c_zone c' = c_zone c) /\
  (in_reach (t - n * len) ->
   exists c', clock_subtract zones find w c x (Some u) = Ok c' /\ at_second c' (t - n * len) /\ c_zone c' = c_zone c).
Proof.
  intros I O U T B F V L. pose proof (proj1 (Forall_forall _ _) languages _ I) as WD. split; intros B'.
  - exact (clock_change_fixed zones find w c true x u len k n t O WD U T B F V L B').
  - replace (t - n * len) with (t + signed false n * len) in * by (cbn; lia).
    exact (clock_change_fixed zones find w c false x u len k n t O WD U T B F V L B').
Qed.
Print Assumptions C43_elapsed.
Example C43_elapsed_example :
  In (tx "en", en) unit_words /\ zone_ok (all_london (cstring (c_zone noon))) /\ fixed_unit en (tx "week") 604800 7 /\
  at_second noon 1585396800 /\ in_reach (1585396800 + 3 * 604800) /\
  clock_add all_london find_std en noon (of_Z 3) (Some (tx "week")) = Ok (mkClock (of_Z 1587211200) (tx "Europe/London")).
Proof.
  split; [exact en_listed|]. split; [exact london_ok|]. split; [exact (fixed_week en)|]. split; [exact noon_at|].
  split; [unfold in_reach; lia|vm_compute; reflexivity].
Qed.

(** Adding and subtracting the same gives an equal moment, and so does subtracting and adding. *)
Theorem C43_back zones find lang w c x u len k n t :
  In (lang, w) unit_words -> zone_ok (zones (cstring (c_zone c))) -> fixed_unit w u len k ->
  at_second c t -> in_reach t -> finite x -> SF2Q x == inject_Z n -> Z.abs (n * k) <= 2147483500 ->
  in_reach (t + n * len) -> in_reach (t - n * len) ->
  (exists c1 c2, clock_add zones find w c x (Some u) = Ok c1 /\ clock_subtract zones find w c1 x (Some u) = Ok c2 /\
     at_second c2 t /\ c_zone c2 = c_zone c /\ clock_equals c2 c = Ok true) /\
  (exists c1 c2, clock_subtract zones find w c x (Some u) = Ok c1 /\ clock_add zones find w c1 x (Some u) = Ok c2 /\
     at_second c2 t /\ c_zone c2 = c_zone c /\ clock_equals c2 c = Ok true).
Proof.
  intros I O U T B F V L B1 B2. pose proof (proj1 (Forall_forall _ _) languages _ I) as WD.
  replace (t - n * len) with (t + signed false n * len) in * by (cbn; lia).
  destruct (there_and_back zones find w c true x u len k n t O WD U T B F V L B1) as (c1 & c2 & H1 & H2 & _ & _ & H3).
  destruct (there_and_back zones find w c false x u len k n t O WD U T B F V L B2) as (c3 & c4 & H4 & H5 & _ & _ & H6).
  split; [exists c1, c2; exact (conj H1 (conj H2 H3))|exists c3, c4; exact (conj H4 (conj H5 H6))].
Qed.
Print Assumptions C43_back.
Example C43_back_example :
  in_reach (1585396800 + 1 * 86400) /\ in_reach (1585396800 - 1 * 86400) /\
  (do c <- clock_add all_london find_std en noon (of_Z 1) (Some (tx "day"));
   clock_subtract all_london find_std en c (of_Z 1) (Some (tx "day"))) = Ok noon.
Proof. split; [unfold in_reach; lia|]. split; [unfold in_reach; lia|vm_compute; reflexivity]. Qed.

(** An amount that is not whole does not come back: half an hour more and half an hour less is
    an hour less. *)
Theorem C43_fraction_refuted : exists c x, finite x /\
  (do c' <- clock_add all_london find_std en c x (Some (tx "hour"));
   clock_subtract all_london find_std en c' x (Some (tx "hour"))) <> Ok c /\
  (do c' <- clock_add all_london find_std en c x (Some (tx "hour"));
   clock_subtract all_london find_std en c' x (Some (tx "hour"))) = Ok (mkClock (of_Z (1585396800 - 3600)) (c_zone c)).
Proof. exists noon, (div64 (of_Z 1) (of_Z 2)). split; [vm_compute; intuition (reflexivity || discriminate)|]. vm_compute. split; [discriminate|reflexivity]. Qed.
Print Assumptions C43_fraction_refuted.

(** A unit that is not the beginning of one of the words changes nothing, without an error. *)
Theorem C43_unknown zones find w c x u n t :
  zone_ok (zones (cstring (c_zone c))) -> ~ In 0%N u ->
  Forall (fun a => ~ prefix u a) [w_hour w; w_minute w; w_second w; w_day w; w_month w; w_year w; w_week w] ->
  at_second c t -> in_reach t -> finite x -> SF2Q x == inject_Z n -> Z.abs n <= 2147483500 ->
  (exists c', clock_add zones find w c x (Some u) = Ok c' /\ at_second c' t /\ c_zone c' = c_zone c) /\
  (exists c', clock_subtract zones find w c x (Some u) = Ok c' /\ at_second c' t /\ c_zone c' = c_zone c).
Proof. intros. split; eapply clock_change_unknown; eassumption. Qed.
Print Assumptions C43_unknown.
(** Among them: the plural. *)
Theorem C43_plural_refuted : exists c, clock_add all_london find_std en c (of_Z 2) (Some (tx "hours")) = Ok c /\ at_second c 1585396800.
Proof. exists noon. split; [vm_compute; reflexivity|exact noon_at]. Qed.
Print Assumptions C43_plural_refuted.

(** Equality of moments whose zones have names of one length is equality of the second and of
    the zone, hence an equivalence.  The claim for all zones is false, see below. *)
Theorem C43_equal_partial a b ta tb : at_second a ta -> in_reach ta -> at_second b tb -> in_reach tb ->
  List.length (c_zone a) = List.length (c_zone b) -> ~ In 0%N (c_zone a) ->
  exists e, clock_equals a b = Ok e /\ clock_neq a b = Ok (negb e) /\ (e = true <-> ta = tb /\ c_zone a = c_zone b).
Proof. exact (equals_ok a b ta tb). Qed.
Print Assumptions C43_equal_partial.
Example C43_equal_example :
  clock_equals noon (mkClock (add64 (of_Z 1585396800) (div64 (of_Z 1) (of_Z 2))) (tx "Europe/London")) = Ok true /\
  clock_equals noon (mkClock (of_Z 1585396800) (tx "Europe/Dublin")) = Ok false /\
  clock_neq noon (mkClock (of_Z 1585396801) (tx "Europe/London")) = Ok true.
Proof. vm_compute. repeat split; reflexivity. Qed.
(** Every moment is equal to itself and to its copy. *)
Theorem C43_copy a t : at_second a t -> in_reach t ->
  clock_equals a a = Ok true /\
  exists b, clock_copy a = Ok b /\ at_second b t /\ c_zone b = c_zone a /\ clock_equals a b = Ok true /\ clock_equals b a = Ok true.
Proof. intros A B. split; [exact (equals_refl a t A B)|exact (copy_ok a t A B)]. Qed.
Print Assumptions C43_copy.
(** A zone whose name begins another one is taken as equal to it; the other way round the
    comparison reads past the end of the shorter name. *)
Theorem C43_equal_refuted : exists a b ta, at_second a ta /\ at_second b ta /\ c_zone a <> c_zone b /\
  clock_equals a b = Ok true /\ clock_equals b a = UB.
Proof.
  exists (mkClock (of_Z 0) (tx "GMT")), (mkClock (of_Z 0) (tx "GMT+1")), 0.
  split; [apply at_of_Z; unfold in_reach; lia|]. split; [apply at_of_Z; unfold in_reach; lia|]. split; [vm_compute; discriminate|].
  split; vm_compute; reflexivity.
Qed.
Print Assumptions C43_equal_refuted.

(** * C74: the parts of a moment *)
(** The calendar of the model: it starts at January 1, 1970 and goes on by the second. *)
Theorem C74_calendar s : fields 0 = mkTm 70 0 1 0 0 0 /\ valid (fields s) /\ fields (s + 1) = next_second (fields s).
Proof. split; [reflexivity|]. split; [exact (fields_valid s)|exact (calendar_next s)]. Qed.
Print Assumptions C74_calendar.
Example C74_calendar_example :
  fields 951782399 = mkTm 100 1 28 23 59 59 /\ fields 951782400 = mkTm 100 1 29 0 0 0 /\ fields (-1) = mkTm 69 11 31 23 59 59.
Proof. vm_compute. repeat split; reflexivity. Qed.

(** A part of the date or the time that is set is read back; the larger parts stay and the
    smaller ones start again.  For all zones, if the resulting date exists there. *)
Theorem C74_set_get zones find c p x n t t0 f :
  let z := zones (cstring (c_zone c)) in
  zone_ok z -> finds find -> at_second c t -> in_reach t -> finite x -> SF2Q x == inject_Z n ->
  (forall q, part_of f q = with_part (part_of (fields (local z t))) p n q) -> valid f ->
  local z t0 = secs f -> Z.abs (secs f) <= 8999999999000000 ->
  exists c', set_time zones find c p x = Ok c' /\ c_zone c' = c_zone c /\
    forall q, get_time zones c' q = Ok (part_of f q).
Proof. exact (set_get zones find c p x n t t0 f). Qed.
Print Assumptions C74_set_get.
(** March 28, noon, with its month set to July. *)
Example C74_set_get_example :
  let f := mkTm 120 6 1 0 0 0 in
  zone_ok london /\ finds find_std /\ at_second noon 1585396800 /\
  (forall q, part_of f q = with_part (part_of (fields (local london 1585396800))) Month 7 q) /\ valid f /\
  local london 1593558000 = secs f /\
  set_time all_london find_std noon Month (of_Z 7) = Ok (mkClock (of_Z 1593558000) (tx "Europe/London")) /\
  get_time all_london (mkClock (of_Z 1593558000) (tx "Europe/London")) Month = Ok 7.
Proof.
  split; [exact london_ok|]. split; [exact find_std_ok|]. split; [exact noon_at|].
  split; [intros []; vm_compute; reflexivity|]. split; [unfold valid; vm_compute; intuition discriminate|].
  split; [vm_compute; reflexivity|]. split; vm_compute; reflexivity.
Qed.
(** A day that does not exist gives another date: April 31 is May 1. *)
Theorem C74_overflow_refuted : exists c c', get_time all_london c Month = Ok 4 /\
  set_time all_london find_std c Day (of_Z 31) = Ok c' /\
  get_time all_london c' Day = Ok 1 /\ get_time all_london c' Month = Ok 5.
Proof.
  exists (mkClock (of_Z 1586000000) (tx "Europe/London")), (mkClock (of_Z 1588287600) (tx "Europe/London")).
  vm_compute. repeat split; reflexivity.
Qed.
Print Assumptions C74_overflow_refuted.
(** The day of the week and of the year are those of the zone UTC, not of the zone of the
    moment: on Thursday, December 31, in Hawaii they are Friday and the first day. *)
Theorem C74_weekday_refuted : exists c t, at_second c t /\
  get_time (fun _ => hawaii) c Day = Ok 31 /\ get_time (fun _ => hawaii) c Month = Ok 12 /\
  clock_weekday utc c = Ok 6 /\ clock_yearday utc c = Ok 0 /\
  clock_weekday hawaii c = Ok 5 /\ clock_yearday hawaii c = Ok 365.
Proof.
  exists (mkClock (of_Z 1609459200) (tx "US/Hawaii")), 1609459200. split; [apply at_of_Z; unfold in_reach; lia|].
  vm_compute. repeat split; reflexivity.
Qed.
Print Assumptions C74_weekday_refuted.

(** * C75: months and years later *)
(** The day and the time of day stay, if that day exists in the new month and summer time is
    not begun or ended in between. *)
Theorem C75_months_partial zones find lang w c (forward : bool) x n t :
  let z := zones (cstring (c_zone c)) in
  In (lang, w) unit_words ->
  zone_ok z -> at_second c t -> in_reach t -> finite x -> SF2Q x == inject_Z n -> Z.abs n <= 2147483500 ->
  let f := months_later (fields (local z t)) (if forward then n else - n) in
  valid f -> in_reach (secs f - offset z (z_summer z t)) ->
  exists c' t', (if forward then clock_add zones find w c x (Some (w_month w)) else clock_subtract zones find w c x (Some (w_month w))) = Ok c' /\
    at_second c' t' /\ c_zone c' = c_zone c /\ t' = secs f - offset z (z_summer z t) /\
    (z_summer z t' = z_summer z t -> forall p, get_time zones c' p = Ok (part_of f p)).
Proof.
  intros z I O T B F V L. pose proof (proj1 (Forall_forall _ _) languages _ I) as WD.
  pose proof (clock_months zones find w c forward x n t O WD T B F V L) as H. destruct forward; exact H.
Qed.
Print Assumptions C75_months_partial.
Theorem C75_years_partial zones find lang w c (forward : bool) x n t :
  let z := zones (cstring (c_zone c)) in
  In (lang, w) unit_words ->
  zone_ok z -> at_second c t -> in_reach t -> finite x -> SF2Q x == inject_Z n -> Z.abs n <= 2147483500 ->
  let f := years_later (fields (local z t)) (if forward then n else - n) in
  valid f -> in_reach (secs f - offset z (z_summer z t)) ->
  exists c' t', (if forward then clock_add zones find w c x (Some (w_year w)) else clock_subtract zones find w c x (Some (w_year w))) = Ok c' /\
    at_second c' t' /\ c_zone c' = c_zone c /\ t' = secs f - offset z (z_summer z t) /\
    (z_summer z t' = z_summer z t -> forall p, get_time zones c' p = Ok (part_of f p)).
Proof.
  intros z I O T B F V L. pose proof (proj1 (Forall_forall _ _) languages _ I) as WD.
  pose proof (clock_years zones find w c forward x n t O WD T B F V L) as H. destruct forward; exact H.
Qed.
Print Assumptions C75_years_partial.
Example C75_example :
  let f := months_later (fields (local london 1585396800)) (- 14) in
  f = mkTm 119 0 28 12 0 0 /\ valid f /\ in_reach (secs f - offset london (z_summer london 1585396800)) /\
  z_summer london (secs f) = z_summer london 1585396800 /\
  clock_subtract all_london find_std en noon (of_Z 14) (Some (tx "month")) = Ok (mkClock (of_Z 1548676800) (tx "Europe/London")) /\
  clock_add all_london find_std en noon (of_Z 4) (Some (tx "year")) = Ok (mkClock (of_Z 1711627200) (tx "Europe/London")).
Proof. vm_compute. repeat split; intuition discriminate. Qed.
(** A month later than January 31 is in March, and a month before that is not January 31. *)
Theorem C75_month_refuted : exists c c1 c2, get_time all_london c Month = Ok 1 /\
  clock_add all_london find_std en c (of_Z 1) (Some (tx "month")) = Ok c1 /\ get_time all_london c1 Month = Ok 3 /\
  clock_subtract all_london find_std en c1 (of_Z 1) (Some (tx "month")) = Ok c2 /\ get_time all_london c2 Month = Ok 2.
Proof.
  exists (mkClock (of_Z 1580428800) (tx "Europe/London")), (mkClock (of_Z 1583107200) (tx "Europe/London")),
    (mkClock (of_Z 1580601600) (tx "Europe/London")). vm_compute. repeat split; reflexivity.
Qed.
Print Assumptions C75_month_refuted.
(** A day or a month later is at another hour, if summer time begins in between. *)
Theorem C75_summer_refuted : exists c c1 c2, get_time all_london c Hour = Ok 12 /\
  clock_add all_london find_std en c (of_Z 1) (Some (tx "day")) = Ok c1 /\ get_time all_london c1 Hour = Ok 13 /\
  clock_add all_london find_std en c (of_Z 1) (Some (tx "month")) = Ok c2 /\ get_time all_london c2 Hour = Ok 13.
Proof.
  exists noon, (mkClock (of_Z 1585483200) (tx "Europe/London")), (mkClock (of_Z 1588075200) (tx "Europe/London")).
  vm_compute. repeat split; reflexivity.
Qed.
Print Assumptions C75_summer_refuted.
