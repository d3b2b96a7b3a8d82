(** Property theorems about the text, the number and the week of a moment (C101, C102, C103). *)
From Coq Require Import Lia String.
From Verif Require Import Common Txt NumModel NumSpec TextModel TextSpec JsonModel ClockModel ClockSpec ClockProofs ClockProps.
From Verif Require Import DateDicts DateSpec DateModel DateProofs.
Local Open Scope Z_scope.
Local Notation length := List.length.
Local Notation "'tx' s" := (lit s%string) (at level 8, s at level 0).

(** * C101: the text of a moment *)
(** In every language the text shows the date and the time of the zone of the moment. *)
Theorem C101_text zones ypad lang fmt w c t : In (lang, (fmt, w)) date_words -> ypad_ok ypad -> zone_ok (zones (cstring (c_zone c))) -> at_second c t -> in_reach t ->
  exists s, clock_to_string zones ypad fmt c = Ok s /\ shows (fields (local (zones (cstring (c_zone c))) t)) fmt s.
Proof. exact (to_string_ok zones ypad lang fmt w c t). Qed.
Print Assumptions C101_text.
(** It shows all of it: moments with the same text have the same local date and time, to the second. *)
Theorem C101_same_text zones ypad lang fmt w c1 c2 t1 t2 s1 s2 : In (lang, (fmt, w)) date_words -> ypad_ok ypad ->
  zone_ok (zones (cstring (c_zone c1))) -> zone_ok (zones (cstring (c_zone c2))) -> at_second c1 t1 -> at_second c2 t2 -> in_reach t1 -> in_reach t2 ->
  clock_to_string zones ypad fmt c1 = Ok s1 -> clock_to_string zones ypad fmt c2 = Ok s2 ->
  (s1 = s2 <-> local (zones (cstring (c_zone c1))) t1 = local (zones (cstring (c_zone c2))) t2).
Proof. exact (to_string_inj zones ypad lang fmt w c1 c2 t1 t2 s1 s2). Qed.
Print Assumptions C101_same_text.
Definition four (y : Z) : nat := if y =? 0 then 3%nat else if Z.abs y <? 10 then 3%nat else if Z.abs y <? 100 then 2%nat else if Z.abs y <? 1000 then 1%nat else 0%nat.
Lemma four_ok : ypad_ok four.
Proof.
  intros y. unfold four. destruct (Z.eqb_spec y 0) as [->|]; [right; split; [lia|reflexivity]|].
  destruct (Z.ltb_spec (Z.abs y) 10); [right; split; [lia|exact H]|]. destruct (Z.ltb_spec (Z.abs y) 100); [right; split; [lia|exact H0]|].
  destruct (Z.ltb_spec (Z.abs y) 1000); [right; split; [lia|exact H1]|left; reflexivity].
Qed.
Lemma english_listed : In (tx "en", (tx "%d/%m/%Y %H:%M:%S", tx "time")) date_words.
Proof. apply nth_error_In with (n := 16%nat). vm_compute. reflexivity. Qed.
Lemma dutch_listed : In (tx "nl", (tx "%d-%m-%Y %H.%M:%S", tx "tijd")) date_words.
Proof. apply nth_error_In with (n := 65%nat). vm_compute. reflexivity. Qed.
Example C101_example : In (tx "en", (tx "%d/%m/%Y %H:%M:%S", tx "time")) date_words /\ ypad_ok four /\
  clock_to_string all_london four (tx "%d/%m/%Y %H:%M:%S") noon = Ok (tx "28/03/2020 12:00:00") /\
  clock_to_string all_london four (tx "%m/%d/%Y %I:%M:%S %p") noon = Ok (tx "03/28/2020 12:00:00 PM") /\
  clock_to_string (fun _ => hawaii) four (tx "%Y-%m-%d %H:%M:%S") (mkClock (of_Z (-62000000000)) []) = Ok (tx "0005-04-18 23:46:40").
Proof. split; [exact english_listed|]. split; [exact four_ok|]. vm_compute. repeat split; reflexivity. Qed.
(** Two moments of one zone, an hour apart, with the same text: the end of summer time. *)
Theorem C101_autumn_refuted : exists c1 c2 s, c_time c1 <> c_time c2 /\ c_zone c1 = c_zone c2 /\
  clock_to_string all_london four (tx "%d/%m/%Y %H:%M:%S") c1 = Ok s /\ clock_to_string all_london four (tx "%d/%m/%Y %H:%M:%S") c2 = Ok s.
Proof.
  exists (mkClock (of_Z 1603585800) (tx "Europe/London")), (mkClock (of_Z 1603589400) (tx "Europe/London")), (tx "25/10/2020 01:30:00").
  split; [vm_compute; discriminate|]. vm_compute. repeat split; reflexivity.
Qed.
Print Assumptions C101_autumn_refuted.
(** As a number, a moment is its second in a language whose word for time is "time"; in any other it raises an error. *)
Theorem C101_number lang fmt w c t : In (lang, (fmt, w)) date_words -> at_second c t -> in_reach t ->
  (w = tx "time" -> moment_as_number w c = Ok (of_Z t, false)) /\ (w <> tx "time" -> moment_as_number w c = Ok (of_Z 0, true)).
Proof. exact (number_ok lang fmt w c t). Qed.
Print Assumptions C101_number.
Theorem C101_number_refuted : exists lang fmt w c t, In (lang, (fmt, w)) date_words /\ at_second c t /\ in_reach t /\
  clock_time c = Ok (of_Z t) /\ moment_as_number w c = Ok (of_Z 0, true).
Proof.
  exists (tx "nl"), (tx "%d-%m-%Y %H.%M:%S"), (tx "tijd"), noon, 1585396800. split; [exact dutch_listed|]. split; [exact noon_at|].
  split; [unfold in_reach; lia|]. vm_compute. split; reflexivity.
Qed.
Print Assumptions C101_number_refuted.
(** A moment made of a number is the moment of that number. *)
Theorem C101_new_and_back here t w : in_reach t -> w = tx "time" -> moment_as_number w (clock_new_set here (of_Z t)) = Ok (of_Z t, false).
Proof.
  intros R ->. apply (number_ok (tx "en") (tx "%d/%m/%Y %H:%M:%S") (tx "time") _ t english_listed); [|exact R|reflexivity]. now apply at_of_Z.
Qed.
Print Assumptions C101_new_and_back.

(** * C102: the order of texts *)
(** Where dates are written as year-month-day, the order of the texts is the order of the local times, for years of four digits. *)
Theorem C102_order_partial zones ypad c1 c2 t1 t2 : (forall y, 1000 <= y <= 9999 -> ypad y = 0%nat) ->
  zone_ok (zones (cstring (c_zone c1))) -> zone_ok (zones (cstring (c_zone c2))) -> at_second c1 t1 -> at_second c2 t2 -> in_reach t1 -> in_reach t2 ->
  let l1 := local (zones (cstring (c_zone c1))) t1 in let l2 := local (zones (cstring (c_zone c2))) t2 in
  1000 <= tm_year (fields l1) + 1900 <= 9999 -> 1000 <= tm_year (fields l2) + 1900 <= 9999 ->
  exists s1 s2, clock_to_string zones ypad (tx "%Y-%m-%d %H:%M:%S") c1 = Ok s1 /\ clock_to_string zones ypad (tx "%Y-%m-%d %H:%M:%S") c2 = Ok s2 /\
    string_before (build_string s1) (build_string s2) = Ok (l1 <? l2) /\ string_after (build_string s1) (build_string s2) = Ok (l2 <? l1).
Proof. exact (order_ok zones ypad c1 c2 t1 t2). Qed.
Print Assumptions C102_order_partial.
Example C102_example : (forall y, 1000 <= y <= 9999 -> four y = 0%nat) /\ length (filter (fun p => text_eqb (fst (snd p)) (tx "%Y-%m-%d %H:%M:%S")) date_words) = 106%nat /\
  1000 <= tm_year (fields 1585396800) + 1900 <= 9999 /\
  clock_to_string (fun _ => utc) four (tx "%Y-%m-%d %H:%M:%S") noon = Ok (tx "2020-03-28 12:00:00").
Proof.
  split; [|vm_compute; repeat split; congruence]. intros y H. unfold four. destruct (Z.eqb_spec y 0); [lia|].
  destruct (Z.ltb_spec (Z.abs y) 10); [lia|]. destruct (Z.ltb_spec (Z.abs y) 100); [lia|]. destruct (Z.ltb_spec (Z.abs y) 1000); [lia|reflexivity].
Qed.
(** Not in English, and not for the year 10000. *)
Theorem C102_english_refuted : exists s1 s2, clock_to_string (fun _ => utc) four (tx "%d/%m/%Y %H:%M:%S") (mkClock (of_Z 1585396800) []) = Ok s1 /\
  clock_to_string (fun _ => utc) four (tx "%d/%m/%Y %H:%M:%S") (mkClock (of_Z 1585742400) []) = Ok s2 /\ string_before (build_string s1) (build_string s2) = Ok false.
Proof. exists (tx "28/03/2020 12:00:00"), (tx "01/04/2020 12:00:00"). vm_compute. repeat split; reflexivity. Qed.
Print Assumptions C102_english_refuted.
Theorem C102_far_refuted : exists s1 s2, clock_to_string (fun _ => utc) four (tx "%Y-%m-%d %H:%M:%S") (mkClock (of_Z 253402300799) []) = Ok s1 /\
  clock_to_string (fun _ => utc) four (tx "%Y-%m-%d %H:%M:%S") (mkClock (of_Z 253402300800) []) = Ok s2 /\ string_before (build_string s1) (build_string s2) = Ok false.
Proof. exists (tx "9999-12-31 23:59:59"), (tx "10000-01-01 00:00:00"). vm_compute. repeat split; reflexivity. Qed.
Print Assumptions C102_far_refuted.

(** * C103: weeks *)
(** The week is the number of Mondays of the year so far (in the zone left by the message before). *)
Theorem C103_week ypad tz d t c x : sep_ok [d] -> sep_ok [t] -> d <> t -> zone_ok tz -> at_second c x -> in_reach x ->
  clock_week ypad tz [d] [t] c = Ok (Some (of_Z (mondays (local tz x)))) /\ 0 <= mondays (local tz x) <= 53.
Proof. exact (week_ok ypad tz d t c x). Qed.
Print Assumptions C103_week.
Theorem C103_next_week s : fst (year_of (s / 86400)) = fst (year_of ((s + 604800) / 86400)) -> mondays (s + 604800) = mondays s + 1.
Proof. exact (next_week s). Qed.
Print Assumptions C103_next_week.
Example C103_example : mondays 1585396800 = 12 /\ mondays 1577836800 = 0 /\ clock_week four utc (tx ".") (tx ",") noon = Ok (Some (of_Z 12)).
Proof. vm_compute. repeat split; reflexivity. Qed.
(** It is not the week of the zone of the moment. *)
Theorem C103_zone_refuted : exists c, get_time (fun _ => hawaii) c Day = Ok 8 /\ get_time (fun _ => hawaii) c Month = Ok 12 /\ mondays (local hawaii 1575860400) = 48 /\
  clock_week four utc (tx ".") (tx ",") c = Ok (Some (of_Z 49)).
Proof. exists (mkClock (of_Z 1575860400) (tx "US/Hawaii")). vm_compute. repeat split; reflexivity. Qed.
Print Assumptions C103_zone_refuted.
