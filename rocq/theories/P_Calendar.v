(** Properties C01-C05 and the integer part of C13: calendar arithmetic. *)
From Coq Require Import ZArith.
From Verif Require Import Cal_Model Cal_Spec Cal_Proofs.
Open Scope Z_scope.

(** * C01 *)
Theorem C01_gregorian_date_roundtrip : forall y m d,
  valid_date Gregorian (y, m, d) = true ->
  compute_calendar_date (julian_day y m d None) None = (y, m, d).
Proof. exact gregorian_roundtrip. Qed.
Print Assumptions C01_gregorian_date_roundtrip.
Example C01_ex : valid_date Gregorian (-4799, 2, 28) = true /\ valid_date Gregorian (2000, 2, 29) = true
  /\ valid_date Gregorian (1900, 2, 29) = false.
Proof. repeat split; reflexivity. Qed.

(** A cutoff later than the date selects the Julian calendar. *)
Theorem C01_julian_date_roundtrip : forall y m d c,
  valid_date Julian (y, m, d) = true -> day_number Julian y m d < c ->
  compute_calendar_date (julian_day y m d (Some c)) (Some c) = (y, m, d).
Proof. exact julian_roundtrip'. Qed.
Print Assumptions C01_julian_date_roundtrip.
Example C01_julian_ex : valid_date Julian (1500, 2, 29) = true /\ day_number Julian 1500 2 29 < GREGORIAN_START.
Proof. split; reflexivity. Qed.

(** Every date that exists in a calendar with a reform. *)
Theorem C01_reformed_date_roundtrip : forall cut y m d,
  match cut with None => True | Some c => day_number Gregorian 200 3 1 <= c end ->
  exists_under cut (y, m, d) ->
  compute_calendar_date (julian_day y m d cut) cut = (y, m, d).
Proof. exact reformed_roundtrip. Qed.
Print Assumptions C01_reformed_date_roundtrip.
Example C01_reformed_ex :
  day_number Gregorian 200 3 1 <= GREGORIAN_START /\
  exists_under (Some GREGORIAN_START) (1582, 10, 4) /\
  exists_under (Some GREGORIAN_START) (1582, 10, 15).
Proof. split; [discriminate|]. split; [left|right]; split; (reflexivity || discriminate). Qed.

(** * C02 *)
Theorem C02_julian_day_counts_days :
  counts_days Gregorian (2000, 1, 1) 2451545 (fun d => let '(y, m, dd) := d in julian_day y m dd None).
Proof. exact greg_counts. Qed.
Print Assumptions C02_julian_day_counts_days.

Theorem C02_julian_day_is_the_day_number : forall y m d,
  valid_date Gregorian (y, m, d) = true -> julian_day y m d None = day_number Gregorian y m d.
Proof. exact julian_day_is_day_number. Qed.
Print Assumptions C02_julian_day_is_the_day_number.

Theorem C02_julian_day_with_cutoff_is_the_day_number : forall y m d c,
  day_number Gregorian 200 3 1 <= c -> exists_under (Some c) (y, m, d) ->
  julian_day y m d (Some c) = civil_day_number (Some c) (y, m, d).
Proof. exact reform_day'. Qed.
Print Assumptions C02_julian_day_with_cutoff_is_the_day_number.

Theorem C02_julian_day_strictly_increasing : forall y1 m1 d1 y2 m2 d2,
  valid_date Gregorian (y1, m1, d1) = true -> valid_date Gregorian (y2, m2, d2) = true ->
  (date_lt (y1, m1, d1) (y2, m2, d2) <-> julian_day y1 m1 d1 None < julian_day y2 m2 d2 None).
Proof. exact greg_mono. Qed.
Print Assumptions C02_julian_day_strictly_increasing.

(** The count is the only one: any numbering with these two facts is this one. *)
Theorem C02_day_count_unique : forall cal J J' n0,
  counts_days cal (2000, 1, 1) n0 J -> counts_days cal (2000, 1, 1) n0 J' ->
  forall d, valid_date cal d = true -> J d = J' d.
Proof. exact counts_unique_2000. Qed.
Print Assumptions C02_day_count_unique.
Example C02_ex : next_day Gregorian (1900, 2, 28) = (1900, 3, 1) /\ next_day Gregorian (-1, 12, 31) = (0, 1, 1)
  /\ julian_day (-1) 12 31 None = 1721059.
Proof. repeat split; reflexivity. Qed.

(** * C03.  Full claim: for every day and every cutoff setting, day -> date -> day
    is the identity. It is false for cutoffs before Gregorian 200 March 1. *)
Theorem C03_day_roundtrip_partial : forall cut jd,
  match cut with None => True | Some c => day_number Gregorian 200 3 1 <= c end ->
  let '(y, m, d) := compute_calendar_date jd cut in julian_day y m d cut = jd.
Proof. exact day_roundtrip. Qed.
Print Assumptions C03_day_roundtrip_partial.
Example C03_ex : day_number Gregorian 200 3 1 <= GREGORIAN_START /\
  day_number Gregorian 200 3 1 <= GREGORIAN_START_ENGLAND.
Proof. split; discriminate. Qed.

(** Every earlier cutoff fails, at the cutoff day itself. *)
Theorem C03_day_roundtrip_refuted : forall c, c < day_number Gregorian 200 3 1 ->
  exists jd, let '(y, m, d) := compute_calendar_date jd (Some c) in julian_day y m d (Some c) <> jd.
Proof. exact day_roundtrip_fails. Qed.
Print Assumptions C03_day_roundtrip_refuted.
Example C03_refuted_ex : 1721426 < day_number Gregorian 200 3 1 /\
  compute_calendar_date 1721426 (Some 1721426) = (1, 1, 1) /\ julian_day 1 1 1 (Some 1721426) = 1721424.
Proof. repeat split; reflexivity. Qed.

(** * C04 *)
Theorem C04_calendar_date_valid : forall cut jd,
  valid_date (in_force cut jd) (compute_calendar_date jd cut) = true.
Proof. exact compute_valid. Qed.
Print Assumptions C04_calendar_date_valid.

Theorem C04_calendar_date_advances : forall cut jd, cut <> Some (jd + 1) ->
  compute_calendar_date (jd + 1) cut = next_day (in_force cut jd) (compute_calendar_date jd cut).
Proof. exact compute_next. Qed.
Print Assumptions C04_calendar_date_advances.

Theorem C04_first_day_of_reform : forall c,
  compute_calendar_date c (Some c) = compute_calendar_date c None.
Proof. exact compute_at_cutoff. Qed.
Print Assumptions C04_first_day_of_reform.
Example C04_ex : compute_calendar_date 2299160 (Some GREGORIAN_START) = (1582, 10, 4) /\
  compute_calendar_date 2299161 (Some GREGORIAN_START) = (1582, 10, 15) /\
  compute_calendar_date (-1000000) None = (-7451, 12, 28).
Proof. repeat split; reflexivity. Qed.

(** * C05 *)
Theorem C05_month_overflow : forall y m d k cut,
  julian_day y (m + 12 * k) d cut = julian_day (y + k) m d cut.
Proof. exact month_overflow. Qed.
Print Assumptions C05_month_overflow.

Theorem C05_day_overflow : forall y m d k,
  julian_day y m (d + k) None = julian_day y m d None + k.
Proof. exact day_overflow. Qed.
Print Assumptions C05_day_overflow.

(** Together: any month and day name the day [d - 1] days after the first of the
    normalised month. *)
Theorem C05_any_month_and_day : forall y m d,
  julian_day y m d None = day_number Gregorian (y + (m - 1) / 12) ((m - 1) mod 12 + 1) 1 + (d - 1).
Proof. exact any_month_and_day. Qed.
Print Assumptions C05_any_month_and_day.
Example C05_ex : julian_day 2020 (-11) 400 None = julian_day 2020 2 4 None.
Proof. reflexivity. Qed.

(** * C13, integer part *)
Theorem C13_weekday_is_saturday_2000_and_advances :
  weekday_of_jd (julian_day 2000 1 1 None) = 5 /\
  (forall jd, 0 <= weekday_of_jd jd < 7) /\
  (forall jd, weekday_of_jd (jd + 1) = (weekday_of_jd jd + 1) mod 7).
Proof. exact weekday_facts. Qed.
Print Assumptions C13_weekday_is_saturday_2000_and_advances.

Theorem C13_day_of_year : forall cut jd,
  match cut with None => True | Some c => day_number Gregorian 200 3 1 <= c end ->
  let '(y, m, d) := compute_calendar_date jd cut in
  let cal := in_force cut jd in
  in_force cut (day_number cal y 1 1) = cal ->
  yday_of_jd jd cut = days_before_month cal y m + d.
Proof. exact yday_position'. Qed.
Print Assumptions C13_day_of_year.
Example C13_ex : compute_calendar_date 2451910 None = (2000, 12, 31) /\ yday_of_jd 2451910 None = 366
  /\ in_force (Some GREGORIAN_START) (day_number Julian 1582 1 1) = Julian.
Proof. repeat split; reflexivity. Qed.
