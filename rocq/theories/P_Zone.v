(** Properties of times and Python's datetimes in any zone. *)
From Coq Require Import ZArith QArith Bool List Lia.
From Verif Require Import PyNum Cal_Model Cal_Spec Time_Model Time_Spec Format_Proofs3 Zone_Model Zone_Spec Zone_Proofs Zone_Proofs2.
Import ListNotations.
Open Scope Z_scope.

(** * C131 *)
Theorem C131_datetimes_denote_their_instant_partial : forall ns base cut ts a n,
  timescale_for ns base cut ts -> good_cutoff cut -> possible (fields a) -> stands_for a n -> in_years n ->
  gregorian_on cut n -> exists t, from_aware ts a = Ok t /\ (tai_instant t == instant_of ns base n)%Q.
Proof. exact aware_instant. Qed.
Print Assumptions C131_datetimes_denote_their_instant_partial.
Theorem C131_order_partial : forall ns base cut ts a b n m t u,
  timescale_for ns base cut ts -> good_cutoff cut -> possible (fields a) -> possible (fields b) ->
  stands_for a n -> stands_for b m -> gregorian_on cut n -> gregorian_on cut m ->
  from_aware ts a = Ok t -> from_aware ts b = Ok u ->
  ((tai_instant t < tai_instant u)%Q <-> n < m) /\ ((tai_instant t == tai_instant u)%Q <-> n = m).
Proof. exact aware_order. Qed.
Print Assumptions C131_order_partial.
Theorem C131_what_is_refused : forall ts a, possible (fields a) ->
  (from_aware ts a = ValueError NaiveDatetime <-> zone_of a = Naive) /\
  (from_aware ts a = OverflowError <-> exists n, stands_for a n /\ ~ in_years n) /\
  ((exists t, from_aware ts a = Ok t) <-> exists n, stands_for a n /\ in_years n).
Proof. exact aware_refusals. Qed.
Print Assumptions C131_what_is_refused.
Theorem C131_lists : forall ts l r, l <> [] ->
  (from_datetimes ts l = Ok r <-> Forall2 (fun a t => from_aware ts a = Ok t) l r).
Proof. exact aware_list. Qed.
Print Assumptions C131_lists.
Theorem C131_utc_takes_datetimes : forall ns base cut ts, timescale_for ns base cut ts ->
  (forall a t, utc_of ts (ADatetime a) = Ok [t] <-> from_aware ts a = Ok t) /\
  (forall l, utc_of ts (AList l) = from_datetimes ts l) /\
  (forall y m d, utc_of ts (ADate y m d) = Ok [from_datetime ts {| d_year := y; d_month := m; d_day := d;
     d_hour := 0; d_minute := 0; d_second := 0; d_micro := 0 |}]).
Proof. exact utc_dispatch. Qed.
Print Assumptions C131_utc_takes_datetimes.
Theorem C131_a_date_is_its_midnight : forall ns base cut ts y m d t,
  timescale_for ns base cut ts -> good_cutoff cut -> exists_under cut (y, m, d) -> utc_of ts (ADate y m d) = Ok [t] ->
  (tai_instant t == inject_Z (tai_second ns base (civil_day_number cut (y, m, d)) 0))%Q.
Proof. exact date_is_midnight. Qed.
Print Assumptions C131_a_date_is_its_midnight.
Theorem C131_now_is_what_the_clock_says : forall ns base cut ts n,
  timescale_for ns base cut ts -> good_cutoff cut -> in_years n -> gregorian_on cut n ->
  exists t, now ts n = Ok t /\ (tai_instant t == instant_of ns base n)%Q.
Proof. exact now_is_clock. Qed.
Print Assumptions C131_now_is_what_the_clock_says.
Theorem C131_julian_leap_days_refuted : exists t, possible (fields east) /\ from_aware (ts72 reform) east = Ok t /\
  (tai_instant t == instant_of ns72 10 (civil_count reform (fields east) - HOUR) - 86400)%Q.
Proof. exact julian_zone_from. Qed.
Print Assumptions C131_julian_leap_days_refuted.
(** Noon in New York is five in the afternoon in Greenwich. *)
Definition noon : aware :=
  {| fields := {| d_year := 2000; d_month := 1; d_day := 1; d_hour := 12; d_minute := 0; d_second := 0; d_micro := 500000 |};
     zone_of := At (-5 * HOUR) |}.
Definition five : aware :=
  {| fields := {| d_year := 2000; d_month := 1; d_day := 1; d_hour := 17; d_minute := 0; d_second := 0; d_micro := 500000 |};
     zone_of := InUtc |}.
Example C131_ex :
  timescale_for ns72 10 None (ts72 None) /\ possible (fields noon) /\ stands_for noon (count (fields five)) /\
  stands_for five (count (fields five)) /\ in_years (count (fields five)) /\
  from_aware (ts72 None) noon = from_aware (ts72 None) five /\
  (instant_of ns72 10 (count (fields five)) == 86400 * 2451545 - 43200 + 12 + 17 * 3600 + (1 # 2))%Q /\
  from_datetimes (ts72 None) [] = ValueError NoValues.
Proof.
  split; [apply ts72_for|]. vm_compute. repeat split; try discriminate; reflexivity.
Qed.

(** * C132 *)
Theorem C132_astimezone_shows_the_time : forall ns base cut ts t z a leap,
  timescale_for ns base cut ts -> good_cutoff cut -> built ts t -> astimezone ts t z = Ok (a, leap) ->
  exists shown n, nearest 1000000 shown (tai_instant t) /\ (leap = 1 <-> in_leap_second ns base shown) /\
    (leap = 0 \/ leap = 1) /\ stands_for a n /\ possible (fields a) /\ in_years n /\ zone_of a = At (offset_at z n) /\
    (exists t', from_aware ts a = Ok t' /\ (tai_instant t' == shown - inject_Z leap)%Q) /\
    (gregorian_on cut n -> (instant_of ns base n == shown - inject_Z leap)%Q).
Proof. exact zone_shows. Qed.
Print Assumptions C132_astimezone_shows_the_time.
Theorem C132_what_is_refused : forall ns base cut ts t z, timescale_for ns base cut ts -> good_cutoff cut -> built ts t ->
  let '(d, leap) := utc_datetime ts t in
  ((exists c, astimezone ts t z = ValueError c) <->
     ~ (1 <= d_year d <= 9999) \/ valid_date Gregorian (d_year d, d_month d, d_day d) = false) /\
  (astimezone ts t z = OverflowError <-> possible d /\ ~ in_years (count d + offset_at z (count d))).
Proof. exact zone_refusals. Qed.
Print Assumptions C132_what_is_refused.
Theorem C132_only_other_years_are_refused : forall ns base ts t z, timescale_for ns base None ts -> built ts t ->
  let d := fst (utc_datetime ts t) in (exists c, astimezone ts t z = ValueError c) <-> ~ in_years (count d).
Proof. exact zone_refusals_gregorian. Qed.
Print Assumptions C132_only_other_years_are_refused.
Theorem C132_normalize_changes_nothing : forall ts t f b,
  astimezone ts t {| offset_at := f; has_normalize := b |} = astimezone ts t {| offset_at := f; has_normalize := false |}.
Proof. exact normalize_same. Qed.
Print Assumptions C132_normalize_changes_nothing.
Theorem C132_arrays : forall ts l z r, astimezones ts l z = Ok r <-> Forall2 (fun t p => astimezone ts t z = Ok p) l r.
Proof. exact zone_list. Qed.
Print Assumptions C132_arrays.
Theorem C132_julian_leap_days_refuted : built (ts72 reform) feb28 /\
  exists a, astimezone (ts72 reform) feb28 two_hours = Ok (a, 0) /\ exists_under reform (1500, 2, 29) /\
  (d_year (fields a), d_month (fields a), d_day (fields a), d_hour (fields a)) = (1500, 3, 1, 1) /\
  (tai_instant feb28 == instant_of ns72 10 (civil_count reform (fields a) - 2 * HOUR) - 86400)%Q.
Proof. exact julian_zone_to. Qed.
Print Assumptions C132_julian_leap_days_refuted.
(** A zone that changes its offset, and a leap second seen from it. *)
Definition summer : zone :=
  {| offset_at := fun n => if n <? 86400000000 * 2441439 then -5 * HOUR else -4 * HOUR; has_normalize := true |}.
Example C132_ex :
  let t := utc (ts72 None) 1972 6 30 23 59 (60 + (1 # 4)) in
  built (ts72 None) t /\
  astimezone (ts72 None) t summer =
    Ok ({| fields := {| d_year := 1972; d_month := 6; d_day := 30; d_hour := 19; d_minute := 59; d_second := 59; d_micro := 250000 |};
           zone_of := At (-4 * HOUR) |}, 1) /\
  astimezone (ts72 None) (utc (ts72 None) 9999 12 31 23 59 59) {| offset_at := fun _ => HOUR; has_normalize := false |} = OverflowError.
Proof. cbv zeta. split; [apply built_utc|]. split; vm_compute; reflexivity. Qed.

(** * C133 *)
Theorem C133_leap_day_message_partial : forall ns base cut ts t z y,
  timescale_for ns base cut ts -> good_cutoff cut -> built ts t -> astimezone ts t z = ValueError (JulianLeapDay y) ->
  1 <= y <= 9999 ->
  valid_date Julian (y, 2, 29) = true /\ valid_date Gregorian (y, 2, 29) = false /\
  (d_year (fst (utc_datetime ts t)), d_month (fst (utc_datetime ts t)), d_day (fst (utc_datetime ts t))) = (y, 2, 29).
Proof. exact leap_day_message. Qed.
Print Assumptions C133_leap_day_message_partial.
Theorem C133_negative_year_message : forall ts t z y, astimezone ts t z = ValueError (NegativeYear y) ->
  y < 0 /\ y = d_year (fst (utc_datetime ts t)).
Proof. exact negative_message. Qed.
Print Assumptions C133_negative_year_message.
Theorem C133_leap_day_message_refuted : built (ts72 None) year_12000 /\ valid_date Gregorian (12000, 2, 29) = true /\
  forall z, astimezone (ts72 None) year_12000 z = ValueError (JulianLeapDay 12000).
Proof. exact wrong_message. Qed.
Print Assumptions C133_leap_day_message_refuted.
Example C133_ex :
  let t := utc (ts72 reform) 1500 2 29 12 0 0 in
  let u := utc (ts72 None) (-5) 2 29 12 0 0 in
  built (ts72 reform) t /\ good_cutoff reform /\
  (forall z, astimezone (ts72 reform) t z = ValueError (JulianLeapDay 1500)) /\
  (forall z, astimezone (ts72 None) u z = ValueError (NegativeYear (-5))).
Proof.
  cbv zeta. split; [apply built_utc|]. split; [discriminate|]. split; intros z; unfold astimezone.
  - replace (checked_datetime (ts72 reform) (utc (ts72 reform) 1500 2 29 12 0 0)) with (@ValueError (py_datetime * Z) (JulianLeapDay 1500)) by (vm_compute; reflexivity). reflexivity.
  - replace (checked_datetime (ts72 None) (utc (ts72 None) (-5) 2 29 12 0 0)) with (@ValueError (py_datetime * Z) (NegativeYear (-5))) by (vm_compute; reflexivity). reflexivity.
Qed.
