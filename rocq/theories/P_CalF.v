(** C162: calendar dates and texts of TT and TAI in binary64. *)
From Coq Require Import ZArith Reals List Bool Lia Lra.
From Coq.Floats Require Import SpecFloat.
From Flocq Require Import Core BinarySingleNaN.
From Verif Require Import Float64 Float64_Proofs Float_Time_Model Cal_Model Cal_Spec Time_Spec CalF_Model CalF_Spec CalF_Proofs CalF_Proofs2.
Open Scope Z_scope.

(** The full statement would have whole seconds come back exactly, microseconds printed
    as entered, and the weekday and day of the year agree with the printed date always. *)
Theorem C162_calendar_tuple_partial : forall (w f : bf) cut, good_cutoff cut -> usual_whole w -> usual_fraction f ->
  exists y m d h mi (q : bf), calendar_tuple64 (B2SF w) (B2SF f) cut = (y, m, d, h, mi, B2SF q) /\ exists_under cut (y, m, d) /\ time_of_day h mi /\
    is_finite q = true /\ (0 <= B2R q < 60)%R /\ (Rabs (seconds_of cut y m d h mi (B2R q) - seconds_of_jd (B2R w) (B2R f)) <= / 2 ^ 34)%R.
Proof. exact tuple_denotes. Qed.
Print Assumptions C162_calendar_tuple_partial.
Theorem C162_read_back_partial : forall cut y m d h mi (s : bf), good_cutoff cut -> exists_under cut (y, m, d) -> Z.abs (civil_day_number cut (y, m, d)) <= 10 ^ 9 -> time_of_day h mi -> is_finite s = true -> (0 <= B2R s < 60)%R ->
  forall whole fraction, (let t := tt_date64 cut y m d (of_Z h) (of_Z mi) (B2SF s) in whole = whole64 t /\ fraction = fraction64 t) \/
    (let t := tai_date64 cut y m d (of_Z h) (of_Z mi) (B2SF s) in whole = whole64 t /\ fraction = tai_fraction64 t) ->
  exists y' m' d' h' mi' (q : bf), calendar_tuple64 whole fraction cut = (y', m', d', h', mi', B2SF q) /\ exists_under cut (y', m', d') /\ time_of_day h' mi' /\
    is_finite q = true /\ (0 <= B2R q < 60)%R /\ (Rabs (seconds_of cut y' m' d' h' mi' (B2R q) - seconds_of cut y m d h mi (B2R s)) <= / 2 ^ 33)%R.
Proof. exact tt_read_back. Qed.
Print Assumptions C162_read_back_partial.
Theorem C162_nearest_second : forall (w f : bf) cut, good_cutoff cut -> usual_whole w -> usual_fraction f ->
  exists y m d h mi s wd yd, strftime_seconds64 half_second (B2SF w) (B2SF f) cut = (y, m, d, h, mi, s, wd, yd) /\ exists_under cut (y, m, d) /\ time_of_day h mi /\
    0 <= s <= 59 /\ (Rabs (seconds_of cut y m d h mi (IZR s) - seconds_of_jd (B2R w) (B2R f)) <= 1 / 2 + / 2 ^ 33)%R.
Proof. exact second_denotes. Qed.
Print Assumptions C162_nearest_second.
Theorem C162_nearest_minute : forall (w f : bf) cut, good_cutoff cut -> usual_whole w -> usual_fraction f ->
  exists y m d h mi s wd yd, strftime_seconds64 half_minute (B2SF w) (B2SF f) cut = (y, m, d, h, mi, s, wd, yd) /\ exists_under cut (y, m, d) /\ time_of_day h mi /\
    (Rabs (seconds_of cut y m d h mi 0 - seconds_of_jd (B2R w) (B2R f)) <= 30 + / 2 ^ 33)%R.
Proof. exact minute_denotes. Qed.
Print Assumptions C162_nearest_minute.
(** A format with [%f] prints the microsecond under way. *)
Theorem C162_microseconds_partial : forall (w f : bf) cut, good_cutoff cut -> usual_whole w -> usual_fraction f ->
  exists y m d h mi s u, strftime_micro64 (B2SF w) (B2SF f) cut = (y, m, d, h, mi, s, u) /\ exists_under cut (y, m, d) /\ time_of_day h mi /\
    0 <= s <= 59 /\ 0 <= u <= 999999 /\ (- / 1000000 - / 2 ^ 32 <= seconds_of cut y m d h mi (IZR s + IZR u / 1000000) - seconds_of_jd (B2R w) (B2R f) <= / 2 ^ 32)%R.
Proof. exact micro_denotes. Qed.
Print Assumptions C162_microseconds_partial.
Theorem C162_whole_seconds : forall cut y m d h mi s, good_cutoff cut -> exists_under cut (y, m, d) -> Z.abs (civil_day_number cut (y, m, d)) <= 10 ^ 9 -> time_of_day h mi -> 0 <= s <= 59 ->
  forall whole fraction, (let t := tt_date64 cut y m d (of_Z h) (of_Z mi) (of_Z s) in whole = whole64 t /\ fraction = fraction64 t) \/
    (let t := tai_date64 cut y m d (of_Z h) (of_Z mi) (of_Z s) in whole = whole64 t /\ fraction = tai_fraction64 t) ->
  exists wd yd, strftime_seconds64 half_second whole fraction cut = (y, m, d, h, mi, s, wd, yd) /\
    (0 <= civil_day_number cut (y, m, d) -> wd = civil_day_number cut (y, m, d) mod 7) /\
    (exists_under cut (y, 1, 1) -> Z.abs (civil_day_number cut (y, 1, 1)) <= 10 ^ 9 -> civil_day_number cut (y, 1, 1) <= civil_day_number cut (y, m, d) ->
     yd = civil_day_number cut (y, m, d) - civil_day_number cut (y, 1, 1) + 1).
Proof. exact tt_whole_seconds. Qed.
Print Assumptions C162_whole_seconds.
(** A date of TAI is 32.184 seconds later in TT, and a date of TT that much earlier in TAI. *)
Theorem C162_tai_and_tt : forall cut y m d h mi (s : bf), good_cutoff cut -> exists_under cut (y, m, d) -> Z.abs (civil_day_number cut (y, m, d)) <= 10 ^ 9 -> time_of_day h mi -> is_finite s = true -> (0 <= B2R s < 60)%R ->
  (exists w f : bf, (let t := tai_date64 cut y m d (of_Z h) (of_Z mi) (B2SF s) in whole64 t = B2SF w /\ fraction64 t = B2SF f) /\ usual_whole w /\ usual_fraction f /\
    (Rabs (seconds_of_jd (B2R w) (B2R f) - (seconds_of cut y m d h mi (B2R s) + 32184 / 1000)) <= / 2 ^ 34)%R) /\
  (exists w f : bf, (let t := tt_date64 cut y m d (of_Z h) (of_Z mi) (B2SF s) in whole64 t = B2SF w /\ tai_fraction64 t = B2SF f) /\ usual_whole w /\ usual_fraction f /\
    (Rabs (seconds_of_jd (B2R w) (B2R f) - (seconds_of cut y m d h mi (B2R s) - 32184 / 1000)) <= / 2 ^ 34)%R).
Proof. exact dates_offset. Qed.
Print Assumptions C162_tai_and_tt.
(** 2026-11-15 17:04:59, with the reform of 1582. *)
Example C162_ex : good_cutoff (Some 2299161) /\ exists_under (Some 2299161) (2026, 11, 15) /\ Z.abs (civil_day_number (Some 2299161) (2026, 11, 15)) <= 10 ^ 9 /\ time_of_day 17 4 /\
  exists_under (Some 2299161) (2026, 1, 1) /\ 0 <= civil_day_number (Some 2299161) (2026, 1, 1) <= civil_day_number (Some 2299161) (2026, 11, 15) /\
  (let t := tt_date64 (Some 2299161) 2026 11 15 (of_Z 17) (of_Z 4) (of_Z 59) in strftime_seconds64 half_second (whole64 t) (fraction64 t) (Some 2299161) = (2026, 11, 15, 17, 4, 59, 6, 319)).
Proof. vm_compute. repeat split; try discriminate; right; split; congruence. Qed.
Example C162_ex_parts : exists w f : bf, tt_date64 None 2000 1 1 (of_Z 23) (of_Z 59) (fl 8373880416404528 (-47)) = {| whole64 := B2SF w; fraction64 := B2SF f; c_tai_fraction64 := None; c_tai_seconds64 := None |} /\ usual_whole w /\ usual_fraction f.
Proof. exact jd64_usual. Qed.
(** Findings. The second after midnight reads back as 0.99999999999696. *)
Theorem C162_exact_refuted : ~ (forall cut y m d h mi s, good_cutoff cut -> exists_under cut (y, m, d) -> Z.abs (civil_day_number cut (y, m, d)) <= 10 ^ 9 -> time_of_day h mi -> 0 <= s <= 59 ->
  let t := tt_date64 cut y m d (of_Z h) (of_Z mi) (of_Z s) in calendar_tuple64 (whole64 t) (fraction64 t) cut = (y, m, d, h, mi, of_Z s)).
Proof. exact exact_fails. Qed.
Print Assumptions C162_exact_refuted.
(** With [%f] it is printed as 00:00:00.999999. *)
Theorem C162_microseconds_refuted : ~ (forall cut y m d h mi s, good_cutoff cut -> exists_under cut (y, m, d) -> Z.abs (civil_day_number cut (y, m, d)) <= 10 ^ 9 -> time_of_day h mi -> 0 <= s <= 59 ->
  let t := tt_date64 cut y m d (of_Z h) (of_Z mi) (of_Z s) in strftime_micro64 (whole64 t) (fraction64 t) cut = (y, m, d, h, mi, s, 0)).
Proof. exact micro_fails. Qed.
Print Assumptions C162_microseconds_refuted.
(** 2000-01-01 23:59:59.499999 is printed as Sunday, 23:59:59 of that Saturday. *)
Theorem C162_weekday_refuted : ~ (forall (w f : bf) cut y m d h mi s wd yd, good_cutoff cut -> usual_whole w -> usual_fraction f ->
  strftime_seconds64 half_second (B2SF w) (B2SF f) cut = (y, m, d, h, mi, s, wd, yd) -> 0 <= civil_day_number cut (y, m, d) -> wd = civil_day_number cut (y, m, d) mod 7).
Proof. exact weekday_fails. Qed.
Print Assumptions C162_weekday_refuted.
