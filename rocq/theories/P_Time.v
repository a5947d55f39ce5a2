(** Properties of UTC, leap seconds and time arithmetic, in exact arithmetic. *)
From Coq Require Import ZArith QArith Qround List Bool.
From Verif Require Import PyNum Cal_Model Cal_Spec Time_Model Time_Spec Time_Proofs Time_Proofs2 Time_Proofs3 Time_Parts_Proofs.
Import ListNotations.
Open Scope Q_scope.

(** A small real history: the leap seconds at the end of June and December 1972. *)
Definition ns72 : list Z := [2441500; 2441684]%Z.
Definition ts72 (cut : option Z) : timescale :=
  build_tables (map fin (leap_dates_of ns72)) (leap_offsets_of ns72 10) cut.
Example ts72_ok : forall cut, timescale_for ns72 10 cut (ts72 cut).
Proof. intros cut. split; [cbn; repeat split|reflexivity]. Qed.

(** * C06 *)
Theorem C06_utc_roundtrip : forall ns base cut ts y m d h mi s,
  timescale_for ns base cut ts -> good_cutoff cut ->
  exists_under cut (y, m, d) ->
  valid_clock (ends_in_leap ns (civil_day_number cut (y, m, d))) h mi s ->
  let u := time_utc ts (utc ts y m d (inject_Z h) (inject_Z mi) s) in
  f_year u = y /\ f_month u = m /\ f_day u = d /\ f_hour u = h /\ f_minute u = mi /\ f_second u == s.
Proof. exact utc_roundtrip. Qed.
Print Assumptions C06_utc_roundtrip.
Example C06_ex :
  good_cutoff None /\ exists_under None (1972, 6, 30)%Z /\
  valid_clock (ends_in_leap ns72 (civil_day_number None (1972, 6, 30)%Z)) 23 59 (121 # 2).
Proof. repeat split; try reflexivity; try discriminate. right. repeat split; reflexivity. Qed.

(** * C07 *)
Theorem C07_every_instant_has_a_reading : forall ns base cut ts t,
  timescale_for ns base cut ts -> good_cutoff cut -> built ts t ->
  reads ns base cut (tai_instant t) (time_utc ts t).
Proof. exact built_reads. Qed.
Print Assumptions C07_every_instant_has_a_reading.

Theorem C07_fields_in_range_and_60_only_in_leap_seconds : forall ns base cut i u,
  increasing ns -> reads ns base cut i u ->
  (0 <= f_hour u <= 23 /\ 0 <= f_minute u <= 59 /\ 0 <= f_isec u <= 60)%Z /\ 0 <= f_sfr u < 1 /\
  (f_isec u = 60%Z <-> in_leap_second ns base i).
Proof. exact reads_range. Qed.
Print Assumptions C07_fields_in_range_and_60_only_in_leap_seconds.

Theorem C07_rebuilding_gives_the_same_instant : forall ns base cut ts i u,
  timescale_for ns base cut ts -> good_cutoff cut -> reads ns base cut i u ->
  tai_instant (utc ts (f_year u) (f_month u) (f_day u) (inject_Z (f_hour u)) (inject_Z (f_minute u)) (f_second u)) == i.
Proof. exact reads_rebuild. Qed.
Print Assumptions C07_rebuilding_gives_the_same_instant.

Theorem C07_later_instants_read_later : forall ns base cut i i' u u',
  increasing ns -> good_cutoff cut -> reads ns base cut i u -> reads ns base cut i' u' ->
  (i < i' <-> reading_lt (reading_of u) (reading_of u')).
Proof. exact reads_order. Qed.
Print Assumptions C07_later_instants_read_later.

(** The leap second itself, its predecessor and its successor. *)
Example C07_ex :
  let f := fun n => let u := time_utc (ts72 None) (tai_jd (inject_Z n / 86400) (Some 0)) in
                    (f_year u, f_month u, f_day u, f_hour u, f_minute u, f_isec u) in
  f (86400 * 2441500 - 43200 + 10)%Z = (1972, 6, 30, 23, 59, 60)%Z /\
  f (86400 * 2441500 - 43200 + 9)%Z = (1972, 6, 30, 23, 59, 59)%Z /\
  f (86400 * 2441500 - 43200 + 11)%Z = (1972, 7, 1, 0, 0, 0)%Z.
Proof. repeat split; vm_compute; reflexivity. Qed.

(** * C09 *)
Theorem C09_utc_julian_date_agrees_with_fields : forall ns base cut ts y m d h mi s w f,
  timescale_for ns base cut ts -> good_cutoff cut ->
  exists_under cut (y, m, d) -> valid_clock false h mi s ->
  (exists N, w * 86400 == inject_Z N) ->
  w + f == inject_Z (civil_day_number cut (y, m, d)) - (1 # 2) + (inject_Z h * 3600 + inject_Z mi * 60 + s) / 86400 ->
  tai_instant (utc_jd ts w f) == tai_instant (utc ts y m d (inject_Z h) (inject_Z mi) s).
Proof. exact utc_jd_agrees. Qed.
Print Assumptions C09_utc_julian_date_agrees_with_fields.
Example C09_ex : exists_under None (1973, 1, 1)%Z /\ valid_clock false 12 0 (1 # 2) /\
  (exists N, 2441684 * 86400 == inject_Z N) /\
  2441684 + (1 # 172800) == inject_Z (civil_day_number None (1973, 1, 1)%Z) - (1 # 2) + (inject_Z 12 * 3600 + inject_Z 0 * 60 + (1 # 2)) / 86400.
Proof. repeat split; try reflexivity; try discriminate. left; reflexivity. exists (2441684 * 86400)%Z. reflexivity. Qed.

(** * C10 *)
Theorem C10_legacy_table_equals_plain_table : forall mjd offsets cut m0 o0 m1 mr,
  mjd = m0 :: m1 :: mr -> length offsets = length mjd -> hd 0 offsets = o0 ->
  match parse_leap_seconds mjd offsets with
  | None => False
  | Some (d, o) =>
      timescale_init d o cut =
      timescale_init (map (fun m => Fin (m + (4800001 # 2))) (tl mjd)) (tl offsets) cut
  end.
Proof. exact legacy_equals_plain. Qed.
Print Assumptions C10_legacy_table_equals_plain_table.
Theorem C10_documented_lookup_gives_the_offset_in_force : forall mjd offsets jd,
  mjd <> [] -> sorted_dates mjd -> length offsets = length mjd ->
  match parse_leap_seconds mjd offsets with
  | None => False
  | Some (dates, offs) =>
      nth_error offs (searchsorted_right dates jd) =
      Some (offset_in_force (combine mjd offsets) (hd 0 offsets) jd)
  end.
Proof. exact parse_lookup. Qed.
Print Assumptions C10_documented_lookup_gives_the_offset_in_force.
Example C10_ex : offset_in_force (combine [41317; 41499; 41683] [10; 11; 12]) 10 (2441600 + (1 # 2)) = 11.
Proof. reflexivity. Qed.

(** * C11 *)
Theorem C11_iso_text_is_nearest : forall ns base cut ts t places,
  timescale_for ns base cut ts -> good_cutoff cut -> built ts t ->
  exists shown, shows ns base cut (10 ^ Z.of_nat places) (utc_iso ts t places) shown /\
                nearest (10 ^ Z.of_nat places) shown (tai_instant t).
Proof. exact iso_nearest. Qed.
Print Assumptions C11_iso_text_is_nearest.
Theorem C11_jpl_text_is_nearest : forall ns base cut ts t,
  timescale_for ns base cut ts -> good_cutoff cut -> built ts t ->
  let '(bc, year, f) := utc_jpl ts t in
  (exists shown, shows ns base cut 10000 f shown /\ nearest 10000 shown (tai_instant t)) /\
  (bc = true <-> (i_year f < 1)%Z) /\ (1 <= year)%Z /\ i_year f = (if bc then 1 - year else year)%Z.
Proof. exact jpl_nearest. Qed.
Print Assumptions C11_jpl_text_is_nearest.
Theorem C11_second_60_only_for_leap_seconds : forall ns base cut P f shown,
  increasing ns -> (0 < P)%Z -> shows ns base cut P f shown ->
  (i_second f = 60%Z <-> in_leap_second ns base shown).
Proof. exact shows_60. Qed.
Print Assumptions C11_second_60_only_for_leap_seconds.
Example C11_ex :
  let iso := fun d h mi s p => let i := utc_iso (ts72 None) (utc (ts72 None) 1972 6 d h mi s) p in
     (i_month i, i_day i, i_hour i, i_minute i, i_second i, i_fraction i) in
  iso 30%Z 23 59 (597 # 10) 0%nat = (6, 30, 23, 59, 60, 0)%Z /\
  iso 30%Z 23 59 (607 # 10) 0%nat = (7, 1, 0, 0, 0, 0)%Z /\
  iso 29%Z 23 59 (597 # 10) 0%nat = (6, 30, 0, 0, 0, 0)%Z /\
  iso 29%Z 23 59 (59999 # 1000) 2%nat = (6, 30, 0, 0, 0, 0)%Z.
Proof. repeat split; vm_compute; reflexivity. Qed.

(** * C12 *)
Theorem C12_datetime_is_nearest_microsecond : forall ns base cut ts t,
  timescale_for ns base cut ts -> good_cutoff cut -> built ts t ->
  let '(d, leap) := utc_datetime ts t in
  (exists shown, shows ns base cut 1000000 (iso_of_datetime d leap) shown /\ nearest 1000000 shown (tai_instant t) /\
     (leap = 1%Z <-> in_leap_second ns base shown) /\ (leap = 0 \/ leap = 1)%Z /\
     (leap = 1%Z -> d_second d = 59%Z) /\
     tai_instant (from_datetime ts d) == shown - inject_Z leap).
Proof. exact datetime_nearest. Qed.
Print Assumptions C12_datetime_is_nearest_microsecond.
Theorem C12_datetime_roundtrip : forall ns base cut ts d,
  timescale_for ns base cut ts -> good_cutoff cut -> valid_datetime cut d ->
  utc_datetime ts (from_datetime ts d) = (d, 0%Z).
Proof. exact datetime_roundtrip. Qed.
Print Assumptions C12_datetime_roundtrip.
Example C12_ex : valid_datetime None
  {| d_year := 1972; d_month := 12; d_day := 31; d_hour := 23; d_minute := 59; d_second := 59; d_micro := 999999 |}.
Proof. repeat split; try reflexivity; try discriminate. Qed.

(** * C13 *)
Theorem C13_strftime_weekday_partial : forall jd fraction,
  0 <= jd + fraction + (1 # 2) ->
  strftime_weekday jd fraction = weekday_of_jd (Qfloor (jd + fraction + (1 # 2))).
Proof. exact strftime_weekday_ok. Qed.
Print Assumptions C13_strftime_weekday_partial.
Theorem C13_strftime_weekday_refuted :
  exists jd fraction, strftime_weekday jd fraction <> weekday_of_jd (Qfloor (jd + fraction + (1 # 2))).
Proof. exists (-1), (1 # 4). discriminate. Qed.
Print Assumptions C13_strftime_weekday_refuted.
Theorem C13_strftime_day_of_year : forall jd fraction cut, good_cutoff cut ->
  let J := Qfloor (jd + fraction + (1 # 2)) in
  let '(y, _, _, _, _, _) := calendar_tuple jd fraction cut in
  exists_under cut (y, 1%Z, 1%Z) ->
  strftime_yday jd fraction y cut = (J - civil_day_number cut (y, 1%Z, 1%Z) + 1)%Z.
Proof. exact strftime_yday_civil. Qed.
Print Assumptions C13_strftime_day_of_year.
Theorem C13_utc_day_of_year : forall jd cut, good_cutoff cut ->
  let '(y, m, d) := compute_calendar_date jd cut in
  exists_under cut (y, 1%Z, 1%Z) ->
  yday_of_jd jd cut = (jd - civil_day_number cut (y, 1%Z, 1%Z) + 1)%Z.
Proof. exact utc_yday_civil. Qed.
Print Assumptions C13_utc_day_of_year.
Example C13_strftime_ex : strftime_weekday 2451545 (1 # 4) = 5%Z /\ strftime_yday 2451545 (1 # 4) 2000 None = 1%Z /\
  exists_under (Some GREGORIAN_START) (1582, 1, 1)%Z.
Proof. repeat split; try reflexivity. left; split; reflexivity. Qed.

(** * C14 *)
Theorem C14_time_arithmetic : forall t u d e,
  time_sub (time_add t d) t == d /\
  time_sub t (time_minus t d) == d /\
  time_eq (time_add (time_add t d) e) (time_add t (d + e)) = true /\
  time_eq (time_minus (time_add t d) d) t = true /\
  time_sub t u == - time_sub u t /\
  (time_lt t u = true <-> 0 < time_sub u t) /\
  (time_eq t u = true <-> time_sub u t == 0) /\
  time_lt (time_add t d) (time_add u d) = time_lt t u /\
  time_eq (time_add t d) (time_add u d) = time_eq t u.
Proof. exact time_laws. Qed.
Print Assumptions C14_time_arithmetic.
Example C14_ex : time_lt (tt_jd 2451545 (Some (1 # 3))) (time_minus (tt_jd 2451547 None) (5 # 4)) = true.
Proof. reflexivity. Qed.

(** * C17, exact arithmetic *)
Theorem C17_getitem_partial : forall ns base cut ts l i t t',
  timescale_for ns base cut ts -> good_cutoff cut ->
  (forall u, In u l -> built ts u) -> nth_error l i = Some t -> time_getitem l i = Some t' ->
  tt t' == tt t /\ tai t' == tai t /\
  (let u := time_utc ts t in let u' := time_utc ts t' in
   (f_year u, f_month u, f_day u, f_hour u, f_minute u, f_isec u) =
   (f_year u', f_month u', f_day u', f_hour u', f_minute u', f_isec u') /\ f_sfr u == f_sfr u').
Proof. exact getitem_attributes. Qed.
Print Assumptions C17_getitem_partial.
Example C17_ex : let l := [utc (ts72 None) 1972 6 30 23 59 (121 # 2)] in
  (forall u, In u l -> built (ts72 None) u) /\ exists t', time_getitem l 0 = Some t'.
Proof. split; [intros u [<-|[]]; constructor|eexists; reflexivity]. Qed.

(** * C18, exact scales *)
Theorem C18_tt_minus_tai : forall ns base cut ts t,
  timescale_for ns base cut ts -> built ts t -> (tt t - tai t) * 86400 == 32184 # 1000.
Proof. exact built_tt_tai. Qed.
Print Assumptions C18_tt_minus_tai.
Theorem C18_scale_inputs_come_back : forall jd f cut epoch y m d h mi s,
  tai (tai_jd jd (Some f)) == jd + f /\ tai (tai_jd jd None) == jd /\
  tt (tt_jd jd (Some f)) == jd + f /\ tt (tt_jd jd None) == jd /\ time_J (from_J epoch) == epoch /\
  let day := inject_Z (julian_day y m d cut) - (1 # 2) in
  let sec := h * 3600 + mi * 60 + s in
  tai (tai_cal cut y m d h mi s) == day + sec / 86400 /\
  tt (tt_cal cut y m d h mi s) == day + sec / 86400.
Proof. exact scale_inputs. Qed.
Print Assumptions C18_scale_inputs_come_back.
Example C18_ex : built (ts72 None) (time_add (utc (ts72 None) 1972 6 30 23 59 (121 # 2)) (7 # 3)).
Proof. exact (built_add _ _ _ (built_utc _ _ _ _ _ _ _)). Qed.

(** * C58 *)
Theorem C58_toordinal : forall ns base cut ts t,
  timescale_for ns base cut ts -> good_cutoff cut -> built ts t ->
  let u := time_utc ts t in
  toordinal ts t == (if (f_isec u =? 60)%Z then inject_Z (f_jd u + 1) - 1721425 + f_sfr u / 86400
                     else inject_Z (f_jd u) - 1721425 +
                          (inject_Z (f_hour u * 3600 + f_minute u * 60) + f_second u) / 86400).
Proof. exact toordinal_built. Qed.
Print Assumptions C58_toordinal.
Example C58_ex : toordinal (ts72 None) (utc (ts72 None) 1973 1 1 12 0 0) == 720259 + (1 # 2).
Proof. reflexivity. Qed.

(** * C142 *)
Theorem C142_julian_dates : forall jd f,
  (exists n, whole (tt_jd jd None) = inject_Z n) /\ 0 <= tt_fraction (tt_jd jd None) < 1 /\ whole (tt_jd jd (Some f)) = jd /\ tt_fraction (tt_jd jd (Some f)) = f /\
  (exists n, whole (tai_jd jd None) = inject_Z n) /\ 0 <= tai_fraction (tai_jd jd None) < 1 /\ whole (tai_jd jd (Some f)) = jd /\ tai_fraction (tai_jd jd (Some f)) = f.
Proof. exact parts_jd. Qed.
Print Assumptions C142_julian_dates.
Theorem C142_calendar_dates : forall cut y m d h mi s, 0 <= h * 3600 + mi * 60 + s < 86400 ->
  (exists n, whole (tt_cal cut y m d h mi s) = inject_Z n - (1 # 2)) /\ 0 <= tt_fraction (tt_cal cut y m d h mi s) < 1 /\
  (exists n, whole (tai_cal cut y m d h mi s) = inject_Z n - (1 # 2)) /\ 0 <= tai_fraction (tai_cal cut y m d h mi s) < 1 /\
  (forall day, 0 <= tt_fraction (tt_calq cut y m day h mi s) < 1 /\ 0 <= tai_fraction (tai_calq cut y m day h mi s) < 1).
Proof. exact parts_cal. Qed.
Print Assumptions C142_calendar_dates.
Theorem C142_utc_dates : forall ts y m d dq h mi s w f,
  (exists n, whole (utc ts y m d h mi s) = inject_Z n) /\ 0 <= tai_fraction (utc ts y m d h mi s) < 1 + (1 # 86400) /\
  (exists n, whole (utc_dayq ts y m dq h mi s) = inject_Z n) /\ 0 <= tai_fraction (utc_dayq ts y m dq h mi s) < 1 + (1 # 86400) /\
  (exists n, whole (utc_jd ts w f) = inject_Z n) /\ 0 <= tai_fraction (utc_jd ts w f) < 1 + (1 # 86400).
Proof. exact parts_utc. Qed.
Print Assumptions C142_utc_dates.
Example C142_ex : 0 <= 23 * 3600 + 59 * 60 + (119 # 2) < 86400 /\ whole (tt_cal None 2000 1 1 12 0 0) == 2451544 + (1 # 2) /\ tt_fraction (tt_cal None 2000 1 1 12 0 0) == 1 # 2.
Proof. split; [split; [discriminate|reflexivity]|split; reflexivity]. Qed.

(** * C146 *)
Theorem C146_evenly_spaced : forall t0 t1 n, let l := time_linspace t0 t1 (S (S n)) in
  length l = S (S n) /\
  (forall i t, nth_error l i = Some t -> tt t == tt t0 + inject_Z (Z.of_nat i) / inject_Z (Z.of_nat (S n)) * (tt t1 - tt t0)) /\
  (exists a b, nth_error l 0 = Some a /\ nth_error l (S n) = Some b /\
     whole a == whole t0 /\ tt_fraction a == tt_fraction t0 /\ whole b == whole t1 /\ tt_fraction b == tt_fraction t1).
Proof. exact linspace_even. Qed.
Print Assumptions C146_evenly_spaced.
Theorem C146_one_or_none : forall t0 t1, time_linspace t0 t1 0 = [] /\ exists t, time_linspace t0 t1 1 = [t] /\ whole t = whole t0 /\ tt_fraction t = tt_fraction t0.
Proof. exact linspace_few. Qed.
Print Assumptions C146_one_or_none.
Example C146_ex : map (fun t => Qred (tt t)) (time_linspace (tt_jd 2451545 None) (tt_jd 2451546 None) 5) = [2451545; 9806181 # 4; 4903091 # 2; 9806183 # 4; 2451546].
Proof. reflexivity. Qed.
