From Coq Require Import Reals ZArith List Bool Lra Lia.
From Verif Require Import Real_Math Curve_Model Curve_Spec Curve_Proofs Curve_Proofs2 Curve_Proofs3.
Import ListNotations.
Open Scope R_scope.

(** * C18, barycentric time; differences in seconds, exact arithmetic *)
Theorem C18_tdb_stays_near_tt : forall w f, let t := RTime w f None None in
  Rabs ((tdb t - tt t) * 86400) <= 1705 / 10 ^ 6 + 1 / 10 ^ 5 * Rabs ((tt t - 2451545) / 36525).
Proof. exact tdb_bound_tt. Qed.
Print Assumptions C18_tdb_stays_near_tt.
Theorem C18_tdb_input : forall jd f, let t := tdb_jd jd f in
  tdb t = jd + f /\ Rabs ((tdb t - tt t) * 86400) <= 1705 / 10 ^ 6 + 1 / 10 ^ 5 * Rabs ((tdb t - 2451545) / 36525).
Proof. exact tdb_bound_jd. Qed.
Print Assumptions C18_tdb_input.
(** A calendar date in TDB is not stored; it is recomputed, and for 10000 years
    either side of J2000 comes back within 10 picoseconds. *)
Theorem C18_tdb_calendar_input : forall jd, Rabs ((jd - 2451545) / 36525) <= 100 ->
  Rabs ((tdb (tdb_calendar jd) - jd) * 86400) <= 1 / 10 ^ 11.
Proof. exact tdb_calendar_close. Qed.
Print Assumptions C18_tdb_calendar_input.
Example C18_tdb_ex : Rabs ((2451545 + 36525 - 2451545) / 36525) <= 100.
Proof. replace ((2451545 + 36525 - 2451545) / 36525) with 1 by field. rewrite Rabs_R1. lra. Qed.

(** * C19; [l] in seconds per day, so [l / 86400] is a pure number *)
Theorem C19_ut1_input_is_consistent : forall D l jd, lipschitz l D ->
  let t := ut1_jd D jd in let k := l / 86400 in
  ut1 D t = jd /\
  Rabs ((tt t - ut1 D t) * 86400 - D (tt t)) <= k * k * Rabs (D jd) /\
  (forall x, (x - jd) * 86400 = D x -> Rabs (tt t - x) <= k * k * Rabs (jd - x)).
Proof. exact ut1_consistent. Qed.
Print Assumptions C19_ut1_input_is_consistent.
Example C19_ex : lipschitz (1 / 500) (fun x => 60 + (x - 2451545) / 500).
Proof. intros x y. replace (60 + (x - 2451545) / 500 - (60 + (y - 2451545) / 500)) with (1 / 500 * (x - y)) by field. rewrite Rabs_mult, (Rabs_right (1 / 500)) by lra. lra. Qed.

(** * C20 *)
Theorem C20_end_values_and_slopes : forall x0 y0 s0 x1 y1 s1, x0 <> x1 ->
  let r := build_spline_given_ends x0 y0 s0 x1 y1 s1 in
  row_at r x0 = y0 /\ row_at r x1 = y1 /\
  derivable_pt_lim (row_at r) x0 s0 /\ derivable_pt_lim (row_at r) x1 s1.
Proof. exact spline_ends. Qed.
Print Assumptions C20_end_values_and_slopes.
Theorem C20_one_row_derivative : forall r x, lo r <> hi r -> derivable_pt_lim (row_at r) x (row_at (derivative_row r) x).
Proof. exact row_deriv. Qed.
Print Assumptions C20_one_row_derivative.
(** A curve of any number of rows of any degree, away from the joints. *)
Theorem C20_curve_derivative : forall rows x, rows <> [] -> ascending (map lo rows) -> Forall (fun r => lo r <> hi r) rows ->
  (forall b, In b (tl rows) -> lo b <> x) -> derivable_pt_lim (splines rows) x (splines (derivative rows) x).
Proof. exact splines_deriv. Qed.
Print Assumptions C20_curve_derivative.
Example C20_ex : let rows := [Row 0 2 [1; 0; 3]; Row 2 3 [5; 7; 1; 0; 4]] in
  ascending (map lo rows) /\ Forall (fun r => lo r <> hi r) rows /\ (forall b, In b (tl rows) -> lo b <> 1).
Proof. cbn. split; [lra|]. split; [repeat constructor; cbn; lra|]. intros b [<- |[]]. cbn. lra. Qed.

(** * C21 *)
Theorem C21_steps_are_bounded : forall eps s15 ttl dt, 0 <= eps -> historic eps s15 -> daily ttl dt -> start_year s15 < year_of (hd 0 ttl) ->
  exists curve, build_delta_t s15 ttl dt = Some curve /\ forall y, jump_at_most eps (delta_t curve ttl dt) y.
Proof. exact delta_t_jumps. Qed.
Print Assumptions C21_steps_are_bounded.
Theorem C21_delta_t_is_continuous : forall s15 ttl dt, historic 0 s15 -> daily ttl dt -> start_year s15 < year_of (hd 0 ttl) ->
  exists curve, build_delta_t s15 ttl dt = Some curve /\ continuity (delta_t curve ttl dt).
Proof. exact delta_t_continuous. Qed.
Print Assumptions C21_delta_t_is_continuous.
(** The coefficients of the shipped table are rounded to a millisecond, and its
    rows meet to within a millisecond. *)
Theorem C21_shipped_table : historic (1 / 1000) s15_shipped /\ start_year s15_shipped = -720.
Proof. exact (conj shipped_historic shipped_start). Qed.
Print Assumptions C21_shipped_table.
(** So Delta T itself jumps by a millisecond, for instance at the year -100. *)
Theorem C21_shipped_table_has_a_jump : forall ttl dt, daily ttl dt -> 400 < year_of (hd 0 ttl) ->
  exists curve, build_delta_t s15_shipped ttl dt = Some curve /\ ~ continuity_pt (delta_t curve ttl dt) (1721045 - 36525).
Proof. exact shipped_jump. Qed.
Print Assumptions C21_shipped_table_has_a_jump.
Theorem C21_table_values_and_parabolas : forall s15 ttl dt eps, 0 <= eps -> historic eps s15 -> daily ttl dt -> start_year s15 < year_of (hd 0 ttl) ->
  exists curve, build_delta_t s15 ttl dt = Some curve /\
    (forall t d, In (t, d) (combine ttl dt) -> delta_t curve ttl dt t = d) /\
    (forall y, year_of y <= start_year s15 - 800 -> delta_t curve ttl dt y = long_term (year_of y)) /\
    (forall y, year_of (last ttl 0) + 800 <= year_of y -> delta_t curve ttl dt y = long_term (year_of y)).
Proof. exact delta_t_known. Qed.
Print Assumptions C21_table_values_and_parabolas.
Example C21_ex : historic 0 [Row (-720) 1000 [0; 0; -10; 10]; Row 1000 2000 [0; 0; 60; 0]] /\ daily [2451545; 2451546; 2451547] [63; 64; 66] /\ -720 < year_of 2451545.
Proof.
  split; [|split].
  - split; [discriminate|]. split; [repeat constructor; cbn; lra|]. cbn. split; [reflexivity|]. split; [|exact I].
    unfold row_at, width, horner. cbn. replace (_ - _) with 0 by field. rewrite Rabs_R0. lra.
  - split; [discriminate|]. split; [reflexivity|]. cbn. lra.
  - unfold year_of. lra.
Qed.

(** * C22 *)
(** The slope with which Delta T leaves the table, in seconds per year, compared
    with the average rate of its last year or less. *)
Theorem C22_slope_after_the_table : forall eps s15 ttl dt, 0 <= eps -> historic eps s15 -> daily ttl dt -> start_year s15 < year_of (hd 0 ttl) ->
  spaced ttl -> (2 <= length dt)%nat ->
  let n := INR (Nat.min 366 (length dt)) in
  exists curve, build_delta_t s15 ttl dt = Some curve /\
    leaves_with_slope (fun y => delta_t curve ttl dt (1721045 + 36525 / 100 * y)) (year_of (last ttl 0))
      (average_rate ttl dt * (n * (n - 1) / (365 * (36525 / 100)))).
Proof. exact slope_ratio. Qed.
Print Assumptions C22_slope_after_the_table.
(** With a year of data or more, the slope is the average rate times 366/365.25. *)
Theorem C22_full_year_partial : forall eps s15 ttl dt, 0 <= eps -> historic eps s15 -> daily ttl dt -> start_year s15 < year_of (hd 0 ttl) ->
  spaced ttl -> (366 <= length dt)%nat ->
  exists curve s, build_delta_t s15 ttl dt = Some curve /\
    leaves_with_slope (fun y => delta_t curve ttl dt (1721045 + 36525 / 100 * y)) (year_of (last ttl 0)) s /\
    Rabs (s - average_rate ttl dt) <= 21 / 10000 * Rabs (average_rate ttl dt).
Proof. exact slope_full_year. Qed.
Print Assumptions C22_full_year_partial.
(** With half a year of data or less the slope is less than a quarter of it. *)
Theorem C22_short_tables_refuted : forall eps s15 ttl dt, 0 <= eps -> historic eps s15 -> daily ttl dt -> start_year s15 < year_of (hd 0 ttl) ->
  spaced ttl -> (2 <= length dt <= 182)%nat ->
  exists curve s, build_delta_t s15 ttl dt = Some curve /\
    leaves_with_slope (fun y => delta_t curve ttl dt (1721045 + 36525 / 100 * y)) (year_of (last ttl 0)) s /\
    Rabs s <= 1 / 4 * Rabs (average_rate ttl dt).
Proof. exact slope_short. Qed.
Print Assumptions C22_short_tables_refuted.
Example C22_ex : spaced [2451545; 2451546] /\ average_rate [2451545; 2451546] [63; 64] = 36525 / 100.
Proof. split; [cbn; lra|]. unfold average_rate, year_of. cbn. field. Qed.

(** * C23 *)
(** [u] is UT1 - TAI at the start of each day. The series starts while TAI - UTC is
    12 s and reaches at least one leap second. *)
Theorem C23_leap_seconds_partial : forall leaps u later d n, leaps = (41499 :: 41683 :: later)%Z -> ascendingZ leaps ->
  (forall d, Rabs (u (d + 1)%Z - u d) < 1 / 10) ->
  tai_minus_utc leaps d = 12%Z -> (exists l, In l later /\ (l <= d + Z.of_nat n)%Z) ->
  let ds := days d (S n) in
  let known := filter (fun l => l <=? d + Z.of_nat n)%Z leaps in
  build_timescale_arrays (map IZR ds) (map (fun e => u e + IZR (tai_minus_utc leaps e)) ds) =
    (map (fun e => IZR e + (32184 / 1000 + IZR (tai_minus_utc leaps e)) / 86400 + 4800001 / 2) ds,
     map (fun e => round7 (32184 / 1000 - u e)) ds,
     map (fun l => IZR l + 4800001 / 2) known,
     map (fun l => IZR (tai_minus_utc leaps l)) known).
Proof. exact arrays_ok. Qed.
Print Assumptions C23_leap_seconds_partial.
Theorem C23_tt_minus_ut1_has_no_steps : forall u : Z -> R, (forall d, Rabs (u (d + 1)%Z - u d) < 1 / 10) -> forall d : Z,
  Rabs (round7 (32184 / 1000 - u (d + 1)%Z) - round7 (32184 / 1000 - u d)) <= Rabs (u (d + 1)%Z - u d) + 1 / 10 ^ 7.
Proof. exact delta_t_steps. Qed.
Print Assumptions C23_tt_minus_ut1_has_no_steps.
(** A series that starts with another offset: every TT - UT1 is wrong by whole
    seconds. *)
Theorem C23_other_start_refuted : forall leaps u d n, ascendingZ leaps -> (forall d, Rabs (u (d + 1)%Z - u d) < 1 / 10) ->
  let ds := days d (S n) in
  let '(_, daily_delta_t, _, _) := build_timescale_arrays (map IZR ds) (map (fun e => u e + IZR (tai_minus_utc leaps e)) ds) in
  daily_delta_t = map (fun e => round7 (32184 / 1000 - u e + IZR (12 - tai_minus_utc leaps d))) ds.
Proof. exact arrays_other. Qed.
Print Assumptions C23_other_start_refuted.
(** A series without a leap second: the leap second table is empty, and even the
    two of 1972 are missing. *)
Theorem C23_no_leap_second_refuted : forall leaps u d n, ascendingZ leaps -> (forall d, Rabs (u (d + 1)%Z - u d) < 1 / 10) ->
  (forall l, In l leaps -> (l <= d \/ d + Z.of_nat n < l)%Z) ->
  let ds := days d (S n) in
  let '(_, _, leap_dates, leap_offsets) := build_timescale_arrays (map IZR ds) (map (fun e => u e + IZR (tai_minus_utc leaps e)) ds) in
  leap_dates = [] /\ leap_offsets = [].
Proof. exact arrays_no_leap. Qed.
Print Assumptions C23_no_leap_second_refuted.
(** 1973-01-02 to 1974-01-03, with the leap second of 1974-01-01. *)
Example C23_ex : let leaps := [41499; 41683; 42048]%Z in
  ascendingZ leaps /\ tai_minus_utc leaps 41684 = 12%Z /\ (exists l, In l [42048%Z] /\ (l <= 41684 + Z.of_nat 366)%Z) /\
  (forall d : Z, Rabs (- (IZR (d + 1) / 400) - - (IZR d / 400)) < 1 / 10).
Proof.
  cbn zeta. split; [cbn; lia|]. split; [reflexivity|]. split; [exists 42048%Z; split; [left; reflexivity|lia]|].
  intros d. rewrite plus_IZR. replace (- ((IZR d + 1) / 400) - - (IZR d / 400)) with (- (1 / 400)) by field. rewrite Rabs_Ropp, Rabs_right; lra.
Qed.
