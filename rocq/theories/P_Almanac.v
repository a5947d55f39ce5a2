From Coq Require Import Reals ZArith List Bool Lra.
From Verif Require Import Real_Math Real_Math_Proofs Vector_Model Geo_Model Float64 Almanac_Model Almanac_Spec Almanac_Proofs.
Import ListNotations.
Open Scope R_scope.

(** * C31 *)
Theorem C31_altitude_is_reached : forall lat dec h, - (PI / 2) < lat < PI / 2 -> - (PI / 2) < dec < PI / 2 -> - (PI / 2) <= h <= PI / 2 ->
  (exists ha, altitude_at lat dec ha = h) ->
  altitude_at lat dec (setting_hour_angle lat dec h) = h /\ altitude_at lat dec (rising_hour_angle lat dec h) = h.
Proof. exact setting_exact. Qed.
Print Assumptions C31_altitude_is_reached.
(** Above before setting, below after it. *)
Theorem C31_above_before_and_below_after : forall lat dec h ha,
  - (PI / 2) < lat < PI / 2 -> - (PI / 2) < dec < PI / 2 -> - (PI / 2) <= h <= PI / 2 -> - PI <= ha <= PI ->
  (Rabs ha < setting_hour_angle lat dec h -> h < altitude_at lat dec ha) /\
  (setting_hour_angle lat dec h < Rabs ha -> altitude_at lat dec ha < h).
Proof. exact setting_sides. Qed.
Print Assumptions C31_above_before_and_below_after.
(** Below before rising, above after it. *)
Theorem C31_below_before_and_above_after : forall lat dec h ha,
  - (PI / 2) < lat < PI / 2 -> - (PI / 2) < dec < PI / 2 -> - (PI / 2) <= h <= PI / 2 -> - PI <= ha <= 0 ->
  (ha < rising_hour_angle lat dec h -> altitude_at lat dec ha < h) /\
  (rising_hour_angle lat dec h < ha -> h < altitude_at lat dec ha).
Proof. exact rising_sides. Qed.
Print Assumptions C31_below_before_and_above_after.
Theorem C31_never_sets_and_never_rises : forall lat dec h, - (PI / 2) < lat < PI / 2 -> - (PI / 2) < dec < PI / 2 -> - (PI / 2) <= h <= PI / 2 ->
  ((forall ha, h < altitude_at lat dec ha) -> setting_hour_angle lat dec h = PI) /\
  ((forall ha, altitude_at lat dec ha < h) -> setting_hour_angle lat dec h = 0).
Proof. exact setting_clipped. Qed.
Print Assumptions C31_never_sets_and_never_rises.
Example C31_ex : setting_hour_angle 0 0 0 = PI / 2 /\ exists ha, altitude_at 0 0 ha = 0.
Proof.
  pose proof PI_RGT_0. split.
  - unfold setting_hour_angle. rewrite sin_0, cos_0. replace ((0 - 0 * 0) / (1 * 1)) with 0 by field. unfold clip, Rmax, Rmin. destruct (Rle_dec 0 (-1)); [lra|]. destruct (Rle_dec 0 1); [|lra]. apply acos_0.
  - exists (PI / 2). destruct (altitude_sin 0 0 (PI / 2)) as [B E]. apply sin_inj_eq; [lra|lra|]. rewrite E, cos_PI2, sin_0. ring.
Qed.

(** * C32 *)
Theorem C32_crossing : forall y0 y1 v0 v1, y0 <> 0 -> y0 * y1 <= 0 ->
  exists x, intersection y0 y1 v0 v1 = Some x /\ 0 < x <= 1 /\
    let parabola s := (y1 - y0 - v0) * (s * s) + v0 * s + y0 in
    parabola x = 0 /\ parabola 0 = y0 /\ parabola 1 = y1.
Proof. exact intersection_ok. Qed.
Print Assumptions C32_crossing.
(** A first altitude exactly on the target is not covered: 0/0 is computed. *)
Theorem C32_start_on_the_target : forall y1 v, 0 < y1 -> v <= 0 -> intersection 0 y1 v 0 = None.
Proof. exact intersection_touch. Qed.
Print Assumptions C32_start_on_the_target.
Example C32_ex : (-1) <> 0 /\ (-1) * 3 <= 0.
Proof. split; lra. Qed.

(** * C33 *)
(** The statement is about floats; these theorems are in exact arithmetic. *)
Theorem C33_codes_in_range_partial : forall slon mlon,
  (0 <= season slon < 4)%Z /\ (0 <= moon_phase_code mlon slon < 4)%Z /\ (0 <= solar_term slon < 24)%Z.
Proof. exact codes_range. Qed.
Print Assumptions C33_codes_in_range_partial.
(** Each code names the sector that contains the longitude. *)
Theorem C33_codes_are_sectors_partial : forall x m n, 0 < m -> (0 < n)%Z -> 0 <= x < IZR n * m ->
  IZR (code_of x m n) * m <= x < (IZR (code_of x m n) + 1) * m.
Proof. exact code_in_range. Qed.
Print Assumptions C33_codes_are_sectors_partial.
Theorem C33_named_sectors_partial : forall mlon slon, 0 <= mlon < tau -> 0 <= slon < tau ->
  IZR (season slon) * (PI / 2) <= slon < (IZR (season slon) + 1) * (PI / 2) /\
  IZR (solar_term slon) * (PI / 12) <= slon < (IZR (solar_term slon) + 1) * (PI / 12) /\
  IZR (moon_phase_code mlon slon) * (PI / 2) <= moon_phase mlon slon < (IZR (moon_phase_code mlon slon) + 1) * (PI / 2) /\
  (moon_phase mlon slon = mlon - slon \/ moon_phase mlon slon = mlon - slon + tau).
Proof. exact named_sectors. Qed.
Print Assumptions C33_named_sectors_partial.
Theorem C33_codes_wrap_partial : forall x m n, 0 < m -> (0 < n)%Z ->
  exists k : Z, IZR (code_of x m n) * m <= x + IZR k * (IZR n * m) < (IZR (code_of x m n) + 1) * m.
Proof. exact code_ok. Qed.
Print Assumptions C33_codes_wrap_partial.
Theorem C33_opposition_codes_partial : forall slon tlon, (opposition_code slon tlon = 0 \/ opposition_code slon tlon = 1)%Z /\
  (opposition_code slon tlon = 0%Z <-> rmod (slon - tlon) tau < PI).
Proof. exact opposition_ok. Qed.
Print Assumptions C33_opposition_codes_partial.
(** In binary64 a target just east of the Sun gets the undocumented code 2. *)
Theorem C33_opposition_code_2_refuted : exists slon tlon,
  fleb (of_Z 0) slon = true /\ fltb slon (of_Z 6) = true /\ fltb slon tlon = true /\ fltb tlon (of_Z 6) = true /\
  float_opposition_code slon tlon = 2%Z.
Proof. exact opposition_float. Qed.
Print Assumptions C33_opposition_code_2_refuted.
Theorem C33_twilight_levels : forall x, (0 <= twilight x <= 4)%Z /\
  ((1 <= twilight x)%Z <-> -18 <= x) /\ ((2 <= twilight x)%Z <-> -12 <= x) /\ ((3 <= twilight x)%Z <-> -6 <= x) /\
  (twilight x = 4%Z <-> is_sun_up x = true).
Proof. exact twilight_ok. Qed.
Print Assumptions C33_twilight_levels.
Theorem C33_twilight_is_monotone : forall x y, x <= y -> (twilight x <= twilight y)%Z.
Proof. exact twilight_mono. Qed.
Print Assumptions C33_twilight_is_monotone.
Example C33_ex : 0 < tau / 4 /\ 0 <= 3 < IZR 4 * (tau / 4).
Proof. pose proof PI2_3_2. unfold tau. split; [|split]; lra. Qed.

(** * C34 *)
Theorem C34_one_class_each : forall cs, Forall outside_the_moon cs ->
  map fst (lunar_eclipses cs) = filter is_penumbral (map (fun c => eclipse_angles (fst c) (snd c)) cs) /\
  Forall (fun p => let '(e, code) := p in
    (code = 0%Z /\ is_partial e = false \/ code = 1%Z /\ is_partial e = true /\ is_total e = false \/ code = 2%Z /\ is_total e = true) /\
    is_penumbral e = true /\ (is_total e = true -> is_partial e = true)) (lunar_eclipses cs).
Proof. exact eclipses_ok. Qed.
Print Assumptions C34_one_class_each.
Theorem C34_classes_nest_and_match_magnitudes : forall es me, es <> vzero -> me <> vzero -> 17371 / 10 <= vlength me ->
  let e := eclipse_angles es me in
  (is_total e = true -> is_partial e = true) /\ (is_partial e = true -> is_penumbral e = true) /\
  (is_total e = true <-> 1 < umbral_magnitude e) /\ (is_partial e = true <-> 0 < umbral_magnitude e) /\
  (is_penumbral e = true <-> 0 < penumbral_magnitude e).
Proof. exact nested. Qed.
Print Assumptions C34_classes_nest_and_match_magnitudes.
Example C34_ex : Forall outside_the_moon [(V3 150000000 0 0, V3 384400 0 0)].
Proof.
  constructor; [|constructor]. split; [|split]; cbn; [intros E; injection E; lra|intros E; injection E; lra|].
  unfold vlength. cbn. replace (384400 * 384400 + 0 * 0 + 0 * 0) with (384400 * 384400) by ring. rewrite sqrt_square; lra.
Qed.
