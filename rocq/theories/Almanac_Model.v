(** Model of the closed formulas of skyfield/almanac.py, almanac_east_asia.py and
    eclipselib.py, over real numbers. Angles are in radians. The positions that
    feed them come from the ephemeris and are arguments here. *)
From Coq Require Import Reals ZArith List Bool.
From Verif Require Import Real_Math Vector_Model Geo_Model Float64.
Import ListNotations.
Open Scope R_scope.

(** [numpy.clip]. *)
Definition clip (x lo hi : R) : R := Rmin (Rmax x lo) hi.
(** almanac.py 315-329, [_setting_hour_angle], and 331-332, [_rising_hour_angle]. *)
Definition setting_hour_angle (lat dec altitude : R) : R :=
  acos (clip ((sin altitude - sin lat * sin dec) / (cos lat * cos dec)) (-1) 1).
Definition rising_hour_angle (lat dec altitude : R) : R := - setting_hour_angle lat dec altitude.

(** almanac.py 337-346, [_q] and [_intersection]; [None] when the divisor is zero
    (NumPy gives nan or an infinity). *)
Definition q_root (a b c sign : R) : option R :=
  let discriminant := Rmax (b * b - 4 * a * c) 0 in
  let d := b + sign * sqrt discriminant in
  if Req_EM_T d 0 then None else Some (- (2 * c) / d).
Definition intersection (y0 y1 v0 v1 : R) : option R :=
  let sign := 1 - 2 * (if Rlt_dec y1 y0 then 1 else 0) in
  q_root (y1 - y0 - v0) v0 y0 sign.

(** [x // m % n] of floats, for integer codes. *)
Definition code_of (x m : R) (n : Z) : Z := (rfloor (x / m) mod n)%Z.
(** almanac.py 74-81, [season_at]; 127-134, [moon_phase_at];
    almanac_east_asia.py 138-143, [solar_term_at]. *)
Definition season (slon : R) : Z := code_of slon (tau / 4) 4.
Definition moon_phase_code (mlon slon : R) : Z := code_of (mlon - slon) (tau / 4) 4.
Definition solar_term (slon : R) : Z := code_of slon (tau / 24) 24.
(** almanac.py 97-104, [moon_phase]. *)
Definition moon_phase (mlon slon : R) : R := rmod (mlon - slon) tau.
(** almanac.py 172-177, [leading_or_trailing]; [astype('int8')] truncates. *)
Definition opposition_code (slon tlon : R) : Z := rfloor (rmod ((slon - tlon) / PI) 2).
(** The same with binary64 numbers, from the longitudes. *)
Definition float_pi : b64 := fl 884279719003555 (-48).
Definition float_opposition_code (slon tlon : b64) : Z :=
  ftruncZ (snd (fdivmod (fdiv (fsub slon tlon) float_pi) (of_Z 2))).
(** almanac.py 206-209, [west_of_meridian_at]. *)
Definition west_of_meridian (ra1 ra2 : R) : bool := if Rlt_dec (rmod (ra1 - ra2) tau) PI then true else false.
(** almanac.py 275-282, [is_it_dark_twilight_day_at]: successive masked stores. *)
Definition twilight (degrees : R) : Z :=
  let r := 0%Z in
  let r := if Rle_dec (-18) degrees then 1%Z else r in
  let r := if Rle_dec (-12) degrees then 2%Z else r in
  let r := if Rle_dec (-6) degrees then 3%Z else r in
  if Rle_dec (- (8333 / 10000)) degrees then 4%Z else r.
(** almanac.py 240-241, [is_sun_up_at]. *)
Definition is_sun_up (degrees : R) : bool := if Rle_dec (- (8333 / 10000)) degrees then true else false.
(** almanac.py 298-305, [is_body_up_at]. *)
Definition is_body_up (horizon radius degrees : R) : bool := if Rlt_dec (horizon - radius) degrees then true else false.

(** eclipselib.py 66-134, from the maxima found by [find_maxima]: each candidate is
    the vectors from the Earth to the Sun and from the Moon to the Earth, in km. *)
Record eclipse := Eclipse { e_closest : R; e_moon : R; e_penumbra : R; e_umbra : R }.
Definition ERAD_km : R := 6378136600 / 1000000 .
Definition eclipse_angles (earth_to_sun moon_to_earth : vec) : eclipse :=
  let pi_m := ERAD_km / vlength moon_to_earth in
  let pi_s := ERAD_km / vlength earth_to_sun in
  let s_s := 696340 / vlength earth_to_sun in
  let pi_1 := 101 / 100 * pi_m in
  Eclipse (angle_between earth_to_sun moon_to_earth) (asin (17371 / 10 / vlength moon_to_earth))
          (pi_1 + pi_s + s_s) (pi_1 + pi_s - s_s).
Definition is_penumbral (e : eclipse) : bool := if Rlt_dec (e_closest e) (e_penumbra e + e_moon e) then true else false.
Definition is_partial (e : eclipse) : bool := if Rlt_dec (e_closest e) (e_umbra e + e_moon e) then true else false.
Definition is_total (e : eclipse) : bool := if Rlt_dec (e_closest e) (e_umbra e - e_moon e) then true else false.
Definition umbral_magnitude (e : eclipse) : R := (e_umbra e + e_moon e - e_closest e) / (2 * e_moon e).
Definition penumbral_magnitude (e : eclipse) : R := (e_penumbra e + e_moon e - e_closest e) / (2 * e_moon e).
Definition eclipse_code (e : eclipse) : Z := ((if is_partial e then 1 else 0) + (if is_total e then 1 else 0))%Z.
Definition lunar_eclipses (candidates : list (vec * vec)) : list (eclipse * Z) :=
  let es := map (fun c => eclipse_angles (fst c) (snd c)) candidates in
  let kept := filter is_penumbral es in
  map (fun e => (e, eclipse_code e)) kept.
