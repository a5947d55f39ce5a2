(** Vocabulary for the rotation of the Earth. *)
From Coq Require Import Reals List Sorted.
From Verif Require Import Real_Math Vector_Model Geo_Model Geo_Spec Spin_Model.
Import ListNotations.
Open Scope R_scope.

(** Equal up to whole multiples of [m]. *)
Definition same_mod (m a b : R) : Prop := exists k, a = b + m * IZR k.
(** Note to IAU resolution B1.8 of 2000, in turns, from the days of UT1 since noon
    of 2000 January 1. *)
Definition era_iau (days : R) : R := 7790572732640 / 10 ^ 13 + 100273781191135448 / 10 ^ 17 * days.
(** USNO Circular 179, equation 2.12: Greenwich mean sidereal time in seconds, from
    the Earth rotation angle in turns and the centuries of TDB. *)
Definition gmst_circular_179 (theta T : R) : R :=
  86400 * theta + (14506 / 10 ^ 6 + 4612156534 / 10 ^ 6 * T + 13915817 / 10 ^ 7 * T ^ 2
                   - 44 / 10 ^ 8 * T ^ 3 - 29956 / 10 ^ 9 * T ^ 4 - 368 / 10 ^ 10 * T ^ 5) / 15.
(** AIAA 2006-6753, appendix C: GMST of 1982 in seconds, from centuries of UT1. *)
Definition gmst_1982 (T : R) : R :=
  6731054841 / 10 ^ 5 + (876600 * 3600 + 8640184812866 / 10 ^ 6) * T + 93104 / 10 ^ 6 * T ^ 2 - 62 / 10 ^ 7 * T ^ 3.
Definition centuries (jd : R) : R := (jd - 2451545) / 36525.

(** The right ascension, in hours, of a direction given in equatorial axes. *)
Definition has_right_ascension (v : vec) (hours : R) : Prop :=
  exists r dec, 0 < r /\ - (PI / 2) < dec < PI / 2 /\ v = from_spherical r dec (hours * (PI / 12)).
(** Hours of sidereal time, or of longitude, as an angle. *)
Definition hours_to_radians (h : R) : R := h * (PI / 12).
(** A time whose Earth rotation angle is advanced by some days, all else equal. *)
Definition turned (t : moment) (days : R) : moment :=
  Moment (whole t) (tt_fraction t) (tdb_fraction t) (ut1_fraction t + days) (d_psi t) (d_eps t) (c_terms t) (polar_motion_table t).
Definition one_second : R := 1 / 86400.
(** The radians the Earth turns in one day of UT1. *)
Definition spin_rate : R := 2 * PI * (100273781191135448 / 10 ^ 17).
(** The matrix that swings the pole of the frame to [x], [y] (radians), once the
    origin of longitudes is shifted by [s]. *)
Definition wobble (s x y : R) : mat := mxm (rot_x y) (mxm (rot_y x) (rot_z (- s))).
(** A table of increasing times. *)
Definition increasing (l : list (R * R * R)) : Prop := StronglySorted Rlt (map (fun row => fst (fst row)) l).
(** The straight line through two points. *)
Definition line (a ya b yb x : R) : R := ya + (yb - ya) * ((x - a) / (b - a)).
