(** Vocabulary for the places of comets and minor planets. *)
From Coq Require Import Reals.
From Verif Require Import Real_Math Vector_Model Geo_Model Geo_Spec Kepler_Spec.
Open Scope R_scope.

(** The place on an ellipse, a hyperbola and a parabola with its focus at the origin,
    [i], [Om] and [w] in radians; [E] and [F] are the eccentric anomalies, [v] the true
    one. *)
Definition on_ellipse (a e i Om w E : R) : vec :=
  vadd (smul (a * (cos E - e)) (along i Om w)) (smul (a * sqrt (1 - e * e) * sin E) (ahead i Om w)).
Definition on_hyperbola (a e i Om w F : R) : vec :=
  vadd (smul (a * (e - cosh F)) (along i Om w)) (smul (a * sqrt (e * e - 1) * sinh F) (ahead i Om w)).
Definition on_parabola (q i Om w v : R) : vec :=
  vadd (smul (q * (1 - tan (v / 2) ^ 2)) (along i Om w)) (smul (2 * q * tan (v / 2)) (ahead i Om w)).
(** Kepler's third law: the mean motion in radians per day, [mu] in au^3/day^2. *)
Definition daily_motion (a mu : R) : R := sqrt (mu / a ^ 3).
(** A mass in km^3/s^2 as au^3/day^2. *)
Definition au3_per_day2 (gm : R) : R := gm * 86400 ^ 2 / 149597870.7 ^ 3.
