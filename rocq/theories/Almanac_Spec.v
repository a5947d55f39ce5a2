(** Vocabulary for the almanac properties. *)
From Coq Require Import Reals.
From Verif Require Import Real_Math Vector_Model Geo_Model Almanac_Model.
Open Scope R_scope.

(** Altitude, in the horizon frame of a site on the prime meridian, of the
    direction with the given declination and hour angle west. *)
Definition altitude_at (lat dec ha : R) : R := let '(alt, _, _) := altaz lat 0 (from_spherical 1 dec (0 - ha)) in alt.
(** The Sun and the Moon are elsewhere and the Earth is not inside the Moon. *)
Definition outside_the_moon (c : vec * vec) : Prop := fst c <> vzero /\ snd c <> vzero /\ 17371 / 10 <= vlength (snd c).
