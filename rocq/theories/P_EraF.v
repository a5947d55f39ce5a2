(** C184: the Earth rotation angle and sidereal time in binary64. *)
From Coq Require Import ZArith Reals.
From Flocq Require Import Core BinarySingleNaN.
From Verif Require Import Float64 Float64_Proofs SexaF_Proofs2 Spin_Spec Wrap_Model Wrap_Spec EraF_Model EraF_Proofs.
Open Scope R_scope.

(** For dates within [2^k - 2] days of J2000 the angle lies between 0 and 1 turn and differs
    from the angle of the IAU by a whole number of turns, to [5/2^(62-k) + 1/2^50]. *)
Theorem C184_earth_rotation_angle : forall k (jd fr : bf), (10 <= k <= 22)%Z -> is_finite jd = true -> within (-1) 1 fr -> Rabs (B2R jd - 2451545) <= bpow radix2 k - 2 ->
  folded 0 1 (5 * bpow radix2 (k - 62) + / 2 ^ 50) (era_iau (B2R jd + B2R fr - 2451545)) (earth_rotation_angle64 (B2SF jd) (B2SF fr)).
Proof. exact era_close. Qed.
Print Assumptions C184_earth_rotation_angle.
(** For dates within 262000 days of J2000 sidereal time lies between 0 and 24 hours and
    differs from that of USNO Circular 179 by a whole number of days, to 7e-12 hours. *)
Theorem C184_sidereal_time : forall w fu ft : bf, is_finite w = true -> within (-1) 1 fu -> within (-1) 1 ft -> Rabs (B2R w - 2451545) <= 262000 ->
  folded 0 24 (7 / 10 ^ 12) (gmst_circular_179 (era_iau (B2R w + B2R fu - 2451545)) (centuries (B2R w + B2R ft)) / 3600) (sidereal_time64 (B2SF w) (B2SF fu) (B2SF ft)).
Proof. exact gmst_close. Qed.
Print Assumptions C184_sidereal_time.
(** From the equation of the equinoxes [eq], a longitude in hours and the term [sprime] in
    arcseconds, the local sidereal time is good to 7.1e-12 hours. *)
Theorem C184_local_sidereal_time : forall w fu ft eq lon sprime : bf, is_finite w = true -> within (-1) 1 fu -> within (-1) 1 ft -> Rabs (B2R w - 2451545) <= 262000 -> within (-1) 1 eq -> within (-24) 24 lon -> within (-54000) 54000 sprime ->
  folded 0 24 (71 / 10 ^ 13) (gmst_circular_179 (era_iau (B2R w + B2R fu - 2451545)) (centuries (B2R w + B2R ft)) / 3600 + B2R eq / tau_float * 24 + B2R lon + B2R sprime / 54000)
    (lst64 (gast64 (sidereal_time64 (B2SF w) (B2SF fu) (B2SF ft)) (B2SF eq)) (B2SF lon) (B2SF sprime)).
Proof. exact lst_close. Qed.
Print Assumptions C184_local_sidereal_time.
(** The hypotheses hold at JD 2460000.25. *)
Example C184_ex : exists w f : bf, is_finite w = true /\ within (-1) 1 f /\ B2R w = 2460000 /\ B2R f = 1 / 4 /\ Rabs (B2R w - 2451545) <= 262000 /\ Rabs (B2R w - 2451545) <= bpow radix2 18 - 2.
Proof. exact era_example. Qed.
Print Assumptions C184_ex.
