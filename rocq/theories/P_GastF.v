(** C191: apparent sidereal time in binary64. *)
From Coq Require Import ZArith Reals.
From Flocq Require Import Core BinarySingleNaN.
From Verif Require Import Float64 Float64_Proofs SexaF_Proofs2 Spin_Spec Wrap_Spec SphF_Spec EraF_Proofs GastF_Model GastF_Proofs.
Open Scope R_scope.

(** From a nutation in longitude [d], a mean obliquity [e] and complementary terms [c] in
    radians, apparent sidereal time lies between 0 and 24 hours and is mean sidereal time
    plus the equation of the equinoxes, less whole days, to 7.05e-12 hours. *)
Theorem C191_apparent_sidereal_time : forall (g : b64 -> b64) (w fu ft d e c : bf), good_function g cos -> is_finite w = true -> within (-1) 1 fu -> within (-1) 1 ft -> Rabs (B2R w - 2451545) <= 262000 -> within (- / 1024) (/ 1024) d -> within (-7) 7 e -> within (- / 1024) (/ 1024) c ->
  folded 0 24 (705 / 10 ^ 14) (gmst_circular_179 (era_iau (B2R w + B2R fu - 2451545)) (centuries (B2R w + B2R ft)) / 3600 + (B2R d * cos (B2R e) + B2R c) / tau_float * 24)
    (apparent_sidereal_time64 g (B2SF w) (B2SF fu) (B2SF ft) (B2SF d) (B2SF e) (B2SF c)).
Proof. exact gast_close. Qed.
Print Assumptions C191_apparent_sidereal_time.
(** The equation of the equinoxes itself is good to 6e-19 radians. *)
Theorem C191_equation_of_the_equinoxes : forall (g : b64 -> b64) (d e c : bf), good_function g cos -> within (- / 1024) (/ 1024) d -> within (-7) 7 e -> within (- / 1024) (/ 1024) c ->
  exists v : bf, equinoxes64 g (B2SF d) (B2SF e) (B2SF c) = B2SF v /\ is_finite v = true /\ Rabs (B2R v - (B2R d * cos (B2R e) + B2R c)) <= 6 / 10 ^ 19 /\ Rabs (B2R d * cos (B2R e) + B2R c) <= / 512.
Proof. exact equinoxes_close. Qed.
Print Assumptions C191_equation_of_the_equinoxes.
(** The hypotheses hold at JD 2460000.25, with a nutation of 9 arcseconds, and the cosine
    rounded to nearest. *)
Example C191_ex : exists (g : b64 -> b64) (w f d e c : bf), good_function g cos /\ is_finite w = true /\ within (-1) 1 f /\ B2R w = 2460000 /\ B2R f = 1 / 4 /\ Rabs (B2R w - 2451545) <= 262000 /\ within (- / 1024) (/ 1024) d /\ B2R d = -3 / 65536 /\ within (-7) 7 e /\ B2R e = 13 / 32 /\ within (- / 1024) (/ 1024) c /\ B2R c = 1 / 134217728.
Proof. exact gast_example. Qed.
Print Assumptions C191_ex.
