(** C186: the angles of precession in binary64. *)
From Coq Require Import ZArith Reals.
From Flocq Require Import Core BinarySingleNaN.
From Verif Require Import Float64 Float64_Proofs SexaF_Proofs2 Spin_Spec Wrap_Spec EraF_Proofs PrecF_Model PrecF_Spec PrecF_Proofs.
Open Scope R_scope.

(** The four angles from which the precession matrix is made are the polynomials of
    Capitaine and others, to 2e-16 radians; chi to 2e-18. *)
Theorem C186_precession_angles : forall jd : bf, is_finite jd = true -> Rabs (B2R jd - 2451545) <= 262000 ->
  let a := precession_angles64 (B2SF jd) in let T := centuries (B2R jd) in
  near_angle (2 / 10 ^ 16) (pa_psia a) (psi_2003 T * arcsecond_25) /\ near_angle (2 / 10 ^ 16) (pa_omegaa a) (omega_2003 T * arcsecond_25) /\ near_angle (2 / 10 ^ 18) (pa_chia a) (chi_2003 T * arcsecond_25) /\ near_angle (2 / 10 ^ 16) (pa_eps0 a) (84381406 / 10 ^ 3 * arcsecond_25).
Proof. exact angles_close. Qed.
Print Assumptions C186_precession_angles.
(** The term sprime of the pole is 47 microarcseconds a century, backwards, to 2e-19
    arcseconds. *)
Theorem C186_sprime : forall jd : bf, is_finite jd = true -> Rabs (B2R jd - 2451545) <= 262000 -> near_angle (2 / 10 ^ 19) (sprime64 (B2SF jd)) (- (47 / 10 ^ 6) * centuries (B2R jd)).
Proof. exact sprime_close. Qed.
Print Assumptions C186_sprime.
(** The hypotheses hold at JD 2460000. *)
Example C186_ex : exists w f : bf, is_finite w = true /\ within (-1) 1 f /\ B2R w = 2460000 /\ B2R f = 1 / 4 /\ Rabs (B2R w - 2451545) <= 262000 /\ Rabs (B2R w - 2451545) <= bpow radix2 18 - 2.
Proof. exact era_example. Qed.
Print Assumptions C186_ex.
