(** C185: the mean obliquity and the sidereal time of 1982 in binary64. *)
From Coq Require Import ZArith Reals.
From Flocq Require Import Core BinarySingleNaN.
From Verif Require Import Float64 Float64_Proofs SexaF_Proofs2 Spin_Spec Wrap_Spec EraF_Proofs ObliqF_Model ObliqF_Spec ObliqF_Proofs.
Open Scope R_scope.

(** The mean obliquity is the polynomial of Capitaine and others to 30 picoarcseconds. *)
Theorem C185_mean_obliquity : forall jd : bf, is_finite jd = true -> Rabs (B2R jd - 2451545) <= 262000 ->
  exists s : bf, mean_obliquity64 (B2SF jd) = B2SF s /\ is_finite s = true /\ Rabs (B2R s - obliquity_2003 (centuries (B2R jd))) <= 3 / 10 ^ 11.
Proof. exact obliquity_close. Qed.
Print Assumptions C185_mean_obliquity.
(** The angle of 1982 lies between 0 and [tau] and, up to whole turns, is that of
    AIAA 2006-6753 to 6e-12 radians. *)
Theorem C185_theta : forall w f : bf, is_finite w = true -> within (-1) 1 f -> Rabs (B2R w - 2451545) <= 262000 ->
  folded 0 tau_float (6 / 10 ^ 12) (tau_float * (gmst_1982 (centuries (B2R w + B2R f)) / 86400)) (fst (theta_GMST1982_64 (B2SF w) (B2SF f))).
Proof. exact theta_close. Qed.
Print Assumptions C185_theta.
(** The velocity returned with it is the derivative of that sidereal time, in radians a
    day, to 2e-15. *)
Theorem C185_theta_dot : forall w f : bf, is_finite w = true -> within (-1) 1 f -> Rabs (B2R w - 2451545) <= 262000 ->
  exists (b : bf) (v : R), snd (theta_GMST1982_64 (B2SF w) (B2SF f)) = B2SF b /\ is_finite b = true /\ derivable_pt_lim gmst_1982 (centuries (B2R w + B2R f)) v /\ Rabs (B2R b - tau_float * (v / 36525 / 86400)) <= 2 / 10 ^ 15.
Proof. exact theta_dot_close. Qed.
Print Assumptions C185_theta_dot.
(** The hypotheses hold at JD 2460000.25. *)
Example C185_ex : exists w f : bf, is_finite w = true /\ within (-1) 1 f /\ B2R w = 2460000 /\ B2R f = 1 / 4 /\ Rabs (B2R w - 2451545) <= 262000 /\ Rabs (B2R w - 2451545) <= bpow radix2 18 - 2.
Proof. exact era_example. Qed.
Print Assumptions C185_ex.
