(** Precession, the ecliptic of date and sidereal time (C147-C149). *)
From Coq Require Import Reals Lra.
From Verif Require Import Real_Math Vector_Model Geo_Model Spin_Model Frames_Model Frames_Spec Precession_Spec Precession_Proofs3 Precession_Proofs4.
Open Scope R_scope.

(** * C147 *)
Theorem C147_four_angles_agree_with_three : forall jd, let T := (jd - 2451545) / 36525 in
  (Rabs T <= 1 -> close (compute_precession jd) (three_angles T) (2 / 10 ^ 12)) /\ (Rabs T <= 10 -> close (compute_precession jd) (three_angles T) (2 / 10 ^ 8)).
Proof. exact precession_agrees. Qed.
Print Assumptions C147_four_angles_agree_with_three.
Example C147_ex : Rabs ((2433282.5 - 2451545) / 36525) <= 1. Proof. apply Rabs_le. lra. Qed.

(** * C148 *)
Theorem C148_pole_of_the_mean_ecliptic : forall jd, let T := (jd - 2451545) / 36525 in let v := mxv (rot_x (- (mean_obliquity jd * arcsecond))) (mxv (compute_precession jd) (ecliptic_pole T)) in
  (Rabs T <= 1 -> vclose v (V3 0 0 1) (4 / 10 ^ 13)) /\ (Rabs T <= 10 -> vclose v (V3 0 0 1) (21 / 10 ^ 9)).
Proof. exact pole_agrees. Qed.
Print Assumptions C148_pole_of_the_mean_ecliptic.
(** Whatever the nutation: [t] is any moment. *)
Theorem C148_pole_of_the_ecliptic_frame : forall t v, let T := (tdb_of t - 2451545) / 36525 in mxv bias v = ecliptic_pole T ->
  (Rabs T <= 1 -> vclose (mxv (build_ecliptic_matrix t) v) (V3 0 0 1) (1 / 10 ^ 12)) /\ (Rabs T <= 10 -> vclose (mxv (build_ecliptic_matrix t) v) (V3 0 0 1) (5 / 10 ^ 8)).
Proof. exact ecliptic_of_date_pole. Qed.
Print Assumptions C148_pole_of_the_ecliptic_frame.
Example C148_ex : forall T, exists v, mxv bias v = ecliptic_pole T. Proof. exact pole_seen. Qed.

(** * C149 *)
(** [F] is what mean sidereal time has more than the Earth rotation angle. *)
Theorem C149_sidereal_time_follows_the_equinox : exists F F' : R -> R,
  (forall w u d, exists k, sidereal_time w u d = 24 * (earth_rotation_angle w u + F ((w - T0 + d) / 36525) / (2 * PI) + IZR k)) /\
  (forall t, derivable_pt_lim F t (F' t)) /\
  (forall t d, Rabs t <= 10 -> vderiv (fun t => r1 (compute_precession (T0 + 36525 * t))) t d ->
     arcsec 0.0034 <= - (F' t + dot d (r2 (compute_precession (T0 + 36525 * t)))) <= arcsec 0.0044).
Proof. exact sidereal_follows. Qed.
Print Assumptions C149_sidereal_time_follows_the_equinox.
Example C149_ex : forall t, exists d, vderiv (fun t => r1 (compute_precession (T0 + 36525 * t))) t d. Proof. exact equinox_moves. Qed.
