(** What the precession of the equinoxes is compared with: the other published expressions
    of the IAU 2006 theory (Capitaine, Wallace and Chapront 2003; IERS Conventions 2010,
    5.6.4; USNO Circular 179), and the motion of the equinox along the equator.
    [T] is in Julian centuries from J2000. *)
From Coq Require Import Reals.
From Verif Require Import Vector_Model Geo_Model.
Open Scope R_scope.

Definition arcsec (a : R) : R := a * (PI / 648000).
(** Rotations of the axes, as written in astronomy. *)
Definition R1 (a : R) : mat := M3 (V3 1 0 0) (V3 0 (cos a) (sin a)) (V3 0 (- sin a) (cos a)).
Definition R2 (a : R) : mat := M3 (V3 (cos a) 0 (- sin a)) (V3 0 1 0) (V3 (sin a) 0 (cos a)).
Definition R3 (a : R) : mat := M3 (V3 (cos a) (sin a) 0) (V3 (- sin a) (cos a) 0) (V3 0 0 1).

(** The three equatorial angles. *)
Definition zeta_A (T : R) : R := arcsec (2.650545 + 2306.083227 * T + 0.2988499 * T ^ 2 + 0.01801828 * T ^ 3 - 0.000005971 * T ^ 4 - 0.0000003173 * T ^ 5).
Definition z_A (T : R) : R := arcsec (- 2.650545 + 2306.077181 * T + 1.0927348 * T ^ 2 + 0.01826837 * T ^ 3 - 0.000028596 * T ^ 4 - 0.0000002904 * T ^ 5).
Definition theta_A (T : R) : R := arcsec (2004.191903 * T - 0.4294934 * T ^ 2 - 0.04182264 * T ^ 3 - 0.000007089 * T ^ 4 - 0.0000001274 * T ^ 5).
Definition three_angles (T : R) : mat := mxm (R3 (- z_A T)) (mxm (R2 (theta_A T)) (R3 (- zeta_A T))).

(** The pole of the ecliptic of date, in the equatorial frame of J2000. *)
Definition P_A (T : R) : R := arcsec (4.199094 * T + 0.1939873 * T ^ 2 - 0.00022466 * T ^ 3 - 0.000000912 * T ^ 4 + 0.0000000120 * T ^ 5).
Definition Q_A (T : R) : R := arcsec (- 46.811015 * T + 0.0510283 * T ^ 2 + 0.00052413 * T ^ 3 - 0.000000646 * T ^ 4 - 0.0000000172 * T ^ 5).
Definition ecliptic_pole (T : R) : vec :=
  mxv (R1 (- arcsec 84381.406)) (V3 (P_A T) (- Q_A T) (sqrt (1 - P_A T ^ 2 - Q_A T ^ 2))).

(** A vector with its derivative. *)
Definition vderiv (v : R -> vec) (t : R) (d : vec) : Prop :=
  derivable_pt_lim (fun t => vx (v t)) t (vx d) /\ derivable_pt_lim (fun t => vy (v t)) t (vy d) /\ derivable_pt_lim (fun t => vz (v t)) t (vz d).
