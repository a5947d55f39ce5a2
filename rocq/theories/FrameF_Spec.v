(** The rotations from the axes of the sky, exactly, from the values of the float angles. *)
From Coq Require Import ZArith Reals.
From Flocq Require Import Core BinarySingleNaN.
From Verif Require Import Float64 Float64_Proofs Vector_Model Geo_Model SepF_Spec RotF_Model FrameF_Model.
Open Scope R_scope.

(** A finite float of about one turn at most. *)
Definition usual (a : b64) : Prop := exists b : bf, a = B2SF b /\ is_finite b = true /\ Rabs (B2R b) <= 7.
Definition usual_date (t : angles) : Prop :=
  usual (a_eps0 t) /\ usual (a_psia t) /\ usual (a_omegaa t) /\ usual (a_chia t) /\ usual (a_mean t) /\ usual (a_true t) /\ usual (a_psi t) /\ usual (a_gast t) /\
  match a_pole t with None => True | Some (y, x, s) => usual y /\ usual x /\ usual s end.
Definition val (a : b64) : R := SF2R radix2 a.
(** The frame bias as a rotation. *)
Definition exact_bias : mat := mxm (rot_x (val eta0)) (mxm (rot_y (- val xi0)) (rot_z (- val da0))).
(** From the axes of the sky to the true equator and equinox. *)
Definition exact_M (t : angles) (v : vec) : vec :=
  mxv (build_nutation_matrix (val (a_mean t)) (val (a_true t)) (val (a_psi t)))
    (mxv (precession_of_angles (val (a_eps0 t)) (val (a_psia t)) (val (a_omegaa t)) (val (a_chia t))) (mxv exact_bias v)).
(** To the axes of the Earth. *)
Definition exact_itrs (t : angles) (v : vec) : vec :=
  let w := mxv (rot_z (val (a_gast t))) (exact_M t v) in
  match a_pole t with None => w | Some (y, x, s) => mxv (rot_x (val y)) (mxv (rot_y (val x)) (mxv (rot_z (val s)) w)) end.
(** To the horizon of a place. *)
Definition exact_altaz (lat lon : b64) (t : angles) (v : vec) : vec := mxv (R_latlon (val lat) (val lon)) (exact_itrs t v).
(** To the ecliptic of date. *)
Definition exact_ecliptic (t : angles) (v : vec) : vec := mxv (rot_x (- val (a_true t))) (exact_M t v).
