(** C102-C106: the rotation of the Earth. *)
From Coq Require Import Reals List Lra Sorted.
From Verif Require Import Real_Math Vector_Model Geo_Model Geo_Spec Geo_Proofs2 Geo_Proofs3 Pi_Bounds Spin_Model Spin_Spec Spin_Proofs Spin_Proofs2 Spin_Proofs3 Spin_Proofs4.
Import ListNotations.
Open Scope R_scope.

(** * C102 *)
Theorem C102_earth_rotation_angle : forall jd fraction,
  0 <= earth_rotation_angle jd fraction < 1 /\ same_mod 1 (earth_rotation_angle jd fraction) (era_iau (jd + fraction - 2451545)).
Proof. exact (fun jd fr => conj (era_range jd fr) (era_ok jd fr)). Qed.
Print Assumptions C102_earth_rotation_angle.
Theorem C102_however_the_date_is_split : forall jd fraction jd' fraction', jd + fraction = jd' + fraction' ->
  earth_rotation_angle jd fraction = earth_rotation_angle jd' fraction'.
Proof. exact era_split. Qed.
Print Assumptions C102_however_the_date_is_split.
Theorem C102_one_day : forall jd fraction,
  same_mod 1 (earth_rotation_angle jd (fraction + 1)) (earth_rotation_angle jd fraction + 273781191135448 / 10 ^ 17).
Proof. exact era_day. Qed.
Print Assumptions C102_one_day.
Theorem C102_mean_sidereal_time : forall t, 0 <= gmst t < 24 /\
  same_mod 24 (gmst t) (gmst_circular_179 (era_iau (ut1_of t - 2451545)) (centuries (tdb_of t)) / 3600).
Proof. exact (fun t => conj (gmst_range t) (gmst_ok t)). Qed.
Print Assumptions C102_mean_sidereal_time.
Theorem C102_apparent_sidereal_time : forall t, 0 <= gast t < 24 /\
  same_mod 24 (gast t - gmst t) ((d_psi t * cos (mean_obliquity (tdb_of t) * (PI / 648000)) + c_terms t) * (12 / PI)).
Proof. exact (fun t => conj (gast_range t) (gast_ok t)). Qed.
Print Assumptions C102_apparent_sidereal_time.
Example C102_ex : earth_rotation_angle T0 0 = 7790572732640 / 10 ^ 13 /\ T0 + 1 / 4 = (T0 - 1 / 2) + 3 / 4.
Proof.
  split; [|lra]. apply (sm_unique 1); [lra|apply era_range|lra|]. eapply sm_trans; [apply era_ok|]. apply sm_eq. unfold era_iau, T0. lra.
Qed.

(** * C103 *)
Theorem C103_both_routes_to_the_terrestrial_frame : forall t,
  mxm (rot_z (- (2 * PI * earth_rotation_angle (whole t) (ut1_fraction t)))) (C_of t) = tirs_rotation_at t.
Proof. exact routes_agree. Qed.
Print Assumptions C103_both_routes_to_the_terrestrial_frame.
Theorem C103_equation_of_the_origins : forall t p ra, has_right_ascension (mxv (M_of t) p) ra ->
  has_right_ascension (mxv (C_of t) p) (ra + (24 * earth_rotation_angle (whole t) (ut1_fraction t) - gast t)).
Proof. exact cirs_ra. Qed.
Print Assumptions C103_equation_of_the_origins.
Theorem C103_hour_angle_from_the_equinox : forall lon t p ra, has_right_ascension (mxv (M_of t) p) ra ->
  exists ha dec r, hadec lon (mxv (tirs_rotation_at t) p) = (ha, dec, r) /\
    same_mod 24 (ha * (12 / PI)) (gast t + lon * (12 / PI) - ra).
Proof. exact ha_of_date. Qed.
Print Assumptions C103_hour_angle_from_the_equinox.
Theorem C103_hour_angle_from_the_origin : forall lon t p ra, has_right_ascension (mxv (C_of t) p) ra ->
  exists ha dec r, hadec lon (mxv (tirs_rotation_at t) p) = (ha, dec, r) /\
    same_mod 24 (ha * (12 / PI)) (24 * earth_rotation_angle (whole t) (ut1_fraction t) + lon * (12 / PI) - ra).
Proof. exact ha_cirs. Qed.
Print Assumptions C103_hour_angle_from_the_origin.
Theorem C103_right_ascension_is_unique : forall v a b, has_right_ascension v a -> has_right_ascension v b -> same_mod 24 a b.
Proof. exact ra_unique. Qed.
Print Assumptions C103_right_ascension_is_unique.
(** The zenith [z] of a place, in equatorial axes of date, stands at the local
    sidereal time; with polar motion, as closely as the pole is displaced. *)
Theorem C103_zenith : forall lat lon t z, - (PI / 2) < lat < PI / 2 -> mxv (itrs_rotation_at t) z = up lat (hours_to_radians lon) ->
  polar_motion_angles t = (- (47.0e-6) * (tdb_of t - T0) / 36525, 0, 0) ->
  has_right_ascension (mxv (M_of t) z) (lst_hours_at lon t).
Proof. exact zenith_exact. Qed.
Print Assumptions C103_zenith.
Theorem C103_zenith_and_the_pole : forall lat lon t z, mxv (itrs_rotation_at t) z = up lat (hours_to_radians lon) ->
  let '(s, x, y) := polar_motion_angles t in 0 <= lst_hours_at lon t < 24 /\
  vlength (vsub (mxv (M_of t) z) (up lat (hours_to_radians (lst_hours_at lon t)))) <=
    (Rabs x + Rabs y + Rabs (- (47.0e-6) * (tdb_of t - T0) / 36525 - s)) * arcsecond.
Proof. exact zenith_both. Qed.
Print Assumptions C103_zenith_and_the_pole.
Example C103_ex : has_right_ascension (V3 0 3 4) 6 /\ polar_motion_angles (j2000 None) = (- (47.0e-6) * (tdb_of (j2000 None) - T0) / 36525, 0, 0) /\
  (forall t lat lon, exists z, mxv (tirs_rotation_at t) z = up lat lon).
Proof.
  split; [|split].
  - exists 5, (asin (4 / 5)). split; [lra|]. split; [apply asin_bound_lt; lra|]. unfold from_spherical. rewrite sin_asin, cos_asin by lra. replace (6 * (PI / 12)) with (PI / 2) by field. rewrite cos_PI2, sin_PI2.
    replace (1 - Rsqr (4 / 5)) with (3 / 5 * (3 / 5)) by (unfold Rsqr; field). rewrite sqrt_square by lra. f_equal; field.
  - unfold polar_motion_angles, tdb_of. cbn. f_equal. f_equal. replace (T0 + 0 - T0) with 0 by ring. unfold Rdiv. ring.
  - exact some_zenith.
Qed.

(** * C104 *)
Theorem C104_angle : forall jd fraction, 0 <= fst (theta_GMST1982 jd fraction) < 2 * PI /\
  same_mod (2 * PI) (fst (theta_GMST1982 jd fraction)) (2 * PI * (gmst_1982 (centuries (jd + fraction)) / 86400)).
Proof. exact theta_both. Qed.
Print Assumptions C104_angle.
Theorem C104_rate : forall jd fraction s,
  derivable_pt_lim (fun s => 2 * PI * (gmst_1982 (centuries (jd + (fraction + s))) / 86400)) s (snd (theta_GMST1982 jd (fraction + s))).
Proof. exact theta_rate'. Qed.
Print Assumptions C104_rate.
(** The velocity is the derivative of the position, for every displaced pole. *)
Theorem C104_velocity : forall jd fraction xp yp p v, vderiv p 0 v ->
  vderiv (fun s => fst (TEME_to_ITRF jd (p s) v xp yp (fraction + s))) 0 (snd (TEME_to_ITRF jd (p 0) v xp yp fraction)).
Proof. exact TEME_velocity. Qed.
Print Assumptions C104_velocity.
Theorem C104_frames_meet : forall t,
  tirs_rotation_at t = mxm (rot_z (- fst (theta_GMST1982 (whole t) (ut1_fraction t)))) (TEME_rotation_at t).
Proof. exact TEME_frame. Qed.
Print Assumptions C104_frames_meet.
Theorem C104_satellite_over_the_ground : forall r v t, polar_motion_table t = None ->
  vlength (vsub (mxv (itrs_rotation_at t) (fst (satellite_at r v t))) (fst (ITRF_position_velocity r v t))) <= 6 / 10 ^ 14 * (vlength r / AU_KM).
Proof. exact satellite_itrs. Qed.
Print Assumptions C104_satellite_over_the_ground.
Example C104_ex : vderiv (fun s => V3 (7000 + 2 * s) 0 1) 0 (V3 2 0 0) /\ polar_motion_table (j2000 None) = None /\
  fst (theta_GMST1982 (T0 - 1 / 2) 0) < 2 * PI.
Proof. split; [exact example_track|]. split; [reflexivity|]. pose proof (theta_range (T0 - 1 / 2) 0) as H. unfold tau in H. lra. Qed.

(** * C105 *)
Theorem C105_table_between_rows : forall t l1 a xa ya b xb yb l2, polar_motion_table t = Some (l1 ++ (a, xa, ya) :: (b, xb, yb) :: l2) ->
  increasing (l1 ++ (a, xa, ya) :: (b, xb, yb) :: l2) -> a <= tt_of t <= b ->
  polar_motion_angles t = (- (47.0e-6) * (tdb_of t - T0) / 36525, line a xa b xb (tt_of t), line a ya b yb (tt_of t)).
Proof. exact pole_between. Qed.
Print Assumptions C105_table_between_rows.
Theorem C105_table_before : forall t a xa ya l, polar_motion_table t = Some ((a, xa, ya) :: l) -> tt_of t <= a ->
  polar_motion_angles t = (- (47.0e-6) * (tdb_of t - T0) / 36525, xa, ya).
Proof. exact pole_before. Qed.
Print Assumptions C105_table_before.
Theorem C105_table_after : forall t l a xa ya, polar_motion_table t = Some (l ++ [(a, xa, ya)]) -> increasing (l ++ [(a, xa, ya)]) -> a <= tt_of t ->
  polar_motion_angles t = (- (47.0e-6) * (tdb_of t - T0) / 36525, xa, ya).
Proof. exact pole_after. Qed.
Print Assumptions C105_table_after.
(** The terrestrial axes are turned by a rotation, in which the pole of rotation
    stands at [x] towards longitude 0 and [y] towards 90 degrees west. *)
Theorem C105_pole : forall t, let '(s, x, y) := polar_motion_angles t in
  exists W, rotation W /\ itrs_rotation_at t = mxm W (tirs_rotation_at t) /\
    mxv W (V3 0 0 1) = V3 (sin (x * arcsecond)) (- (sin (y * arcsecond) * cos (x * arcsecond))) (cos (y * arcsecond) * cos (x * arcsecond)) /\
    (forall u, vlength (vsub (mxv (transp W) u) (mxv (rot_z (s * arcsecond)) u)) <= (Rabs (x * arcsecond) + Rabs (y * arcsecond)) * vlength u).
Proof. exact pole_of_rotation. Qed.
Print Assumptions C105_pole.
(** Velocities in au per day, [s] in days of UT1. *)
Theorem C105_velocity_of_a_place_partial : forall r t, let '(_, x, y) := polar_motion_angles t in
  exists v' v, vderiv (fun s => fst (site_at r (turned t s))) 0 (mxv (transp (itrs_rotation_at t)) v') /\
    snd (site_at r t) = mxv (transp (itrs_rotation_at t)) v /\
    vlength (vsub v' v) <= (13 / 10 ^ 8 + 13 * (Rabs x + Rabs y) * arcsecond) * vlength r.
Proof. exact site_rate. Qed.
Print Assumptions C105_velocity_of_a_place_partial.
Theorem C105_velocity_in_the_frame_partial : forall t p v, vderiv p 0 v -> let '(_, x, y) := polar_motion_angles t in
  exists d, vderiv (fun s => fst (frame_xyz_and_velocity (itrs_rotation_at (turned t s)) (Some spin_matrix) (p s) v)) 0 d /\
    let '(q, u) := frame_xyz_and_velocity (itrs_rotation_at t) (Some spin_matrix) (p 0) v in
    vlength (vsub d u) <= (13 / 10 ^ 8 + 13 * (Rabs x + Rabs y) * arcsecond) * vlength q.
Proof. exact itrs_frame_rate. Qed.
Print Assumptions C105_velocity_in_the_frame_partial.
(** A place at the pole of the axes moves, and its velocity is said to be zero. *)
Theorem C105_velocity_of_a_place_refuted : exists t r d, polar_motion_table t <> None /\
  vderiv (fun s => fst (site_at r (turned t s))) 0 d /\ d <> vzero /\ snd (site_at r t) = vzero.
Proof. exact displaced_pole. Qed.
Print Assumptions C105_velocity_of_a_place_refuted.
Example C105_ex : increasing [(10, 1, 2); (20, 3, 4); (30, 5, 6)] /\ line 10 1 20 3 15 = 2 /\ vlength (V3 0 3 4) = 5.
Proof.
  split; [|split].
  - repeat constructor; cbn; lra.
  - unfold line. field.
  - unfold vlength. cbn. replace (0 * 0 + 3 * 3 + 4 * 4) with (5 * 5) by ring. apply sqrt_square. lra.
Qed.

(** * C106 *)
Theorem C106_terra : forall lat lon h t, polar_motion_table t = None ->
  let p := latlon earth_radius_au IERS_2010_INVERSE_EARTH_FLATTENING lat lon h in
  let '(r, v) := terra lat lon h (gast t) in site_at p t = (mxv (transp (M_of t)) r, mxv (transp (M_of t)) v).
Proof. exact terra_site. Qed.
Print Assumptions C106_terra.
(** Radians and metres. *)
Theorem C106_reverse_terra_partial : forall lat lon h g, - (PI / 2) < lat < PI / 2 -> - PI <= lon < PI -> - 10000 <= h ->
  let '(lat', lon', h') := reverse_terra (fst (terra lat lon (h / AU_M) g)) g 3 in
  Rabs (lat' - lat) <= 5 / 10 ^ 9 /\ lon' = lon /\ Rabs (h' - h) <= 2 / 10 ^ 8.
Proof. exact reverse_terra_back. Qed.
Print Assumptions C106_reverse_terra_partial.
Theorem C106_reverse_terra_over_a_pole_refuted : forall z g, 0 < z -> let '(_, _, h) := reverse_terra (V3 0 0 z) g 3 in h <= -6378136.
Proof. exact reverse_terra_pole. Qed.
Print Assumptions C106_reverse_terra_over_a_pole_refuted.
Theorem C106_to_GCRS_and_back : forall t r, vlength (vsub (mxv (itrs_rotation_at t) (ITRF_to_GCRS t r)) r) <= 6 / 10 ^ 14 * vlength r.
Proof. exact itrs_back. Qed.
Print Assumptions C106_to_GCRS_and_back.
Theorem C106_to_GCRS2_partial : forall t r v, polar_motion_table t = None ->
  ITRF_to_GCRS2 t r v None = from_time_and_frame_vectors (itrs_rotation_at t) (Some spin_matrix) r v.
Proof. exact to_GCRS_forth. Qed.
Print Assumptions C106_to_GCRS2_partial.
Theorem C106_to_GCRS2_with_a_pole_refuted : exists t r, polar_motion_table t <> None /\ fst (ITRF_to_GCRS2 t r vzero None) <> ITRF_to_GCRS t r.
Proof. exact pole_ignored. Qed.
Print Assumptions C106_to_GCRS2_with_a_pole_refuted.
(** With [_high_accuracy], unless sidereal time passes 24 hours. *)
Theorem C106_high_accuracy_partial : forall t r h, h = Some (turned t one_second) -> gast t + 24 * (100273781191135448 / 10 ^ 17) * one_second < 24 ->
  vderiv (fun s => fst (ITRF_to_GCRS2 (turned t s) r vzero h)) 0 (snd (ITRF_to_GCRS2 t r vzero h)).
Proof. exact to_GCRS_velocity. Qed.
Print Assumptions C106_high_accuracy_partial.
Theorem C106_high_accuracy_refuted : exists t r, second_spin t (turned t one_second) < -6 /\
  ~ vderiv (fun s => fst (ITRF_to_GCRS2 (turned t s) r vzero (Some (turned t one_second)))) 0 (snd (ITRF_to_GCRS2 t r vzero (Some (turned t one_second)))).
Proof. exact wrapped_second. Qed.
Print Assumptions C106_high_accuracy_refuted.
Example C106_ex : (exists s, gast (turned (j2000 None) s) + 24 * (100273781191135448 / 10 ^ 17) * one_second < 24) /\ - (PI / 2) < 1 < PI / 2 /\ 0 < 1.
Proof.
  split; [|pose proof PI2_1; lra]. destruct (gast_reaches (j2000 None) 1 ltac:(lra)) as [s Hs]. exists s. rewrite Hs. unfold one_second. lra.
Qed.
