From Coq Require Import Reals Lra.
From Verif Require Import Real_Math Vector_Model Vector_Proofs Geo_Model Geo_Spec Geo_Proofs Geo_Proofs2 Geo_Proofs3.
Open Scope R_scope.

(** * C48 *)
Theorem C48_elementary_rotations : forall a, rotation (rot_x a) /\ rotation (rot_y a) /\ rotation (rot_z a).
Proof. exact rot_ok. Qed.
Print Assumptions C48_elementary_rotations.
Theorem C48_rotations_add_angles : forall a b, mxm (rot_x a) (rot_x b) = rot_x (a + b) /\
  mxm (rot_y a) (rot_y b) = rot_y (a + b) /\ mxm (rot_z a) (rot_z b) = rot_z (a + b).
Proof. exact rot_compose. Qed.
Print Assumptions C48_rotations_add_angles.
Theorem C48_precession_is_a_rotation : forall jd, rotation (compute_precession jd).
Proof. exact precession_ok. Qed.
Print Assumptions C48_precession_is_a_rotation.
(** R3(chi) R1(-omega) R3(-psi) R1(eps0). *)
Theorem C48_precession_product : forall eps0 psi omega chi,
  precession_of_angles eps0 psi omega chi = mxm (R3 chi) (mxm (R1 (- omega)) (mxm (R3 (- psi)) (R1 eps0))).
Proof. exact precession_product. Qed.
Print Assumptions C48_precession_product.
Theorem C48_nutation_is_a_rotation : forall mean true_ psi, rotation (build_nutation_matrix mean true_ psi).
Proof. exact nutation_ok. Qed.
Print Assumptions C48_nutation_is_a_rotation.
(** R1(-true) R3(-psi) R1(mean). *)
Theorem C48_nutation_product : forall mean true_ psi,
  build_nutation_matrix mean true_ psi = mxm (R1 (- true_)) (mxm (R3 (- psi)) (R1 mean)).
Proof. exact nutation_product. Qed.
Print Assumptions C48_nutation_product.
(** The third factor of [Time.M], a second order expansion, is orthogonal to 1e-14. *)
Theorem C48_frame_bias_is_nearly_orthogonal : let E := mxm bias (transp bias) in
  Rabs (vx (r1 E) - 1) <= 1 / 10 ^ 14 /\ Rabs (vy (r2 E) - 1) <= 1 / 10 ^ 14 /\ Rabs (vz (r3 E) - 1) <= 1 / 10 ^ 14 /\
  Rabs (vy (r1 E)) <= 1 / 10 ^ 14 /\ Rabs (vz (r1 E)) <= 1 / 10 ^ 14 /\ Rabs (vz (r2 E)) <= 1 / 10 ^ 14.
Proof. exact bias_close. Qed.
Print Assumptions C48_frame_bias_is_nearly_orthogonal.
Example C48_ex : mxv (rot_z (PI / 2)) (V3 1 0 0) = V3 0 1 0.
Proof. unfold mxv, rot_z, dot. cbn. rewrite cos_PI2, sin_PI2. f_equal; ring. Qed.

(** * C49 *)
Theorem C49_frame_there_and_back : forall Rt V r v, orthogonal Rt ->
  let '(r', v') := frame_xyz_and_velocity Rt V r v in from_time_and_frame_vectors Rt V r' v' = (r, v).
Proof. exact frame_back. Qed.
Print Assumptions C49_frame_there_and_back.
Theorem C49_frame_back_and_there : forall Rt V r v, orthogonal Rt ->
  let '(r', v') := from_time_and_frame_vectors Rt V r v in frame_xyz_and_velocity Rt V r' v' = (r, v).
Proof. exact frame_forth. Qed.
Print Assumptions C49_frame_back_and_there.
Example C49_ex : orthogonal (rot_z (PI / 2)) /\
  frame_xyz_and_velocity (rot_z (PI / 2)) (Some (itrs_angvel_matrix 6)) (V3 1 0 0) (V3 0 0 2) = (V3 0 1 0, V3 6 0 2).
Proof. split; [apply rot_ok|]. unfold frame_xyz_and_velocity, mxv, vadd, itrs_angvel_matrix, rot_z, dot. cbn. rewrite cos_PI2, sin_PI2. f_equal; f_equal; ring. Qed.

(** * C50 *)
Theorem C50_spherical_there_and_back : forall p r theta phi, to_spherical p = (r, theta, phi) ->
  from_spherical r theta phi = p /\ r = vlength p /\ - (PI / 2) <= theta <= PI / 2 /\ 0 <= phi < tau.
Proof. exact spherical_back. Qed.
Print Assumptions C50_spherical_there_and_back.
Theorem C50_spherical_back_and_there : forall r theta phi, 0 < r -> - (PI / 2) < theta < PI / 2 -> 0 <= phi < tau ->
  to_spherical (from_spherical r theta phi) = (r, theta, phi).
Proof. exact spherical_forth. Qed.
Print Assumptions C50_spherical_back_and_there.
Theorem C50_rotation_keeps_lengths : forall M u, orthogonal M -> vlength (mxv M u) = vlength u.
Proof. exact orth_length. Qed.
Print Assumptions C50_rotation_keeps_lengths.
Theorem C50_rotation_keeps_separations : forall M u v, orthogonal M -> angle_between (mxv M u) (mxv M v) = angle_between u v.
Proof. exact angle_rotated. Qed.
Print Assumptions C50_rotation_keeps_separations.
Example C50_ex : exists r theta phi, 0 < r /\ - (PI / 2) < theta < PI / 2 /\ 0 <= phi < tau /\ from_spherical r theta phi = V3 (-2) 0 0.
Proof.
  pose proof PI_RGT_0. exists 2, 0, PI. split; [lra|]. split; [lra|]. split; [unfold tau; lra|]. unfold from_spherical. rewrite cos_0, sin_0, cos_PI, sin_PI. f_equal; ring.
Qed.

(** * C51 *)
Theorem C51_angle_is_true : forall u v, u <> vzero -> v <> vzero ->
  0 <= angle_between u v <= PI /\ vlength u * vlength v * cos (angle_between u v) = dot u v.
Proof. exact angle_ok. Qed.
Print Assumptions C51_angle_is_true.
Theorem C51_angle_is_symmetric : forall u v, angle_between u v = angle_between v u.
Proof. exact angle_sym. Qed.
Print Assumptions C51_angle_is_symmetric.
Theorem C51_parallel_and_opposite : forall u k, u <> vzero -> 0 < k -> angle_between u (smul k u) = 0 /\ angle_between u (smul (- k) u) = PI.
Proof. exact angle_extremes. Qed.
Print Assumptions C51_parallel_and_opposite.
Theorem C51_scale_invariant : forall k u v, 0 < k -> u <> vzero -> v <> vzero -> angle_between (smul k u) v = angle_between u v.
Proof. exact angle_scale. Qed.
Print Assumptions C51_scale_invariant.
Example C51_ex : V3 1 2 0 <> vzero /\ V3 0 0 3 <> vzero /\ dot (V3 1 2 0) (V3 0 0 3) = 0.
Proof. split; [intros E; injection E; lra|]. split; [intros E; injection E; lra|]. unfold dot. cbn. ring. Qed.

(** * C52 *)
Theorem C52_sunlit : forall satellite sun erad, 0 <= erad -> sun <> satellite ->
  (is_sunlit satellite sun erad = true <->
   forall k, 0 < k -> ~ in_ball (vadd satellite (smul k (vsub sun satellite))) vzero erad).
Proof. exact sunlit_ok. Qed.
Print Assumptions C52_sunlit.
Theorem C52_behind_earth : forall observer target erad, 0 <= erad -> target <> vzero ->
  (is_behind_earth observer target erad = true <->
   exists k, 0 < k < 1 /\ in_ball (vadd observer (smul k target)) vzero erad).
Proof. exact behind_ok. Qed.
Print Assumptions C52_behind_earth.
Example C52_ex : in_ball (vadd (V3 (-2) 0 0) (smul (1 / 2) (V3 4 0 0))) vzero 1 /\ V3 4 0 0 <> vzero.
Proof.
  split; [|intros E; injection E; lra]. unfold in_ball, vlength. cbn. replace (_ + _) with 0 by field. rewrite sqrt_0. lra.
Qed.

(** * C53 *)
Theorem C53_horizon_directions : forall lat lon, - (PI / 2) <= lat <= PI / 2 ->
  (exists az, altaz lat lon (up lat lon) = (PI / 2, az, 1)) /\
  altaz lat lon (V3 0 0 1) = (lat, 0, 1) /\
  altaz lat lon (east lon) = (0, PI / 2, 1) /\
  altaz lat lon (north lat lon) = (0, 0, 1).
Proof. exact horizon_ok. Qed.
Print Assumptions C53_horizon_directions.
Theorem C53_altaz_of_any_direction : forall lat lon p alt az r, altaz lat lon p = (alt, az, r) ->
  r = vlength p /\ - (PI / 2) <= alt <= PI / 2 /\ 0 <= az < tau /\
  p = smul r (vadd (smul (cos alt * cos az) (north lat lon)) (vadd (smul (cos alt * sin az) (east lon)) (smul (sin alt) (up lat lon)))).
Proof. exact altaz_ok. Qed.
Print Assumptions C53_altaz_of_any_direction.
(** [up] is the normal of the ellipsoid. *)
Theorem C53_up_is_the_normal : forall a finv, 0 < a -> 1 < finv -> forall lat lon,
  let p := latlon a finv lat lon 0 in let b := polar_radius a finv in
  exists k, 0 < k /\ V3 (vx p / (a * a)) (vy p / (a * a)) (vz p / (b * b)) = smul k (up lat lon).
Proof. exact normal_ok. Qed.
Print Assumptions C53_up_is_the_normal.
Example C53_ex : - (PI / 2) <= PI / 4 <= PI / 2 /\ up 0 0 = V3 1 0 0.
Proof. pose proof PI_RGT_0. split; [lra|]. unfold up. rewrite cos_0, sin_0. f_equal; ring. Qed.

(** * C54 *)
Theorem C54_surface : forall a finv, 0 < a -> 1 < finv -> forall lat lon,
  on_ellipsoid (latlon a finv lat lon 0) (V3 a a (polar_radius a finv)).
Proof. exact surface_ok. Qed.
Print Assumptions C54_surface.
Theorem C54_elevation_along_the_normal : forall a finv, 1 < finv -> forall lat lon h,
  latlon a finv lat lon h = vadd (latlon a finv lat lon 0) (smul h (up lat lon)).
Proof. exact elevation_ok. Qed.
Print Assumptions C54_elevation_along_the_normal.
Theorem C54_true_latitude_is_a_fixed_point : forall a finv, 1 < finv -> forall lat lon h,
  - (PI / 2) <= lat <= PI / 2 -> 0 < normal_radius a finv lat + h ->
  let p := latlon a finv lat lon h in
  latitude_round a finv (vx p) (vy p) (vz p) lat = (normal_radius a finv lat, (normal_radius a finv lat + h) * sin lat, lat) /\
  sqrt (vx p * vx p + vy p * vy p) = (normal_radius a finv lat + h) * cos lat /\
  height_from (vx p) (vy p) (normal_radius a finv lat) ((normal_radius a finv lat + h) * sin lat) = h.
Proof. exact fixed_ok. Qed.
Print Assumptions C54_true_latitude_is_a_fixed_point.
Theorem C54_longitude : forall a finv, 1 < finv -> forall lat lon h,
  - (PI / 2) < lat < PI / 2 -> 0 < normal_radius a finv lat + h -> - PI <= lon < PI ->
  longitude_of (latlon a finv lat lon h) = lon.
Proof. exact longitude_ok. Qed.
Print Assumptions C54_longitude.
Example C54_ex : latlon wgs84_radius wgs84_finv 0 0 1000 = V3 6379137 0 0 /\ 0 < wgs84_radius /\ 1 < wgs84_finv.
Proof.
  split; [|unfold wgs84_radius, wgs84_finv; lra]. unfold latlon, wgs84_radius. rewrite cos_0, sin_0. replace (1 * 1 + 0 * 0 * omf2 wgs84_finv) with 1 by ring. rewrite sqrt_1. f_equal; field.
Qed.

(** * C61 *)
(** The frame turns uniformly, with rate [w], about its pole. *)
Theorem C61_earth_fixed_velocity : forall M g w t p v, vderiv p t v ->
  vderiv (fun s => fst (frame_xyz_and_velocity (itrs_rotation (g + w * s) M) (Some (itrs_angvel_matrix w)) (p s) v)) t
         (snd (frame_xyz_and_velocity (itrs_rotation (g + w * t) M) (Some (itrs_angvel_matrix w)) (p t) v)).
Proof. exact earth_fixed_rate. Qed.
Print Assumptions C61_earth_fixed_velocity.
Theorem C61_horizon_velocity : forall lat lon M g w t p v, vderiv p t v ->
  vderiv (fun s => fst (frame_xyz_and_velocity (topos_rotation lat lon (g + w * s) M) (Some (topos_rate w lat)) (p s) v)) t
         (snd (frame_xyz_and_velocity (topos_rotation lat lon (g + w * t) M) (Some (topos_rate w lat)) (p t) v)).
Proof. exact horizon_rate. Qed.
Print Assumptions C61_horizon_velocity.
Theorem C61_site_velocity : forall M g w t r,
  vderiv (fun s => fst (itrs_at w (g + w * s) M r)) t (snd (itrs_at w (g + w * t) M r)).
Proof. exact site_velocity. Qed.
Print Assumptions C61_site_velocity.
Example C61_ex : vderiv (fun s => V3 s 0 1) 0 (V3 1 0 0) /\ snd (itrs_at 6 0 identity (V3 1 0 0)) = V3 0 6 0.
Proof.
  split.
  - split; [apply derivable_pt_lim_id|]. split; apply derivable_pt_lim_const.
  - unfold itrs_at, itrs_rotation, rot_z. rewrite Ropp_0, cos_0, sin_0. apply vec_ext; gsimp; ring.
Qed.

(** * C62 *)
Theorem C62_first_point_of_the_ray : forall s d radii, 0 < vx radii -> 0 < vy radii -> 0 < vz radii -> d <> vzero ->
  match line_and_ellipsoid_intersection s d radii with
  | Some p => exists k, 0 <= k /\ p = vadd s (smul k d) /\ on_ellipsoid p radii /\
                        forall k', 0 <= k' < k -> ~ on_ellipsoid (vadd s (smul k' d)) radii
  | None => forall k, 0 <= k -> ~ on_ellipsoid (vadd s (smul k d)) radii
  end.
Proof. exact ellipsoid_ok. Qed.
Print Assumptions C62_first_point_of_the_ray.
Example C62_ex : on_ellipsoid (vadd (V3 4 0 0) (smul 2 (V3 (-1) 0 0))) (V3 2 2 1).
Proof. unfold on_ellipsoid. cbn. field. Qed.

(** * C63 *)
Theorem C63_latitude_and_height_are_recovered : forall a finv, 0 < a -> 1 < finv -> forall lat lon h,
  - (PI / 2) <= lat <= PI / 2 -> - (a * omf2 finv) < h ->
  let p := latlon a finv lat lon h in
  let k := axis_rate a finv / (a * omf2 finv + h) in
  let '(ac, hyp, lat3) := compute_latitude a finv p in
  Rabs (lat3 - lat) <= PI / 2 * (k * k * k * k) /\
  Rabs (height_from (vx p) (vy p) ac hyp - h) <= axis_rate a finv * (k + 1) * ((PI / 2 * (k * k * k)) * (PI / 2 * (k * k * k))).
Proof. exact recover. Qed.
Print Assumptions C63_latitude_and_height_are_recovered.
(** Radians and metres. *)
Theorem C63_on_the_earth : forall lat lon h, - (PI / 2) <= lat <= PI / 2 -> -10000 <= h ->
  let p := latlon wgs84_radius wgs84_finv lat lon h in
  let '(ac, hyp, lat3) := compute_latitude wgs84_radius wgs84_finv p in
  Rabs (lat3 - lat) <= 5 / 10 ^ 9 /\ Rabs (height_from (vx p) (vy p) ac hyp - h) <= 2 / 10 ^ 8.
Proof. exact recover_wgs84. Qed.
Print Assumptions C63_on_the_earth.
Example C63_ex : - (PI / 2) <= 1 / 2 <= PI / 2 /\ - (wgs84_radius * omf2 wgs84_finv) < 100.
Proof. pose proof PI_RGT_0. pose proof PI2_1. destruct wgs84_numbers as [_ [H1 _]]. unfold wgs84_radius. split; lra. Qed.

(** * C64 *)
Theorem C64_altaz_there_and_back : forall lat lon p, let '(alt, az, r) := altaz lat lon p in from_altaz lat lon alt az r = p.
Proof. exact altaz_back. Qed.
Print Assumptions C64_altaz_there_and_back.
Theorem C64_hour_angle : forall lon p ha dec r, hadec lon p = (ha, dec, r) ->
  r = vlength p /\ - (PI / 2) <= dec <= PI / 2 /\ - PI <= ha < PI /\ p = from_spherical r dec (lon - ha).
Proof. exact hadec_ok. Qed.
Print Assumptions C64_hour_angle.
Example C64_ex : exists ha dec r, hadec 1 (V3 2 0 0) = (ha, dec, r) /\ r <> 0.
Proof.
  do 3 eexists. split; [reflexivity|]. unfold vlength. cbn. replace (2 * 2 + 0 * 0 + 0 * 0) with (2 * 2) by ring. rewrite sqrt_square; lra.
Qed.
