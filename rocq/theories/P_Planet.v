(** Properties C84-C88. *)
From Coq Require Import Reals ZArith List String Bool Lra Lia.
From Coq Require Import Floats.SpecFloat.
From Flocq Require Import Core BinarySingleNaN.
From Verif Require Import Real_Math Real_Math_Proofs Vector_Model Geo_Model Geo_Spec Geo_Proofs Geo_Proofs2 Float64 Float64_Proofs Planet_Model Planet_Spec Planet_Proofs Planet_Proofs2 Planet_Float.
Import ListNotations.
Open Scope R_scope.

(** * C84. The full claim has no exception at the poles. *)
Theorem C84_rates_partial : forall p v t, vderiv p t v -> tiny_limit <= vx (p t) * vx (p t) + vy (p t) * vy (p t) ->
  let '(lat_rate, lon_rate, range_rate) := snd (to_spherical_and_rates (p t) v) in
  derivable_pt_lim (fun s => fst (fst (fst (to_spherical_and_rates (p s) v)))) t lat_rate /\
  turns_at_rate (fun s => snd (fst (fst (to_spherical_and_rates (p s) v)))) t lon_rate /\
  derivable_pt_lim (fun s => snd (fst (to_spherical_and_rates (p s) v))) t range_rate.
Proof. exact rates_ok. Qed.
Print Assumptions C84_rates_partial.
Theorem C84_horizon_rates_partial : forall lat lon M g w t p v, vderiv p t v ->
  let f s := frame_latlon_and_rates (topos_rotation lat lon (g + w * s) M) (Some (topos_rate w lat)) (p s) v in
  let q := mxv (topos_rotation lat lon (g + w * t) M) (p t) in tiny_limit <= vx q * vx q + vy q * vy q ->
  let '(alt_rate, az_rate, range_rate) := snd (f t) in
  derivable_pt_lim (fun s => fst (fst (fst (f s)))) t alt_rate /\
  turns_at_rate (fun s => snd (fst (fst (f s)))) t az_rate /\
  derivable_pt_lim (fun s => snd (fst (f s))) t range_rate.
Proof. exact horizon_rates_ok. Qed.
Print Assumptions C84_horizon_rates_partial.
Theorem C84_coordinates : forall p v, let '(lat, lon, d) := fst (to_spherical_and_rates p v) in to_spherical p = (d, lat, lon).
Proof. exact coordinates_ok. Qed.
Print Assumptions C84_coordinates.
Theorem C84_divisors_positive : forall r, r <> vzero ->
  let s := plus_tiny (vx r * vx r + vy r * vy r) in 0 < s /\ 0 < (s + vz r * vz r) * sqrt s /\ 0 < vlength r.
Proof. exact divisors_positive. Qed.
Print Assumptions C84_divisors_positive.
Theorem C84_adding_tiny : forall x : bf, is_finite x = true -> bpow radix2 (-968) <= B2R x <= bpow radix2 1000 ->
  fadd (B2SF x) (fl 1 (-1022)) = B2SF x.
Proof. exact adding_tiny. Qed.
Print Assumptions C84_adding_tiny.
Theorem C84_at_the_pole_refuted : let p s := V3 s 0 1 in let v := V3 1 0 0 in
  vderiv p 0 v /\ fst (fst (snd (to_spherical_and_rates (p 0) v))) = 0 /\
  ~ exists d, derivable_pt_lim (fun s => fst (fst (fst (to_spherical_and_rates (p s) v)))) 0 d.
Proof. exact at_the_pole. Qed.
Print Assumptions C84_at_the_pole_refuted.
Example C84_ex : let p s := V3 1 s 0 in vderiv p 0 (V3 0 1 0) /\ tiny_limit <= vx (p 0) * vx (p 0) + vy (p 0) * vy (p 0).
Proof. exact rates_ex. Qed.

(** * C85 *)
Theorem C85_rate_matrix : forall matrix ra dec w t a' d' w',
  derivable_pt_lim ra t (DAY_S * a') -> derivable_pt_lim dec t (DAY_S * d') -> derivable_pt_lim w t (DAY_S * w') ->
  mderiv (fun s => frame_rotation_at matrix (ra s) (dec s) (w s)) t (snd (frame_rotation_and_rate_at matrix (ra t) (dec t) (w t) a' d' w')).
Proof. exact frame_derivative. Qed.
Print Assumptions C85_rate_matrix.
Theorem C85_same_rotation : forall matrix ra dec w a d x, fst (frame_rotation_and_rate_at matrix ra dec w a d x) = frame_rotation_at matrix ra dec w.
Proof. exact frame_fst. Qed.
Print Assumptions C85_same_rotation.
Theorem C85_place_velocity : forall matrix ra dec w a' d' w' lat lon d t,
  derivable_pt_lim ra t (DAY_S * a' t) -> derivable_pt_lim dec t (DAY_S * d' t) -> derivable_pt_lim w t (DAY_S * w' t) ->
  let F s := frame_rotation_and_rate_at matrix (ra s) (dec s) (w s) (a' s) (d' s) (w' s) in
  vderiv (fun s => fst (place_at (F s) (place_on_body lat lon d))) t (snd (place_at (F t) (place_on_body lat lon d))).
Proof. exact place_moves. Qed.
Print Assumptions C85_place_velocity.
Example C85_ex : derivable_pt_lim (fun t => DAY_S * (1 / 1000) * t) 0 (DAY_S * (1 / 1000)).
Proof. exact spin_ex. Qed.

(** * C86 *)
Theorem C86_rotation : forall matrix ra dec w, match matrix with Some M => rotation M | None => True end -> rotation (frame_rotation_at matrix ra dec w).
Proof. exact frame_is_rotation. Qed.
Print Assumptions C86_rotation.
Theorem C86_axes : forall ra dec w, frame_rotation_at None ra dec w = body_axes ra dec w.
Proof. exact frame_axes. Qed.
Print Assumptions C86_axes.
Theorem C86_place : forall lat lon d, place_on_body lat lon d = from_spherical d lat lon.
Proof. exact place_is_spherical. Qed.
Print Assumptions C86_place.
Theorem C86_horizon : forall lat lon Rt v, mxv (place_rotation_at lat lon Rt) v =
  V3 (dot (north lat lon) (mxv Rt v)) (dot (east lon) (mxv Rt v)) (dot (up lat lon) (mxv Rt v)).
Proof. exact place_axes. Qed.
Print Assumptions C86_horizon.
Theorem C86_zenith : forall lat lon d Rt, orthogonal Rt ->
  mxv (place_rotation_at lat lon Rt) (fst (place_at (Rt, Rt) (place_on_body lat lon d))) = V3 0 0 d.
Proof. exact zenith_at_place. Qed.
Print Assumptions C86_zenith.
Theorem C86_orthogonal : forall lat lon Rt, orthogonal Rt -> orthogonal (place_rotation_at lat lon Rt).
Proof. exact place_orthogonal. Qed.
Print Assumptions C86_orthogonal.
Theorem C86_radius : forall a b c h au d, 0 < au -> (place_radius a b c h au = Built d <-> a = b /\ b = c /\ d * au * 1000 = a * 1000 + h).
Proof. exact place_radius_ok. Qed.
Print Assumptions C86_radius.
Example C86_ex : rotation (frame_rotation_at (Some (rot_x 1)) 1 2 3).
Proof. apply frame_is_rotation, rot_ok. Qed.

(** * C87. The full claim is for frames that turn. *)
Theorem C87_still_frame_partial : forall matrix ra dec w t p v, vderiv p t v ->
  vderiv (fun s => fst (frame_xyz_and_velocity (frame_rotation_at matrix ra dec w) None (p s) v)) t
         (snd (frame_xyz_and_velocity (frame_rotation_at matrix ra dec w) None (p t) v)).
Proof. exact still_frame_velocity. Qed.
Print Assumptions C87_still_frame_partial.
Theorem C87_turning_frame_refuted : exists (w : R -> R) p v,
  (forall t, derivable_pt_lim w t (DAY_S * (1 / 1000))) /\ (forall t, vderiv p t v) /\
  let reported t := frame_xyz_and_velocity (frame_rotation_at None 0 0 (w t)) None (p t) v in
  snd (reported 0) = vzero /\ ~ vderiv (fun t => fst (reported t)) 0 (snd (reported 0)).
Proof. exact turning_frame_velocity. Qed.
Print Assumptions C87_turning_frame_refuted.
Example C87_ex : vderiv (fun _ => V3 1 2 3) 0 vzero.
Proof. apply vderiv_const. Qed.

(** * C88. The full claim is for chains of frames of any length. *)
Theorem C88_angles_partial : forall variables segment_map n c angles axes name m s t,
  variables (CENTER n) = Some c -> variables (SPEC n) = Some (Text "ANGLES") -> variables (ANGLES n) = Some (Numbers angles) ->
  variables (AXES n) = Some (Wholes axes) -> Forall (fun a => 1 <= a <= 3)%Z axes -> variables (UNITS n) = Some (Text "ARCSECONDS") ->
  variables (RELATIVE n) = Some (Text name) -> variables (FRAME name) = Some (Whole m) -> segment_map m = Some s -> base s = 1%Z ->
  exists f, build_frame variables segment_map n = Built f /\ f_center f = c /\
    let '(ra, dec, w) := angles_at s t in
    rotation_of_frame f t = mxm (transp (axis_rotations (combine axes (map (fun a => a * ASEC2RAD) angles)))) (body_axes ra dec w).
Proof. exact build_angles. Qed.
Print Assumptions C88_angles_partial.
Theorem C88_matrix_partial : forall variables segment_map n c M name m s t,
  variables (CENTER n) = Some c -> variables (SPEC n) = Some (Text "MATRIX") -> variables (MATRIX n) = Some (Numbers (columns M)) ->
  variables (RELATIVE n) = Some (Text name) -> variables (FRAME name) = Some (Whole m) -> segment_map m = Some s -> base s = 1%Z ->
  exists f, build_frame variables segment_map n = Built f /\ f_center f = c /\
    let '(ra, dec, w) := angles_at s t in rotation_of_frame f t = mxm (transp M) (body_axes ra dec w).
Proof. exact build_matrix. Qed.
Print Assumptions C88_matrix_partial.
Theorem C88_plain : forall variables segment_map n c s t,
  variables (CENTER n) = Some c -> variables (SPEC n) = None -> segment_map n = Some s -> base s = 1%Z ->
  exists f, build_frame variables segment_map n = Built f /\ f_center f = c /\ let '(ra, dec, w) := angles_at s t in rotation_of_frame f t = body_axes ra dec w.
Proof. exact build_plain. Qed.
Print Assumptions C88_plain.
Theorem C88_two_offsets_refuted : build_frame_named moon_variables moon_segments "MOON_ME" = Raised LookupError /\
  (exists f, build_frame_named moon_variables moon_segments "MOON_ME_DE421" = Built f).
Proof. exact moon_chain. Qed.
Print Assumptions C88_two_offsets_refuted.
Example C88_ex : exists f, build_frame_named moon_variables moon_segments "MOON_ME_DE421" = Built f.
Proof. exact (proj2 moon_chain). Qed.
