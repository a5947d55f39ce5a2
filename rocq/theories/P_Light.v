(** Properties C73-C80. *)
From Coq Require Import Reals ZArith List Bool.
From Coq Require Import Floats.SpecFloat.
From Verif Require Import Real_Math Vector_Model Geo_Model Geo_Spec Light_Model Light_Spec Light_Proofs Light_Proofs2 Light_Proofs3 Light_Proofs4 Light_Proofs5 Light_Proofs6 Light_Proofs7.
From Verif Require Float64 Parallax_Model Parallax_Proofs.
Import ListNotations.
Open Scope R_scope.

(** * C73 *)
Theorem C73_lorentz : forall p v, p <> vzero -> vlength v < C_AUDAY -> v <> vzero ->
  add_aberration p v (vlength p / C_AUDAY) = smul (vlength p) (seen_from (smul (/ C_AUDAY) v) (unit_of p)).
Proof. exact aberration_lorentz. Qed.
Print Assumptions C73_lorentz.
Theorem C73_at_rest : forall p lt, p <> vzero -> add_aberration p vzero lt = p.
Proof. exact no_aberration. Qed.
Print Assumptions C73_at_rest.
Theorem C73_length : forall p v, p <> vzero -> vlength v < C_AUDAY -> vlength (add_aberration p v (vlength p / C_AUDAY)) = vlength p.
Proof. exact aberration_length. Qed.
Print Assumptions C73_length.
Theorem C73_inverse : forall p v, p <> vzero -> vlength v < C_AUDAY ->
  add_aberration (add_aberration p v (vlength p / C_AUDAY)) (vopp v) (vlength p / C_AUDAY) = p.
Proof. exact aberration_inverse. Qed.
Print Assumptions C73_inverse.
Theorem C73_towards : forall p v, p <> vzero -> vlength v < C_AUDAY -> v <> vzero ->
  angle_between (add_aberration p v (vlength p / C_AUDAY)) v <= angle_between p v.
Proof. exact aberration_towards. Qed.
Print Assumptions C73_towards.
Theorem C73_cosine : forall p v, p <> vzero -> vlength v < C_AUDAY -> v <> vzero ->
  let b := vlength v / C_AUDAY in let x := cos (angle_between p v) in
  cos (angle_between (add_aberration p v (vlength p / C_AUDAY)) v) = (x + b) / (1 + b * x).
Proof. exact aberration_cos. Qed.
Print Assumptions C73_cosine.
Theorem C73_rotated : forall M p v lt, orthogonal M -> add_aberration (mxv M p) (mxv M v) lt = mxv M (add_aberration p v lt).
Proof. exact aberration_rotated. Qed.
Print Assumptions C73_rotated.
Example C73_ex : let p := V3 0 5 0 in let v := V3 (17 / 1000) 0 0 in p <> vzero /\ v <> vzero /\ vlength v < C_AUDAY.
Proof. exact aberration_ex. Qed.

(** * C74 *)
Theorem C74_deflection_partial : forall p e rmass, p <> vzero -> e <> vzero -> vadd p e <> vzero -> 0 < rmass ->
  Rabs (cos (angle_between e p)) <= 99999999999 / 10 ^ 11 ->
  let psi := angle_between (vadd p e) e in let K := 2 * GS / (C * C * vlength e * AU_M * rmass) in
  exists d, compute_deflection p e rmass = Some d /\ dot d p = 0 /\ vlength d = K * vlength p * tan (psi / 2) /\
    vlength p <= vlength (vadd p d) /\ (K <= 1 -> angle_between p (vopp e) <= angle_between (vadd p d) (vopp e)).
Proof. exact deflection_ok. Qed.
Print Assumptions C74_deflection_partial.
Theorem C74_without_masses_partial : forall eph t o v p, p <> vzero -> vlength v < C_AUDAY ->
  exists q, apparent eph t o v None p (vlength p / C_AUDAY) nil = Position q /\ vlength q = vlength p.
Proof. exact apparent_without_masses. Qed.
Print Assumptions C74_without_masses_partial.
Theorem C74_pushed_away_partial : forall eph t o v p lt code body m, rmass_of code = Some m -> body_used eph code body -> 0 < m -> p <> vzero ->
  (forall k, 0 <= k <= vlength p -> let e := vsub o (body (t - k / C_AUDAY)) in
     e <> vzero /\ vadd p e <> vzero /\ Rabs (cos (angle_between e p)) <= 99999999999 / 10 ^ 11 /\ 2 * GS / (C * C * vlength e * AU_M * m) <= 1) ->
  exists k q, 0 <= k <= vlength p /\ apparent eph t o v None p lt [code] = Position (add_aberration q v lt) /\ q <> p /\
    dot (vsub q p) p = 0 /\ angle_between p (vsub (body (t - k / C_AUDAY)) o) <= angle_between q (vsub (body (t - k / C_AUDAY)) o).
Proof. exact pushed. Qed.
Print Assumptions C74_pushed_away_partial.
Theorem C74_many_masses_partial : forall eph t o v g p lt codes q, apparent eph t o v g p lt codes = Position q ->
  exists r, vlength p <= vlength r /\ q = add_aberration r v lt.
Proof. exact apparent_longer. Qed.
Print Assumptions C74_many_masses_partial.
Theorem C74_earth_partial : forall eph t o v p lt g, p <> vzero -> g <> vzero -> vadd p g <> vzero -> Rabs (cos (angle_between g p)) <= 99999999999 / 10 ^ 11 ->
  exists q, apparent eph t o v (Some g) p lt [] = Position (add_aberration q v lt) /\
    if Rlt_dec (snd (compute_limb_angle p g)) (8 / 10) then q = p
    else dot (vsub q p) p = 0 /\ vlength (vsub q p) = 2 * GS / (C * C * vlength g * AU_M * (332946050895 / 10 ^ 6)) * vlength p * tan (angle_between (vadd p g) g / 2).
Proof. exact earth_push. Qed.
Print Assumptions C74_earth_partial.
(** At the centre of a deflecting body there is no apparent place at all. *)
Theorem C74_at_a_mass_refuted : forall eph t v g p lt code codes body m, rmass_of code = Some m -> eph code = Some body -> 0 <= vlength p / C_AUDAY ->
  apparent eph t (body t) v g p lt (code :: codes) = NotANumber.
Proof. exact apparent_at_a_mass. Qed.
Print Assumptions C74_at_a_mass_refuted.
Example C74_ex : let p := V3 0 5 0 in let e := V3 1 0 0 in p <> vzero /\ e <> vzero /\ vadd p e <> vzero /\
  Rabs (cos (angle_between e p)) <= 99999999999 / 10 ^ 11 /\ 2 * GS / (C * C * vlength e * AU_M * 1) <= 1.
Proof. exact deflection_ex. Qed.

Example C74_pushed_ex : rmass_of 10 = Some 1 /\ let o := V3 1 0 0 in let p := V3 0 5 0 in let body (_ : R) := vzero in
  forall k, 0 <= k <= vlength p -> let e := vsub o (body (0 - k / C_AUDAY)) in
     e <> vzero /\ vadd p e <> vzero /\ Rabs (cos (angle_between e p)) <= 99999999999 / 10 ^ 11 /\ 2 * GS / (C * C * vlength e * AU_M * 1) <= 1.
Proof. split; [reflexivity|exact pushed_ex]. Qed.

(** * C75 *)
Theorem C75_limb : forall p o, p <> vzero -> earth_radius_au < vlength o ->
  (snd (compute_limb_angle p o) < 1 <-> sight_blocked o p earth_radius_au) /\
  (fst (compute_limb_angle p o) < 0 <-> sight_blocked o p earth_radius_au).
Proof. exact limb. Qed.
Print Assumptions C75_limb.
Example C75_ex : let o := V3 (2 * earth_radius_au) 0 0 in V3 (-1) 0 0 <> vzero /\ earth_radius_au < vlength o /\
  sight_blocked o (V3 (-1) 0 0) earth_radius_au /\ ~ sight_blocked o (V3 1 0 0) earth_radius_au.
Proof. exact limb_ex. Qed.

(** * C76 *)
Theorem C76_closest : forall t o p body, p <> vzero ->
  exists k, 0 <= k <= vlength p /\ compute_deflector_position t o p body (vlength p / C_AUDAY) = vsub o (body (t - k / C_AUDAY)) /\
    forall s, 0 <= s <= vlength p -> vlength (vsub (body t) (vadd o (smul k (unit_of p)))) <= vlength (vsub (body t) (vadd o (smul s (unit_of p)))).
Proof. exact deflector_time. Qed.
Print Assumptions C76_closest.
Example C76_ex : V3 0 5 0 <> vzero.
Proof. exact (proj1 aberration_ex). Qed.

(** * C77 *)
Theorem C77_place : forall ra dec plx, star_position ra dec plx = from_spherical (star_distance plx) dec ra.
Proof. exact star_place. Qed.
Print Assumptions C77_place.
Theorem C77_rates : forall ra dec dist a d pr pd plx rv r' d' l', 0 < plx -> sin (plx * mas) <> 0 ->
  uniform_motion ra dec dist (star_position a d plx) (star_velocity a d pr pd plx rv) ->
  ra 0 = a -> dec 0 = d -> dist 0 = star_distance plx ->
  derivable_pt_lim ra 0 r' -> derivable_pt_lim dec 0 d' -> derivable_pt_lim dist 0 l' ->
  let shrink := sin (plx * mas) / (plx * mas) in
  d' * (36525 / 100) = pd * mas * doppler rv * shrink /\
  cos d * r' * (36525 / 100) = pr * mas * doppler rv * shrink /\
  l' = rv * DAY_S / AU_KM * doppler rv.
Proof. exact star_rates. Qed.
Print Assumptions C77_rates.
Theorem C77_shrinks_little : forall x, 0 < x <= 1 -> 1 - x * x / 6 <= sin x / x <= 1.
Proof. exact sinc_bound. Qed.
Print Assumptions C77_shrinks_little.
Example C77_ex : forall d v, 0 < d -> uniform_motion (fun t => atan (v * t / d)) (fun _ => 0) (fun t => sqrt (d * d + v * t * (v * t))) (V3 d 0 0) (V3 0 v 0).
Proof. exact crossing. Qed.

(** * C78 *)
(** The rate of the vector from the observer to the star, for a uniformly moving
    observer: that of the star, hastened by the approach, less the observer's. *)
Theorem C78_vector_rate_partial : forall p v epoch o w t,
  vderiv (fun s => fst (fst (star_observe p v epoch s (vadd o (smul s w)) w))) t (vsub (smul (1 + light_time_difference p w) v) w).
Proof. exact star_vector_rate. Qed.
Print Assumptions C78_vector_rate_partial.
Theorem C78_velocity_refuted : forall p epoch o w t, w <> vzero ->
  exists rate, vderiv (fun s => fst (fst (star_observe p vzero epoch s (vadd o (smul s w)) w))) t rate /\
    snd (fst (star_observe p vzero epoch t (vadd o (smul t w)) w)) = vopp rate /\
    snd (fst (star_observe p vzero epoch t (vadd o (smul t w)) w)) <> rate.
Proof. exact star_velocity_reversed. Qed.
Print Assumptions C78_velocity_refuted.
Example C78_ex : V3 (17 / 1000) 0 0 <> vzero.
Proof. exact (proj1 (proj2 aberration_ex)). Qed.

(** * C79 *)
Theorem C79_solved_partial : forall h T P fuel, -273 < T -> 0 <= P -> 28 * P <= 300 * (T + 273) -> (112 <= fuel)%nat ->
  exists alt, refract fuel h T P = Some alt /\ h <= alt /\ Rabs (alt - (h + refraction alt T P)) <= 3 / 10 ^ 5.
Proof. exact refract_solves. Qed.
Print Assumptions C79_solved_partial.
Theorem C79_arrays_partial : forall fuel hs T P, refract_array fuel hs T P = all_results (map (fun h => refract fuel h T P) hs).
Proof. exact array_elementwise. Qed.
Print Assumptions C79_arrays_partial.
Theorem C79_high_pressure_refuted : forall fuel, refract fuel (899 / 10) 10 10000 = None.
Proof. exact refract_for_ever. Qed.
Print Assumptions C79_high_pressure_refuted.
Example C79_ex : -273 < -89 /\ 0 <= 1090 /\ 28 * 1090 <= 300 * (-89 + 273).
Proof. exact coldest. Qed.

(** * C80 *)
Theorem C80_arrays_partial : forall ps p, In p (Parallax_Model.clean_array ps) -> Float64.fltb (Float64.of_Z 0) p = true.
Proof. exact Parallax_Proofs.array_positive. Qed.
Print Assumptions C80_arrays_partial.
Theorem C80_same_partial : forall p, p <> S754_nan -> Parallax_Model.clean_array [p] = [Parallax_Model.clean_scalar p] /\
  Float64.fltb (Float64.of_Z 0) (Parallax_Model.clean_scalar p) = true.
Proof. exact Parallax_Proofs.same_ok. Qed.
Print Assumptions C80_same_partial.
Theorem C80_positive_kept_partial : forall p, Float64.fltb (Float64.of_Z 0) p = true -> Parallax_Model.clean_scalar p = p /\ Parallax_Model.clean_array [p] = [p].
Proof. exact Parallax_Proofs.positive_kept. Qed.
Print Assumptions C80_positive_kept_partial.
Theorem C80_scalar_refuted : Parallax_Model.clean_scalar S754_nan = S754_nan /\ Parallax_Model.clean_array [S754_nan] = [Parallax_Model.one_millionth].
Proof. exact Parallax_Proofs.nan_differs. Qed.
Print Assumptions C80_scalar_refuted.
Example C80_ex : Parallax_Model.clean_array [S754_nan; Float64.of_Z 7; Float64.of_Z (-3)] = [Parallax_Model.one_millionth; Float64.of_Z 7; Parallax_Model.one_millionth].
Proof. reflexivity. Qed.
