From Coq Require Import Reals ZArith List Lra Lia.
From Verif Require Import Real_Math Vector_Model Geo_Model Geo_Spec Kepler_Model Kepler_Spec Elements_Model Elements_Spec Elements_Proofs3 Elements_Proofs4 Elements_Proofs5 Elements_Proofs6 Elements_Proofs7.
Import ListNotations.
Open Scope R_scope.

(** * C150 *)
Theorem C150_semi_major_axis : forall pos vel mu el P V t0, osculating pos vel mu = Some el -> cross pos vel <> vzero ->
  newtonian mu P V -> P t0 = pos -> V t0 = vel ->
  forall t, dot (V t) (V t) = mu * (2 / vlength (P t) - match a_of el with Some a => / a | None => 0 end).
Proof. exact vis_viva. Qed.
Print Assumptions C150_semi_major_axis.
Theorem C150_nearest : forall pos vel mu el P V t0, osculating pos vel mu = Some el -> cross pos vel <> vzero ->
  newtonian mu P V -> P t0 = pos -> V t0 = vel ->
  (forall t, q_of el <= vlength (P t)) /\ exists t, vlength (P t) = q_of el.
Proof. exact nearest. Qed.
Print Assumptions C150_nearest.
Theorem C150_farthest : forall pos vel mu el P V t0, osculating pos vel mu = Some el -> cross pos vel <> vzero ->
  newtonian mu P V -> P t0 = pos -> V t0 = vel ->
  match Q_of el with
  | Some Q => (forall t, vlength (P t) <= Q) /\ exists t, vlength (P t) = Q
  | None => forall M, exists t, M < vlength (P t)
  end.
Proof. exact size_high. Qed.
Print Assumptions C150_farthest.
Theorem C150_period : forall pos vel mu el P V t0, osculating pos vel mu = Some el -> cross pos vel <> vzero ->
  newtonian mu P V -> P t0 = pos -> V t0 = vel ->
  match period_in_days el mu with
  | Some T => 0 < T /\ (forall t, P (t + 86400 * T) = P t /\ V (t + 86400 * T) = V t) /\ (forall t s, 0 < s < 86400 * T -> P (t + s) <> P t)
  | None => forall t u, t <> u -> P t <> P u
  end.
Proof. exact orbit_period. Qed.
Print Assumptions C150_period.
Theorem C150_mean_motion : forall pos vel mu el, osculating pos vel mu = Some el -> cross pos vel <> vzero ->
  forall T, period_in_days el mu = Some T -> mean_motion_per_day el mu * T = tau.
Proof. exact motion_and_period. Qed.
Print Assumptions C150_mean_motion.
(** With axes through the centre, the first toward periapsis, every place of the
    motion is on the conic with the given semi-axes and focus. *)
Theorem C150_shape : forall pos vel mu el P V t0, osculating pos vel mu = Some el -> cross pos vel <> vzero ->
  newtonian mu P V -> P t0 = pos -> V t0 = vel ->
  exists X Y, dot X X = 1 /\ dot Y Y = 1 /\ dot X Y = 0 /\ (exists t, P t = smul (q_of el) X) /\
  forall t, let x := dot (P t) X in let y := dot (P t) Y in P t = vadd (smul x X) (smul y Y) /\
    match a_of el with
    | Some a => if Rlt_dec (el_e el) 1
                then ((x + a * el_e el) / a) ^ 2 + (y / b_of el) ^ 2 = 1 /\ 0 < b_of el /\ b_of el <= a
                else ((x + a * el_e el) / a) ^ 2 - (y / b_of el) ^ 2 = 1 /\ a < 0 /\ b_of el < 0
    | None => y ^ 2 = el_p el ^ 2 - 2 * el_p el * x /\ b_of el = 0
    end.
Proof. exact orbit_shape. Qed.
Print Assumptions C150_shape.
(** An orbit of eccentricity 1/2 and its motion. *)
Example C150_ex : exists pos vel el P V, osculating pos vel 1 = Some el /\ cross pos vel <> vzero /\ newtonian 1 P V /\ P 0 = pos /\ V 0 = vel /\
  el_p el = 1 /\ el_e el = 1 / 2 /\ cos (el_v el / 2) <> 0 /\ too_small <= mean_motion_per_day el 1 /\ period_in_days el 1 <> None.
Proof. exact one_orbit. Qed.

(** * C151 *)
Theorem C151_elements_stay : forall pos vel mu el P V t0, osculating pos vel mu = Some el -> cross pos vel <> vzero ->
  newtonian mu P V -> P t0 = pos -> V t0 = vel ->
  forall t, exists v, osculating (P t) (V t) mu = Some (Elements (el_p el) (el_e el) (el_i el) (el_Om el) (el_w el) v).
Proof. exact elements_stay. Qed.
Print Assumptions C151_elements_stay.
(** Away from apoapsis, where the tangent that the code takes has no value. *)
Theorem C151_elliptical_partial : forall pos vel mu el P V t0, osculating pos vel mu = Some el -> cross pos vel <> vzero ->
  newtonian mu P V -> P t0 = pos -> V t0 = vel ->
  el_e el = 0 \/ tiny < el_e el -> el_e el < 1 -> cos (el_v el / 2) <> 0 -> too_small <= mean_motion_per_day el mu ->
  let tp := t0 - 86400 * days_since_periapsis el mu in
  P tp = smul (q_of el) (along (el_i el) (el_Om el) (el_w el)) /\ dot (P tp) (V tp) = 0 /\
  (exists T, period_in_days el mu = Some T /\ 0 <= days_since_periapsis el mu < T) /\
  (0 < el_e el -> forall s, tp < s <= t0 -> q_of el < vlength (P s)).
Proof. exact elliptic_passage. Qed.
Print Assumptions C151_elliptical_partial.
Theorem C151_parabolic : forall pos vel mu el P V t0, osculating pos vel mu = Some el -> cross pos vel <> vzero ->
  newtonian mu P V -> P t0 = pos -> V t0 = vel -> el_e el = 1 ->
  let tp := t0 - 86400 * days_since_periapsis el mu in
  P tp = smul (q_of el) (along (el_i el) (el_Om el) (el_w el)) /\ dot (P tp) (V tp) = 0 /\ forall s, s <> tp -> q_of el < vlength (P s).
Proof. exact parabolic_passage2. Qed.
Print Assumptions C151_parabolic.
(** While the hyperbolic anomaly is in [-PI, PI): C67 shows what happens beyond. *)
Theorem C151_hyperbolic_partial : forall pos vel mu el P V t0 F, osculating pos vel mu = Some el -> cross pos vel <> vzero ->
  newtonian mu P V -> P t0 = pos -> V t0 = vel -> 1 < el_e el ->
  seen_hyperbolic (el_e el) F (el_v el) -> - PI <= F < PI -> too_small <= mean_motion_per_day el mu ->
  let tp := t0 - 86400 * days_since_periapsis el mu in
  P tp = smul (q_of el) (along (el_i el) (el_Om el) (el_w el)) /\ dot (P tp) (V tp) = 0 /\ forall s, s <> tp -> q_of el < vlength (P s).
Proof. exact hyperbolic_passage2. Qed.
Print Assumptions C151_hyperbolic_partial.
Theorem C151_mean_anomaly : forall pos vel mu el P V t0 t el', osculating pos vel mu = Some el -> cross pos vel <> vzero ->
  newtonian mu P V -> P t0 = pos -> V t0 = vel ->
  el_e el = 0 \/ tiny < el_e el -> el_e el < 1 -> osculating (P t) (V t) mu = Some el' -> cos (el_v el / 2) <> 0 -> cos (el_v el' / 2) <> 0 ->
  same_angle (mean_anomaly el') (mean_anomaly el + mean_motion_per_day el mu * ((t - t0) / 86400)).
Proof. exact mean_anomaly_uniform. Qed.
Print Assumptions C151_mean_anomaly.
Theorem C151_mean_longitude : forall pos vel mu el P V t0 t el', osculating pos vel mu = Some el -> cross pos vel <> vzero ->
  newtonian mu P V -> P t0 = pos -> V t0 = vel ->
  el_e el = 0 \/ tiny < el_e el -> el_e el < 1 -> osculating (P t) (V t) mu = Some el' -> cos (el_v el / 2) <> 0 -> cos (el_v el' / 2) <> 0 ->
  same_angle (mean_longitude el') (mean_longitude el + mean_motion_per_day el mu * ((t - t0) / 86400)).
Proof. exact mean_longitude_uniform. Qed.
Print Assumptions C151_mean_longitude.
(** The angle in the orbit from the node to the body. *)
Theorem C151_argument_of_latitude : forall pos vel mu el, osculating pos vel mu = Some el -> cross pos vel <> vzero -> el_e el = 0 \/ tiny < el_e el ->
  pos = smul (vlength pos) (along (el_i el) (el_Om el) (argument_of_latitude el)) /\ 0 <= argument_of_latitude el < tau.
Proof. exact latitude_argument. Qed.
Print Assumptions C151_argument_of_latitude.
(** In the plane of reference the longitudes are angles from the first axis. *)
Theorem C151_longitudes_in_the_plane : forall pos vel mu el, osculating pos vel mu = Some el -> cross pos vel <> vzero -> el_e el = 0 \/ tiny < el_e el -> el_i el = 0 ->
  pos = smul (vlength pos) (V3 (cos (true_longitude el)) (sin (true_longitude el)) 0) /\ 0 <= true_longitude el < tau /\
  along (el_i el) (el_Om el) (el_w el) = V3 (cos (longitude_of_periapsis el)) (sin (longitude_of_periapsis el)) 0 /\ 0 <= longitude_of_periapsis el < tau.
Proof. exact flat_longitudes. Qed.
Print Assumptions C151_longitudes_in_the_plane.
Theorem C151_longitudes : forall el, same_angle (mean_longitude el) (longitude_of_periapsis el + mean_anomaly el) /\ same_angle (true_longitude el) (longitude_of_periapsis el + el_v el) /\
  same_angle (longitude_of_periapsis el) (el_Om el + el_w el) /\ same_angle (argument_of_latitude el) (el_w el + el_v el) /\
  0 <= mean_longitude el < tau /\ 0 <= true_longitude el < tau /\ 0 <= longitude_of_periapsis el < tau /\ 0 <= argument_of_latitude el < tau.
Proof. exact longitudes. Qed.
Print Assumptions C151_longitudes.
Example C151_ex : exists pos vel el P V, osculating pos vel 1 = Some el /\ cross pos vel <> vzero /\ newtonian 1 P V /\ P 0 = pos /\ V 0 = vel /\
  el_p el = 1 /\ el_e el = 1 / 2 /\ cos (el_v el / 2) <> 0 /\ too_small <= mean_motion_per_day el 1 /\ period_in_days el 1 <> None.
Proof. exact one_orbit. Qed.

(** * C152 *)
(** The size, shape and times do not depend on the frame, and the plane and the line
    of apsides turn with it. *)
Theorem C152_frame : forall s M gm el mu, rotation M -> osculating_elements_of s None gm = Some (el, mu) ->
  cross (km (s_xyz s)) (km_per_s (s_velocity s)) <> vzero -> tiny < el_e el ->
  exists el', osculating_elements_of s (Some M) gm = Some (el', mu) /\ same_orbit el el' /\
    (a_of el' = a_of el /\ b_of el' = b_of el /\ q_of el' = q_of el /\ Q_of el' = Q_of el /\
     eccentric_anomaly_el el' = eccentric_anomaly_el el /\ mean_anomaly el' = mean_anomaly el /\ mean_motion_per_day el' mu = mean_motion_per_day el mu /\
     period_in_days el' mu = period_in_days el mu /\ days_since_periapsis el' mu = days_since_periapsis el mu) /\
    pole (el_i el') (el_Om el') = mxv M (pole (el_i el) (el_Om el)) /\ along (el_i el') (el_Om el') (el_w el') = mxv M (along (el_i el) (el_Om el) (el_w el)) /\
    ele_to_vec (el_p el') (el_e el') (el_i el') (el_Om el') (el_w el') (el_v el') mu = Some (km (mxv M (s_xyz s)), km_per_s (mxv M (s_velocity s))).
Proof. exact in_frame_all. Qed.
Print Assumptions C152_frame.
(** Positions are taken in kilometers and velocities in kilometers per second. *)
Theorem C152_units_and_mass : forall s f gm el mu, osculating_elements_of s f gm = Some (el, mu) ->
  osculating (smul 149597870.7 (match f with Some M => mxv M (s_xyz s) | None => s_xyz s end))
             (smul (149597870.7 / 86400) (match f with Some M => mxv M (s_velocity s) | None => s_velocity s end)) mu = Some el /\
  match gm with Some g => mu = g | None => gm_of (s_center s) (s_target s) = Some mu end.
Proof. exact units_and_mass. Qed.
Print Assumptions C152_units_and_mass.
Theorem C152_two_bodies : forall c t, (c < 0 \/ 9 < c)%Z ->
  gm_of (Code c) (Code t) = if Rlt_dec 0 (get0 c + get0 t) then Some (get0 c + get0 t) else None.
Proof. exact gm_two. Qed.
Print Assumptions C152_two_bodies.
Theorem C152_symmetric_partial : forall c t, (c < 0 \/ 9 < c)%Z -> (t < 0 \/ 9 < t)%Z -> gm_of (Code c) (Code t) = gm_of (Code t) (Code c).
Proof. exact gm_symmetric. Qed.
Print Assumptions C152_symmetric_partial.
Theorem C152_barycenter : forall c t, (0 <= c <= 9)%Z -> gm_of (Code c) t = dict_get GM_dict c /\ dict_get GM_dict c <> None.
Proof. exact gm_system. Qed.
Print Assumptions C152_barycenter.
Theorem C152_object : forall t, gm_of Object t = None.
Proof. exact gm_object. Qed.
Print Assumptions C152_object.
Theorem C152_satellite : forall c x, (9 < c)%Z -> dict_get GM_dict c = Some x -> gm_of (Code c) Object = Some x.
Proof. exact gm_satellite. Qed.
Print Assumptions C152_satellite.
(** The mass of a system is that of its members to 1.5e-6, or 1.5e-3 with Pluto. *)
Theorem C152_systems : forall c, (0 <= c <= 9)%Z ->
  Rabs (get0 c - fold_right Rplus 0 (map get0 (members c))) <= 15 / 10 ^ 4 * get0 c /\
  ((c <= 8)%Z -> Rabs (get0 c - fold_right Rplus 0 (map get0 (members c))) <= 15 / 10 ^ 7 * get0 c).
Proof. exact systems. Qed.
Print Assumptions C152_systems.
(** The barycenter of a system as seen from a member has almost twice the mass that
    the member has as seen from the barycenter: the member is counted twice. *)
Theorem C152_counted_twice_refuted : exists x y, gm_of (Code 3) (Code 399) = Some x /\ gm_of (Code 399) (Code 3) = Some y /\ 1.9 * x < y.
Proof. exact not_symmetric. Qed.
Print Assumptions C152_counted_twice_refuted.
Example C152_ex : dict_get GM_dict 399 <> None /\ dict_get GM_dict 301 <> None /\ dict_get GM_dict 10 <> None /\ dict_get GM_dict 12345 = None.
Proof. repeat split; discriminate. Qed.

(** * C153 *)
Theorem C153_lanes_partial : forall pos vel mu ar k p v el, length pos = length vel -> osculating_array pos vel mu = Some ar ->
  nth_error pos k = Some p -> nth_error vel k = Some v -> osculating p v mu = Some el -> el_e el <> tiny -> el_e el <> 1 - tiny ->
  lane ar k el mu /\ (el_e el < 1 - tiny \/ 1 <= el_e el -> nth_error (ar_Q ar) k = Some (Q_of el)).
Proof. exact arrays. Qed.
Print Assumptions C153_lanes_partial.
Theorem C153_refused : forall pos vel mu, osculating_array pos vel mu = None <-> mu <= 0.
Proof. exact arrays_refused. Qed.
Print Assumptions C153_refused.
(** An ellipse with an eccentricity within 1e-15 of 1 has an apoapsis when it is
    alone and none when it is in an array. *)
Theorem C153_apoapsis_refuted : exists el ar, osculating (V3 1 0 0) (V3 0 (sqrt (2 - 1 / 10 ^ 16)) 0) 1 = Some el /\ el_e el < 1 /\
  osculating_array [V3 1 0 0] [V3 0 (sqrt (2 - 1 / 10 ^ 16)) 0] 1 = Some ar /\ nth_error (ar_Q ar) 0 = Some None /\ Q_of el <> None.
Proof. exact almost_parabola. Qed.
Print Assumptions C153_apoapsis_refuted.
Example C153_ex : exists pos vel el P V, osculating pos vel 1 = Some el /\ cross pos vel <> vzero /\ newtonian 1 P V /\ P 0 = pos /\ V 0 = vel /\
  el_p el = 1 /\ el_e el = 1 / 2 /\ cos (el_v el / 2) <> 0 /\ too_small <= mean_motion_per_day el 1 /\ period_in_days el 1 <> None.
Proof. exact one_orbit. Qed.
