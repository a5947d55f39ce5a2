From Coq Require Import Reals ZArith Lra Lia.
From Verif Require Import Real_Math Vector_Model Geo_Model Geo_Spec Kepler_Model Kepler_Spec Kepler_Proofs Kepler_Proofs2 Kepler_Proofs3 Kepler_Proofs4 Kepler_Proofs7 Kepler_Proofs8 Kepler_Proofs9.
Open Scope R_scope.

(** * C55 *)
Theorem C55_state_has_the_elements : forall p e i Om w v mu pos vel, 0 < p -> 0 < mu -> 0 < 1 + e * cos v ->
  ele_to_vec p e i Om w v mu = Some (pos, vel) ->
  vlength pos = p / (1 + e * cos v) /\
  pos = smul (vlength pos) (along i Om (w + v)) /\
  cross pos vel = smul (sqrt (p * mu)) (pole i Om) /\
  dot vel vel = mu * (2 / vlength pos - (1 - e * e) / p) /\
  laplace pos vel mu = smul e (along i Om w).
Proof. exact state_elements. Qed.
Print Assumptions C55_state_has_the_elements.
(** An elliptical, a parabolic and a hyperbolic orbit. *)
Example C55_ex : ele_to_vec 1 (1 / 2) 1 2 3 3 1 <> None /\ ele_to_vec 1 1 1 2 3 1 1 <> None /\ ele_to_vec 1 2 1 2 3 (-1) 1 <> None /\ 0 < 1 + 2 * cos (-1).
Proof. exact elements_accepted. Qed.

(** * C56 *)
(** Elliptical orbits: what is returned solves Kepler's equation to 5e-14 and is the
    true anomaly of that solution. Missing: that a solution is found with an
    eccentricity between 0.85 and 1 - 1e-11, and other orbits. *)
Theorem C56_elliptical_partial : forall e p gm M v, 0 < e <= 1 - 1 / 10 ^ 13 -> anomaly_of e p gm M = Some v ->
  exists E (k : Z), Rabs (elliptic_mean_anomaly e E - (M + tau * IZR k)) <= 5 / 10 ^ 14 /\ (cos (E / 2) <> 0 -> seen_elliptic e E v).
Proof. exact anomaly_elliptic. Qed.
Print Assumptions C56_elliptical_partial.
Example C56_ex : forall e, 0 < e < 3 / 4 -> eccentric_anomaly e (PI / 2 - e) = Some (PI / 2).
Proof. intros e He. apply quarter_run; [assumption|reflexivity]. Qed.
(** Up to an eccentricity of 0.85, other than pi/4, a solution is always found. *)
Theorem C56_found_partial : forall e p gm M, 0 < e <= 85 / 100 -> e <> PI / 4 -> exists v, anomaly_of e p gm M = Some v /\
  exists E (k : Z), Rabs (elliptic_mean_anomaly e E - (M + tau * IZR k)) <= 5 / 10 ^ 14 /\ (cos (E / 2) <> 0 -> seen_elliptic e E v).
Proof. exact anomaly_found. Qed.
Print Assumptions C56_found_partial.
Example C56_found_ex : 0 < 6 / 10 <= 85 / 100 /\ 6 / 10 <> PI / 4.
Proof. split; [lra|]. pose proof PI2_3_2 as H. unfold PI2 in H. lra. Qed.
(** At the periapsis of an orbit that is almost a parabola the ten steps do not
    suffice, and the orbit is refused. *)
Theorem C56_near_parabola_refuted : forall e p gm, 1 - 1 / 10 ^ 11 <= e < 1 -> anomaly_of e p gm 0 = None.
Proof. exact near_parabola. Qed.
Print Assumptions C56_near_parabola_refuted.
Theorem C56_quarter_pi_refuted : forall p gm M, anomaly_of (PI / 4) p gm M = None.
Proof. exact quarter_pi_fails. Qed.
Print Assumptions C56_quarter_pi_refuted.
(** A circular orbit is refused. *)
Theorem C56_circular_refuted : forall p gm M, anomaly_of 0 p gm M = None.
Proof. exact circular_anomaly. Qed.
Print Assumptions C56_circular_refuted.
(** A hyperbolic orbit is given the elliptical equation. *)
Theorem C56_hyperbolic_refuted : forall p gm, ~ exists v F, anomaly_of 2 p gm (1 / 2) = Some v /\ seen_hyperbolic 2 F v /\ Rabs (hyperbolic_mean_anomaly 2 F - 1 / 2) <= 1 / 1000.
Proof. exact hyperbolic_wrong. Qed.
Print Assumptions C56_hyperbolic_refuted.
(** A parabolic orbit is right at periapsis only. *)
Theorem C56_parabolic_refuted : forall p gm M, 0 < p -> 0 < gm ->
  (parabolic_time (p / 2) gm (true_anomaly_parabolic p gm M) = sqrt (2 * p ^ 3 / gm) * M <-> M = 0).
Proof. exact parabolic_iff. Qed.
Print Assumptions C56_parabolic_refuted.

(** * C65 *)
(** Within the range of floats, and as long as the Stumpff functions decide on which
    side of the root a point lies, the search ends within 1064 steps, and the result is
    as near to the motion determined by the state at the epoch as 64 halvings and
    functions right to 1e-18 allow. *)
Theorem C65_follows_newton : forall fuel bound pos vel t0 gm P V, 0 < gm -> cross pos vel <> vzero -> (1064 <= fuel)%nat ->
  newtonian gm P V -> P t0 = pos -> V t0 = vel -> forall t,
    2 * reach pos vel gm (t - t0) <= bound -> drift pos vel gm (2 * reach pos vel gm (t - t0)) <= pace pos vel gm / 2 ->
    exists p v, propagate stumpff fuel bound pos vel t0 t gm = Some (p, v) /\
      vlength (vsub p (P t)) <= position_slack pos vel gm (t - t0) /\ vlength (vsub v (V t)) <= velocity_slack pos vel gm (t - t0).
Proof. exact stumpff_follows. Qed.
Print Assumptions C65_follows_newton.
(** There is exactly one such motion. *)
Theorem C65_motion_exists : forall pos vel t0 gm, 0 < gm -> cross pos vel <> vzero -> exists P V, newtonian gm P V /\ P t0 = pos /\ V t0 = vel.
Proof. exact motion_exists. Qed.
Print Assumptions C65_motion_exists.
Theorem C65_motion_unique : forall gm P V Q W t0, 0 < gm -> newtonian gm P V -> newtonian gm Q W -> P t0 = Q t0 -> V t0 = W t0 -> forall t, P t = Q t /\ V t = W t.
Proof. exact unique. Qed.
Print Assumptions C65_motion_unique.
Theorem C65_epoch : forall st fuel bound pos vel t0 gm, 0 < gm -> cross pos vel <> vzero -> propagate st fuel bound pos vel t0 t0 gm = Some (pos, vel).
Proof. exact propagate_start. Qed.
Print Assumptions C65_epoch.
Theorem C65_series : forall x, close4 (1 / 10 ^ 18) (stumpff x) (exact x).
Proof. exact stumpff_close. Qed.
Print Assumptions C65_series.
Theorem C65_refusals : forall st fuel bound pos vel t0 t gm, gm <= 0 \/ cross pos vel = vzero -> propagate st fuel bound pos vel t0 t gm = None.
Proof. exact propagate_refuses. Qed.
Print Assumptions C65_refusals.
Example C65_ex : cross (V3 1 0 0) (V3 0 1 0) <> vzero /\ 2 * reach (V3 1 0 0) (V3 0 1 0) 1 1 <= 2 /\
  drift (V3 1 0 0) (V3 0 1 0) 1 (2 * reach (V3 1 0 0) (V3 0 1 0) 1 1) <= pace (V3 1 0 0) (V3 0 1 0) 1 / 2 /\
  position_slack (V3 1 0 0) (V3 0 1 0) 1 1 <= 1 / 10 ^ 15 /\ velocity_slack (V3 1 0 0) (V3 0 1 0) 1 1 <= 1 / 10 ^ 15.
Proof. split; [|exact circle_slack]. intros H. apply (f_equal vz) in H. cbn in H. lra. Qed.

(** * C66 *)
Theorem C66_elements_come_back : forall p e i Om w v mu pos vel, 0 < p -> tiny < e -> 0 < i < PI -> 0 < 1 + e * cos v -> 0 < mu ->
  ele_to_vec p e i Om w v mu = Some (pos, vel) ->
  exists el, osculating pos vel mu = Some el /\ el_p el = p /\ el_e el = e /\ el_i el = i /\
    same_angle (el_Om el) Om /\ same_angle (el_w el) w /\ same_angle (el_v el) v /\ 0 <= el_Om el < tau /\ 0 <= el_w el < tau.
Proof. exact elements_round. Qed.
Print Assumptions C66_elements_come_back.
Theorem C66_state_comes_back : forall pos vel mu, 0 < mu -> cross pos vel <> vzero ->
  laplace pos vel mu = vzero \/ tiny < vlength (laplace pos vel mu) ->
  exists el, osculating pos vel mu = Some el /\
    ele_to_vec (el_p el) (el_e el) (el_i el) (el_Om el) (el_w el) (el_v el) mu = Some (pos, vel).
Proof. exact state_back. Qed.
Print Assumptions C66_state_comes_back.
Example C66_ex : let pos := V3 1 0 0 in let vel := V3 0 1 0 in cross pos vel <> vzero /\ laplace pos vel 1 = vzero.
Proof. exact circle_state. Qed.

(** * C67 *)
Theorem C67_elliptical : forall el mu, 0 < el_p el -> 0 <= el_e el < 1 -> cos (el_v el / 2) <> 0 ->
  let a := el_p el / (1 - el_e el * el_e el) in let n := sqrt (mu / a ^ 3) * 86400 in too_small <= n ->
  exists E (k : Z), seen_elliptic (el_e el) E (el_v el) /\ n * days_since_periapsis el mu = elliptic_mean_anomaly (el_e el) E + tau * IZR k /\
    0 <= n * days_since_periapsis el mu < tau.
Proof. exact elliptic_time. Qed.
Print Assumptions C67_elliptical.
Theorem C67_parabolic : forall p v i Om w mu, 0 < p -> 0 < mu ->
  days_since_periapsis (Elements p 1 i Om w v) mu * 86400 = parabolic_time (p / 2) mu v.
Proof. exact parabolic_time_ok. Qed.
Print Assumptions C67_parabolic.
(** Hyperbolic orbits: right while the hyperbolic anomaly is in [-PI, PI). *)
Theorem C67_hyperbolic_partial : forall p e F i Om w mu, 0 < p -> 1 < e -> - PI <= F < PI ->
  let el := Elements p e i Om w (true_anomaly_hyperbolic e F) in let a := p / (e * e - 1) in let n := sqrt (mu / a ^ 3) * 86400 in too_small <= n ->
  seen_hyperbolic e F (el_v el) /\ n * days_since_periapsis el mu = hyperbolic_mean_anomaly e F.
Proof. exact hyperbolic_time_ok. Qed.
Print Assumptions C67_hyperbolic_partial.
(** Beyond that the periapsis passed is reported as one to come. *)
Theorem C67_hyperbolic_refuted : forall p e F i Om w mu, 0 < p -> 1 < e -> PI < F < tau ->
  let el := Elements p e i Om w (true_anomaly_hyperbolic e F) in let a := p / (e * e - 1) in let n := sqrt (mu / a ^ 3) * 86400 in too_small <= n ->
  0 < hyperbolic_mean_anomaly e F /\ days_since_periapsis el mu < 0.
Proof. exact hyperbolic_time_wrong. Qed.
Print Assumptions C67_hyperbolic_refuted.
Example C67_ex : let a := 3 / (2 * 2 - 1) in too_small <= sqrt (1 / a ^ 3) * 86400.
Proof. exact motion_ex. Qed.

(** * C68 *)
Theorem C68_refused_partial : forall p e i Om w v mu, 1 < e -> acos (-1 / e) < v -> ele_to_vec p e i Om w v mu = None.
Proof. exact refused_above. Qed.
Print Assumptions C68_refused_partial.
Theorem C68_refuted : ele_to_vec 1 2 0 0 0 (- PI) 1 <> None /\ Rabs (- PI) <= PI /\ acos (-1 / 2) < Rabs (- PI) /\ 1 + 2 * cos (- PI) < 0.
Proof. exact accepted_below. Qed.
Print Assumptions C68_refuted.

(** * C69 *)
Theorem C69_periapsis_partial : forall p e i Om w t gm o, from_periapsis p e i Om w t gm = Some o -> mu_au3_d2 o = gm * CONVERT_GM /\ o_epoch o = t.
Proof. exact kept_mass_periapsis. Qed.
Print Assumptions C69_periapsis_partial.
Theorem C69_mean_anomaly_partial : forall p e i Om w M t gm o, from_mean_anomaly p e i Om w M t gm = Some o -> mu_au3_d2 o = gm * CONVERT_GM /\ o_epoch o = t.
Proof. exact kept_mass_mean. Qed.
Print Assumptions C69_mean_anomaly_partial.
Theorem C69_true_anomaly_refuted : forall p e i Om w v t mu o, mu <> 0 ->
  from_true_anomaly p e i Om w v t (Some mu) None = Some o \/ from_true_anomaly p e i Om w v t None (Some (mu * CONVERT_GM)) = Some o ->
  mu_au3_d2 o = mu /\ mu_au3_d2 o <> mu * CONVERT_GM.
Proof. exact wrong_mass. Qed.
Print Assumptions C69_true_anomaly_refuted.
Example C69_ex : from_true_anomaly 1000 0 0 0 0 0 0 (Some 1) None <> None.
Proof. exact true_anomaly_accepted. Qed.

(** * C70 *)
Theorem C70_comet_perihelion : forall q e i Om w t0 gm o P V, 0 < q -> 0 <= e -> 0 < gm -> comet_orbit q e i Om w t0 gm = Some o ->
  newtonian (mu_au3_d2 o) P V -> P (o_epoch o) = o_position o -> V (o_epoch o) = o_velocity o ->
  vlength (P t0) = q /\ (forall t, q <= vlength (P t)).
Proof. exact comet_perihelion. Qed.
Print Assumptions C70_comet_perihelion.
Theorem C70_comet_eccentricity : forall q e i Om w t gm o, 0 < q -> 0 <= e -> 0 < gm -> comet_orbit q e i Om w t gm = Some o ->
  o_epoch o = t /\ mu_au3_d2 o = gm * CONVERT_GM /\ vlength (laplace (o_position o) (o_velocity o) (mu_au3_d2 o)) = e.
Proof. exact comet_eccentricity. Qed.
Print Assumptions C70_comet_eccentricity.
Theorem C70_comets_of_a_table : forall q e, 0 <= e -> comet_orbits_p q e = q * (1 + e).
Proof. exact comets_p. Qed.
Print Assumptions C70_comets_of_a_table.
Example C70_ex : comet_orbit 1 (3 / 2) 10 20 30 2451545 1 <> None.
Proof. exact comet_ex. Qed.
