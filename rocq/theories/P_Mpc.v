(** C163-C165: comets and minor planets of the Minor Planet Center. *)
From Coq Require Import Reals Lra Lia ZArith String.
From Verif Require Import Cal_Model Cal_Spec Time_Spec Real_Math Vector_Model Geo_Model Geo_Spec Frames_Model Kepler_Model Kepler_Spec Kepler_Proofs7 Kepler_Proofs8 Elements_Model Mpc_Model Mpc_Spec Mpc_Proofs Mpc_Proofs2.
Open Scope R_scope.

(** * C163 *)
Theorem C163_ellipse : forall q e i Om w T gm o P V, 0 < q -> 0 <= e < 1 -> 0 < gm -> comet_orbit q e i Om w T gm = Some o ->
  newtonian (au3_per_day2 gm) P V -> P (o_epoch o) = o_position o -> V (o_epoch o) = o_velocity o -> forall t, let a := q / (1 - e) in let M := daily_motion a (au3_per_day2 gm) * (t - T) in
  (exists E, elliptic_mean_anomaly e E = M) /\ forall E, elliptic_mean_anomaly e E = M -> P t = on_ellipse a e (DEG2RAD * i) (DEG2RAD * Om) (DEG2RAD * w) E.
Proof. exact comet_ellipse. Qed.
Print Assumptions C163_ellipse.
Theorem C163_hyperbola : forall q e i Om w T gm o P V, 0 < q -> 1 < e -> 0 < gm -> comet_orbit q e i Om w T gm = Some o ->
  newtonian (au3_per_day2 gm) P V -> P (o_epoch o) = o_position o -> V (o_epoch o) = o_velocity o -> forall t, let a := q / (e - 1) in let M := daily_motion a (au3_per_day2 gm) * (t - T) in
  (exists F, hyperbolic_mean_anomaly e F = M) /\ forall F, hyperbolic_mean_anomaly e F = M -> P t = on_hyperbola a e (DEG2RAD * i) (DEG2RAD * Om) (DEG2RAD * w) F.
Proof. exact comet_hyperbola. Qed.
Print Assumptions C163_hyperbola.
Theorem C163_parabola : forall q i Om w T gm o P V, 0 < q -> 0 < gm -> comet_orbit q 1 i Om w T gm = Some o ->
  newtonian (au3_per_day2 gm) P V -> P (o_epoch o) = o_position o -> V (o_epoch o) = o_velocity o -> forall t,
  (exists v, cos (v / 2) <> 0 /\ parabolic_time q (au3_per_day2 gm) v = t - T) /\ forall v, cos (v / 2) <> 0 -> parabolic_time q (au3_per_day2 gm) v = t - T -> P t = on_parabola q (DEG2RAD * i) (DEG2RAD * Om) (DEG2RAD * w) v.
Proof. exact comet_parabola. Qed.
Print Assumptions C163_parabola.
Theorem C163_accepted : forall q e i Om w T gm, 0 <= e -> 0 <= i -> DEG2RAD * i <= PI -> comet_orbit q e i Om w T gm <> None.
Proof. exact comet_accepted. Qed.
Print Assumptions C163_accepted.
(** Comets of every shape move so; Halley's comet, one parabola and one hyperbola. *)
Example C163_ex : forall q e, (q = 0.5871 /\ e = 0.9673) \/ (q = 0.0062 /\ e = 1) \/ (q = 2.0 /\ e = 3.357) ->
  exists o P V, comet_orbit q e 0 0 0 2446467.4 132712440042 = Some o /\ newtonian (au3_per_day2 132712440042) P V /\ P (o_epoch o) = o_position o /\ V (o_epoch o) = o_velocity o.
Proof. intros q e H. apply comet_moves; lra. Qed.
(** The perihelion is at the listed date, with the fraction of its day. *)
Theorem C163_perihelion_date : forall cut y m d f q e i Om w gm, good_cutoff cut -> exists_under cut (y, m, d) -> 0 <= f < 1 ->
  comet_of_row cut y m (IZR d + f) q e i Om w gm = comet_orbit q e i Om w (IZR (civil_day_number cut (y, m, d)) - 1 / 2 + f) gm.
Proof. exact row_date. Qed.
Print Assumptions C163_perihelion_date.
Example C163_perihelion_date_ex : good_cutoff None /\ exists_under None (1986, 2, 5)%Z /\ civil_day_number None (1986, 2, 5)%Z = 2446467%Z.
Proof. repeat split. Qed.
(** What [at] returns, seen in the ecliptic frame of J2000, follows that motion. *)
Theorem C163_at : forall fuel bound o P V, 0 < mu_au3_d2 o -> cross (o_position o) (o_velocity o) <> vzero -> (1064 <= fuel)%nat ->
  newtonian (mu_au3_d2 o) P V -> P (o_epoch o) = o_position o -> V (o_epoch o) = o_velocity o -> forall t,
    2 * reach (o_position o) (o_velocity o) (mu_au3_d2 o) (t - o_epoch o) <= bound -> drift (o_position o) (o_velocity o) (mu_au3_d2 o) (2 * reach (o_position o) (o_velocity o) (mu_au3_d2 o) (t - o_epoch o)) <= pace (o_position o) (o_velocity o) (mu_au3_d2 o) / 2 ->
    exists p v, orbit_at (Some to_equator) fuel bound o t = Some (p, v) /\
      let s := position_slack (o_position o) (o_velocity o) (mu_au3_d2 o) (t - o_epoch o) in
      vlength (vsub (mxv (spice_matrix "ECLIPJ2000"%string) p) (P t)) <= s + 1 / 10 ^ 15 * (vlength (P t) + s).
Proof. exact at_follows. Qed.
Print Assumptions C163_at.
Example C163_at_ex : let o := Orbit (V3 1 0 0) (V3 0 1 0) 0 1 in 0 < mu_au3_d2 o /\ cross (o_position o) (o_velocity o) <> vzero /\
  2 * reach (o_position o) (o_velocity o) (mu_au3_d2 o) (1 - o_epoch o) <= 2 /\ drift (o_position o) (o_velocity o) (mu_au3_d2 o) (2 * reach (o_position o) (o_velocity o) (mu_au3_d2 o) (1 - o_epoch o)) <= pace (o_position o) (o_velocity o) (mu_au3_d2 o) / 2 /\
  position_slack (o_position o) (o_velocity o) (mu_au3_d2 o) (1 - o_epoch o) <= 1 / 10 ^ 15.
Proof. cbv zeta. cbn [o_position o_velocity o_epoch mu_au3_d2]. rewrite Rminus_0_r. split; [lra|]. split; [intros H; apply (f_equal vz) in H; cbn in H; lra|]. destruct circle_slack as (H1 & H2 & H3 & _). auto. Qed.

(** * C164 *)
Theorem C164_ellipse : forall a e i Om w M T gm o P V, 0 < a -> 0 < e <= 1 - 1 / 10 ^ 13 -> 0 < gm -> mpcorb_orbit a e i Om w M T gm = Some o ->
  newtonian (au3_per_day2 gm) P V -> P (o_epoch o) = o_position o -> V (o_epoch o) = o_velocity o ->
  exists E0 (k : Z), Rabs (elliptic_mean_anomaly e E0 - (DEG2RAD * M + tau * IZR k)) <= 5 / 10 ^ 14 /\
    (cos (E0 / 2) <> 0 -> forall t, let M' := elliptic_mean_anomaly e E0 + daily_motion a (au3_per_day2 gm) * (t - T) in
      (exists E, elliptic_mean_anomaly e E = M') /\
      forall E, elliptic_mean_anomaly e E = M' -> P t = on_ellipse a e (DEG2RAD * i) (DEG2RAD * Om) (DEG2RAD * w) E).
Proof. exact minor_planet_ellipse. Qed.
Print Assumptions C164_ellipse.
Theorem C164_accepted : forall a e i Om w M T gm, 0 < e <= 85 / 100 -> e <> PI / 4 -> 0 <= i -> DEG2RAD * i <= PI -> mpcorb_orbit a e i Om w M T gm <> None.
Proof. exact minor_planet_accepted. Qed.
Print Assumptions C164_accepted.
(** Ceres. *)
Example C164_ex : exists o P V, mpcorb_orbit 2.7660431 0.0785115 0 0 0 188.70269 2459800.5 132712440042 = Some o /\ newtonian (au3_per_day2 132712440042) P V /\ P (o_epoch o) = o_position o /\ V (o_epoch o) = o_velocity o.
Proof. apply minor_planet_moves; [lra|lra| |lra]. pose proof PI2_3_2. lra. Qed.

(** * C165 *)
Theorem C165_kept : (forall q e i Om w T gm o, 0 <= e -> comet_orbit q e i Om w T gm = Some o -> o_epoch o = T /\ mu_au3_d2 o = au3_per_day2 gm) /\
  (forall a e i Om w M T gm o, mpcorb_orbit a e i Om w M T gm = Some o -> o_epoch o = T /\ mu_au3_d2 o = au3_per_day2 gm).
Proof. exact kept_epoch_mass. Qed.
Print Assumptions C165_kept.
Theorem C165_comet_elements : forall q e i Om w T gm o, 0 < q -> tiny < e -> 0 < DEG2RAD * i < PI -> 0 < gm -> comet_orbit q e i Om w T gm = Some o ->
  exists el, elements_at_epoch o = Some el /\ el_p el = AU_KM * (q * (1 + e)) /\ el_e el = e /\ el_i el = DEG2RAD * i /\
    same_angle (el_Om el) (DEG2RAD * Om) /\ same_angle (el_w el) (DEG2RAD * w) /\ same_angle (el_v el) 0 /\ 0 <= el_Om el < tau /\ 0 <= el_w el < tau.
Proof. exact comet_elements. Qed.
Print Assumptions C165_comet_elements.
Theorem C165_minor_planet_elements : forall a e i Om w M T gm o, 0 < a -> tiny < e <= 1 - 1 / 10 ^ 13 -> 0 < DEG2RAD * i < PI -> 0 < gm -> mpcorb_orbit a e i Om w M T gm = Some o ->
  exists el, elements_at_epoch o = Some el /\ el_p el = AU_KM * (a * (1 - e * e)) /\ el_e el = e /\ el_i el = DEG2RAD * i /\
    same_angle (el_Om el) (DEG2RAD * Om) /\ same_angle (el_w el) (DEG2RAD * w) /\ 0 <= el_Om el < tau /\ 0 <= el_w el < tau.
Proof. exact minor_planet_elements. Qed.
Print Assumptions C165_minor_planet_elements.
(** Halley's comet and Ceres, with their inclinations. *)
Example C165_ex : tiny < 0.9673 /\ 0 < DEG2RAD * 162.19 < PI /\ comet_orbit 0.5871 0.9673 162.19 59.10 112.26 2446467.4 132712440042 <> None /\
  tiny < 0.0785115 <= 1 - 1 / 10 ^ 13 /\ mpcorb_orbit 2.7660431 0.0785115 10.58634 80.26796 73.41886 188.70269 2459800.5 132712440042 <> None.
Proof.
  assert (H : 0 < DEG2RAD * 162.19 < PI) by (unfold DEG2RAD; pose proof PI2_3_2; lra). assert (H' : DEG2RAD * 10.58634 <= PI) by (unfold DEG2RAD; pose proof PI2_3_2; lra).
  split; [unfold tiny; lra|]. split; [exact H|]. split; [apply comet_accepted; lra|]. split; [unfold tiny; lra|]. apply minor_planet_accepted; [lra| |lra|exact H']. pose proof PI2_3_2. lra.
Qed.
