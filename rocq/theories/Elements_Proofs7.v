From Coq Require Import Reals Lra Lia Psatz ZArith List Bool.
From Coquelicot Require Import Coquelicot.
From Verif Require Import Real_Math Real_Math_Proofs Vector_Model Vector_Proofs Vector_Proofs2 Geo_Model Geo_Spec Geo_Proofs Geo_Proofs2 Kepler_Model Kepler_Spec Kepler_Proofs Kepler_Proofs2 Kepler_Proofs3 Kepler_Proofs4 Kepler_Proofs5 Kepler_Proofs6 Kepler_Proofs7 Kepler_Proofs8 Elements_Model Elements_Spec Elements_Proofs Elements_Proofs2 Elements_Proofs3 Elements_Proofs4 Elements_Proofs5 Elements_Proofs6.
Import ListNotations.
Open Scope R_scope.

Lemma nearest pos vel mu el P V t0 : osculating pos vel mu = Some el -> cross pos vel <> vzero -> newtonian mu P V -> P t0 = pos -> V t0 = vel ->
  (forall t, q_of el <= vlength (P t)) /\ exists t, vlength (P t) = q_of el.
Proof. intros A B C D E. split; [apply (size_low pos vel mu el P V t0 A B C D E)|apply (size_least pos vel mu el P V t0 A B C D E)]. Qed.
Lemma at_peri pos vel mu el (P V : R -> vec) tp : osculating pos vel mu = Some el -> cross pos vel <> vzero -> (P tp, V tp) = elements_vec (el_p el) (el_e el) (el_i el) (el_Om el) (el_w el) 0 mu ->
  P tp = smul (q_of el) (along (el_i el) (el_Om el) (el_w el)) /\ dot (P tp) (V tp) = 0.
Proof.
  intros El Hn E. destruct (at_periapsis pos vel mu el P V El Hn tp E) as [_ D]. split; [|exact D]. pose proof (fst_eq _ _ _ E) as [E1 _]. rewrite E1.
  rewrite (q_of_eq pos vel mu el El Hn). pose proof (o_e pos vel mu el El Hn). unfold elements_vec. cbv zeta. cbn [fst]. unfold along, smul. cbn. rewrite cos_0, Rmult_1_r, Rplus_0_l. reflexivity.
Qed.
Lemma elliptic_passage pos vel mu el P V t0 : osculating pos vel mu = Some el -> cross pos vel <> vzero -> newtonian mu P V -> P t0 = pos -> V t0 = vel ->
  (el_e el = 0 \/ tiny < el_e el) -> el_e el < 1 -> cos (el_v el / 2) <> 0 -> too_small <= mean_motion_per_day el mu ->
  let tp := t0 - 86400 * days_since_periapsis el mu in
  P tp = smul (q_of el) (along (el_i el) (el_Om el) (el_w el)) /\ dot (P tp) (V tp) = 0 /\
  (exists T, period_in_days el mu = Some T /\ 0 <= days_since_periapsis el mu < T) /\
  (0 < el_e el -> forall s, tp < s <= t0 -> q_of el < vlength (P s)).
Proof.
  intros A B C D E F G H I tp. destruct (elliptic_last pos vel mu el P V t0 A B C D E F G H I) as (X & Y & Z). destruct (at_peri pos vel mu el P V tp A B X). tauto.
Qed.
Lemma parabolic_passage2 pos vel mu el P V t0 : osculating pos vel mu = Some el -> cross pos vel <> vzero -> newtonian mu P V -> P t0 = pos -> V t0 = vel -> el_e el = 1 ->
  let tp := t0 - 86400 * days_since_periapsis el mu in
  P tp = smul (q_of el) (along (el_i el) (el_Om el) (el_w el)) /\ dot (P tp) (V tp) = 0 /\ forall s, s <> tp -> q_of el < vlength (P s).
Proof.
  intros A B C D E G tp. assert (F : el_e el = 0 \/ tiny < el_e el) by (right; rewrite G; unfold tiny; lra). pose proof (parabolic_passage pos vel mu el P V t0 A B C D E F G) as X. cbv zeta in X. fold tp in X. destruct (at_peri pos vel mu el P V tp A B X).
  split; [assumption|]. split; [assumption|]. apply (open_only pos vel mu el P V A B C tp); [lra|exact X].
Qed.
Lemma hyperbolic_passage2 pos vel mu el P V t0 F : osculating pos vel mu = Some el -> cross pos vel <> vzero -> newtonian mu P V -> P t0 = pos -> V t0 = vel -> 1 < el_e el ->
  seen_hyperbolic (el_e el) F (el_v el) -> - PI <= F < PI -> too_small <= mean_motion_per_day el mu ->
  let tp := t0 - 86400 * days_since_periapsis el mu in
  P tp = smul (q_of el) (along (el_i el) (el_Om el) (el_w el)) /\ dot (P tp) (V tp) = 0 /\ forall s, s <> tp -> q_of el < vlength (P s).
Proof.
  intros A B C D E G H I J tp. assert (F' : el_e el = 0 \/ tiny < el_e el) by (right; unfold tiny; lra). pose proof (hyperbolic_passage pos vel mu el P V t0 A B C D E F' F G H I J) as X. cbv zeta in X. fold tp in X. destruct (at_peri pos vel mu el P V tp A B X).
  split; [assumption|]. split; [assumption|]. apply (open_only pos vel mu el P V A B C tp); [lra|exact X].
Qed.
Lemma in_frame_all s M gm el mu : rotation M -> osculating_elements_of s None gm = Some (el, mu) -> cross (km (s_xyz s)) (km_per_s (s_velocity s)) <> vzero -> tiny < el_e el ->
  exists el', osculating_elements_of s (Some M) gm = Some (el', mu) /\ same_orbit el el' /\
    (a_of el' = a_of el /\ b_of el' = b_of el /\ q_of el' = q_of el /\ Q_of el' = Q_of el /\
     eccentric_anomaly_el el' = eccentric_anomaly_el el /\ mean_anomaly el' = mean_anomaly el /\ mean_motion_per_day el' mu = mean_motion_per_day el mu /\
     period_in_days el' mu = period_in_days el mu /\ days_since_periapsis el' mu = days_since_periapsis el mu) /\
    pole (el_i el') (el_Om el') = mxv M (pole (el_i el) (el_Om el)) /\ along (el_i el') (el_Om el') (el_w el') = mxv M (along (el_i el) (el_Om el) (el_w el)) /\
    ele_to_vec (el_p el') (el_e el') (el_i el') (el_Om el') (el_w el') (el_v el') mu = Some (km (mxv M (s_xyz s)), km_per_s (mxv M (s_velocity s))).
Proof.
  intros R A B C. destruct (in_frame s M gm el mu R A B C) as (el' & X & Y & Z). exists el'. split; [exact X|]. split; [exact Y|]. split; [apply same_orbit_same; exact Y|exact Z].
Qed.
(** * A concrete orbit: eccentricity 1/2, one radian past periapsis *)
Lemma one_orbit : exists pos vel el P V, osculating pos vel 1 = Some el /\ cross pos vel <> vzero /\ newtonian 1 P V /\ P 0 = pos /\ V 0 = vel /\
  el_p el = 1 /\ el_e el = 1 / 2 /\ cos (el_v el / 2) <> 0 /\ too_small <= mean_motion_per_day el 1 /\ period_in_days el 1 <> None.
Proof.
  assert (C1 : 0 < cos 1) by (apply cos_gt_0; pose proof PI2_3_2; unfold PI2 in *; lra).
  destruct (ele_to_vec 1 (1 / 2) 1 2 3 1 1) as [[pos vel]|] eqn:S.
  2:{ exfalso. revert S. unfold ele_to_vec. pose proof PI2_3_2 as Pi. unfold PI2 in Pi. destruct (Rlt_dec 1 (1 / 2)); [lra|]. destruct (Rle_dec 0 1); [|lra]. destruct (Rle_dec 1 PI); [discriminate|lra]. }
  assert (D : 0 < 1 + 1 / 2 * cos 1) by lra. pose proof PI2_3_2 as Pi. unfold PI2 in Pi.
  assert (Ti : tiny < 1 / 2) by (unfold tiny; lra).
  destruct (elements_round 1 (1 / 2) 1 2 3 1 1 pos vel ltac:(lra) Ti ltac:(lra) D ltac:(lra) S) as (el & O & Ep & Ee & Ei & _ & _ & Sv & _).
  destruct (state_elements 1 (1 / 2) 1 2 3 1 1 pos vel ltac:(lra) ltac:(lra) D S) as (_ & _ & Cr & _ & _).
  assert (Hn : cross pos vel <> vzero).
  { rewrite Cr. rewrite Rmult_1_r, sqrt_1. intros Z. apply (f_equal vz) in Z. cbn in Z. lra. }
  destruct (motion_exists pos vel 0 1 ltac:(lra) Hn) as (P & V & N & P0 & V0).
  exists pos, vel, el, P, V. repeat (split; [assumption|]). split; [|split].
  - destruct Sv as [k Sv]. intros Z. pose proof (cos_2a_cos (el_v el / 2)) as Q. replace (2 * (el_v el / 2)) with (el_v el) in Q by field. rewrite Z in Q.
    assert (cos (el_v el) = cos 1) by (rewrite Sv; apply cos_tau). lra.
  - assert (E : mean_motion_per_day el 1 = sqrt ((3 / 4) ^ 3) * 86400).
    { rewrite (n_eq 1 el) by (rewrite Ee; lra). rewrite Ep, Ee. f_equal. f_equal. replace (1 / (1 - 1 / 2 * (1 / 2))) with (4 / 3) by field. rewrite Rabs_right by lra. field. }
    rewrite E. assert (sqrt (1 / 4) <= sqrt ((3 / 4) ^ 3)) by (apply sqrt_le_1_alt; lra). replace (1 / 4) with (1 / 2 * (1 / 2)) in H by field. rewrite sqrt_square in H by lra. unfold too_small. lra.
  - unfold period_in_days, period, a_of, semi_major_axis. rewrite Ep, Ee. destruct (Req_EM_T (1 / 2) 1); [lra|]. destruct (Rlt_dec 0 (1 / (1 - 1 / 2 * (1 / 2)))) as [|B]; [discriminate|]. exfalso. apply B. replace (1 / (1 - 1 / 2 * (1 / 2))) with (4 / 3) by field. lra.
Qed.
(** * An ellipse that is almost a parabola *)
Lemma almost_parabola : exists el ar, osculating (V3 1 0 0) (V3 0 (sqrt (2 - 1 / 10 ^ 16)) 0) 1 = Some el /\ el_e el < 1 /\
  osculating_array [V3 1 0 0] [V3 0 (sqrt (2 - 1 / 10 ^ 16)) 0] 1 = Some ar /\ nth_error (ar_Q ar) 0 = Some None /\ Q_of el <> None.
Proof.
  set (s := sqrt (2 - 1 / 10 ^ 16)). assert (S : s * s = 2 - 1 / 10 ^ 16) by (apply sqrt_sqrt; lra). assert (Sp : 0 < s) by (apply sqrt_lt_R0; lra).
  assert (Hn : cross (V3 1 0 0) (V3 0 s 0) <> vzero) by (intros Z; apply (f_equal vz) in Z; cbn in Z; lra).
  pose proof (osculating_eq (V3 1 0 0) (V3 0 s 0) 1 ltac:(lra) Hn) as E. cbv zeta in E.
  set (L := laplace (V3 1 0 0) (V3 0 s 0) 1) in E.
  assert (EL : vlength L = 1 - 1 / 10 ^ 16).
  { assert (U : vlength (V3 1 0 0) = 1) by (unfold vlength, dot; cbn [vx vy vz]; transitivity (sqrt 1); [f_equal; ring|apply sqrt_1]).
    assert (L = V3 (1 - 1 / 10 ^ 16) 0 0) as ->.
    { unfold L, laplace. rewrite U. apply vec_ext; cbn [vx vy vz cross smul vsub vadd]; try (field). transitivity (s * s - 1); [field|rewrite S; lra]. }
    unfold vlength, dot. cbn [vx vy vz]. rewrite !Rmult_0_r, !Rplus_0_r. apply sqrt_square. lra. }
  destruct (osculating (V3 1 0 0) (V3 0 s 0) 1) as [el|] eqn:O; [|discriminate].
  assert (Ee : el_e el = 1 - 1 / 10 ^ 16) by (assert (el_e el = vlength L) by (apply (f_equal (fun o => match o with Some x => el_e x | None => 0 end)) in E; exact E); lra).
  destruct (osculating_array [V3 1 0 0] [V3 0 s 0] 1) as [ar|] eqn:A; [|apply arrays_refused in A; lra].
  exists el, ar. split; [reflexivity|]. split; [lra|]. split; [reflexivity|].
  apply (arrays_apoapsis [V3 1 0 0] [V3 0 s 0] 1 ar 0 (V3 1 0 0) (V3 0 s 0) el eq_refl A eq_refl eq_refl O). rewrite Ee. unfold tiny. lra.
Qed.
(** * Sums of angles *)
Lemma rmod_same2 x : same_angle (rmod x tau) x /\ 0 <= rmod x tau < tau.
Proof. split; [apply rmod_same_angle|apply rmod_bounds, tau_pos]. Qed.
Lemma along_same i Om u u' : same_angle u u' -> along i Om u = along i Om u'.
Proof. intros [k ->]. unfold along. rewrite cos_tau, sin_tau. reflexivity. Qed.
Lemma latitude_argument pos vel mu el : osculating pos vel mu = Some el -> cross pos vel <> vzero -> el_e el = 0 \/ tiny < el_e el ->
  pos = smul (vlength pos) (along (el_i el) (el_Om el) (argument_of_latitude el)) /\ 0 <= argument_of_latitude el < tau.
Proof.
  intros El Hn Ge. destruct (el_both pos vel mu el (fun _ => pos) (fun _ => vel) 0 El Hn eq_refl eq_refl Ge) as [E D].
  destruct (rmod_same2 (el_w el + el_v el)) as [S B]. split; [|exact B]. unfold argument_of_latitude. rewrite (along_same _ _ _ _ S).
  pose proof (osculating_base pos vel mu el El Hn) as (Hm & Hp & _ & _).
  assert (X : ele_to_vec (el_p el) (el_e el) (el_i el) (el_Om el) (el_w el) (el_v el) mu = Some (pos, vel)).
  { destruct (state_back pos vel mu Hm Hn) as (el' & O & F); [|congruence].
    assert (Ee : el_e el = vlength (laplace pos vel mu)) by (apply (osculating_base pos vel mu el El Hn)). rewrite Ee in Ge. destruct Ge as [Z|Z]; [left|right; exact Z]. apply dot_zero_vec. pose proof (vlength_sq (laplace pos vel mu)) as Sq. rewrite Z in Sq. unfold dot. lra. }
  destruct (state_elements _ _ _ _ _ _ _ _ _ Hp Hm D X) as (_ & Y & _). exact Y.
Qed.
Lemma flat_along Om u : along 0 Om u = V3 (cos (Om + u)) (sin (Om + u)) 0.
Proof. unfold along. rewrite cos_0, sin_0, cos_plus, sin_plus. apply vec_ext; cbn; ring. Qed.
Lemma flat_longitudes pos vel mu el : osculating pos vel mu = Some el -> cross pos vel <> vzero -> el_e el = 0 \/ tiny < el_e el -> el_i el = 0 ->
  pos = smul (vlength pos) (V3 (cos (true_longitude el)) (sin (true_longitude el)) 0) /\ 0 <= true_longitude el < tau /\
  along (el_i el) (el_Om el) (el_w el) = V3 (cos (longitude_of_periapsis el)) (sin (longitude_of_periapsis el)) 0 /\ 0 <= longitude_of_periapsis el < tau.
Proof.
  intros El Hn Ge Ei. destruct (latitude_argument pos vel mu el El Hn Ge) as [L _]. rewrite Ei in *. 
  destruct (rmod_same2 (el_w el + el_v el)) as [S _]. unfold argument_of_latitude in L. rewrite (along_same _ _ _ _ S), flat_along in L.
  unfold true_longitude, longitude_of_periapsis. destruct (rmod_same2 (el_Om el + el_w el + el_v el)) as [S1 B1]. destruct (rmod_same2 (el_Om el + el_w el)) as [S2 B2].
  split; [|split; [exact B1|split; [|exact B2]]].
  - destruct S1 as [k ->]. rewrite cos_tau, sin_tau. rewrite Rplus_assoc. exact L.
  - rewrite flat_along. destruct S2 as [k ->]. rewrite cos_tau, sin_tau. reflexivity.
Qed.
Lemma longitudes el : same_angle (mean_longitude el) (longitude_of_periapsis el + mean_anomaly el) /\ same_angle (true_longitude el) (longitude_of_periapsis el + el_v el) /\
  same_angle (longitude_of_periapsis el) (el_Om el + el_w el) /\ same_angle (argument_of_latitude el) (el_w el + el_v el) /\
  0 <= mean_longitude el < tau /\ 0 <= true_longitude el < tau /\ 0 <= longitude_of_periapsis el < tau /\ 0 <= argument_of_latitude el < tau.
Proof.
  unfold mean_longitude, true_longitude, longitude_of_periapsis, argument_of_latitude.
  destruct (rmod_same2 (el_Om el + el_w el)) as [(k & S2) B2]. rewrite S2.
  destruct (rmod_same2 (el_Om el + el_w el + mean_anomaly el)) as [(k1 & S3) B3]. destruct (rmod_same2 (el_Om el + el_w el + el_v el)) as [(k2 & S4) B4]. destruct (rmod_same2 (el_w el + el_v el)) as [S5 B5].
  repeat split; try lra; try (destruct S5 as (k5 & S5); exists k5; exact S5).
  - exists (k1 - k)%Z. rewrite S3, minus_IZR. ring.
  - exists (k2 - k)%Z. rewrite S4, minus_IZR. ring.
  - exists k. reflexivity.
Qed.
Lemma mean_longitude_uniform pos vel mu el P V t0 t el' : osculating pos vel mu = Some el -> cross pos vel <> vzero -> newtonian mu P V -> P t0 = pos -> V t0 = vel ->
  (el_e el = 0 \/ tiny < el_e el) -> el_e el < 1 -> osculating (P t) (V t) mu = Some el' -> cos (el_v el / 2) <> 0 -> cos (el_v el' / 2) <> 0 ->
  same_angle (mean_longitude el') (mean_longitude el + mean_motion_per_day el mu * ((t - t0) / 86400)).
Proof.
  intros A B C D E F G H I J. destruct (mean_anomaly_uniform pos vel mu el P V t0 t el' A B C D E F G H I J) as (k & U).
  destruct (elements_stay pos vel mu el P V t0 A B C D E t) as (v & St). rewrite H in St. assert (Q : el_Om el' = el_Om el /\ el_w el' = el_w el) by (injection St as St; rewrite St; split; reflexivity). destruct Q as [Q1 Q2].
  unfold mean_longitude. destruct (rmod_same2 (el_Om el + el_w el + mean_anomaly el)) as [(k1 & S1) _]. destruct (rmod_same2 (el_Om el' + el_w el' + mean_anomaly el')) as [(k2 & S2) _].
  rewrite S1, S2, Q1, Q2, U. exists (k + k2 - k1)%Z. rewrite minus_IZR, plus_IZR. ring.
Qed.
Lemma units_and_mass s f gm el mu : osculating_elements_of s f gm = Some (el, mu) ->
  osculating (smul 149597870.7 (match f with Some M => mxv M (s_xyz s) | None => s_xyz s end)) (smul (149597870.7 / 86400) (match f with Some M => mxv M (s_velocity s) | None => s_velocity s end)) mu = Some el /\
  match gm with Some g => mu = g | None => gm_of (s_center s) (s_target s) = Some mu end.
Proof.
  unfold osculating_elements_of. assert (K : forall v, km v = smul 149597870.7 v) by (intros v; unfold km, AU_KM; f_equal; lra). assert (K2 : forall v, km_per_s v = smul (149597870.7 / 86400) v) by (intros v; unfold km_per_s, AU_KM, DAY_S; f_equal; lra).
  destruct (match gm with Some g => Some g | None => gm_of (s_center s) (s_target s) end) as [g|] eqn:G; [|discriminate]. rewrite K, K2.
  destruct (osculating _ _ g) as [el'|] eqn:O; [|discriminate]. intros H. injection H as <- <-. split; [exact O|]. destruct gm; congruence.
Qed.
