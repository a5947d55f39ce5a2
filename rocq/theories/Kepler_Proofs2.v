From Coq Require Import Reals Lra Lia Psatz.
From Verif Require Import Real_Math Real_Math_Proofs Vector_Model Vector_Proofs Vector_Proofs2 Geo_Model Geo_Spec Geo_Proofs Geo_Proofs2 Kepler_Model Kepler_Spec Kepler_Proofs.
Open Scope R_scope.

(** * Angles *)
Lemma rmod_same a b : cos a = cos b -> sin a = sin b -> rmod a tau = rmod b tau.
Proof.
  intros C S1. pose proof tau_pos. pose proof (rmod_bounds a tau ltac:(lra)). pose proof (rmod_bounds b tau ltac:(lra)).
  apply angle_unique; rewrite ?cos_rmod, ?sin_rmod; try assumption. unfold tau in *. lra.
Qed.
Lemma cos_inj' a b : 0 <= a <= PI -> 0 <= b <= PI -> cos a = cos b -> a = b.
Proof. intros A B. apply cos_inj; assumption. Qed.
Lemma sin_nonneg_range y : 0 <= y < tau -> 0 < sin y -> 0 < y < PI.
Proof.
  intros B P. unfold tau in B. pose proof PI_RGT_0. destruct (Req_dec y 0) as [->|]; [rewrite sin_0 in P; lra|].
  destruct (Rlt_dec y PI); [lra|]. assert (sin y <= 0) by (apply sin_le_0; lra). lra.
Qed.
Lemma pick_angle (c : Prop) (d : {c} + {~ c}) a x : 0 <= a <= PI -> cos a = cos x -> (c <-> 0 < sin x) ->
  (if d then a else rmod (- a) tau) = rmod x tau.
Proof.
  intros B C I. pose proof tau_pos as T. pose proof PI_RGT_0 as P. pose proof (rmod_bounds x tau T) as Y. pose proof (cos_rmod x) as Cy. pose proof (sin_rmod x) as Sy.
  set (y := rmod x tau) in *. assert (Et : tau = 2 * PI) by reflexivity. destruct d as [H|H].
  - apply I in H. rewrite <- Sy in H. pose proof (sin_nonneg_range y Y H). apply cos_inj'; try lra.
  - assert (S0 : sin y <= 0). { rewrite Sy. destruct (Rle_dec (sin x) 0); [assumption|]. exfalso. apply H, I. lra. }
    destruct (Req_dec y 0) as [Z|Z].
    + assert (a = 0). { apply cos_inj'; try lra. rewrite C, <- Cy, Z. reflexivity. } subst a. rewrite Z, Ropp_0, rmod_id by lra. reflexivity.
    + assert (PI <= y). { destruct (Rle_dec PI y); [assumption|]. assert (0 < sin y) by (apply sin_gt_0; lra). lra. }
      assert (a = tau - y). { apply cos_inj'; try lra. rewrite C, <- Cy. replace (tau - y) with (- y + tau * IZR 1) by ring. rewrite cos_tau, cos_neg. reflexivity. }
      subst a. apply (rmod_unique _ _ _ (-1)); [lra|lra|]. ring.
Qed.
Lemma pick_le a x c : 0 <= a <= PI -> cos a = cos x -> (0 < c <-> 0 < sin x) ->
  (if Rlt_dec 0 c then a else rmod (- a) tau) = rmod x tau.
Proof. apply pick_angle. Qed.
Lemma normpi_rmod x : normpi (rmod x tau) = normpi x.
Proof.
  unfold normpi. f_equal. apply rmod_same; rewrite !cos_plus || rewrite !sin_plus; rewrite cos_rmod, sin_rmod; reflexivity.
Qed.
Lemma normpi_id x : - PI <= x < PI -> normpi x = x.
Proof. intros H. unfold normpi. rewrite rmod_id; [ring|]. unfold tau. lra. Qed.
Lemma normpi_range x : - PI <= normpi x < PI.
Proof. unfold normpi. pose proof (rmod_bounds (x + PI) tau tau_pos). unfold tau in *. lra. Qed.
Lemma normpi_trig x : cos (normpi x) = cos x /\ sin (normpi x) = sin x.
Proof.
  unfold normpi. destruct (rmod_shift (x + PI) tau) as [k E]. rewrite E. replace (x + PI + tau * IZR k - PI) with (x + tau * IZR k) by ring.
  rewrite cos_tau, sin_tau. auto.
Qed.
Lemma angle_is u v a : u <> vzero -> v <> vzero -> 0 <= a <= PI -> dot u v = vlength u * vlength v * cos a -> angle_between u v = a.
Proof.
  intros U V A D. destruct (angle_ok u v U V) as [B C]. rewrite D in C. apply cos_inj'; try assumption.
  apply vlength_ne in U, V. apply Rmult_eq_reg_l with (vlength u * vlength v); nra.
Qed.
Lemma unit_ne u : dot u u = 1 -> u <> vzero.
Proof. intros H E. rewrite E in H. unfold dot in H. cbn in H. lra. Qed.
Lemma unit_length u : dot u u = 1 -> vlength u = 1.
Proof. intros H. rewrite vlength_dot, H. apply sqrt_1. Qed.
Lemma scaled_length k u : 0 <= k -> dot u u = 1 -> vlength (smul k u) = k.
Proof. intros K H. rewrite smul_length, unit_length, Rabs_right by (assumption || lra). ring. Qed.
Lemma scaled_ne k u : 0 < k -> dot u u = 1 -> smul k u <> vzero.
Proof. intros K H. apply smul_ne; [assumption|]. apply unit_ne, H. Qed.
Lemma eccentricity_vector_eq pos vel mu : mu <> 0 -> pos <> vzero -> eccentricity_vector pos vel mu = laplace pos vel mu.
Proof.
  intros M P. apply vlength_ne in P. unfold eccentricity_vector, laplace.
  pose proof (vlength_sq vel) as V. rewrite V. set (r := vlength pos) in *. clearbody r.
  unfold cross, dot. apply vec_ext; cbn; field; lra.
Qed.
Lemma along_dot i Om a b : dot (along i Om a) (along i Om b) = cos (a - b).
Proof.
  unfold dot, along; cbn. rewrite cos_minus. pose proof (sc2 i) as A; pose proof (sc2 Om) as B.
  set (si := sin i) in *; set (ci := cos i) in *; set (so := sin Om) in *; set (co := cos Om) in *.
  transitivity (cos a * cos b * (so * so + co * co) + sin a * sin b * ((so * so + co * co) * (ci * ci) + si * si)); [ring|]. rewrite B.
  replace (1 * (ci * ci) + si * si) with (si * si + ci * ci) by ring. rewrite A. ring.
Qed.
Lemma along_0 i Om : along i Om 0 = V3 (cos Om) (sin Om) 0.
Proof. unfold along. rewrite cos_0, sin_0. apply vec_ext; cbn; ring. Qed.
Lemma crossp_cross a b : crossp a b = cross a b. Proof. reflexivity. Qed.

(** * From elements to a state and back *)
Definition reported_v (e v : R) : R := if Rlt_dec e (1 - tiny) then rmod v tau else normpi v.
Lemma elements_back p e i Om w v mu : 0 < p -> tiny < e -> 0 < i < PI -> 0 < 1 + e * cos v -> 0 < mu ->
  osculating (fst (elements_vec p e i Om w v mu)) (snd (elements_vec p e i Om w v mu)) mu =
  Some (Elements p e i (rmod Om tau) (rmod w tau) (reported_v e v)).
Proof.
  intros Hp He Hi Hv Hm. assert (T : 0 < tiny) by (unfold tiny; lra).
  pose proof (state_length p e i Om w v mu Hp Hv) as L. pose proof (state_momentum p e i Om w v mu Hp Hv) as H. pose proof (state_laplace p e i Om w v mu Hp Hm Hv) as EV.
  pose proof (state_radial p e i Om w v mu Hp Hv) as RV. pose proof (r_pos p e v Hp Hv) as Rp. pose proof (h_pos p mu Hp Hm) as Hh. pose proof (h_sq p mu Hp Hm) as Hs.
  pose proof (pos_eq p e i Om w v mu) as PE.
  set (pos := fst (elements_vec p e i Om w v mu)) in *. set (vel := snd (elements_vec p e i Om w v mu)) in *.
  set (r := p / (1 + e * cos v)) in *. set (h := sqrt (p * mu)) in *. cbv zeta in *.
  assert (Si : 0 < sin i) by (apply sin_gt_0; lra).
  assert (Np : pos <> vzero). { intros Z. rewrite Z in L. unfold vlength in L. cbn in L. rewrite !Rmult_0_r, !Rplus_0_r, sqrt_0 in L. lra. }
  unfold osculating. destruct (Rle_dec mu 0); [lra|]. rewrite eccentricity_vector_eq, EV, crossp_cross, H by (assumption || lra).
  pose proof (pole_pole i Om) as PP. pose proof (along_along i Om w) as AA.
  assert (I1 : inclination (smul h (pole i Om)) = i).
  { unfold inclination. apply angle_is; [apply scaled_ne; assumption| |lra|].
    - intros Z. injection Z. lra.
    - rewrite scaled_length by (assumption || lra). replace (vlength (V3 0 0 1)) with 1; [|symmetry; apply unit_length; unfold dot; cbn; ring].
      unfold dot, pole; cbn; ring. }
  assert (Nv : node_vector (smul h (pole i Om)) = along i Om 0).
  { rewrite along_0. unfold node_vector. set (nn := V3 (- _) _ _).
    assert (E : nn = smul (h * sin i) (V3 (cos Om) (sin Om) 0)) by (unfold nn; apply vec_ext; cbn; ring).
    assert (U : dot (V3 (cos Om) (sin Om) 0) (V3 (cos Om) (sin Om) 0) = 1) by (unfold dot; cbn; pose proof (sc2 Om); lra).
    assert (K : 0 < h * sin i) by nra. assert (Ln : vlength nn = h * sin i) by (rewrite E; apply scaled_length; [lra|assumption]). rewrite Ln.
    destruct (Req_EM_T (h * sin i) 0); [lra|]. rewrite E. apply vec_ext; cbn; field; split; lra. }
  rewrite Nv, I1. f_equal. f_equal.
  - unfold semi_latus_rectum. rewrite scaled_length by (assumption || lra). rewrite Hs. field. lra.
  - apply scaled_length; [lra|assumption].
  - unfold longitude_of_ascending_node. destruct (Req_EM_T i 0); [lra|]. cbn [vx vy smul pole].
    assert (K : 0 < h * sin i) by nra.
    replace (h * (sin i * sin Om)) with (h * sin i * sin (normpi Om)) by (rewrite (proj2 (normpi_trig Om)); ring).
    replace (- (h * - (sin i * cos Om))) with (h * sin i * cos (normpi Om)) by (rewrite (proj1 (normpi_trig Om)); ring).
    assert (N2 : h * sin i * cos (normpi Om) <> 0 \/ h * sin i * sin (normpi Om) <> 0).
    { pose proof (sc2 (normpi Om)) as Q. destruct (Req_dec (cos (normpi Om)) 0) as [Z|Z]; [right|left].
      - rewrite Z in Q. intros X. apply Rmult_integral in X. destruct X as [X|X]; [lra|]. rewrite X in Q. lra.
      - intros X. apply Rmult_integral in X. destruct X; lra. }
    destruct (atan2_spec _ _ N2) as (C & S1 & _).
    assert (R0 : rho (h * sin i * cos (normpi Om)) (h * sin i * sin (normpi Om)) = h * sin i).
    { unfold rho. replace (_ + _) with ((h * sin i) * (h * sin i) * (sin (normpi Om) * sin (normpi Om) + cos (normpi Om) * cos (normpi Om))) by ring.
      rewrite sc2, Rmult_1_r. apply sqrt_square. lra. }
    rewrite R0 in C, S1. apply rmod_same.
    + rewrite <- (proj1 (normpi_trig Om)). apply Rmult_eq_reg_l with (h * sin i); [assumption|lra].
    + rewrite <- (proj2 (normpi_trig Om)). apply Rmult_eq_reg_l with (h * sin i); [assumption|lra].
  - unfold argument_of_periapsis. rewrite scaled_length by (assumption || lra). destruct (Rlt_dec e tiny); [lra|].
    rewrite (unit_length (along i Om 0)) by apply along_along. destruct (Rlt_dec 1 tiny) as [B|_]; [unfold tiny in B; lra|].
    destruct (angle_ok (along i Om 0) (smul e (along i Om w))) as [A B]; [apply unit_ne, along_along|apply scaled_ne; [lra|assumption]|].
    rewrite (unit_length (along i Om 0)), scaled_length in B by (apply along_along || lra).
    replace (dot (along i Om 0) (smul e (along i Om w))) with (e * dot (along i Om 0) (along i Om w)) in B by (unfold dot; cbn; ring).
    rewrite along_dot in B. replace (0 - w) with (- w) in B by ring. rewrite cos_neg in B.
    apply pick_le; [assumption| |].
    + apply Rmult_eq_reg_l with e; lra.
    + cbn [vz smul along]. assert (0 < e * sin i) by nra. split; intros; nra.
  - unfold true_anomaly, reported_v. rewrite scaled_length by (assumption || lra). destruct (Rlt_dec tiny e); [|lra].
    assert (E1 : (if Rlt_dec 0 (dot pos vel) then angle_between (smul e (along i Om w)) pos else rmod (- angle_between (smul e (along i Om w)) pos) tau) = rmod v tau).
    { destruct (angle_ok (smul e (along i Om w)) pos) as [A B]; [apply scaled_ne; [lra|assumption]|assumption|].
      rewrite L, scaled_length in B by (assumption || lra). rewrite PE in B at 2.
      replace (dot (smul e (along i Om w)) (smul r (along i Om (v + w)))) with (e * r * dot (along i Om w) (along i Om (v + w))) in B by (unfold dot; cbn; ring).
      rewrite along_dot in B. replace (w - (v + w)) with (- v) in B by ring. rewrite cos_neg in B.
      apply pick_le; [assumption| |].
      - apply Rmult_eq_reg_l with (e * r); [assumption|nra].
      - rewrite RV. assert (0 < r * (h * e / p)). { apply Rmult_lt_0_compat; [assumption|]. apply Rdiv_lt_0_compat; [nra|assumption]. } split; intros; nra. }
    rewrite E1. destruct (Rlt_dec e (1 - tiny)); [reflexivity|]. apply normpi_rmod.
Qed.
