From Coq Require Import Reals Lra Lia Psatz ZArith List Bool.
From Coquelicot Require Import Coquelicot.
From Verif Require Import Real_Math Real_Math_Proofs Vector_Model Vector_Proofs Vector_Proofs2 Geo_Model Geo_Spec Geo_Proofs Geo_Proofs2 Kepler_Model Kepler_Spec Kepler_Proofs Kepler_Proofs2 Kepler_Proofs3 Kepler_Proofs4 Kepler_Proofs5 Kepler_Proofs6 Kepler_Proofs7 Kepler_Proofs8 Elements_Model Elements_Proofs Elements_Proofs2 Elements_Proofs3.
Open Scope R_scope.

(** * Kepler's equation for the three kinds of orbits *)
Lemma pace_elliptic p e mu : 0 < p -> 0 <= e < 1 -> 0 < mu -> let n := sqrt (mu / (p / (1 - e * e)) ^ 3) in
  0 < n /\ sqrt (p / (1 + e) / mu) * (p / (1 + e)) / (sqrt (1 - e) * sqrt (1 - e) * sqrt (1 - e)) = / n.
Proof.
  intros Hp He Hm n. destruct (period_eq p e mu Hp He Hm) as [T Ap]. assert (A3 : 0 < (p / (1 - e * e)) ^ 3) by (apply pow_lt; assumption).
  assert (Np : 0 < n) by (apply sqrt_lt_R0, Rdiv_lt_0_compat; assumption). split; [assumption|].
  assert (S : n * sqrt ((p / (1 - e * e)) ^ 3 / mu) = 1). { unfold n. rewrite <- sqrt_mult by (apply Rlt_le, Rdiv_lt_0_compat; assumption). transitivity (sqrt 1); [f_equal; field; repeat split; nra|apply sqrt_1]. }
  pose proof PI_RGT_0. apply Rmult_eq_reg_l with (2 * PI); [|lra]. replace (2 * PI * (sqrt (p / (1 + e) / mu) * (p / (1 + e)) / (sqrt (1 - e) * sqrt (1 - e) * sqrt (1 - e)))) with (2 * PI * (sqrt (p / (1 + e) / mu) * (p / (1 + e))) / (sqrt (1 - e) * sqrt (1 - e) * sqrt (1 - e))) by (unfold Rdiv; ring).
  rewrite T. unfold tau. f_equal. apply Rmult_eq_reg_l with n; [|lra]. rewrite S. field. lra.
Qed.
Lemma Kx_elliptic p e mu E : 0 < p -> 0 <= e < 1 -> 0 < mu -> Kx p e mu (E / sqrt (1 - e)) = elliptic_mean_anomaly e E / sqrt (mu / (p / (1 - e * e)) ^ 3).
Proof.
  intros Hp He Hm. destruct (pace_elliptic p e mu Hp He Hm) as [Np Pn]. unfold Rdiv at 2. rewrite <- Pn. unfold Kx, elliptic_mean_anomaly.
  destruct (G_positive (1 - e) (E / sqrt (1 - e)) ltac:(lra)) as (W & Wp & _ & -> & _ & ->). set (z := sqrt (1 - e)) in *. replace (z * (E / z)) with E by (field; lra). set (bq := sqrt (p / (1 + e) / mu) * (p / (1 + e))).
  replace e with (1 - z * z) by lra. field. lra.
Qed.
Lemma pace_hyperbolic p e mu : 0 < p -> 1 < e -> 0 < mu -> let n := sqrt (mu / (p / (e * e - 1)) ^ 3) in
  0 < n /\ sqrt (p / (1 + e) / mu) * (p / (1 + e)) / (sqrt (e - 1) * sqrt (e - 1) * sqrt (e - 1)) = / n.
Proof.
  intros Hp He Hm n. assert (Ap : 0 < p / (e * e - 1)) by (apply Rdiv_lt_0_compat; nra). assert (A3 : 0 < (p / (e * e - 1)) ^ 3) by (apply pow_lt; assumption).
  assert (Np : 0 < n) by (apply sqrt_lt_R0, Rdiv_lt_0_compat; assumption). split; [assumption|]. assert (NN : n * n = mu / (p / (e * e - 1)) ^ 3) by (apply sqrt_sqrt, Rlt_le, Rdiv_lt_0_compat; assumption).
  assert (Qp : 0 < p / (1 + e)) by (apply Rdiv_lt_0_compat; lra). set (q := p / (1 + e)) in *. set (b := sqrt (q / mu)). assert (Bp : 0 < b) by (apply sqrt_lt_R0, Rdiv_lt_0_compat; assumption).
  assert (BB : b * b = q / mu) by (apply sqrt_sqrt, Rlt_le, Rdiv_lt_0_compat; assumption).
  set (w := sqrt (e - 1)). assert (Wp : 0 < w) by (apply sqrt_lt_R0; lra). assert (WW : w * w = e - 1) by (apply sqrt_sqrt; lra). assert (Www : 0 < w * w * w) by (apply Rmult_lt_0_compat; nra).
  set (y := b * q / (w * w * w)). assert (Yp : 0 < y) by (apply Rdiv_lt_0_compat; nra).
  assert (Z : (y * n) * (y * n) = 1). { transitivity ((b * b) * (q * q) / ((w * w) * (w * w) * (w * w)) * (n * n)); [unfold y; field; lra|]. rewrite BB, WW, NN. unfold q. field. repeat split; nra. }
  assert (y * n = 1) by (assert (0 < y * n) by (apply Rmult_lt_0_compat; assumption); nra). apply Rmult_eq_reg_r with n; [|lra]. rewrite H. field. lra.
Qed.
Lemma Kx_hyperbolic p e mu F : 0 < p -> 1 < e -> 0 < mu -> Kx p e mu (F / sqrt (e - 1)) = hyperbolic_mean_anomaly e F / sqrt (mu / (p / (e * e - 1)) ^ 3).
Proof.
  intros Hp He Hm. destruct (pace_hyperbolic p e mu Hp He Hm) as [Np Pn]. unfold Rdiv at 2. rewrite <- Pn. unfold Kx, hyperbolic_mean_anomaly.
  destruct (G_negative (1 - e) (F / sqrt (e - 1)) ltac:(lra)) as (W & Wp & _ & -> & _ & ->). replace (- (1 - e)) with (e - 1) in * by ring. set (z := sqrt (e - 1)) in *. replace (z * (F / z)) with F by (field; lra). set (bq := sqrt (p / (1 + e) / mu) * (p / (1 + e))).
  replace e with (1 + z * z) by lra. field. lra.
Qed.
Lemma Kx_parabolic p mu v : 0 < p -> 0 < mu -> Kx p 1 mu (sqrt 2 * tan (v / 2)) = parabolic_time (p / 2) mu v.
Proof.
  intros Hp Hm. unfold Kx, parabolic_time. replace (1 - 1) with 0 by ring. destruct (G_zero (sqrt 2 * tan (v / 2))) as (_ & -> & _ & ->). replace (1 + 1) with 2 by ring.
  assert (S : sqrt 2 * sqrt 2 = 2) by (apply sqrt_sqrt; lra). assert (Sp : 0 < sqrt 2) by (apply sqrt_lt_R0; lra). set (D := tan (v / 2)). set (q := p / 2) in *. assert (Qp : 0 < q) by (unfold q; lra).
  assert (X : sqrt (2 * q ^ 3 / mu) = sqrt 2 * (sqrt (q / mu) * q)).
  { replace (2 * q ^ 3 / mu) with (2 * (q / mu * (q * q))) by (field; lra). assert (0 < q / mu) by (apply Rdiv_lt_0_compat; assumption). rewrite sqrt_mult by nra. f_equal. rewrite sqrt_mult by nra. f_equal. apply sqrt_square. lra. }
  rewrite X. set (bq := sqrt (q / mu) * q). replace ((sqrt 2 * D) ^ 3) with (sqrt 2 * (sqrt 2 * sqrt 2) * D ^ 3) by ring. rewrite S. field.
Qed.

(** * The elements at other times *)
Lemma osculating_eq pos vel mu : 0 < mu -> cross pos vel <> vzero -> let H := cross pos vel in let E := laplace pos vel mu in
  osculating pos vel mu = Some (Elements (semi_latus_rectum H mu) (vlength E) (inclination H) (longitude_of_ascending_node (inclination H) H) (argument_of_periapsis (node_vector H) E pos vel) (true_anomaly E pos vel (node_vector H))).
Proof. intros Hm Hn H E. unfold osculating. destruct (Rle_dec mu 0); [lra|]. rewrite crossp_cross, eccentricity_vector_eq by (lra || apply (st_pos_ne pos vel Hn)). reflexivity. Qed.
Lemma w_of_momentum n E pos vel pos' vel' : cross pos vel = cross pos' vel' -> argument_of_periapsis n E pos vel = argument_of_periapsis n E pos' vel'.
Proof. intros H. unfold argument_of_periapsis. rewrite !crossp_cross, H. reflexivity. Qed.
Lemma same_place p e i Om w v v' : 0 < p -> 0 < 1 + e * cos v -> 0 < 1 + e * cos v' -> forall mu, 0 < mu -> elements_vec p e i Om w v mu = elements_vec p e i Om w v' mu -> cos v = cos v' /\ sin v = sin v'.
Proof.
  intros Hp D D' mu Hm H. apply (f_equal fst) in H. pose proof (f_equal vlength H) as L. rewrite (state_length p e i Om w v mu Hp D), (state_length p e i Om w v' mu Hp D') in L.
  rewrite !pos_eq in H. rewrite <- L in H. set (r := p / (1 + e * cos v)) in *. assert (Rp : 0 < r) by (apply Rdiv_lt_0_compat; assumption).
  assert (Q : along i Om (v + w) = along i Om (v' + w)). { apply (f_equal (smul (/ r))) in H. assert (I : forall x, smul (/ r) (smul r x) = x) by (intros x; apply vec_ext; cbn; field; lra). rewrite !I in H. exact H. }
  pose proof (f_equal (dot (along i Om w)) Q) as C. pose proof (f_equal (dot (ahead i Om w)) Q) as S. rewrite !along_dot in C. rewrite !ahead_along in S.
  replace (w - (v + w)) with (- v) in C by ring. replace (w - (v' + w)) with (- v') in C by ring. rewrite !cos_neg in C. replace (v + w - w) with v in S by ring. replace (v' + w - w) with v' in S by ring. auto.
Qed.
Lemma ele_to_vec_inv p e i Om w v mu s : ele_to_vec p e i Om w v mu = Some s -> elements_vec p e i Om w v mu = s.
Proof. unfold ele_to_vec. destruct (Rlt_dec 1 e); [destruct (Rlt_dec _ v); [discriminate|]|]; (destruct (Rle_dec 0 i); [|discriminate]); (destruct (Rle_dec i PI); [|discriminate]); intros H; injection H as <-; reflexivity. Qed.
Lemma elliptic_same e E E' v v' : 0 <= e < 1 -> seen_elliptic e E v -> seen_elliptic e E' v' -> cos v = cos v' -> sin v = sin v' -> cos E = cos E' /\ sin E = sin E'.
Proof.
  intros He [C S] [C' S'] Hc Hs. rewrite C, C' in Hc. rewrite S, S' in Hs. pose proof (COS_bound E) as B. pose proof (COS_bound E') as B'.
  assert (D : 0 < 1 - e * cos E) by nra. assert (D' : 0 < 1 - e * cos E') by nra. assert (Wp : 0 < sqrt (1 - e * e)) by (apply sqrt_lt_R0; nra).
  assert (Ec : cos E = cos E').
  { assert (X : (cos E - e) * (1 - e * cos E') = (cos E' - e) * (1 - e * cos E)). { apply Rmult_eq_reg_r with (/ (1 - e * cos E) * / (1 - e * cos E')); [|apply Rgt_not_eq, Rmult_lt_0_compat; apply Rinv_0_lt_compat; assumption].
      transitivity ((cos E - e) / (1 - e * cos E)); [field; lra|]. rewrite Hc. field. lra. }
    assert ((cos E - cos E') * (1 - e * e) = 0) by nra. apply Rmult_integral in H. destruct H; nra. }
  split; [assumption|]. rewrite <- Ec in Hs. set (z := sqrt (1 - e * e)) in *. set (d := 1 - e * cos E) in *. apply (f_equal (fun x => x * d / z)) in Hs. replace (z * sin E / d * d / z) with (sin E) in Hs by (field; lra). rewrite Hs. field. lra.
Qed.
Lemma trig_same_angle a b : cos a = cos b -> sin a = sin b -> same_angle a b.
Proof. intros C S. pose proof (rmod_same a b C S) as H. destruct (rmod_same_angle a) as [k Ek]. destruct (rmod_same_angle b) as [l El]. exists (l - k)%Z. rewrite minus_IZR. lra. Qed.

Section Orbit.
Variables (pos vel : vec) (mu : R) (el : elements) (P V : R -> vec) (t0 : R).
Hypothesis El : osculating pos vel mu = Some el.
Hypothesis Hn : cross pos vel <> vzero.
Hypothesis N : newtonian mu P V.
Hypothesis P0 : P t0 = pos.
Hypothesis V0 : V t0 = vel.
Let p := el_p el.
Let e := el_e el.
Let Hm : 0 < mu := o_mu pos vel mu el El Hn.
Let Hp : 0 < p := o_p pos vel mu el El Hn.
Let He : 0 <= e := o_e pos vel mu el El Hn.
Lemma conserved t : cross (P t) (V t) = cross pos vel /\ laplace (P t) (V t) mu = laplace pos vel mu.
Proof.
  destruct (always pos vel mu el P V t0 El Hn N P0 V0) as (i & Om & w & _ & A).
  assert (G : forall t, cross (P t) (V t) = smul (sqrt (p * mu)) (pole i Om) /\ laplace (P t) (V t) mu = smul e (along i Om w)).
  { intros s. destruct (A s) as (v & D & E). apply fst_eq in E. destruct E as [-> ->]. split; [apply (state_momentum p e i Om w v mu Hp D)|apply (state_laplace p e i Om w v mu Hp Hm D)]. }
  rewrite <- P0, <- V0. destruct (G t) as [-> ->]. destruct (G t0) as [-> ->]. auto.
Qed.
Lemma elements_stay t : exists v, osculating (P t) (V t) mu = Some (Elements (el_p el) (el_e el) (el_i el) (el_Om el) (el_w el) v).
Proof.
  destruct (conserved t) as [C L]. rewrite (osculating_eq (P t) (V t) mu Hm) by (rewrite C; exact Hn). rewrite C, L. pose proof El as E. rewrite (osculating_eq pos vel mu Hm Hn) in E. injection E as <-.
  cbn [el_p el_e el_i el_Om el_w]. eexists. f_equal. f_equal. apply w_of_momentum. exact C.
Qed.
Hypothesis not_tiny : el_e el = 0 \/ tiny < el_e el.
Let i := el_i el.
Let Om := el_Om el.
Let w := el_w el.
Lemma el_both : (P t0, V t0) = elements_vec p e i Om w (el_v el) mu /\ 0 < 1 + e * cos (el_v el).
Proof.
  destruct (osculating_base pos vel mu el El Hn) as (_ & _ & _ & _ & Ee). destruct (state_back_full pos vel mu Hm Hn) as (el' & E' & B & F).
  { rewrite <- Ee. destruct not_tiny as [Z|T]; [left|right; assumption]. rewrite Ee in Z. set (L := laplace pos vel mu) in *. pose proof (vlength_sq L) as S. rewrite Z in S. unfold dot in S. destruct L as [a b c]. cbn in S. assert (a = 0 /\ b = 0 /\ c = 0) as (-> & -> & ->) by (repeat split; nra). reflexivity. }
  rewrite El in E'. injection E' as <-. apply ele_to_vec_inv in B. rewrite P0, V0. split; [symmetry; exact B|exact F].
Qed.
(** ** Periapsis *)
Lemma at_periapsis tp : (P tp, V tp) = elements_vec p e i Om w 0 mu -> vlength (P tp) = q_of el /\ dot (P tp) (V tp) = 0.
Proof.
  intros E. apply fst_eq in E. destruct E as [-> ->]. split; [rewrite (q_of_eq pos vel mu el El Hn); apply (peri_r p e i Om w mu Hp He)|apply (peri_rv p e i Om w mu Hp He)].
Qed.
Lemma n_eq : e <> 1 -> mean_motion_per_day el mu = sqrt (mu / Rabs (p / (1 - e * e)) ^ 3) * 86400.
Proof. intros H. unfold mean_motion_per_day, mean_motion, a_of, semi_major_axis, DAY_S. fold p e. destruct (Req_EM_T e 1); [contradiction|reflexivity]. Qed.
Lemma elliptic_last : el_e el < 1 -> cos (el_v el / 2) <> 0 -> too_small <= mean_motion_per_day el mu ->
  let tp := t0 - 86400 * days_since_periapsis el mu in
  (P tp, V tp) = elements_vec p e i Om w 0 mu /\
  (exists T, period_in_days el mu = Some T /\ 0 <= days_since_periapsis el mu < T) /\
  (0 < el_e el -> forall s, tp < s <= t0 -> q_of el < vlength (P s)).
Proof.
  intros L Hc Ts tp. fold e in L. destruct el_both as [St Fw]. assert (He1 : 0 <= e < 1) by (split; assumption). destruct (pace_elliptic p e mu Hp He1 Hm) as [Np Pn]. set (n := sqrt (mu / (p / (1 - e * e)) ^ 3)) in *.
  destruct (period_eq p e mu Hp He1 Hm) as [Te Ap]. assert (Nn : mean_motion_per_day el mu = n * 86400). { rewrite n_eq by lra. rewrite (Rabs_right (p / (1 - e * e))) by lra. reflexivity. }
  destruct (elliptic_time el mu Hp He1 Hc) as (E & k & Sn & Dm & B). { fold p e n. rewrite <- Nn. exact Ts. } fold p e n in Dm, B.
  set (d := days_since_periapsis el mu) in *. set (x := E / sqrt (1 - e)).
  assert (Kt : Kx p e mu x = elliptic_mean_anomaly e E / n) by (apply Kx_elliptic; assumption).
  set (X := 2 * PI * (sqrt (p / (1 + e) / mu) * (p / (1 + e))) / (sqrt (1 - e) * sqrt (1 - e) * sqrt (1 - e))) in *.
  assert (Xn : X = tau / n). { unfold Rdiv, X. rewrite <- Pn. unfold tau, Rdiv. ring. }
  assert (Tm : 86400 * d = Kx p e mu x + IZR k * X). { rewrite Kt, Xn. apply Rmult_eq_reg_l with n; [|lra]. transitivity (elliptic_mean_anomaly e E + tau * IZR k); [rewrite <- Dm; ring|field; lra]. }
  pose proof (peri_time p e i Om w mu P V t0 (el_v el) x Hp He Hm N St (seen_of_elliptic e E (el_v el) He1 Sn)) as Pk. cbv zeta in Pk. apply fst_eq in Pk. destruct Pk as [Pk1 Pk2].
  assert (Main : (P tp, V tp) = elements_vec p e i Om w 0 mu).
  { destruct (peri_periodic p e i Om w mu Hp He Hm P V _ N Pk1 Pk2 L k tp) as [Q1 Q2]. fold X in Q1, Q2. replace (tp + IZR k * X) with (t0 - Kx p e mu x) in Q1, Q2 by (unfold tp; rewrite Tm; ring). rewrite <- Q1, <- Q2, Pk1, Pk2. symmetry. apply surjective_pairing. }
  assert (Dd : 0 <= 86400 * d < X). { rewrite Xn. split; [apply Rmult_le_reg_l with n; [assumption|]; lra|]. apply Rmult_lt_reg_l with n; [assumption|]. replace (n * (tau / n)) with tau by (field; lra). lra. }
  split; [exact Main|]. split.
  - exists (X / 86400). split; [|lra]. unfold period_in_days, period, a_of, semi_major_axis, DAY_S. fold p e. destruct (Req_EM_T e 1); [lra|]. destruct (Rlt_dec 0 (p / (1 - e * e))); [|lra]. rewrite Te. reflexivity.
  - intros Ep s Hs. fold e in Ep. apply fst_eq in Main. destruct Main as [M1 M2]. destruct (peri_reach p e i Om w mu Hp He Hm tp s) as [y ->]. rewrite (peri_size p e i Om w mu Hp He Hm P V tp N M1 M2 y), (q_of_eq pos vel mu el El Hn). fold p e.
    pose proof (q_pos p e Hp He) as Qp. assert (Ky : 0 < Kx p e mu y < X) by (unfold tp in Hs |- *; lra).
    assert (Y0 : 0 < y). { destruct (Rlt_le_dec 0 y) as [|Ly]; [assumption|exfalso]. destruct (Rle_lt_or_eq_dec _ _ Ly) as [Ly'|Ly']; [pose proof (Kx_incr p e i Om w mu Hp He Hm y 0 Ly') as I; rewrite (Kx_0 p e mu) in I|rewrite Ly', (Kx_0 p e mu) in Ky]; lra. }
    destruct (G_positive (1 - e) y ltac:(lra)) as (W & Wp & _ & _ & Eg & _). set (z := sqrt (1 - e)) in *.
    assert (Y1 : y < 2 * PI / z).
    { destruct (Rlt_le_dec y (2 * PI / z)) as [|Ly]; [assumption|exfalso]. assert (KX : Kx p e mu (2 * PI / z) = X). { unfold z. rewrite (Kx_elliptic p e mu (2 * PI) Hp He1 Hm). unfold elliptic_mean_anomaly. rewrite sin_2PI, Xn. fold n. unfold tau, Rdiv. ring. }
      destruct (Rle_lt_or_eq_dec _ _ Ly) as [Ly'|Ly']; [pose proof (Kx_incr p e i Om w mu Hp He Hm _ _ Ly') as I; rewrite KX in I|rewrite <- Ly', KX in Ky]; lra. }
    assert (R1 : 0 < z * y < 2 * PI). { split; [nra|]. apply Rmult_lt_compat_l with (r := z) in Y1; [|assumption]. replace (z * (2 * PI / z)) with (2 * PI) in Y1 by (field; lra). assumption. }
    assert (Cl : cos (z * y) < 1). { replace (z * y) with (2 * (z * y / 2)) by field. rewrite cos_2a_sin. pose proof (sin_gt_0 (z * y / 2) ltac:(lra) ltac:(lra)). nra. }
    assert (0 < G2 (1 - e) y) by (rewrite Eg; apply Rdiv_lt_0_compat; nra). assert (0 < e * G2 (1 - e) y) by (apply Rmult_lt_0_compat; assumption). nra.
Qed.
Lemma open_only tp : 1 <= e -> (P tp, V tp) = elements_vec p e i Om w 0 mu -> forall s, s <> tp -> q_of el < vlength (P s).
Proof.
  intros G M s Hs. apply fst_eq in M. destruct M as [M1 M2]. destruct (peri_reach p e i Om w mu Hp He Hm tp s) as [y ->]. rewrite (peri_size p e i Om w mu Hp He Hm P V tp N M1 M2 y), (q_of_eq pos vel mu el El Hn). fold p e.
  pose proof (q_pos p e Hp He) as Qp. assert (Y : y <> 0) by (intros ->; apply Hs; rewrite (Kx_0 p e mu); ring). pose proof (G2_large (1 - e) y ltac:(lra)) as B. assert (0 < y * y) by nra. assert (0 < G2 (1 - e) y) by lra. assert (0 < e * G2 (1 - e) y) by (apply Rmult_lt_0_compat; lra). nra.
Qed.
Lemma parabolic_passage : el_e el = 1 -> let tp := t0 - 86400 * days_since_periapsis el mu in (P tp, V tp) = elements_vec p e i Om w 0 mu.
Proof.
  intros E1 tp. fold e in E1. destruct el_both as [St Fw]. rewrite E1 in Fw. assert (Hc : cos (el_v el / 2) <> 0) by (apply half_ne; lra).
  pose proof (parabolic_time_ok p (el_v el) i Om w mu Hp Hm) as T. rewrite <- E1 in T. fold e in T. replace (Elements p e i Om w (el_v el)) with el in T by (destruct el; reflexivity).
  pose proof (peri_time p e i Om w mu P V t0 (el_v el) (sqrt 2 * tan (el_v el / 2)) Hp He Hm N St) as Pk. cbv zeta in Pk. rewrite E1 in Pk at 1. specialize (Pk (seen_parabolic (el_v el) Hc)).
  rewrite E1 in Pk at 1 2. rewrite (Kx_parabolic p mu (el_v el) Hp Hm), <- T in Pk. unfold tp. rewrite (Rmult_comm 86400). exact Pk.
Qed.
Lemma hyperbolic_passage F : 1 < el_e el -> seen_hyperbolic (el_e el) F (el_v el) -> - PI <= F < PI -> too_small <= mean_motion_per_day el mu ->
  let tp := t0 - 86400 * days_since_periapsis el mu in (P tp, V tp) = elements_vec p e i Om w 0 mu.
Proof.
  intros G Sn HF Ts tp. fold e in G, Sn. destruct el_both as [St Fw]. destruct (pace_hyperbolic p e mu Hp G Hm) as [Np Pn]. set (n := sqrt (mu / (p / (e * e - 1)) ^ 3)) in *.
  assert (Ap : 0 < p / (e * e - 1)) by (apply Rdiv_lt_0_compat; nra).
  assert (Nn : mean_motion_per_day el mu = n * 86400). { rewrite n_eq by lra. replace (p / (1 - e * e)) with (- (p / (e * e - 1))) by (field; split; nra). rewrite Rabs_Ropp, (Rabs_right (p / (e * e - 1))) by lra. reflexivity. }
  assert (Ev : el_v el = true_anomaly_hyperbolic e F).
  { pose proof (hyperbolic_seen e F G) as [C S]. destruct Sn as [C' S']. rewrite <- C in C'. rewrite <- S in S'.
    assert (R1 : - PI <= el_v el < PI).
    { pose proof El as E0. rewrite (osculating_eq pos vel mu Hm Hn) in E0. destruct (osculating_base pos vel mu el El Hn) as (_ & _ & _ & _ & Ee). assert (Ge : 1 < vlength (laplace pos vel mu)) by (rewrite <- Ee; exact G). injection E0 as E0. rewrite <- E0. cbn [el_v]. unfold true_anomaly. destruct (Rlt_dec (vlength (laplace pos vel mu)) (1 - tiny)) as [B|_]; [unfold tiny in B; lra|]. apply normpi_range. }
    assert (R2 : - PI < true_anomaly_hyperbolic e F < PI). { unfold true_anomaly_hyperbolic. pose proof (atan_bound (sqrt ((e + 1) / (e - 1)) * tanh (F / 2))). lra. }
    apply angle_unique; [assumption|assumption|lra]. }
  destruct (hyperbolic_time_ok p e F i Om w mu Hp G HF) as [_ Dm]. { fold n. rewrite <- Nn. exact Ts. } cbv zeta in Dm. rewrite <- Ev in Dm. replace (Elements p e i Om w (el_v el)) with el in Dm by (destruct el; reflexivity). fold n in Dm.
  assert (Tm : 86400 * days_since_periapsis el mu = Kx p e mu (F / sqrt (e - 1))). { rewrite (Kx_hyperbolic p e mu F Hp G Hm). fold n. rewrite <- Dm. field. lra. }
  unfold tp. rewrite Tm. apply (peri_time p e i Om w mu P V t0 (el_v el) (F / sqrt (e - 1)) Hp He Hm N St). apply seen_of_hyperbolic; assumption.
Qed.
End Orbit.
Lemma mean_anomaly_seen el : 0 <= el_e el < 1 -> cos (el_v el / 2) <> 0 -> exists E, seen_elliptic (el_e el) E (el_v el) /\ same_angle (mean_anomaly el) (elliptic_mean_anomaly (el_e el) E).
Proof.
  intros He Hc. exists (2 * atan (sqrt ((1 - el_e el) / (1 + el_e el)) * tan (el_v el / 2))). split; [apply tan_half_elliptic; assumption|].
  unfold mean_anomaly, mean_anomaly_of, eccentric_anomaly_el, eccentric_anomaly_of. destruct (Rlt_dec (el_e el) 1); [|lra]. apply rmod_same_angle.
Qed.
Lemma mean_of_same e E E' : cos E = cos E' -> sin E = sin E' -> same_angle (elliptic_mean_anomaly e E) (elliptic_mean_anomaly e E').
Proof. intros C S. destruct (trig_same_angle E E' C S) as [k Hk]. exists k. unfold elliptic_mean_anomaly. rewrite S, Hk. ring. Qed.
Lemma same_angle_trans a b c : same_angle a b -> same_angle b c -> same_angle a c.
Proof. intros [k Hk] [l Hl]. exists (l + k)%Z. rewrite Hk, Hl, plus_IZR. ring. Qed.
Lemma same_angle_sym a b : same_angle a b -> same_angle b a.
Proof. intros [k Hk]. exists (- k)%Z. rewrite Hk, opp_IZR. ring. Qed.
(** ** The mean anomaly grows at the rate of the mean motion. *)
Lemma mean_anomaly_uniform pos vel mu el P V t0 t el' : osculating pos vel mu = Some el -> cross pos vel <> vzero -> newtonian mu P V -> P t0 = pos -> V t0 = vel ->
  (el_e el = 0 \/ tiny < el_e el) -> el_e el < 1 -> osculating (P t) (V t) mu = Some el' -> cos (el_v el / 2) <> 0 -> cos (el_v el' / 2) <> 0 ->
  same_angle (mean_anomaly el') (mean_anomaly el + mean_motion_per_day el mu * ((t - t0) / 86400)).
Proof.
  intros El Hn N P0 V0 Ti L El' Hc Hc'. destruct (elements_stay pos vel mu el P V t0 El Hn N P0 V0 t) as [v' Ev']. rewrite El' in Ev'. assert (X : el' = Elements (el_p el) (el_e el) (el_i el) (el_Om el) (el_w el) v') by congruence.
  pose proof (o_mu pos vel mu el El Hn) as Hm. pose proof (o_p pos vel mu el El Hn) as Hp. pose proof (o_e pos vel mu el El Hn) as He. assert (He1 : 0 <= el_e el < 1) by lra.
  destruct (el_both pos vel mu el P V t0 El Hn P0 V0 Ti) as [St Fw].
  assert (Hn' : cross (P t) (V t) <> vzero) by (destruct (conserved pos vel mu el P V t0 El Hn N P0 V0 t) as [-> _]; exact Hn).
  assert (Ti' : el_e el' = 0 \/ tiny < el_e el') by (rewrite X; exact Ti).
  destruct (el_both (P t) (V t) mu el' P V t El' Hn' eq_refl eq_refl Ti') as [St' Fw'].
  destruct (mean_anomaly_seen el He1 Hc) as (E & Sn & Ma). assert (He1' : 0 <= el_e el' < 1) by (rewrite X; exact He1). destruct (mean_anomaly_seen el' He1' Hc') as (E' & Sn' & Ma').
  set (p := el_p el) in *. set (e := el_e el) in *. set (i := el_i el) in *. set (Om := el_Om el) in *. set (w := el_w el) in *.
  assert (Fp : el_p el' = p /\ el_e el' = e /\ el_i el' = i /\ el_Om el' = Om /\ el_w el' = w) by (rewrite X; cbn; auto). destruct Fp as (-> & Ee & -> & -> & ->) in St'. rewrite Ee in *. clear Ee.
  destruct (pace_elliptic p e mu Hp He1 Hm) as [Np _]. set (n := sqrt (mu / (p / (1 - e * e)) ^ 3)) in *. destruct (period_eq p e mu Hp He1 Hm) as [_ Ap].
  assert (Nn : mean_motion_per_day el mu = n * 86400). { rewrite n_eq by (fold e; lra). fold p e. rewrite (Rabs_right (p / (1 - e * e))) by lra. reflexivity. } rewrite Nn.
  pose proof (peri_time p e i Om w mu P V t0 (el_v el) _ Hp He Hm N St (seen_of_elliptic e E (el_v el) He1 Sn)) as Pk. cbv zeta in Pk. rewrite (Kx_elliptic p e mu E Hp He1 Hm) in Pk. fold n in Pk.
  set (tp := t0 - elliptic_mean_anomaly e E / n) in *. apply fst_eq in Pk. destruct Pk as [M1 M2].
  destruct (peri_reach p e i Om w mu Hp He Hm tp t) as [y Hy]. assert (Zp : 0 < sqrt (1 - e)) by (apply sqrt_lt_R0; lra). set (z := sqrt (1 - e)) in *. set (Y := z * y).
  assert (Yy : y = Y / z) by (unfold Y; field; lra). assert (Ky : Kx p e mu y = elliptic_mean_anomaly e Y / n). { rewrite Yy. apply Kx_elliptic; assumption. }
  destruct (seen_exists e y He) as [v Hv]. pose proof (peri_motion p e i Om w mu Hp He Hm P V tp N M1 M2 y v Hv) as Sv. rewrite <- Hy in Sv. rewrite St' in Sv.
  destruct Hv as [Cv Svn]. assert (Dv : 0 < 1 + e * cos v). { pose proof (G2_ge (1 - e) y) as Gg. assert (0 < 1 + e * G2 (1 - e) y) by nra. rewrite Cv. replace (1 + e * ((1 - G2 (1 - e) y) / (1 + e * G2 (1 - e) y))) with ((1 + e) / (1 + e * G2 (1 - e) y)) by (field; lra). apply Rdiv_lt_0_compat; lra. }
  destruct (same_place p e i Om w _ _ Hp Fw' Dv mu Hm Sv) as [Cs Ss].
  assert (SY : exists v2, seen_elliptic e Y v2). { exists (true_anomaly_closed e Y). destruct (Req_dec (cos (Y / 2)) 0) as [Z|Z]; [|apply closed_seen; assumption]. exfalso.
    assert (CY : cos Y = -1). { replace Y with (2 * (Y / 2)) by field. rewrite cos_2a_cos, Z. ring. }
    destruct (G_positive (1 - e) y ltac:(lra)) as (W & _ & _ & _ & Eg & _). fold z Y in Eg. fold z in W. rewrite CY, W in Eg. rewrite Eg in Cv.
    assert (cos v = -1). { rewrite Cv. field. split; lra. } rewrite H in Cs. apply Hc'. replace (el_v el') with (2 * (el_v el' / 2)) in Cs by field. rewrite cos_2a_cos in Cs. nra. }
  destruct SY as [v2 SY]. pose proof (seen_of_elliptic e Y v2 He1 SY) as [C2 S2]. fold z in C2, S2. rewrite <- Yy in C2, S2. rewrite <- Cv in C2. rewrite <- Svn in S2.
  destruct (elliptic_same e E' Y (el_v el') v2 He1 Sn' SY ltac:(congruence) ltac:(congruence)) as [Ce Se].
  apply same_angle_trans with (elliptic_mean_anomaly e E'); [exact Ma'|]. apply same_angle_trans with (elliptic_mean_anomaly e Y); [apply mean_of_same; assumption|].
  apply same_angle_sym in Ma. destruct Ma as [k Hk]. exists k. assert (Q : elliptic_mean_anomaly e Y = elliptic_mean_anomaly e E + n * (t - t0)). { apply (f_equal (Rmult n)) in Ky. replace (n * (elliptic_mean_anomaly e Y / n)) with (elliptic_mean_anomaly e Y) in Ky by (field; lra). rewrite <- Ky. replace (Kx p e mu y) with (t - tp) by lra. unfold tp. field. lra. }
  rewrite Q, Hk. field.
Qed.
