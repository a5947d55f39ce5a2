(** Places of comets and minor planets. *)
From Coq Require Import Reals Lra Lia Psatz ZArith List Bool String.
From Coquelicot Require Import Coquelicot.
From Verif Require Import Cal_Model Real_Math Real_Math_Proofs Vector_Model Vector_Proofs Vector_Proofs2 Geo_Model Geo_Spec Geo_Proofs Geo_Proofs2 Frames_Model Kepler_Model Kepler_Spec Kepler_Proofs Kepler_Proofs2 Kepler_Proofs3 Kepler_Proofs4 Kepler_Proofs5 Kepler_Proofs6 Kepler_Proofs7 Kepler_Proofs8 Kepler_Proofs9 Elements_Model Elements_Proofs Elements_Proofs2 Elements_Proofs3 Elements_Proofs4 Mpc_Model Mpc_Spec.
Open Scope R_scope.

(** ** From the true anomaly to the place on the conic *)
Lemma along_split i Om w v : along i Om (v + w) = vadd (smul (cos v) (along i Om w)) (smul (sin v) (ahead i Om w)).
Proof.
  unfold ahead, along. apply vec_ext; cbn [vx vy vz vadd smul]; rewrite ?cos_plus, ?sin_plus, cos_PI2, sin_PI2; ring.
Qed.
Lemma place_of p e i Om w v mu : fst (elements_vec p e i Om w v mu) = vadd (smul (p / (1 + e * cos v) * cos v) (along i Om w)) (smul (p / (1 + e * cos v) * sin v) (ahead i Om w)).
Proof.
  transitivity (smul (p / (1 + e * cos v)) (along i Om (v + w))); [reflexivity|]. rewrite along_split. apply vec_ext; cbn [vx vy vz vadd smul]; ring.
Qed.
Lemma place_elliptic a e i Om w E v mu : 0 <= e < 1 -> seen_elliptic e E v -> fst (elements_vec (a * (1 - e * e)) e i Om w v mu) = on_ellipse a e i Om w E.
Proof.
  intros He [C S]. rewrite place_of. unfold on_ellipse. pose proof (COS_bound E) as B. assert (D : 0 < 1 - e * cos E) by nra.
  assert (N : 1 + e * cos v = (1 - e * e) / (1 - e * cos E)) by (rewrite C; field; lra). rewrite N, C, S. assert (1 - e * e <> 0) by nra.
  f_equal; f_equal; field; split; lra.
Qed.
Lemma place_hyperbolic a e i Om w F v mu : 1 < e -> seen_hyperbolic e F v -> fst (elements_vec (a * (e * e - 1)) e i Om w v mu) = on_hyperbola a e i Om w F.
Proof.
  intros He [C S]. rewrite place_of. unfold on_hyperbola. pose proof (hyp_pos F) as B. assert (D : 0 < e * cosh F - 1) by nra.
  assert (N : 1 + e * cos v = (e * e - 1) / (e * cosh F - 1)) by (rewrite C; field; lra). rewrite N, C, S. assert (e * e - 1 <> 0) by nra.
  f_equal; f_equal; field; split; lra.
Qed.
Lemma place_parabolic q i Om w v mu : cos (v / 2) <> 0 -> fst (elements_vec (q * 2) 1 i Om w v mu) = on_parabola q i Om w v.
Proof.
  intros Hc. rewrite place_of. unfold on_parabola. destruct (trig_half v Hc) as [C S]. rewrite C, S. set (D := tan (v / 2)) in *. assert (0 < 1 + D * D) by nra.
  assert (N : 1 + 1 * ((1 - D * D) / (1 + D * D)) = 2 / (1 + D * D)) by (field; lra). rewrite ?N. f_equal; f_equal; cbn [pow]; field; lra.
Qed.
Lemma seen_elliptic_exists e E : 0 <= e < 1 -> exists v, seen_elliptic e E v.
Proof.
  intros He. pose proof (COS_bound E) as B. assert (D : 0 < 1 - e * cos E) by nra. pose proof (sc2 E) as S.
  assert (W : sqrt (1 - e * e) * sqrt (1 - e * e) = 1 - e * e) by (apply sqrt_sqrt; nra).
  destruct (angle_exists (cos E - e) (sqrt (1 - e * e) * sin E) (1 - e * cos E) D) as (v & C & Sn).
  { replace (sqrt (1 - e * e) * sin E * (sqrt (1 - e * e) * sin E)) with (sqrt (1 - e * e) * sqrt (1 - e * e) * (sin E * sin E)) by ring. rewrite W. replace (sin E * sin E) with (1 - cos E * cos E) by lra. ring. }
  exists v. split; [rewrite <- C|rewrite <- Sn]; field; lra.
Qed.
Lemma seen_hyperbolic_exists e F : 1 < e -> exists v, seen_hyperbolic e F v.
Proof.
  intros He. pose proof (hyp_pos F) as B. assert (D : 0 < e * cosh F - 1) by nra. pose proof (hyp_sq F) as S.
  assert (W : sqrt (e * e - 1) * sqrt (e * e - 1) = e * e - 1) by (apply sqrt_sqrt; nra).
  destruct (angle_exists (e - cosh F) (sqrt (e * e - 1) * sinh F) (e * cosh F - 1) D) as (v & C & Sn).
  { replace (sqrt (e * e - 1) * sinh F * (sqrt (e * e - 1) * sinh F)) with (sqrt (e * e - 1) * sqrt (e * e - 1) * (sinh F * sinh F)) by ring. rewrite W. replace (sinh F * sinh F) with (cosh F * cosh F - 1) by lra. ring. }
  exists v. split; [rewrite <- C|rewrite <- Sn]; field; lra.
Qed.

(** ** The motion after periapsis *)
Section Motion.
Variables (p e i Om w mu tp : R) (P V : R -> vec).
Hypothesis p_pos : 0 < p.
Hypothesis mu_pos : 0 < mu.
Hypothesis N : newtonian mu P V.
Hypothesis Start : (P tp, V tp) = elements_vec p e i Om w 0 mu.
Lemma at_x x v : 0 <= e -> seen e x v -> P (tp + Kx p e mu x) = fst (elements_vec p e i Om w v mu).
Proof.
  intros He Hs. destruct (fst_eq _ _ _ Start) as [E1 E2]. pose proof (peri_motion p e i Om w mu p_pos He mu_pos P V tp N E1 E2 x v Hs) as H. apply (f_equal fst) in H. exact H.
Qed.
Lemma x_at t : 0 <= e -> exists x, t = tp + Kx p e mu x.
Proof. intros He. apply (peri_reach p e i Om w mu p_pos He mu_pos tp t). Qed.
Lemma motion_elliptic a t E : 0 <= e < 1 -> p = a * (1 - e * e) -> elliptic_mean_anomaly e E = daily_motion a mu * (t - tp) -> P t = on_ellipse a e i Om w E.
Proof.
  intros He Ep K. destruct (seen_elliptic_exists e E He) as [v Hv]. assert (Ea : p / (1 - e * e) = a) by (rewrite Ep; field; nra). destruct (pace_elliptic p e mu p_pos He mu_pos) as [Np _]. rewrite Ea in Np.
  replace t with (tp + Kx p e mu (E / sqrt (1 - e))). 2:{ rewrite (Kx_elliptic p e mu E p_pos He mu_pos), Ea, K. unfold daily_motion. field. lra. }
  rewrite (at_x _ v ltac:(lra) (seen_of_elliptic e E v He Hv)), Ep. apply place_elliptic; assumption.
Qed.
Lemma anomaly_elliptic_at a t : 0 <= e < 1 -> p = a * (1 - e * e) -> exists E, elliptic_mean_anomaly e E = daily_motion a mu * (t - tp).
Proof.
  intros He Ep. destruct (x_at t ltac:(lra)) as [x Hx]. exists (x * sqrt (1 - e)). assert (Ea : p / (1 - e * e) = a) by (rewrite Ep; field; nra). destruct (pace_elliptic p e mu p_pos He mu_pos) as [Np _]. rewrite Ea in Np.
  assert (Sp : 0 < sqrt (1 - e)) by (apply sqrt_lt_R0; lra). pose proof (Kx_elliptic p e mu (x * sqrt (1 - e)) p_pos He mu_pos) as H. rewrite Ea in H. replace (x * sqrt (1 - e) / sqrt (1 - e)) with x in H by (field; lra).
  rewrite Hx. unfold daily_motion. replace (tp + Kx p e mu x - tp) with (Kx p e mu x) by ring. rewrite H. field. lra.
Qed.
Lemma motion_hyperbolic a t F : 1 < e -> p = a * (e * e - 1) -> hyperbolic_mean_anomaly e F = daily_motion a mu * (t - tp) -> P t = on_hyperbola a e i Om w F.
Proof.
  intros He Ep K. destruct (seen_hyperbolic_exists e F He) as [v Hv]. assert (Ea : p / (e * e - 1) = a) by (rewrite Ep; field; nra). destruct (pace_hyperbolic p e mu p_pos He mu_pos) as [Np _]. rewrite Ea in Np.
  replace t with (tp + Kx p e mu (F / sqrt (e - 1))). 2:{ rewrite (Kx_hyperbolic p e mu F p_pos He mu_pos), Ea, K. unfold daily_motion. field. lra. }
  rewrite (at_x _ v ltac:(lra) (seen_of_hyperbolic e F v He Hv)), Ep. apply place_hyperbolic; assumption.
Qed.
Lemma anomaly_hyperbolic_at a t : 1 < e -> p = a * (e * e - 1) -> exists F, hyperbolic_mean_anomaly e F = daily_motion a mu * (t - tp).
Proof.
  intros He Ep. destruct (x_at t ltac:(lra)) as [x Hx]. exists (x * sqrt (e - 1)). assert (Ea : p / (e * e - 1) = a) by (rewrite Ep; field; nra). destruct (pace_hyperbolic p e mu p_pos He mu_pos) as [Np _]. rewrite Ea in Np.
  assert (Sp : 0 < sqrt (e - 1)) by (apply sqrt_lt_R0; lra). pose proof (Kx_hyperbolic p e mu (x * sqrt (e - 1)) p_pos He mu_pos) as H. rewrite Ea in H. replace (x * sqrt (e - 1) / sqrt (e - 1)) with x in H by (field; lra).
  rewrite Hx. unfold daily_motion. replace (tp + Kx p e mu x - tp) with (Kx p e mu x) by ring. rewrite H. field. lra.
Qed.
Lemma motion_parabolic q t v : e = 1 -> p = q * 2 -> cos (v / 2) <> 0 -> parabolic_time q mu v = t - tp -> P t = on_parabola q i Om w v.
Proof.
  intros He Ep Hc K. pose proof (Kx_parabolic p mu v p_pos mu_pos) as H. replace (p / 2) with q in H by (rewrite Ep; field). rewrite K in H. pose proof (seen_parabolic v Hc) as Sn. rewrite <- He in H, Sn at 1.
  pose proof (at_x _ v ltac:(lra) Sn) as A. rewrite H in A. replace (tp + (t - tp)) with t in A by ring. rewrite A, Ep, He. apply place_parabolic. assumption.
Qed.
Lemma anomaly_parabolic_at q t : e = 1 -> p = q * 2 -> exists v, cos (v / 2) <> 0 /\ parabolic_time q mu v = t - tp.
Proof.
  intros He Ep. destruct (x_at t ltac:(lra)) as [x Hx]. assert (Sp : 0 < sqrt 2) by (apply sqrt_lt_R0; lra). exists (2 * atan (x / sqrt 2)). replace (2 * atan (x / sqrt 2) / 2) with (atan (x / sqrt 2)) by field.
  split; [pose proof (atan_bound (x / sqrt 2)); apply Rgt_not_eq, cos_gt_0; lra|]. pose proof (Kx_parabolic p mu (2 * atan (x / sqrt 2)) p_pos mu_pos) as H. replace (p / 2) with q in H by (rewrite Ep; field). replace (2 * atan (x / sqrt 2) / 2) with (atan (x / sqrt 2)) in H by field.
  rewrite tan_atan in H. replace (sqrt 2 * (x / sqrt 2)) with x in H by (field; lra). rewrite <- H, Hx, He. ring.
Qed.
End Motion.
