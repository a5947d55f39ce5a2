From Coq Require Import Reals Lra Lia Psatz ZArith List Bool.
From Coquelicot Require Import Coquelicot.
From Verif Require Import Real_Math Real_Math_Proofs Vector_Model Vector_Proofs Vector_Proofs2 Geo_Model Geo_Spec Geo_Proofs Kepler_Model Kepler_Spec Kepler_Proofs Kepler_Proofs2 Kepler_Proofs3 Kepler_Proofs4 Kepler_Proofs5 Kepler_Proofs6 Kepler_Proofs7 Kepler_Proofs8 Elements_Model Elements_Proofs.
Open Scope R_scope.

(** The true anomaly [v] reached at the universal variable [x] after periapsis. *)
Definition seen (e x v : R) : Prop :=
  cos v = (1 - G2 (1 - e) x) / (1 + e * G2 (1 - e) x) /\ sin v = sqrt (1 + e) * G1 (1 - e) x / (1 + e * G2 (1 - e) x).
Lemma G2_ge f x : 0 <= G2 f x.
Proof.
  destruct (Rlt_le_dec 0 f) as [H|H].
  - destruct (G_positive f x H) as (_ & W & _ & _ & -> & _). pose proof (COS_bound (sqrt f * x)). apply Rmult_le_pos; [lra|left; apply Rinv_0_lt_compat; nra].
  - pose proof (G2_large f x H). nra.
Qed.
Lemma seen_exists e x : 0 <= e -> exists v, seen e x v.
Proof.
  intros He. pose proof (G2_ge (1 - e) x) as G. assert (D : 0 < 1 + e * G2 (1 - e) x) by nra. destruct (G_algebra (1 - e) x) as (_ & _ & A).
  assert (S : sqrt (1 + e) * sqrt (1 + e) = 1 + e) by (apply sqrt_sqrt; lra).
  destruct (angle_exists (1 - G2 (1 - e) x) (sqrt (1 + e) * G1 (1 - e) x) (1 + e * G2 (1 - e) x) D) as (v & C & Sv).
  { replace (sqrt (1 + e) * G1 (1 - e) x * (sqrt (1 + e) * G1 (1 - e) x)) with (sqrt (1 + e) * sqrt (1 + e) * (G1 (1 - e) x * G1 (1 - e) x)) by ring. rewrite S, A. ring. }
  exists v. split; [rewrite <- C|rewrite <- Sv]; field; lra.
Qed.
Lemma seen_of_elliptic e E v : 0 <= e < 1 -> seen_elliptic e E v -> seen e (E / sqrt (1 - e)) v.
Proof.
  intros He [C S]. unfold seen. destruct (G_positive (1 - e) (E / sqrt (1 - e)) ltac:(lra)) as (W & Wp & _ & E1 & E2 & _). rewrite E1, E2, C, S.
  replace (sqrt (1 - e) * (E / sqrt (1 - e))) with E by (field; lra). replace (1 - e * e) with ((1 + e) * (1 - e)) by ring. rewrite sqrt_mult by lra. set (z := sqrt (1 - e)) in *. rewrite W.
  pose proof (COS_bound E). assert (1 - e * cos E <> 0) by nra. assert (1 + e * ((1 - cos E) / (1 - e)) <> 0). { replace (1 + e * ((1 - cos E) / (1 - e))) with ((1 - e * cos E) / (1 - e)) by (field; lra). apply Rmult_integral_contrapositive. split; [assumption|apply Rinv_neq_0_compat; lra]. }
  split; [field; repeat split; try lra; intros Z; apply H0; replace (1 + e * ((1 - cos E) / (1 - e))) with ((1 - e + e * (1 - cos E)) / (1 - e)) by (field; lra); rewrite Z; lra|].
  replace (1 + e * ((1 - cos E) / (1 - e))) with ((1 - e * cos E) / (z * z)) by (rewrite W; field; lra). field. lra.
Qed.
Lemma seen_of_hyperbolic e F v : 1 < e -> seen_hyperbolic e F v -> seen e (F / sqrt (e - 1)) v.
Proof.
  intros He [C S]. unfold seen. destruct (G_negative (1 - e) (F / sqrt (e - 1)) ltac:(lra)) as (W & Wp & _ & E1 & E2 & _). rewrite E1, E2, C, S.
  replace (- (1 - e)) with (e - 1) in * by ring. set (z := sqrt (e - 1)) in *. replace (z * (F / z)) with F by (field; lra).
  replace (e * e - 1) with ((1 + e) * (e - 1)) by ring. rewrite sqrt_mult by lra. fold z. pose proof (hyp_pos F) as Hc. assert (0 < e * cosh F - 1) by nra.
  replace (1 + e * ((cosh F - 1) / (z * z))) with ((e * cosh F - 1) / (z * z)).
  2:{ rewrite W. field. lra. }
  split; [|field; lra]. replace (1 - (cosh F - 1) / (z * z)) with ((e - cosh F) / (z * z)); [field; lra|]. rewrite W. field. lra.
Qed.
Lemma seen_parabolic v : cos (v / 2) <> 0 -> seen 1 (sqrt 2 * tan (v / 2)) v.
Proof.
  intros Hc. unfold seen. replace (1 - 1) with 0 by ring. destruct (G_zero (sqrt 2 * tan (v / 2))) as (_ & -> & -> & _). destruct (trig_half v Hc) as [-> ->].
  assert (S : sqrt 2 * sqrt 2 = 2) by (apply sqrt_sqrt; lra). replace (1 + 1) with 2 by ring. set (D := tan (v / 2)).
  replace (sqrt 2 * D * (sqrt 2 * D)) with (2 * (D * D)) by (replace (sqrt 2 * D * (sqrt 2 * D)) with (sqrt 2 * sqrt 2 * (D * D)) by ring; rewrite S; ring).
  replace (sqrt 2 * (sqrt 2 * D)) with (2 * D) by (replace (sqrt 2 * (sqrt 2 * D)) with (sqrt 2 * sqrt 2 * D) by ring; rewrite S; ring).
  assert (0 < 1 + D * D) by nra. split; field; lra.
Qed.
Lemma elliptic_exists e v : 0 <= e < 1 -> exists E, seen_elliptic e E v.
Proof.
  intros He. pose proof (COS_bound v) as B. assert (D : 0 < 1 + e * cos v) by nra. pose proof (sc2 v) as S.
  assert (W : sqrt (1 - e * e) * sqrt (1 - e * e) = 1 - e * e) by (apply sqrt_sqrt; nra). assert (Wp : 0 < sqrt (1 - e * e)) by (apply sqrt_lt_R0; nra).
  destruct (angle_exists (e + cos v) (sqrt (1 - e * e) * sin v) (1 + e * cos v) D) as (E & C & Sn).
  { replace (sqrt (1 - e * e) * sin v * (sqrt (1 - e * e) * sin v)) with (sqrt (1 - e * e) * sqrt (1 - e * e) * (sin v * sin v)) by ring. rewrite W. replace (sin v * sin v) with (1 - cos v * cos v) by lra. ring. }
  exists E. assert (CE : cos E = (e + cos v) / (1 + e * cos v)) by (rewrite <- C; field; lra). assert (SE : sin E = sqrt (1 - e * e) * sin v / (1 + e * cos v)) by (rewrite <- Sn; field; lra).
  assert (N : 1 - e * cos E = (1 - e * e) / (1 + e * cos v)) by (rewrite CE; field; lra).
  split; rewrite N, ?CE, ?SE; [field; split; nra|]. set (z := sqrt (1 - e * e)) in *. rewrite <- W. field. split; lra.
Qed.
Lemma hyperbolic_exists e v : 1 < e -> 0 < 1 + e * cos v -> exists F, seen_hyperbolic e F v.
Proof.
  intros He D. pose proof (sc2 v) as S. pose proof (COS_bound v) as B.
  assert (W : sqrt (e * e - 1) * sqrt (e * e - 1) = e * e - 1) by (apply sqrt_sqrt; nra). assert (Wp : 0 < sqrt (e * e - 1)) by (apply sqrt_lt_R0; nra). set (z := sqrt (e * e - 1)) in *.
  set (y := z * sin v / (1 + e * cos v)). exists (arcsinh y). set (F := arcsinh y). assert (Sh : sinh F = y) by apply sinh_arcsinh.
  assert (Ch : cosh F = (e + cos v) / (1 + e * cos v)).
  { pose proof (hyp_sq F) as Q. pose proof (hyp_pos F) as Hp. rewrite Sh in Q. set (u := (e + cos v) / (1 + e * cos v)).
    assert (Up : 0 < u) by (apply Rdiv_lt_0_compat; lra). assert (Uq : u * u = 1 + y * y).
    { unfold u, y. replace (z * sin v / (1 + e * cos v) * (z * sin v / (1 + e * cos v))) with (z * z * (sin v * sin v) / ((1 + e * cos v) * (1 + e * cos v))) by (field; lra). rewrite W. replace (sin v * sin v) with (1 - cos v * cos v) by lra. field. lra. }
    assert ((cosh F - u) * (cosh F + u) = 0) by lra. apply Rmult_integral in H. destruct H; lra. }
  assert (N : e * cosh F - 1 = (e * e - 1) / (1 + e * cos v)) by (rewrite Ch; field; lra).
  unfold seen_hyperbolic. fold z. rewrite N, Ch, Sh. unfold y. split; [field; split; nra|]. rewrite <- W. field. split; lra.
Qed.
Lemma half_ne v : -1 < cos v -> cos (v / 2) <> 0.
Proof. intros H Z. replace v with (2 * (v / 2)) in H by field. rewrite cos_2a_cos, Z in H. lra. Qed.
Lemma x_exists e v : 0 <= e -> 0 < 1 + e * cos v -> exists x, seen e x v.
Proof.
  intros He D. destruct (Rtotal_order e 1) as [L|[->|G]].
  - destruct (elliptic_exists e v ltac:(lra)) as [E H]. exists (E / sqrt (1 - e)). apply seen_of_elliptic; [lra|assumption].
  - exists (sqrt 2 * tan (v / 2)). apply seen_parabolic, half_ne. lra.
  - destruct (hyperbolic_exists e v G D) as [F H]. exists (F / sqrt (e - 1)). apply seen_of_hyperbolic; assumption.
Qed.

Section Periapsis.
Variables (p e i Om w mu : R).
Hypothesis p_pos : 0 < p.
Hypothesis e_pos : 0 <= e.
Hypothesis mu_pos : 0 < mu.
Let st (v : R) := elements_vec p e i Om w v mu.
Let pos0 := fst (st 0).
Let vel0 := snd (st 0).
Let q := p / (1 + e).
Let b := sqrt (q / mu).
Lemma v0_ok : 0 < 1 + e * cos 0. Proof. rewrite cos_0. lra. Qed.
Lemma peri_cross : cross pos0 vel0 <> vzero.
Proof.
  unfold pos0, vel0, st. rewrite (state_momentum p e i Om w 0 mu p_pos v0_ok). assert (Hh : 0 < sqrt (p * mu)) by (apply sqrt_lt_R0; nra). intros Z.
  pose proof (pole_pole i Om) as U. assert (D : dot (smul (sqrt (p * mu)) (pole i Om)) (smul (sqrt (p * mu)) (pole i Om)) = sqrt (p * mu) * sqrt (p * mu) * dot (pole i Om) (pole i Om)) by (unfold dot; cbn; ring).
  rewrite Z, U in D. unfold dot in D. cbn in D. nra.
Qed.
Lemma peri_e : vlength (laplace pos0 vel0 mu) = e.
Proof. unfold pos0, vel0, st. rewrite (state_laplace p e i Om w 0 mu p_pos mu_pos v0_ok). apply scaled_length; [assumption|apply along_along]. Qed.
Lemma peri_q : closest pos0 vel0 mu = q.
Proof.
  unfold closest. rewrite peri_e. unfold pos0, vel0, st. rewrite (state_momentum p e i Om w 0 mu p_pos v0_ok). rewrite dot_smul, pole_pole, sqrt_sqrt by nra. unfold q. field. lra.
Qed.
Lemma peri_rv : dot pos0 vel0 = 0.
Proof. unfold pos0, vel0, st. rewrite (state_radial p e i Om w 0 mu p_pos v0_ok), sin_0. ring. Qed.
Lemma peri_r : vlength pos0 = q.
Proof. unfold pos0, st. rewrite (state_length p e i Om w 0 mu p_pos v0_ok), cos_0, Rmult_1_r. reflexivity. Qed.
Lemma q_pos : 0 < q. Proof. apply Rdiv_lt_0_compat; lra. Qed.
Lemma peri_facts : conic_facts pos0 vel0 mu (conic_of pos0 vel0 mu) b q.
Proof.
  destruct (conic_ok pos0 vel0 mu mu_pos peri_cross) as (b' & q' & F). pose proof (q_eq pos0 vel0 mu b' q' mu_pos F) as Q. pose proof (b_eq pos0 vel0 mu b' q' mu_pos F) as B.
  rewrite peri_q in Q, B. unfold b. rewrite <- B, <- Q. exact F.
Qed.
Let C := b * q.
Definition Kx (x : R) : R := b * q * (G1 (1 - e) x + G3 (1 - e) x).
Lemma K_peri x : Kepler_Proofs5.K pos0 vel0 mu x = Kx x.
Proof.
  unfold Kepler_Proofs5.K, Kx. rewrite (cf_bq _ _ _ _ _ _ peri_facts), (cf_b2rv _ _ _ _ _ _ peri_facts), (cf_br0 _ _ _ _ _ _ peri_facts), (cf_e _ _ _ _ _ _ peri_facts), peri_e, peri_rv, peri_r. ring.
Qed.
Variables (P V : R -> vec) (tp : R).
Hypothesis N : newtonian mu P V.
Hypothesis P0 : P tp = pos0.
Hypothesis V0 : V tp = vel0.
Lemma peri_motion x v : seen e x v -> (P (tp + Kx x), V (tp + Kx x)) = st v.
Proof.
  intros [Cv Sv]. rewrite <- K_peri. destruct (motion_x pos0 vel0 mu b q tp P V mu_pos peri_cross peri_facts N P0 V0 x) as [-> ->].
  unfold Kepler_Proofs5.br. rewrite (cf_bq _ _ _ _ _ _ peri_facts), (cf_b2rv _ _ _ _ _ _ peri_facts), (cf_br0 _ _ _ _ _ _ peri_facts), (cf_e _ _ _ _ _ _ peri_facts), peri_e, peri_rv, peri_r.
  pose proof (G2_ge (1 - e) x) as G. destruct (G_algebra (1 - e) x) as (A0 & _ & _). pose proof q_pos as Qp.
  assert (Bp : 0 < b) by (apply sqrt_lt_R0, Rdiv_lt_0_compat; assumption). assert (BB : b * b = q / mu) by (apply sqrt_sqrt, Rlt_le, Rdiv_lt_0_compat; assumption).
  set (g := G2 (1 - e) x) in *. set (g1 := G1 (1 - e) x) in *. assert (D : 0 < 1 + e * g) by nra.
  replace (b * q * G0 (1 - e) x + b * b * 0 * g1 + b * q * g) with (b * q * (1 + e * g)) by (rewrite A0; ring).
  set (h := sqrt (p * mu)). assert (Hp : 0 < h) by (apply sqrt_lt_R0; nra). assert (HH : h * h = p * mu) by (apply sqrt_sqrt; nra).
  set (s := sqrt (1 + e)) in *. assert (Ss : s * s = 1 + e) by (apply sqrt_sqrt; lra). assert (Sp : 0 < s) by (apply sqrt_lt_R0; lra).
  assert (BH : b * h = q * s).
  { assert (X : (b * h - q * s) * (b * h + q * s) = 0). { transitivity ((b * b) * (h * h) - q * q * (s * s)); [ring|]. rewrite BB, HH, Ss. unfold q. field. lra. } apply Rmult_integral in X. destruct X; nra. }
  assert (Dv : 1 + e * cos v = (1 + e) / (1 + e * g)) by (rewrite Cv; field; lra).
  assert (Dp : 0 < 1 + e * cos v) by (rewrite Dv; apply Rdiv_lt_0_compat; lra).
  pose proof (pos_eq p e i Om w v mu) as Pv. pose proof (vel_eq p e i Om w v mu p_pos Dp) as Vv.
  pose proof (pos_eq p e i Om w 0 mu) as Pz. pose proof (vel_eq p e i Om w 0 mu p_pos v0_ok) as Vz.
  fold (st v) in Pv, Vv. fold (st 0) in Pz, Vz. fold pos0 in Pz. fold vel0 in Vz. fold h in Vv, Vz. rewrite cos_0, Rmult_1_r in Pz, Vz. fold q in Pz, Vz. rewrite sin_0, Rplus_0_l in Vz. rewrite Rplus_0_l in Pz.
  rewrite Pz, Vz. rewrite (surjective_pairing (st v)), Pv, Vv.
  assert (Rv : p / (1 + e * cos v) = q * (1 + e * g)) by (rewrite Dv; unfold q; field; lra). rewrite Rv.
  pose proof (along_shift i Om v v w eq_refl eq_refl) as _.
  assert (Al : along i Om (v + w) = vadd (smul (cos v) (along i Om w)) (smul (sin v) (ahead i Om w))) by (rewrite ahead_eq; unfold along; rewrite cos_plus, sin_plus; apply vec_ext; cbn; ring).
  assert (Ah : ahead i Om (v + w) = vadd (smul (- sin v) (along i Om w)) (smul (cos v) (ahead i Om w))) by (rewrite !ahead_eq; unfold along; rewrite cos_plus, sin_plus; apply vec_ext; cbn; ring).
  rewrite Al, Ah. set (X := along i Om w). set (Y := ahead i Om w).
  assert (Comb : forall a1 a2 b1 b2, a1 = b1 -> a2 = b2 -> vadd (smul a1 X) (smul a2 Y) = vadd (smul b1 X) (smul b2 Y)) by (intros; subst; reflexivity).
  assert (Hq : h / q = s / b) by (apply Rmult_eq_reg_l with (b * q); [|apply Rgt_not_eq; nra]; replace (b * q * (h / q)) with (b * h) by (field; lra); rewrite BH; field; lra).
  f_equal.
  - transitivity (vadd (smul ((1 - g) * q) X) (smul (b * q * g1 * (s / b)) Y)).
    + transitivity (vadd (smul ((1 - b * q / (b * q) * g) * q) X) (smul ((b * q * g1 + b * b * 0 * g) * (s / b)) Y)).
      * rewrite <- Hq. apply vec_ext; cbn; ring.
      * apply Comb; field; lra.
    + transitivity (vadd (smul (q * (1 + e * g) * cos v) X) (smul (q * (1 + e * g) * sin v) Y)); [|apply vec_ext; cbn; ring]. apply Comb; rewrite ?Cv, ?Sv; field; lra.
  - transitivity (vadd (smul (- (b * q / (b * q)) * g1 / (b * q * (1 + e * g)) * q) X) (smul ((1 - b * q * g / (b * q * (1 + e * g))) * (s / b)) Y)).
    + rewrite <- Hq. apply vec_ext; cbn; ring.
    + transitivity (vadd (smul (h * e / p * sin v * cos v - h / (q * (1 + e * g)) * sin v) X) (smul (h * e / p * sin v * sin v + h / (q * (1 + e * g)) * cos v) Y)); [|apply vec_ext; cbn; ring].
      assert (Hh : h = q * s / b) by (rewrite <- BH; field; lra). assert (Pp : p = q * (s * s)) by (rewrite Ss; unfold q; field; lra). assert (Ee : e = s * s - 1) by lra.
      assert (S2 : sin v * sin v = 1 - cos v * cos v) by (pose proof (sc2 v); lra).
      assert (F1 : h * e / p * sin v * cos v - h / (q * (1 + e * g)) * sin v = - (h / p) * sin v).
      { rewrite <- Rv. field. lra. }
      assert (F2 : h * e / p * sin v * sin v + h / (q * (1 + e * g)) * cos v = h / p * (e + cos v)).
      { rewrite <- Rv. transitivity (h / p * (e * (sin v * sin v) + cos v * (1 + e * cos v))); [field; lra|]. rewrite S2. ring. }
      assert (F3 : h / p = / (b * s)). { rewrite Hh, Pp. field. lra. }
      rewrite F1, F2, F3, Cv, Sv. apply Comb; [field; lra|]. replace (1 - b * q * g / (b * q * (1 + e * g))) with ((1 - (1 - e) * g) / (1 + e * g)) by (field; lra).
      replace (e + (1 - g) / (1 + e * g)) with ((1 + e) * (1 - (1 - e) * g) / (1 + e * g)) by (field; lra). rewrite <- Ss. field. lra.
Qed.
Lemma peri_size x : vlength (P (tp + Kx x)) = q * (1 + e * G2 (1 - e) x).
Proof.
  destruct (seen_exists e x e_pos) as [v Hv]. pose proof (peri_motion x v Hv) as E. apply (f_equal fst) in E. cbn [fst] in E. rewrite E.
  pose proof (G2_ge (1 - e) x) as G. destruct Hv as [Cv _]. assert (D : 0 < 1 + e * G2 (1 - e) x) by nra. assert (Dv : 1 + e * cos v = (1 + e) / (1 + e * G2 (1 - e) x)) by (rewrite Cv; field; lra).
  unfold st. rewrite (state_length p e i Om w v mu p_pos); [rewrite Dv; unfold q; field; lra|]. rewrite Dv. apply Rdiv_lt_0_compat; lra.
Qed.
Lemma peri_reach t : exists x, t = tp + Kx x.
Proof. destruct (reach_t pos0 vel0 mu b q tp peri_cross peri_facts t) as [x Hx]. exists x. rewrite <- K_peri. exact Hx. Qed.
Lemma peri_always t : exists v, 0 < 1 + e * cos v /\ (P t, V t) = st v.
Proof.
  destruct (peri_reach t) as [x ->]. destruct (seen_exists e x e_pos) as [v Hv]. exists v. split; [|apply peri_motion; assumption].
  pose proof (G2_ge (1 - e) x) as G. destruct Hv as [Cv _]. assert (D : 0 < 1 + e * G2 (1 - e) x) by nra. rewrite Cv. replace (1 + e * ((1 - G2 (1 - e) x) / (1 + e * G2 (1 - e) x))) with ((1 + e) / (1 + e * G2 (1 - e) x)) by (field; lra). apply Rdiv_lt_0_compat; lra.
Qed.
Lemma Kx_0 : Kx 0 = 0. Proof. unfold Kx. destruct (G_at_0 (1 - e)) as (_ & -> & _ & ->). ring. Qed.
Lemma Kx_incr x y : x < y -> Kx x < Kx y.
Proof. intros H. rewrite <- !K_peri. apply (K_incr pos0 vel0 mu b q peri_cross peri_facts x y H). Qed.
Lemma peri_periodic (f_pos : e < 1) (n : Z) t : P (t + IZR n * (2 * PI * (b * q) / (sqrt (1 - e) * sqrt (1 - e) * sqrt (1 - e)))) = P t /\ V (t + IZR n * (2 * PI * (b * q) / (sqrt (1 - e) * sqrt (1 - e) * sqrt (1 - e)))) = V t.
Proof.
  assert (f : k_f (conic_of pos0 vel0 mu) = 1 - e) by (rewrite (cf_e _ _ _ _ _ _ peri_facts), peri_e; reflexivity).
  assert (Fp : 0 < k_f (conic_of pos0 vel0 mu)) by (rewrite f; lra).
  pose proof (periodic_Z pos0 vel0 mu b q tp P V mu_pos peri_cross peri_facts N P0 V0 Fp t n) as H. rewrite f, (cf_bq _ _ _ _ _ _ peri_facts) in H. exact H.
Qed.
End Periapsis.
