From Coq Require Import Reals Lra Lia Psatz ZArith List Bool.
From Coquelicot Require Import Coquelicot.
From Verif Require Import Real_Math Real_Math_Proofs Vector_Model Vector_Proofs Vector_Proofs2 Geo_Model Geo_Spec Geo_Proofs Kepler_Model Kepler_Spec Kepler_Proofs Kepler_Proofs2 Kepler_Proofs3 Kepler_Proofs4 Kepler_Proofs5 Kepler_Proofs6 Kepler_Proofs7 Kepler_Proofs8 Elements_Model Elements_Proofs Elements_Proofs2.
Open Scope R_scope.

Lemma vlength_vzero : vlength vzero = 0.
Proof. unfold vlength. cbn. rewrite !Rmult_0_r, !Rplus_0_r. apply sqrt_0. Qed.
Lemma osculating_base pos vel mu el : osculating pos vel mu = Some el -> cross pos vel <> vzero ->
  0 < mu /\ 0 < el_p el /\ el_p el = semi_latus_rectum (cross pos vel) mu /\ 0 <= el_e el /\ el_e el = vlength (laplace pos vel mu).
Proof.
  unfold osculating. destruct (Rle_dec mu 0) as [|M]; [discriminate|]. intros H Hn. assert (Hm : 0 < mu) by lra. rewrite crossp_cross in H.
  rewrite eccentricity_vector_eq in H by (lra || apply (st_pos_ne pos vel Hn)). injection H as <-. cbn [el_p el_e].
  pose proof (st_h pos vel Hn) as Hh. split; [assumption|]. split; [unfold semi_latus_rectum; apply Rdiv_lt_0_compat; nra|]. split; [reflexivity|]. split; [apply vlength_pos|reflexivity].
Qed.
Lemma some_elements pos vel mu el : osculating pos vel mu = Some el -> cross pos vel <> vzero ->
  exists i Om w v, 0 < 1 + el_e el * cos v /\ elements_vec (el_p el) (el_e el) i Om w v mu = (pos, vel).
Proof.
  intros H Hn. destruct (osculating_base pos vel mu el H Hn) as (Hm & _ & Ep & He & Ee). rewrite Ep, Ee.
  pose proof (st_r pos vel Hn) as Rp. pose proof (st_H_pos pos vel) as HPo. pose proof (st_H_E pos vel mu Hn) as HEo. set (HH := cross pos vel) in *. set (E := laplace pos vel mu) in *.
  exists (inclination HH), (longitude_of_ascending_node (inclination HH) HH).
  assert (Pdd : dot pos pos = vlength pos * vlength pos) by (symmetry; apply vlength_sq).
  assert (W : exists w, E = smul (vlength E) (along (inclination HH) (longitude_of_ascending_node (inclination HH) HH) w)).
  { destruct (Req_dec (vlength E) 0) as [Z|Z].
    - exists 0. rewrite Z. assert (E = vzero) as ->; [|apply vec_ext; cbn; ring]. pose proof (vlength_sq E) as S. rewrite Z in S. unfold dot in S. destruct E as [a b c]. cbn in S. assert (a = 0 /\ b = 0 /\ c = 0) as (-> & -> & ->) by (repeat split; nra). reflexivity.
    - apply (polar HH Hn E (vlength E)); [pose proof (vlength_pos E); lra|symmetry; apply vlength_sq|assumption]. }
  destruct W as [w Hw]. destruct (polar HH Hn pos (vlength pos) Rp Pdd HPo) as [c Hc]. exists w, (c - w).
  apply (assemble pos vel mu w (c - w) Hm Hn); [exact Hw|]. replace (c - w + w) with c by ring. exact Hc.
Qed.
Lemma peri_time p e i Om w mu P V t0 v x : 0 < p -> 0 <= e -> 0 < mu -> newtonian mu P V ->
  (P t0, V t0) = elements_vec p e i Om w v mu -> seen e x v -> let tp := t0 - Kx p e mu x in (P tp, V tp) = elements_vec p e i Om w 0 mu.
Proof.
  intros Hp He Hm N Es Hs tp. destruct (motion_exists (fst (elements_vec p e i Om w 0 mu)) (snd (elements_vec p e i Om w 0 mu)) tp mu Hm (peri_cross p e i Om w mu Hp He Hm)) as (P' & V' & N' & P0 & V0).
  pose proof (peri_motion p e i Om w mu Hp He Hm P' V' tp N' P0 V0 x v Hs) as M. replace (tp + Kx p e mu x) with t0 in M by (unfold tp; ring).
  rewrite <- M in Es. injection Es as E1 E2. destruct (unique mu P V P' V' t0 Hm N N' E1 E2 tp) as [-> ->]. rewrite P0, V0. symmetry. apply surjective_pairing.
Qed.
(** Every motion passes its periapsis. *)
Lemma motion_peri pos vel mu el P V t0 : osculating pos vel mu = Some el -> cross pos vel <> vzero -> newtonian mu P V -> P t0 = pos -> V t0 = vel ->
  exists i Om w tp, (P tp, V tp) = elements_vec (el_p el) (el_e el) i Om w 0 mu.
Proof.
  intros H Hn N E1 E2. destruct (osculating_base pos vel mu el H Hn) as (Hm & Hp & _ & He & _). destruct (some_elements pos vel mu el H Hn) as (i & Om & w & v & D & Es).
  destruct (x_exists (el_e el) v He D) as [x Hx]. exists i, Om, w, (t0 - Kx (el_p el) (el_e el) mu x). apply (peri_time (el_p el) (el_e el) i Om w mu P V t0 v x); try assumption. rewrite E1, E2. symmetry. exact Es.
Qed.
Lemma fst_eq {A B} (a : A) (b : B) c : (a, b) = c -> a = fst c /\ b = snd c. Proof. intros <-. auto. Qed.

Section Orbit.
Variables (pos vel : vec) (mu : R) (el : elements) (P V : R -> vec) (t0 : R).
Hypothesis El : osculating pos vel mu = Some el.
Hypothesis Hn : cross pos vel <> vzero.
Hypothesis N : newtonian mu P V.
Hypothesis P0 : P t0 = pos.
Hypothesis V0 : V t0 = vel.
Let p := el_p el.
Let e := el_e el.
Lemma o_mu : 0 < mu. Proof. apply (osculating_base pos vel mu el El Hn). Qed.
Lemma o_p : 0 < p. Proof. apply (osculating_base pos vel mu el El Hn). Qed.
Lemma o_e : 0 <= e. Proof. apply (osculating_base pos vel mu el El Hn). Qed.
Lemma q_of_eq : q_of el = p / (1 + e).
Proof. pose proof o_e. unfold q_of, periapsis_distance. fold p e. destruct (Req_EM_T e 1) as [->|Ne]; [field|field; split; nra]. Qed.
Lemma always : exists i Om w, (exists tp, (P tp, V tp) = elements_vec p e i Om w 0 mu) /\ forall t, exists v, 0 < 1 + e * cos v /\ (P t, V t) = elements_vec p e i Om w v mu.
Proof.
  destruct (motion_peri pos vel mu el P V t0 El Hn N P0 V0) as (i & Om & w & tp & H). exists i, Om, w. split; [exists tp; exact H|]. apply fst_eq in H. destruct H.
  intros t. apply (peri_always p e i Om w mu o_p o_e o_mu P V tp); assumption.
Qed.
Lemma vis_viva t : dot (V t) (V t) = mu * (2 / vlength (P t) - match a_of el with Some a => / a | None => 0 end).
Proof.
  destruct always as (i & Om & w & _ & A). destruct (A t) as (v & D & E). apply fst_eq in E. destruct E as [-> ->].
  rewrite (state_speed p e i Om w v mu o_p o_mu D), (state_length p e i Om w v mu o_p D). f_equal. f_equal. pose proof o_e. pose proof o_p. unfold a_of, semi_major_axis. fold p e. destruct (Req_EM_T e 1) as [Z|Z]; [rewrite Z; lra|].
  field. split; [intros Y; apply Z; nra|lra].
Qed.
Lemma size_low t : q_of el <= vlength (P t).
Proof.
  destruct always as (i & Om & w & (tp & E) & _). apply fst_eq in E. destruct E as [E1 E2]. destruct (peri_reach p e i Om w mu o_p o_e o_mu tp t) as [x ->].
  rewrite (peri_size p e i Om w mu o_p o_e o_mu P V tp N E1 E2 x), q_of_eq. pose proof (G2_ge (1 - e) x). pose proof o_e. pose proof (q_pos p e o_p o_e). assert (0 <= e * G2 (1 - e) x) by (apply Rmult_le_pos; assumption). nra.
Qed.
Lemma size_least : exists t, vlength (P t) = q_of el.
Proof. destruct always as (i & Om & w & (tp & E) & _). apply fst_eq in E. destruct E as [E1 E2]. exists tp. rewrite E1, q_of_eq. apply (peri_r p e i Om w mu o_p o_e). Qed.
Lemma size_high : match Q_of el with Some Q => (forall t, vlength (P t) <= Q) /\ (exists t, vlength (P t) = Q) | None => forall M, exists t, M < vlength (P t) end.
Proof.
  destruct always as (i & Om & w & (tp & E) & _). apply fst_eq in E. destruct E as [E1 E2]. pose proof o_e as He. pose proof o_p as Hp. pose proof (q_pos p e Hp He) as Qp.
  unfold Q_of, apoapsis_distance. fold p e. destruct (Rlt_dec e 1) as [L|L].
  - assert (QQ : p * (1 + e) / (1 - e * e) = p / (1 + e) * (1 + e * (2 / (1 - e)))) by (field; repeat split; nra). rewrite QQ. assert (F : 0 < 1 - e) by lra. split.
    + intros t. destruct (peri_reach p e i Om w mu o_p o_e o_mu tp t) as [x ->]. rewrite (peri_size p e i Om w mu o_p o_e o_mu P V tp N E1 E2 x).
      destruct (G_positive (1 - e) x F) as (W & _ & _ & _ & -> & _). rewrite W. apply Rmult_le_compat_l; [lra|]. pose proof (COS_bound (sqrt (1 - e) * x)).
      assert ((1 - cos (sqrt (1 - e) * x)) / (1 - e) <= 2 / (1 - e)) by (apply Rmult_le_compat_r; [left; apply Rinv_0_lt_compat; assumption|lra]). nra.
    + exists (tp + Kx p e mu (PI / sqrt (1 - e))). rewrite (peri_size p e i Om w mu o_p o_e o_mu P V tp N E1 E2). destruct (G_positive (1 - e) (PI / sqrt (1 - e)) F) as (W & Wp & _ & _ & -> & _).
      replace (sqrt (1 - e) * (PI / sqrt (1 - e))) with PI by (field; lra). rewrite cos_PI, W. do 3 f_equal. field. lra.
  - intros M. set (y := Rabs M / (p / (1 + e)) + 1). pose proof (Rabs_pos M) as Mp. pose proof (RRle_abs M) as Ml. assert (Y : 1 <= y). { unfold y. assert (0 <= Rabs M / (p / (1 + e))) by (apply Rmult_le_pos; [assumption|left; apply Rinv_0_lt_compat; assumption]). lra. }
    exists (tp + Kx p e mu (2 * y)). rewrite (peri_size p e i Om w mu o_p o_e o_mu P V tp N E1 E2). pose proof (G2_large (1 - e) (2 * y) ltac:(lra)) as G.
    apply Rle_lt_trans with (Rabs M); [assumption|]. assert (Em : Rabs M = p / (1 + e) * (y - 1)) by (unfold y; field; split; lra). rewrite Em. apply Rmult_lt_compat_l; [assumption|]. nra.
Qed.
End Orbit.

(** The state at another time has the same conic. *)
Lemma same_conic p e i Om w v mu : 0 < p -> 0 <= e -> 0 < mu -> 0 < 1 + e * cos v -> let s := elements_vec p e i Om w v mu in
  cross (fst s) (snd s) <> vzero /\ conic_facts (fst s) (snd s) mu (conic_of (fst s) (snd s) mu) (sqrt (p / (1 + e) / mu)) (p / (1 + e)) /\ k_f (conic_of (fst s) (snd s) mu) = 1 - e.
Proof.
  intros Hp He Hm D s.
  assert (Cn : cross (fst s) (snd s) <> vzero).
  { unfold s. rewrite (state_momentum p e i Om w v mu Hp D). assert (Hh : 0 < sqrt (p * mu)) by (apply sqrt_lt_R0; nra). intros Z. pose proof (dot_smul (sqrt (p * mu)) (sqrt (p * mu)) (pole i Om) (pole i Om)) as Q. rewrite Z, pole_pole in Q. unfold dot in Q. cbn in Q. nra. }
  assert (Le : vlength (laplace (fst s) (snd s) mu) = e). { unfold s. rewrite (state_laplace p e i Om w v mu Hp Hm D). apply scaled_length; [assumption|apply along_along]. }
  assert (Cl : closest (fst s) (snd s) mu = p / (1 + e)). { unfold closest. rewrite Le. unfold s. rewrite (state_momentum p e i Om w v mu Hp D), dot_smul, pole_pole, sqrt_sqrt by nra. field. lra. }
  destruct (conic_ok (fst s) (snd s) mu Hm Cn) as (b' & q' & F). pose proof (q_eq _ _ mu b' q' Hm F) as Q. pose proof (b_eq _ _ mu b' q' Hm F) as B. rewrite Cl in Q, B.
  split; [assumption|]. split; [rewrite <- B, <- Q; exact F|]. rewrite (cf_e _ _ _ _ _ _ F), Le. reflexivity.
Qed.
Lemma period_eq p e mu : 0 < p -> 0 <= e < 1 -> 0 < mu ->
  2 * PI * (sqrt (p / (1 + e) / mu) * (p / (1 + e))) / (sqrt (1 - e) * sqrt (1 - e) * sqrt (1 - e)) = tau * sqrt ((p / (1 - e * e)) ^ 3 / mu) /\ 0 < p / (1 - e * e).
Proof.
  intros Hp He Hm. assert (Ap : 0 < p / (1 - e * e)) by (apply Rdiv_lt_0_compat; nra). split; [|assumption].
  assert (Qp : 0 < p / (1 + e)) by (apply Rdiv_lt_0_compat; lra). set (q := p / (1 + e)) in *. set (b := sqrt (q / mu)). assert (Bp : 0 < b) by (apply sqrt_lt_R0, Rdiv_lt_0_compat; assumption).
  assert (BB : b * b = q / mu) by (apply sqrt_sqrt, Rlt_le, Rdiv_lt_0_compat; assumption).
  set (w := sqrt (1 - e)). assert (Wp : 0 < w) by (apply sqrt_lt_R0; lra). assert (WW : w * w = 1 - e) by (apply sqrt_sqrt; lra).
  assert (X : sqrt ((p / (1 - e * e)) ^ 3 / mu) = b * q / (w * w * w)).
  { assert (Www : 0 < w * w * w) by (apply Rmult_lt_0_compat; nra). rewrite <- (sqrt_square (b * q / (w * w * w))) by (apply Rlt_le, Rdiv_lt_0_compat; nra). f_equal.
    transitivity ((b * b) * (q * q) / ((w * w) * (w * w) * (w * w))); [|field; lra]. rewrite BB, WW. unfold q. field. repeat split; nra. }
  rewrite X. unfold tau. field. lra.
Qed.

Section Orbit2.
Variables (pos vel : vec) (mu : R) (el : elements) (P V : R -> vec) (t0 : R).
Hypothesis El : osculating pos vel mu = Some el.
Hypothesis Hn : cross pos vel <> vzero.
Hypothesis N : newtonian mu P V.
Hypothesis P0 : P t0 = pos.
Hypothesis V0 : V t0 = vel.
Let p := el_p el.
Let e := el_e el.
Let Hm : 0 < mu := o_mu pos vel mu el El Hn.
Let Hp : 0 < p := o_p pos vel mu el El Hn.
Let He : 0 <= e := o_e pos vel mu el El Hn.
Lemma orbit_period : match period_in_days el mu with
  | Some T => 0 < T /\ (forall t, P (t + 86400 * T) = P t /\ V (t + 86400 * T) = V t) /\ (forall t s, 0 < s < 86400 * T -> P (t + s) <> P t)
  | None => forall t u, t <> u -> P t <> P u end.
Proof.
  destruct (always pos vel mu el P V t0 El Hn N P0 V0) as (i & Om & w & (tp & E) & A). fold p e in E, A. apply fst_eq in E. destruct E as [E1 E2]. fold p e.
  unfold period_in_days, period, a_of, semi_major_axis. fold p e. destruct (Rlt_dec e 1) as [L|L].
  - destruct (Req_EM_T e 1); [lra|]. destruct (period_eq p e mu Hp (conj He L) Hm) as [T Ap]. destruct (Rlt_dec 0 (p / (1 - e * e))); [|lra].
    rewrite <- T. unfold DAY_S. set (X := 2 * PI * _ / _) in *.
    assert (Xp : 0 < X). { rewrite T. pose proof tau_pos. apply Rmult_lt_0_compat; [assumption|]. apply sqrt_lt_R0, Rdiv_lt_0_compat; [apply pow_lt; assumption|assumption]. }
    replace (86400 * (X / 86400)) with X by field. split; [apply Rdiv_lt_0_compat; lra|]. split.
    + intros t. pose proof (peri_periodic p e i Om w mu Hp He Hm P V tp N E1 E2 L 1 t) as H. fold X in H. rewrite Rmult_1_l in H. exact H.
    + intros t s Hs. destruct (A t) as (v & D & Et). destruct (same_conic p e i Om w v mu Hp He Hm D) as (Cn & F & Kf). apply fst_eq in Et. destruct Et as [Et1 Et2].
      rewrite <- Et1, <- Et2 in Cn, F, Kf.
      apply (shortest (P t) (V t) mu _ _ t P V Hm Cn F N eq_refl eq_refl); [rewrite Kf; lra|]. rewrite (cf_bq _ _ _ _ _ _ F), Kf. exact Hs.
  - assert (G : forall t u, t <> u -> P t <> P u).
    { intros u t Htu. destruct (A t) as (v & D & Et). destruct (same_conic p e i Om w v mu Hp He Hm D) as (Cn & F & Kf). apply fst_eq in Et. destruct Et as [Et1 Et2].
      rewrite <- Et1, <- Et2 in Cn, F, Kf. apply (never_twice (P t) (V t) mu _ _ t P V Hm Cn F N eq_refl eq_refl); [rewrite Kf; lra|assumption]. }
    destruct (Req_EM_T e 1); [exact G|]. destruct (Rlt_dec 0 (p / (1 - e * e))) as [B|_]; [exfalso|exact G].
    assert (p / (1 - e * e) < 0); [|lra]. assert (Ne : 1 - e * e < 0) by nra. replace (p / (1 - e * e)) with (- (p / (e * e - 1))) by (field; split; lra). assert (0 < p / (e * e - 1)) by (apply Rdiv_lt_0_compat; lra). lra.
Qed.
Lemma motion_and_period T : period_in_days el mu = Some T -> mean_motion_per_day el mu * T = tau.
Proof.
  unfold period_in_days, mean_motion_per_day, period, mean_motion. destruct (a_of el) as [a|]; [|discriminate]. destruct (Rlt_dec 0 a) as [Ha|]; [|discriminate]. intros H. injection H as <-. unfold DAY_S.
  change (a * (a * (a * 1))) with (a ^ 3). rewrite (Rabs_right a) by lra. assert (A3 : 0 < a ^ 3) by (apply pow_lt; assumption). replace (sqrt (mu / a ^ 3) * 86400 * (tau * sqrt (a ^ 3 / mu) / 86400)) with (tau * (sqrt (mu / a ^ 3) * sqrt (a ^ 3 / mu))) by (field).
  rewrite <- sqrt_mult by (apply Rlt_le, Rdiv_lt_0_compat; assumption). replace (mu / a ^ 3 * (a ^ 3 / mu)) with 1 by (field; split; lra). rewrite sqrt_1. ring.
Qed.
(** The shape: coordinates from the focus, along the line to periapsis and across it. *)
Lemma orbit_shape : exists X Y, dot X X = 1 /\ dot Y Y = 1 /\ dot X Y = 0 /\ (exists t, P t = smul (q_of el) X) /\
  forall t, let x := dot (P t) X in let y := dot (P t) Y in P t = vadd (smul x X) (smul y Y) /\
    match a_of el with
    | Some a => if Rlt_dec e 1 then ((x + a * e) / a) ^ 2 + (y / b_of el) ^ 2 = 1 /\ 0 < b_of el <= a
                else ((x + a * e) / a) ^ 2 - (y / b_of el) ^ 2 = 1 /\ a < 0 /\ b_of el < 0
    | None => y ^ 2 = p ^ 2 - 2 * p * x /\ b_of el = 0
    end.
Proof.
  destruct (always pos vel mu el P V t0 El Hn N P0 V0) as (i & Om & w & (tp & E) & A). fold p e in E, A. apply fst_eq in E. destruct E as [E1 E2].
  pose proof (along_along i Om w) as XX. pose proof (ahead_ahead i Om w) as YY. pose proof (along_ahead i Om w) as XY.
  exists (along i Om w), (ahead i Om w). split; [exact XX|]. split; [exact YY|]. split; [exact XY|]. split.
  { exists tp. rewrite E1, pos_eq, cos_0, Rmult_1_r, Rplus_0_l, (q_of_eq pos vel mu el El Hn). reflexivity. }
  intros t. destruct (A t) as (v & D & Et). apply fst_eq in Et. destruct Et as [Et _]. rewrite pos_eq in Et. set (r := p / (1 + e * cos v)) in *. assert (Rp : 0 < r) by (apply Rdiv_lt_0_compat; assumption).
  assert (Al : along i Om (v + w) = vadd (smul (cos v) (along i Om w)) (smul (sin v) (ahead i Om w))) by (rewrite ahead_eq; unfold along; rewrite cos_plus, sin_plus; apply vec_ext; cbn; ring).
  rewrite Al in Et. set (X := along i Om w) in *. set (Y := ahead i Om w) in *.
  assert (Dx : dot (P t) X = r * cos v). { rewrite Et. transitivity (r * (cos v * dot X X + sin v * dot X Y)); [unfold dot; cbn; ring|]. rewrite XX, XY. ring. }
  assert (Dy : dot (P t) Y = r * sin v). { rewrite Et. transitivity (r * (cos v * dot X Y + sin v * dot Y Y)); [unfold dot; cbn; ring|]. rewrite XY, YY. ring. }
  cbv zeta. rewrite Dx, Dy. split; [rewrite Et; apply vec_ext; cbn; ring|].
  set (x := r * cos v). set (y := r * sin v). assert (Rr : r = p - e * x) by (unfold x, r; field; lra).
  assert (YY2 : y * y = (p - e * x) * (p - e * x) - x * x). { rewrite <- Rr. unfold x, y. pose proof (sc2 v) as S. transitivity (r * r * (1 - cos v * cos v)); [replace (1 - cos v * cos v) with (sin v * sin v) by lra; ring|ring]. }
  clearbody x y. clear Dx Dy Et. unfold a_of, b_of, semi_major_axis, semi_minor_axis. fold p e. pose proof Hp as Hp'. pose proof He as He'. destruct (Req_EM_T e 1) as [Z|Z].
  - rewrite Z in *. destruct (Rlt_dec 1 1); [lra|]. destruct (Rlt_dec 1 1); [lra|]. split; [nra|reflexivity].
  - destruct (Rlt_dec e 1) as [L|L].
    + assert (W : 0 < 1 - e * e) by nra. set (z := sqrt (1 - e * e)). assert (Zp : 0 < z) by (apply sqrt_lt_R0; assumption). assert (ZZ : z * z = 1 - e * e) by (apply sqrt_sqrt; lra). split.
      * transitivity (((x * (1 - e * e) + p * e) ^ 2 + z * z * (y * y)) / p ^ 2); [field; lra|]. rewrite YY2, ZZ. field. lra.
      * split; [apply Rdiv_lt_0_compat; assumption|]. assert (z <= 1) by nra. rewrite <- ZZ. apply Rmult_le_reg_r with (z * z); [nra|]. replace (p / z * (z * z)) with (p * z) by (field; lra). replace (p / (z * z) * (z * z)) with p by (field; lra). nra.
    + destruct (Rlt_dec 1 e) as [G|G]; [|lra]. assert (W : 0 < e * e - 1) by nra. set (z := sqrt (e * e - 1)). assert (Zp : 0 < z) by (apply sqrt_lt_R0; assumption). assert (ZZ : z * z = e * e - 1) by (apply sqrt_sqrt; lra).
      assert (Bb : p * z / (1 - e * e) = - (p / z)). { replace (1 - e * e) with (- (z * z)) by lra. field. lra. } rewrite Bb.
      assert (Aa : p / (1 - e * e) = - (p / (z * z))). { replace (1 - e * e) with (- (z * z)) by lra. field. lra. } rewrite Aa. split; [|split].
      * transitivity (((p * e - x * (z * z)) ^ 2 - z * z * (y * y)) / p ^ 2); [field; lra|]. rewrite YY2, ZZ. field. lra.
      * assert (0 < p / (z * z)) by (apply Rdiv_lt_0_compat; nra). lra.
      * assert (0 < p / z) by (apply Rdiv_lt_0_compat; assumption). lra.
Qed.
End Orbit2.
