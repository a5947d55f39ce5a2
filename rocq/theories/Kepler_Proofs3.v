From Coq Require Import Reals Lra Lia Psatz.
From Verif Require Import Real_Math Real_Math_Proofs Vector_Model Vector_Proofs Vector_Proofs2 Geo_Model Geo_Spec Geo_Proofs Geo_Proofs2 Kepler_Model Kepler_Spec Kepler_Proofs Kepler_Proofs2.
Open Scope R_scope.

Lemma pick_ge a x c : 0 <= a <= PI -> cos a = cos x -> (0 <= c <-> 0 <= sin x) ->
  (if Rle_dec 0 c then a else rmod (- a) tau) = rmod x tau.
Proof.
  intros B C I. pose proof tau_pos as T. pose proof PI_RGT_0 as P. pose proof (rmod_bounds x tau T) as Y. pose proof (cos_rmod x) as Cy. pose proof (sin_rmod x) as Sy.
  set (y := rmod x tau) in *. assert (Et : tau = 2 * PI) by reflexivity. destruct (Rle_dec 0 c) as [H|H].
  - apply I in H. rewrite <- Sy in H. apply cos_inj'; try lra. split; [lra|]. destruct (Rle_dec y PI); [assumption|].
    assert (sin y < 0) by (apply sin_lt_0; lra). lra.
  - assert (S0 : sin y < 0). { rewrite Sy. destruct (Rlt_dec (sin x) 0); [assumption|]. exfalso. apply H, I. lra. }
    assert (PI < y). { destruct (Rlt_dec PI y); [assumption|]. assert (0 <= sin y) by (apply sin_ge_0; lra). lra. }
    assert (a = tau - y). { apply cos_inj'; try lra. rewrite C, <- Cy. replace (tau - y) with (- y + tau * IZR 1) by ring. rewrite cos_tau, cos_neg. reflexivity. }
    subst a. apply (rmod_unique _ _ _ (-1)); [lra|lra|]. ring.
Qed.
(** An angle with a given cosine and sine. *)
Lemma angle_exists x y r : 0 < r -> x * x + y * y = r * r -> exists a, r * cos a = x /\ r * sin a = y.
Proof.
  intros Hr H. exists (atan2 y x). assert (N : x <> 0 \/ y <> 0). { destruct (Req_dec x 0) as [->|]; [right|left; assumption]. intros ->. nra. }
  destruct (atan2_spec y x N) as (C & S1 & _). assert (E : rho x y = r). { unfold rho. rewrite H. apply sqrt_square. lra. }
  rewrite E in C, S1. auto.
Qed.
(** * The parts of a state *)
Section State.
Variables (pos vel : vec) (mu : R).
Hypothesis mu_pos : 0 < mu.
Let H := cross pos vel.
Hypothesis H_ne : H <> vzero.
Let E := laplace pos vel mu.
Let r := vlength pos.
Let h := vlength H.
Lemma st_pos_ne : pos <> vzero.
Proof. intros Z. apply H_ne. unfold H. rewrite Z. unfold cross. apply vec_ext; cbn; ring. Qed.
Lemma st_r : 0 < r. Proof. apply vlength_ne, st_pos_ne. Qed.
Lemma st_h : 0 < h. Proof. apply vlength_ne, H_ne. Qed.
Lemma st_hh : h * h = dot H H. Proof. unfold h. apply vlength_sq. Qed.
Lemma st_rr : r * r = dot pos pos. Proof. unfold r. apply vlength_sq. Qed.
Lemma st_H_pos : dot H pos = 0. Proof. unfold H, cross, dot. cbn. ring. Qed.
Lemma st_H_vel : dot H vel = 0. Proof. unfold H, cross, dot. cbn. ring. Qed.
Lemma st_H_E : dot H E = 0.
Proof.
  pose proof st_H_pos as A. pose proof st_r as Rp. unfold E, laplace. fold H r.
  assert (B : dot H (cross vel H) = 0) by (unfold dot, cross; cbn; ring).
  replace (dot H _) with (/ mu * dot H (cross vel H) - / r * dot H pos) by (unfold dot; cbn; ring). rewrite A, B. ring.
Qed.
Lemma st_pos_E : dot pos E = h * h / mu - r.
Proof.
  pose proof st_r as Rp. unfold E, laplace. fold H r.
  assert (B : dot pos (cross vel H) = h * h). { rewrite st_hh. unfold H, dot, cross; cbn; ring. }
  replace (dot pos _) with (/ mu * dot pos (cross vel H) - / r * dot pos pos) by (unfold dot; cbn; ring). rewrite B, <- st_rr. field. split; lra.
Qed.
Lemma st_cross_E : cross H E = vsub (smul (h * h / mu) vel) (smul (/ r) (cross H pos)).
Proof.
  unfold E, laplace. fold H r. pose proof st_H_vel as A. rewrite st_hh.
  transitivity (vsub (vsub (smul (dot H H / mu) vel) (smul (dot H vel / mu) H)) (smul (/ r) (cross H pos))).
  - generalize H as K. intros K. pose proof st_r. unfold cross, dot. apply vec_ext; cbn; field; split; lra.
  - rewrite A. generalize (cross H pos) as K. intros K. pose proof st_r. apply vec_ext; cbn; field; split; lra.
Qed.
Lemma st_sine : dot (cross H E) pos = h * h / mu * dot pos vel.
Proof.
  rewrite st_cross_E. assert (B : dot (cross H pos) pos = 0) by (unfold dot, cross; cbn; ring).
  replace (dot _ pos) with (h * h / mu * dot vel pos - / r * dot (cross H pos) pos) by (unfold dot; cbn; ring). rewrite B.
  replace (dot vel pos) with (dot pos vel) by (unfold dot; ring). ring.
Qed.
Lemma st_vel : vel = smul (mu / (h * h)) (vadd (cross H E) (smul (/ r) (cross H pos))).
Proof.
  rewrite st_cross_E. pose proof st_h. pose proof st_r. generalize (cross H pos) as K. intros K. apply vec_ext; cbn; field; repeat split; lra.
Qed.
End State.
(** The pole. *)
Section Pole.
Variable H : vec.
Hypothesis H_ne : H <> vzero.
Let h := vlength H.
Lemma po_h : 0 < h. Proof. apply vlength_ne, H_ne. Qed.
Lemma po_hh : h * h = dot H H. Proof. unfold h. apply vlength_sq. Qed.
Let i := inclination H.
Let Om := longitude_of_ascending_node i H.
Lemma st_i : 0 <= i <= PI /\ h * cos i = vz H.
Proof.
  assert (K : V3 0 0 1 <> vzero) by (intros Z; injection Z; lra).
  destruct (angle_ok H (V3 0 0 1) H_ne K) as [A B]. fold (inclination H) in A, B. fold i h in A, B.
  replace (vlength (V3 0 0 1)) with 1 in B; [|symmetry; apply unit_length; unfold dot; cbn; ring].
  split; [assumption|]. replace (dot H (V3 0 0 1)) with (vz H) in B by (unfold dot; cbn; ring). lra.
Qed.
Lemma st_sin_i : 0 <= sin i /\ (h * sin i) * (h * sin i) = vx H * vx H + vy H * vy H.
Proof.
  destruct st_i as [A B]. split; [apply sin_ge_0; lra|]. pose proof po_hh as C. unfold dot in C. pose proof (sc2 i) as D. nra.
Qed.
Lemma st_Om : sin i <> 0 -> h * sin i * sin Om = vx H /\ h * sin i * cos Om = - vy H.
Proof.
  intros Ni. destruct st_sin_i as [A B]. pose proof po_h as Hh. assert (K : 0 < h * sin i) by nra.
  assert (N : - vy H <> 0 \/ vx H <> 0). { destruct (Req_dec (vx H) 0) as [Z|Z]; [left|right; assumption]. intros X. rewrite Z in B. nra. }
  unfold Om, longitude_of_ascending_node. destruct (Req_EM_T i 0) as [Z|_]; [rewrite Z, sin_0 in Ni; lra|].
  rewrite cos_rmod, sin_rmod. destruct (atan2_spec _ _ N) as (C & S1 & _).
  assert (R0 : rho (- vy H) (vx H) = h * sin i). { unfold rho. replace (_ + _) with ((h * sin i) * (h * sin i)) by (rewrite B; ring). apply sqrt_square. lra. }
  rewrite R0 in C, S1. auto.
Qed.
Lemma st_equatorial : sin i = 0 -> vx H = 0 /\ vy H = 0 /\ Om = 0.
Proof.
  intros Z. destruct st_sin_i as [_ B]. rewrite Z in B.
  assert (X : vx H = 0) by nra. assert (Y : vy H = 0) by nra. split; [assumption|]. split; [assumption|].
  unfold Om, longitude_of_ascending_node. destruct (Req_EM_T i 0); [reflexivity|]. rewrite X, Y, Ropp_0, atan2_00. apply rmod_id. pose proof tau_pos. lra.
Qed.
Lemma st_pole : H = smul h (pole i Om).
Proof.
  destruct st_i as [_ Hz]. unfold pole. destruct (Req_dec (sin i) 0) as [Z|N].
  - destruct (st_equatorial Z) as (X & Y & _). apply vec_ext; cbn; rewrite ?Z; lra.
  - destruct (st_Om N) as [X Y]. apply vec_ext; cbn; lra.
Qed.
Let U := along i Om 0.
Let V := ahead i Om 0.
Lemma st_node : (sin i = 0 -> vlength (node_vector H) = 0) /\ (sin i <> 0 -> node_vector H = U).
Proof.
  split; intros S.
  - destruct (st_equatorial S) as (X & Y & _). unfold node_vector. rewrite X, Y, Ropp_0.
    assert (L : vlength (V3 0 0 0) = 0). { unfold vlength. cbn. rewrite !Rmult_0_r, !Rplus_0_r. apply sqrt_0. }
    rewrite L. destruct (Req_EM_T 0 0); [exact L|lra].
  - destruct (st_Om S) as [X Y]. destruct st_sin_i as [A _]. pose proof po_h as Hh. assert (K : 0 < h * sin i) by nra.
    unfold node_vector, U. rewrite along_0, <- Y, <- X.
    assert (En : V3 (h * sin i * cos Om) (h * sin i * sin Om) 0 = smul (h * sin i) (V3 (cos Om) (sin Om) 0)) by (apply vec_ext; cbn; ring).
    assert (Un : dot (V3 (cos Om) (sin Om) 0) (V3 (cos Om) (sin Om) 0) = 1) by (unfold dot; cbn; pose proof (sc2 Om); lra).
    rewrite En, scaled_length by (lra || assumption).
    destruct (Req_EM_T (h * sin i) 0); [lra|]. apply vec_ext; cbn; field; split; lra.
Qed.
Lemma in_plane x : dot H x = 0 -> x = vadd (smul (dot x U) U) (smul (dot x V) V).
Proof.
  intros Hx. rewrite st_pole in Hx. pose proof po_h as Hh.
  assert (W : dot (pole i Om) x = 0). { apply Rmult_eq_reg_l with h; [|lra]. rewrite Rmult_0_r, <- Hx. unfold dot. cbn. ring. }
  transitivity (vadd (vadd (smul (dot x U) U) (smul (dot x V) V)) (smul (dot (pole i Om) x) (pole i Om))).
  - unfold U, V. rewrite ahead_eq, along_0, cos_0, sin_0. pose proof (sc2 i) as A. pose proof (sc2 Om) as B. unfold dot, pole.
    set (si := sin i) in *; set (ci := cos i) in *; set (so := sin Om) in *; set (co := cos Om) in *. destruct x as [x y z]. cbn.
    apply vec_ext; cbn.
    + transitivity (x * (co * co + so * so * (si * si + ci * ci)) + y * (so * co * (1 - (si * si + ci * ci)))); [|ring]. rewrite A. transitivity (x * (so * so + co * co)); [rewrite B; ring|ring].
    + transitivity (y * (so * so + co * co * (si * si + ci * ci)) + x * (so * co * (1 - (si * si + ci * ci)))); [|ring]. rewrite A. transitivity (y * (so * so + co * co)); [rewrite B; ring|ring].
    + transitivity (z * (ci * ci + si * si * (so * so + co * co)) ); [rewrite B; transitivity (z * (si * si + ci * ci)); [rewrite A; ring|ring]|].
      transitivity (z * (ci * ci + si * si) ); [rewrite B; ring|ring].
  - rewrite W. apply vec_ext; cbn; ring.
Qed.
Lemma polar x l : 0 < l -> dot x x = l * l -> dot H x = 0 -> exists a, x = smul l (along i Om a).
Proof.
  intros Hl Hx Hp. pose proof (in_plane x Hp) as D.
  assert (Q : dot x U * dot x U + dot x V * dot x V = l * l).
  { rewrite <- Hx. rewrite D at 5. transitivity (dot x (vadd (smul (dot x U) U) (smul (dot x V) V))); [|reflexivity || (unfold dot; cbn; ring)]. unfold dot. cbn. ring. }
  destruct (angle_exists _ _ _ Hl Q) as (a & C & S1). exists a. rewrite D, <- C, <- S1. unfold U, V. rewrite ahead_eq. unfold along. rewrite cos_0, sin_0.
  apply vec_ext; cbn; ring.
Qed.
End Pole.

Lemma assemble pos vel mu w v : 0 < mu -> cross pos vel <> vzero ->
  let H := cross pos vel in let E := laplace pos vel mu in let i := inclination H in let Om := longitude_of_ascending_node i H in
  let e := vlength E in let p := semi_latus_rectum H mu in
  E = smul e (along i Om w) -> pos = smul (vlength pos) (along i Om (v + w)) ->
  0 < 1 + e * cos v /\ elements_vec p e i Om w v mu = (pos, vel).
Proof.
  intros Hm Hn H E i Om e p HE HP.
  pose proof (st_r pos vel Hn) as Rp. pose proof (st_h pos vel Hn) as Hh. fold H in Hh.
  pose proof (st_pos_E pos vel mu Hm Hn) as PE. fold E H in PE.
  pose proof (st_pole H Hn) as PO. fold i Om in PO.
  assert (Pp : 0 < p). { unfold p, semi_latus_rectum. apply Rdiv_lt_0_compat; nra. }
  assert (Q : 1 + e * cos v = p / vlength pos).
  { assert (D : dot pos E = vlength pos * e * cos v).
    { rewrite HE, HP at 1. replace (dot _ _) with (vlength pos * e * dot (along i Om (v + w)) (along i Om w)) by (unfold dot; cbn; ring).
      rewrite along_dot. replace (v + w - w) with v by ring. reflexivity. }
    rewrite D in PE. apply Rmult_eq_reg_l with (vlength pos); [|lra]. unfold p, semi_latus_rectum.
    replace (vlength pos * (vlength H * vlength H / mu / vlength pos)) with (vlength H * vlength H / mu) by (field; lra). lra. }
  assert (V0 : 0 < 1 + e * cos v). { rewrite Q. apply Rdiv_lt_0_compat; assumption. }
  split; [assumption|].
  assert (Er : p / (1 + e * cos v) = vlength pos). { rewrite Q. field. lra. }
  assert (Eh : sqrt (p * mu) = vlength H).
  { unfold p, semi_latus_rectum. replace (vlength H * vlength H / mu * mu) with (vlength H * vlength H) by (field; lra). apply sqrt_square. lra. }
  pose proof (pos_eq p e i Om w v mu) as P1. pose proof (state_momentum p e i Om w v mu Pp V0) as H1. pose proof (state_laplace p e i Om w v mu Pp Hm V0) as E1.
  rewrite Er, <- HP in P1. rewrite Eh, <- PO in H1. rewrite <- HE in E1.
  destruct (elements_vec p e i Om w v mu) as [pos' vel']. cbn [fst snd] in *. subst pos'. f_equal.
  assert (Hn' : cross pos vel' <> vzero) by (rewrite H1; exact Hn).
  rewrite (st_vel pos vel' mu Hm Hn'), H1, E1. symmetry. exact (st_vel pos vel mu Hm Hn).
Qed.
Lemma along_trig i Om a b : cos a = cos b -> sin a = sin b -> along i Om a = along i Om b.
Proof. intros C S1. unfold along. rewrite C, S1. reflexivity. Qed.
Lemma along_shift i Om a b w : cos a = cos b -> sin a = sin b -> along i Om (a + w) = along i Om (b + w).
Proof. intros C S1. apply along_trig; rewrite ?cos_plus, ?sin_plus, C, S1; reflexivity. Qed.
Lemma reported_trig e v : cos (reported_v e v) = cos v /\ sin (reported_v e v) = sin v.
Proof. unfold reported_v. destruct (Rlt_dec e (1 - tiny)); [rewrite cos_rmod, sin_rmod; auto|apply normpi_trig]. Qed.
Lemma equatorial_along i u : sin i = 0 -> along i 0 u = V3 (cos u) (cos i * sin u) 0.
Proof. intros Z. unfold along. rewrite cos_0, sin_0, Z. apply vec_ext; cbn; ring. Qed.
Lemma ahead_trig i Om a b : cos a = cos b -> sin a = sin b -> ahead i Om a = ahead i Om b.
Proof. intros C S1. rewrite !ahead_eq, C, S1. reflexivity. Qed.
Lemma ellipse_ok e v : 1 < e -> 0 < 1 + e * cos v -> - PI <= v < PI -> v <= acos (-1 / e).
Proof.
  intros He Hc Hv. pose proof PI_RGT_0. assert (B : -1 <= -1 / e <= 1).
  { split; apply Rmult_le_reg_r with e; try lra; unfold Rdiv; rewrite Rmult_assoc, Rinv_l by lra; lra. }
  pose proof (acos_bound (-1 / e)) as A. destruct (Rle_dec v (acos (-1 / e))) as [|N]; [assumption|exfalso].
  assert (C : cos v < cos (acos (-1 / e))) by (apply cos_decreasing_1; lra). rewrite cos_acos in C by assumption.
  assert (e * cos v < -1). { apply Rmult_lt_compat_l with (r := e) in C; [|lra]. replace (e * (-1 / e)) with (-1) in C by (field; lra). assumption. }
  lra.
Qed.
Lemma circ_vx (H pos : vec) k r : vx (smul k (vadd (cross H vzero) (smul (/ r) (cross H pos)))) = k * / r * (vy H * vz pos - vz H * vy pos).
Proof. unfold cross; cbn; ring. Qed.
Lemma cross_opp a b : cross a b = vopp (cross b a).
Proof. unfold cross. apply vec_ext; cbn; ring. Qed.
Lemma cross_smul j k a b : cross (smul j a) (smul k b) = smul (j * k) (cross a b).
Proof. unfold cross. apply vec_ext; cbn; ring. Qed.
Lemma dot_smul j k a b : dot (smul j a) (smul k b) = j * k * dot a b.
Proof. unfold dot. cbn. ring. Qed.
Lemma vopp_vopp a : vopp (vopp a) = a.
Proof. apply vec_ext; cbn; ring. Qed.
Lemma ahead_along i Om a b : dot (ahead i Om a) (along i Om b) = sin (b - a).
Proof. unfold ahead. rewrite along_dot. rewrite cos_minus, cos_plus, sin_plus, cos_PI2, sin_PI2, sin_minus. ring. Qed.
Lemma state_back_full pos vel mu : 0 < mu -> cross pos vel <> vzero ->
  laplace pos vel mu = vzero \/ tiny < vlength (laplace pos vel mu) ->
  exists el, osculating pos vel mu = Some el /\
    ele_to_vec (el_p el) (el_e el) (el_i el) (el_Om el) (el_w el) (el_v el) mu = Some (pos, vel) /\ 0 < 1 + el_e el * cos (el_v el).
Proof.
  intros Hm Hn HE. unfold osculating. destruct (Rle_dec mu 0) as [|_]; [lra|]. rewrite crossp_cross.
  pose proof (st_pos_ne pos vel Hn) as Np. rewrite eccentricity_vector_eq by (assumption || lra).
  eexists. split; [reflexivity|]. cbn [el_p el_e el_i el_Om el_w el_v].
  set (H := cross pos vel) in *. set (E := laplace pos vel mu) in *. set (i := inclination H). set (Om := longitude_of_ascending_node i H).
  set (w := argument_of_periapsis (node_vector H) E pos vel). set (v := true_anomaly E pos vel (node_vector H)).
  pose proof (st_r pos vel Hn) as Rp. pose proof (st_h pos vel Hn) as Hh. fold H in Hh.
  pose proof (st_H_pos pos vel) as HPo. pose proof (st_H_E pos vel mu Hn) as HEo. fold H E in HPo, HEo.
  pose proof (st_i H Hn) as [Ib Ic]. fold i in Ib, Ic. pose proof (st_sin_i H Hn) as [Is Isq]. fold i in Is, Isq.
  pose proof (st_node H Hn) as [Nz Nn]. fold i Om in Nz, Nn. pose proof (st_equatorial H Hn) as Heq. fold i Om in Heq.
  assert (T : 0 < tiny < 1) by (unfold tiny; lra).
  assert (Pdd : dot pos pos = vlength pos * vlength pos) by (symmetry; apply vlength_sq).
  assert (Main : E = smul (vlength E) (along i Om w) /\ exists b, pos = smul (vlength pos) (along i Om (b + w)) /\ v = reported_v (vlength E) b).
  { destruct HE as [E0|E1].
    - (* circular *)
      assert (L0 : vlength E = 0). { rewrite E0. unfold vlength. cbn. rewrite !Rmult_0_r, !Rplus_0_r. apply sqrt_0. }
      assert (W0 : w = 0). { unfold w, argument_of_periapsis. rewrite L0. destruct (Rlt_dec 0 tiny); [reflexivity|lra]. }
      rewrite W0, L0. split; [rewrite E0; apply vec_ext; cbn; ring|].
      destruct (polar H Hn pos (vlength pos) Rp Pdd HPo) as [b Hb]. fold i Om in Hb. exists b. rewrite Rplus_0_r. split; [assumption|].
      unfold reported_v. destruct (Rlt_dec 0 (1 - tiny)); [|lra]. unfold v, true_anomaly. rewrite L0. destruct (Rlt_dec tiny 0); [lra|].
      destruct (Rlt_dec 0 (1 - tiny)); [|lra].
      destruct (Req_dec (sin i) 0) as [Z|Z].
      + rewrite (Nz Z). destruct (Rlt_dec 0 tiny); [|lra]. destruct (Heq Z) as (_ & _ & O0).
        rewrite O0, (equatorial_along i b Z) in Hb.
        assert (Xp : vx pos / vlength pos = cos b). { rewrite Hb at 1. cbn. field. lra. } rewrite Xp.
        assert (Sg : vx vel < 0 <-> 0 < sin b).
        { assert (Vx : vx vel = - (mu / vlength H) * sin b).
          { pose proof (f_equal vx (st_vel pos vel mu Hm Hn)) as VE. fold H E in VE. rewrite E0, circ_vx in VE.
            destruct (Heq Z) as (_ & HY & _). assert (Py : vy pos = vlength pos * (cos i * sin b)) by (rewrite Hb at 1; reflexivity).
            rewrite HY, <- Ic, Py in VE. rewrite VE. pose proof (sc2 i) as Q. rewrite Z in Q.
            transitivity (- (mu / vlength H) * (cos i * cos i) * sin b); [field; lra|]. replace (cos i * cos i) with 1 by lra. ring. }
          rewrite Vx. assert (0 < mu / vlength H) by (apply Rdiv_lt_0_compat; assumption). split; intros; nra. }
        destruct (acos_bound (cos b)) as [B1 B2]. pose proof (COS_bound b).
        apply (pick_angle _ (Rlt_dec (vx vel) 0)); [split; assumption|apply cos_acos; lra|assumption].
      + rewrite (Nn Z), (unit_length _ (along_along i Om 0)). destruct (Rlt_dec 1 tiny); [lra|].
        destruct (angle_ok (along i Om 0) pos) as [B1 B2]; [apply unit_ne, along_along|assumption|].
        rewrite (unit_length _ (along_along i Om 0)) in B2. rewrite Hb in B2 at 3.
        replace (dot (along i Om 0) (smul (vlength pos) (along i Om b))) with (vlength pos * dot (along i Om 0) (along i Om b)) in B2 by (unfold dot; cbn; ring).
        rewrite along_dot in B2. replace (0 - b) with (- b) in B2 by ring. rewrite cos_neg in B2.
        apply pick_ge; [assumption|apply Rmult_eq_reg_l with (vlength pos); lra|]. rewrite Hb. cbn [vz smul along].
        assert (0 < vlength pos * sin i) by nra. split; intros; nra.
    - (* not circular *)
      assert (Ep : 0 < vlength E) by lra. assert (En : E <> vzero). { intros Z. rewrite Z in Ep. unfold vlength in Ep. cbn in Ep. rewrite !Rmult_0_r, !Rplus_0_r, sqrt_0 in Ep. lra. }
      assert (Edd : dot E E = vlength E * vlength E) by (symmetry; apply vlength_sq).
      destruct (polar H Hn E (vlength E) Ep Edd HEo) as [a Ha]. fold i Om in Ha.
      assert (Wa : w = rmod a tau).
      { unfold w, argument_of_periapsis. destruct (Rlt_dec (vlength E) tiny); [lra|]. destruct (Req_dec (sin i) 0) as [Z|Z].
        - rewrite (Nz Z). destruct (Rlt_dec 0 tiny); [|lra]. destruct (Heq Z) as (_ & _ & O0). rewrite O0, (equatorial_along i a Z) in Ha.
          rewrite crossp_cross. fold H. pose proof (sc2 i) as Q. rewrite Z in Q.
          assert (N : vx E <> 0 \/ vy E <> 0). { destruct (Req_dec (vx E) 0) as [X|]; [right|left; assumption]. intros Y. apply En. rewrite Ha in X, Y |- *. cbn in X, Y. apply vec_ext; cbn; lra. }
          destruct (atan2_spec _ _ N) as (C & S1 & _).
          assert (R0 : rho (vx E) (vy E) = vlength E). { unfold rho, vlength. f_equal. assert (Z3 : vz E = 0) by (rewrite Ha; cbn; ring). rewrite Z3. ring. }
          rewrite R0 in C, S1. pose proof (f_equal vx Ha) as Hax. pose proof (f_equal vy Ha) as Hay. cbn [vx vy smul] in Hax, Hay. fold E in Hax, Hay. rewrite Hax in C at 2. rewrite Hay in S1 at 2.
          assert (C' : cos (atan2 (vy E) (vx E)) = cos a) by (apply Rmult_eq_reg_l with (vlength E); lra).
          assert (S' : sin (atan2 (vy E) (vx E)) = cos i * sin a) by (apply Rmult_eq_reg_l with (vlength E); lra).
          destruct (Rle_dec 0 (vz H)) as [P|P].
          + assert (cos i = 1) by nra. apply rmod_same; [assumption|]. rewrite S'. nra.
          + assert (cos i = -1) by nra. apply rmod_same; [rewrite cos_neg, cos_rmod; assumption|]. rewrite sin_neg, sin_rmod, S'. nra.
        - rewrite (Nn Z), (unit_length _ (along_along i Om 0)). destruct (Rlt_dec 1 tiny); [lra|].
          destruct (angle_ok (along i Om 0) E) as [B1 B2]; [apply unit_ne, along_along|assumption|].
          rewrite (unit_length _ (along_along i Om 0)) in B2. rewrite Ha in B2 at 3.
          replace (dot (along i Om 0) (smul (vlength E) (along i Om a))) with (vlength E * dot (along i Om 0) (along i Om a)) in B2 by (unfold dot; cbn; ring).
          rewrite along_dot in B2. replace (0 - a) with (- a) in B2 by ring. rewrite cos_neg in B2.
          apply pick_le; [assumption|apply Rmult_eq_reg_l with (vlength E); lra|]. rewrite Ha. cbn [vz smul along].
          assert (0 < vlength E * sin i) by nra. split; intros; nra. }
      assert (Hw : E = smul (vlength E) (along i Om w)). { rewrite Wa, (along_trig i Om (rmod a tau) a) by (apply cos_rmod || apply sin_rmod). assumption. }
      split; [assumption|].
      destruct (polar H Hn pos (vlength pos) Rp Pdd HPo) as [c Hc]. fold i Om in Hc. exists (c - w). replace (c - w + w) with c by ring. split; [assumption|].
      unfold v, true_anomaly. destruct (Rlt_dec tiny (vlength E)); [|lra].
      assert (K : (if Rlt_dec 0 (dot pos vel) then angle_between E pos else rmod (- angle_between E pos) tau) = rmod (c - w) tau).
      { destruct (angle_ok E pos En Np) as [B1 B2]. apply pick_le; [assumption| |].
        - assert (D : dot E pos = vlength E * vlength pos * cos (w - c)).
          { rewrite <- (along_dot i Om w c), <- dot_smul, <- Hw, <- Hc. reflexivity. }
          rewrite D in B2. rewrite <- (cos_neg (c - w)). replace (- (c - w)) with (w - c) by ring.
          apply Rmult_eq_reg_l with (vlength E * vlength pos); [assumption|nra].
        - pose proof (st_sine pos vel mu Hm Hn) as SS. fold H E in SS.
          assert (D : dot (cross H E) pos = vlength H * vlength E * vlength pos * sin (c - w)).
          { rewrite <- (ahead_along i Om w c), <- dot_smul, <- Hc. f_equal.
            rewrite <- (vopp_vopp (ahead i Om w)), <- cross_along_pole, <- cross_opp, <- cross_smul, <- Hw. f_equal. exact (st_pole H Hn). }
          rewrite D in SS. assert (K1 : 0 < vlength H * vlength E * vlength pos) by (repeat apply Rmult_lt_0_compat; assumption).
          assert (K2 : 0 < vlength H * vlength H / mu) by (apply Rdiv_lt_0_compat; nra).
          clear - SS K1 K2. split; intros; nra. }
      rewrite K. unfold reported_v. destruct (Rlt_dec (vlength E) (1 - tiny)); [reflexivity|apply normpi_rmod]. }
  destruct Main as (HEw & b & Hb & Hv). destruct (reported_trig (vlength E) b) as [Cb Sb]. rewrite <- Hv in Cb, Sb.
  rewrite <- (along_shift i Om v b w Cb Sb) in Hb.
  destruct (assemble pos vel mu w v Hm Hn HEw Hb) as [Pv El]. fold H E i Om in Pv, El. split; [|exact Pv]. unfold ele_to_vec. rewrite El.
  assert (Iok : (if Rle_dec 0 i then if Rle_dec i PI then Some (pos, vel) else None else None) = Some (pos, vel)).
  { destruct (Rle_dec 0 i); [|lra]. destruct (Rle_dec i PI); [reflexivity|lra]. }
  destruct (Rlt_dec 1 (vlength E)); [|exact Iok].
  destruct (Rlt_dec (acos (-1 / vlength E)) v) as [Bad|]; [exfalso|exact Iok].
  assert (v <= acos (-1 / vlength E)); [|lra]. apply ellipse_ok; [assumption|assumption|].
  rewrite Hv. unfold reported_v. destruct (Rlt_dec (vlength E) (1 - tiny)); [lra|]. apply normpi_range.
Qed.
Lemma state_back pos vel mu : 0 < mu -> cross pos vel <> vzero ->
  laplace pos vel mu = vzero \/ tiny < vlength (laplace pos vel mu) ->
  exists el, osculating pos vel mu = Some el /\
    ele_to_vec (el_p el) (el_e el) (el_i el) (el_Om el) (el_w el) (el_v el) mu = Some (pos, vel).
Proof. intros Hm Hn HE. destruct (state_back_full pos vel mu Hm Hn HE) as (el & E1 & E2 & _). exists el. auto. Qed.
