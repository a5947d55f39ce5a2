(** The deflection restated with angles, and the cases of the examples. *)
From Coq Require Import Reals Lra Lia Psatz ZArith List Bool.
From Verif Require Import Real_Math Real_Math_Proofs Vector_Model Vector_Proofs Vector_Proofs2 Geo_Model Geo_Spec Geo_Proofs Light_Model Light_Spec Light_Proofs Light_Proofs2 Light_Proofs3 Light_Proofs4.
Import ListNotations.
Open Scope R_scope.

Lemma hat_cos u v : u <> vzero -> v <> vzero -> dot (hat u) (hat v) = cos (angle_between u v).
Proof.
  intros Hu Hv. pose proof (vlength_ne u Hu). pose proof (vlength_ne v Hv). destruct (angle_ok u v Hu Hv) as [_ A].
  rewrite (dot_back u v Hv), (dot_sym u), (dot_back (hat v) u Hu), (dot_sym (hat v)) in A.
  apply Rmult_eq_reg_l with (vlength u * vlength v); [|nra]. rewrite A. ring.
Qed.
Lemma half_tan x : 0 <= x < PI -> sqrt ((1 - cos x) / (1 + cos x)) = tan (x / 2).
Proof.
  intros H. assert (C0 : 0 < cos (x / 2)) by (apply cos_gt_0; lra). assert (S0 : 0 <= sin (x / 2)) by (apply sin_ge_0; lra).
  assert (E : cos x = 2 * (cos (x / 2) * cos (x / 2)) - 1). { replace x with (2 * (x / 2)) at 1 by field. rewrite cos_2a_cos. ring. }
  pose proof (sin2_cos2 (x / 2)) as SC. unfold Rsqr in SC. unfold tan. apply sqrt_lem_1.
  - apply Rmult_le_pos; [nra|]. apply Rlt_le, Rinv_0_lt_compat. nra.
  - apply Rmult_le_pos; [lra|]. apply Rlt_le, Rinv_0_lt_compat. lra.
  - rewrite E. replace (sin (x / 2) / cos (x / 2) * (sin (x / 2) / cos (x / 2))) with (sin (x / 2) * sin (x / 2) / (cos (x / 2) * cos (x / 2))) by (field; lra).
    replace (sin (x / 2) * sin (x / 2)) with (1 - cos (x / 2) * cos (x / 2)) by lra. field. split; nra.
Qed.
Lemma deflection_ok p e rmass : p <> vzero -> e <> vzero -> vadd p e <> vzero -> 0 < rmass ->
  Rabs (cos (angle_between e p)) <= 99999999999 / 10 ^ 11 ->
  let psi := angle_between (vadd p e) e in let K := 2 * GS / (C * C * vlength e * AU_M * rmass) in
  exists d, compute_deflection p e rmass = Some d /\ dot d p = 0 /\ vlength d = K * vlength p * tan (psi / 2) /\
    vlength p <= vlength (vadd p d) /\ (K <= 1 -> angle_between p (vopp e) <= angle_between (vadd p d) (vopp e)).
Proof.
  intros Hp He Hq Hm HA psi K. rewrite <- hat_cos in HA by assumption. pose proof (a_not_ends p e Hp He Hq HA) as NB.
  destruct (deflection_defined p e rmass Hp He Hq ltac:(lra)) as [d Hd]. exists d. split; [exact Hd|]. split; [exact (d_perpendicular p e rmass Hp d Hd)|].
  split; [|split; [exact (d_longer p e rmass Hp d Hd)|exact (d_angle p e rmass Hp He Hq Hm d Hd)]].
  rewrite (d_size p e rmass Hp He Hq Hm d Hd HA). rewrite hat_cos in * by assumption. fold psi in NB |- *. f_equal. apply half_tan.
  destruct (angle_ok (vadd p e) e Hq He) as [B _]. fold psi in B. split; [lra|]. destruct (Req_dec psi PI) as [X|X]; [rewrite X, cos_PI in NB; lra|lra].
Qed.
Lemma deflection_ex : let p := V3 0 5 0 in let e := V3 1 0 0 in p <> vzero /\ e <> vzero /\ vadd p e <> vzero /\
  Rabs (cos (angle_between e p)) <= 99999999999 / 10 ^ 11 /\ 2 * GS / (C * C * vlength e * AU_M * 1) <= 1.
Proof.
  intros p e. assert (P0 : p <> vzero) by (unfold p, vzero; intros H; injection H; lra). assert (E0 : e <> vzero) by (unfold e, vzero; intros H; injection H; lra).
  assert (LE : vlength e = 1). { unfold e. apply length_of_sq; [lra|unfold dot; cbn; ring]. }
  repeat split; [exact P0|exact E0| | |].
  - unfold p, e, vadd, vzero. cbn. intros H. injection H. lra.
  - rewrite <- hat_cos by assumption. replace (dot (hat e) (hat p)) with 0 by (unfold hat, dot, e, p; cbn; ring). rewrite Rabs_R0. lra.
  - rewrite LE. unfold GS, C, AU_M. lra.
Qed.
Lemma aberration_ex : let p := V3 0 5 0 in let v := V3 (17 / 1000) 0 0 in p <> vzero /\ v <> vzero /\ vlength v < C_AUDAY.
Proof.
  intros p v. repeat split; try (unfold p, v, vzero; intros H; injection H; lra). assert (L : vlength v = 17 / 1000) by (apply length_of_sq; [lra|unfold v, dot; cbn; lra]). rewrite L. unfold C_AUDAY, C, DAY_S, AU_M; lra.
Qed.
Lemma limb_ex : let o := V3 (2 * earth_radius_au) 0 0 in V3 (-1) 0 0 <> vzero /\ earth_radius_au < vlength o /\ sight_blocked o (V3 (-1) 0 0) earth_radius_au /\ ~ sight_blocked o (V3 1 0 0) earth_radius_au.
Proof.
  assert (0 < earth_radius_au) by (unfold earth_radius_au, ERAD, AU_M; lra). intros o. repeat split.
  - unfold vzero. intros X. injection X. lra.
  - assert (L : vlength o = 2 * earth_radius_au) by (apply length_of_sq; [lra|unfold o, dot; cbn; ring]). lra.
  - exists (2 * earth_radius_au). split; [lra|]. assert (L : vlength (vadd o (smul (2 * earth_radius_au) (V3 (-1) 0 0))) = 0) by (apply length_of_sq; [lra|unfold o, dot; cbn; ring]). lra.
  - intros [s [Hs L]]. assert (L' : vlength (vadd o (smul s (V3 1 0 0))) = 2 * earth_radius_au + s) by (apply length_of_sq; [lra|unfold o, dot; cbn; ring]). lra.
Qed.
