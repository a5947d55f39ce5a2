From Coq Require Import Reals Lra Lia Psatz.
From Verif Require Import Real_Math Real_Math_Proofs Vector_Model Vector_Proofs Vector_Proofs2 Geo_Model Geo_Spec.
Open Scope R_scope.

Lemma mat_ext A B : r1 A = r1 B -> r2 A = r2 B -> r3 A = r3 B -> A = B.
Proof. destruct A, B. cbn. congruence. Qed.
Ltac gsimp := repeat (cbn in *; unfold dot in *); cbn in *.
Ltac mring := apply mat_ext; apply vec_ext; gsimp; ring.
Ltac vgring := apply vec_ext; gsimp; ring.
Lemma sc2 a : sin a * sin a + cos a * cos a = 1. Proof. exact (sin2_cos2 a). Qed.

(** * Matrices *)
Lemma mxm_assoc A B C : mxm A (mxm B C) = mxm (mxm A B) C. Proof. mring. Qed.
Lemma mxv_mxm A B v : mxv (mxm A B) v = mxv A (mxv B v). Proof. vgring. Qed.
Lemma mxm_id_l A : mxm identity A = A. Proof. mring. Qed.
Lemma mxm_id_r A : mxm A identity = A. Proof. mring. Qed.
Lemma mxv_id v : mxv identity v = v. Proof. vgring. Qed.
Lemma transp_mxm A B : transp (mxm A B) = mxm (transp B) (transp A). Proof. mring. Qed.
Lemma transp_transp A : transp (transp A) = A. Proof. mring. Qed.
Lemma det_mxm A B : det (mxm A B) = det A * det B.
Proof. unfold det, cross, mxm, dot. cbn. unfold dot. cbn. ring. Qed.
Lemma orth_mxm A B : orthogonal A -> orthogonal B -> orthogonal (mxm A B).
Proof.
  intros [A1 A2] [B1 B2]. split; rewrite transp_mxm.
  - rewrite mxm_assoc, <- (mxm_assoc A B), B1, mxm_id_r. assumption.
  - rewrite mxm_assoc, <- (mxm_assoc (transp B) (transp A)), A2, mxm_id_r. assumption.
Qed.
Lemma rotation_mxm A B : rotation A -> rotation B -> rotation (mxm A B).
Proof. intros [A1 A2] [B1 B2]. split; [apply orth_mxm; assumption|]. rewrite det_mxm, A2, B2. ring. Qed.
Lemma dot_transp M u v : dot (mxv M u) v = dot u (mxv (transp M) v).
Proof. unfold dot. cbn. unfold dot. cbn. ring. Qed.
Lemma orth_dot M u v : orthogonal M -> dot (mxv M u) (mxv M v) = dot u v.
Proof. intros [_ H]. rewrite dot_transp, <- mxv_mxm, H, mxv_id. reflexivity. Qed.
Lemma vlength_dot a : vlength a = sqrt (dot a a). Proof. reflexivity. Qed.
Lemma orth_length M u : orthogonal M -> vlength (mxv M u) = vlength u.
Proof. intros H. rewrite !vlength_dot, orth_dot by assumption. reflexivity. Qed.
Lemma orth_transp M : orthogonal M -> orthogonal (transp M).
Proof. intros [H1 H2]. split; rewrite transp_transp; assumption. Qed.
Lemma det_transp M : det (transp M) = det M.
Proof. unfold det, cross, dot. cbn. ring. Qed.

(** * Rotations *)
Lemma rot_ok a : rotation (rot_x a) /\ rotation (rot_y a) /\ rotation (rot_z a).
Proof.
  pose proof (sc2 a) as H. set (s := sin a) in *. set (c := cos a) in *.
  split; [|split]; (split; [split; apply mat_ext; apply vec_ext|]); unfold det, cross, dot, rot_x, rot_y, rot_z; fold s c; gsimp; lra.
Qed.
Lemma rot_compose a b : mxm (rot_x a) (rot_x b) = rot_x (a + b) /\ mxm (rot_y a) (rot_y b) = rot_y (a + b) /\ mxm (rot_z a) (rot_z b) = rot_z (a + b).
Proof.
  split; [|split]; apply mat_ext; apply vec_ext; gsimp; rewrite ?cos_plus, ?sin_plus; ring.
Qed.
Lemma precession_product e p w x : precession_of_angles e p w x = mxm (R3 x) (mxm (R1 (- w)) (mxm (R3 (- p)) (R1 e))).
Proof.
  unfold precession_of_angles, R1, R3. rewrite !Ropp_involutive. apply mat_ext; apply vec_ext; gsimp; rewrite ?cos_neg, ?sin_neg; ring.
Qed.
Lemma nutation_product m t p : build_nutation_matrix m t p = mxm (R1 (- t)) (mxm (R3 (- p)) (R1 m)).
Proof.
  unfold build_nutation_matrix, R1, R3. rewrite !Ropp_involutive. apply mat_ext; apply vec_ext; gsimp; rewrite ?cos_neg, ?sin_neg; ring.
Qed.
Lemma R1_ok a : rotation (R1 a). Proof. apply rot_ok. Qed.
Lemma R3_ok a : rotation (R3 a). Proof. apply rot_ok. Qed.
Lemma precession_ok jd : rotation (compute_precession jd).
Proof. unfold compute_precession. rewrite precession_product. auto using rotation_mxm, R1_ok, R3_ok. Qed.
Lemma nutation_ok m t p : rotation (build_nutation_matrix m t p).
Proof. rewrite nutation_product. auto using rotation_mxm, R1_ok, R3_ok. Qed.

(** * Frames *)
Lemma frame_back Rt V r v : orthogonal Rt ->
  let '(r', v') := frame_xyz_and_velocity Rt V r v in from_time_and_frame_vectors Rt V r' v' = (r, v).
Proof.
  intros [_ H]. destruct V as [V|]; cbn; unfold from_time_and_frame_vectors.
  - rewrite <- mxv_mxm, H, mxv_id. f_equal.
    replace (vsub (vadd (mxv Rt v) (mxv V (mxv Rt r))) (mxv V (mxv Rt r))) with (mxv Rt v) by vring.
    rewrite <- mxv_mxm, H, mxv_id. reflexivity.
  - rewrite <- !mxv_mxm, H, !mxv_id. reflexivity.
Qed.
Lemma frame_forth Rt V r v : orthogonal Rt ->
  let '(r', v') := from_time_and_frame_vectors Rt V r v in frame_xyz_and_velocity Rt V r' v' = (r, v).
Proof.
  intros [H _]. unfold from_time_and_frame_vectors, frame_xyz_and_velocity. rewrite <- !mxv_mxm, !H, !mxv_id.
  destruct V as [V|]; [f_equal; vring|reflexivity].
Qed.

(** * Spherical coordinates *)
Lemma vlength_zero a : vlength a = 0 -> a = vzero.
Proof.
  intros H. pose proof (vlength_sq a) as S1. rewrite H in S1. destruct a as [x y z]. cbn in S1. unfold vzero. f_equal; nra.
Qed.
Lemma spherical_back p r theta phi : to_spherical p = (r, theta, phi) ->
  from_spherical r theta phi = p /\ r = vlength p /\ - (PI / 2) <= theta <= PI / 2 /\ 0 <= phi < tau.
Proof.
  unfold to_spherical. intros E. injection E as <- <- <-. destruct p as [x y z]. cbn [vx vy vz].
  split; [|split; [reflexivity|split; [apply atan2_right, sqrt_pos|apply rmod_bounds, tau_pos]]].
  unfold from_spherical. rewrite cos_rmod, sin_rmod. fold (rho x y). change (hypot x y) with (rho x y).
  assert (L : vlength (V3 x y z) = rho (rho x y) z). { unfold vlength, rho at 1. cbn. rewrite rho_sq. reflexivity. }
  rewrite L. destruct (Req_dec (rho x y) 0) as [E|E].
  - assert (x = 0 /\ y = 0) as [-> ->] by (pose proof (rho_sq x y); rewrite E in H; split; nra). rewrite E.
    destruct (Req_dec z 0) as [->|Nz].
    + unfold rho. replace (0 * 0 + 0 * 0) with 0 by ring. rewrite sqrt_0. apply vec_ext; cbn; ring.
    + destruct (atan2_spec z 0 (or_intror Nz)) as (C & S1 & _). apply vec_ext; cbn; rewrite ?C, ?S1; ring.
  - destruct (atan2_spec z (rho x y) (or_introl E)) as (C & S1 & _).
    assert (N : x <> 0 \/ y <> 0). { destruct (Req_dec x 0) as [->|]; [|auto]. right. intros ->. apply E. unfold rho. replace (0 * 0 + 0 * 0) with 0 by ring. apply sqrt_0. }
    destruct (atan2_spec y x N) as (C2 & S2 & _). apply vec_ext; cbn; rewrite ?C, ?S1; auto.
Qed.
Lemma spherical_forth r theta phi : 0 < r -> - (PI / 2) < theta < PI / 2 -> 0 <= phi < tau ->
  to_spherical (from_spherical r theta phi) = (r, theta, phi).
Proof.
  intros Hr Ht Hp. pose proof PI_RGT_0. assert (C : 0 < cos theta) by (apply cos_gt_0; lra).
  unfold to_spherical, from_spherical, hypot. cbn [vx vy vz].
  assert (Hxy : sqrt (r * cos theta * cos phi * (r * cos theta * cos phi) + r * cos theta * sin phi * (r * cos theta * sin phi)) = r * cos theta).
  { replace (_ + _) with ((r * cos theta) * (r * cos theta) * (sin phi * sin phi + cos phi * cos phi)) by ring. rewrite sc2, Rmult_1_r. apply sqrt_square. nra. }
  f_equal; [f_equal|].
  - unfold vlength. cbn [vx vy vz].
    replace (_ + _ + _) with (r * r * (cos theta * cos theta * (sin phi * sin phi + cos phi * cos phi) + sin theta * sin theta)) by ring.
    rewrite sc2. replace (cos theta * cos theta * 1 + sin theta * sin theta) with (sin theta * sin theta + cos theta * cos theta) by ring. rewrite sc2, Rmult_1_r. apply sqrt_square. lra.
  - rewrite Hxy. apply atan2_polar; lra.
  - unfold tau in *. destruct (Rle_dec phi PI) as [L|L].
    + rewrite atan2_polar by nra. apply rmod_id. lra.
    + replace (cos phi) with (cos (phi + tau * IZR (-1))) by apply cos_tau. replace (sin phi) with (sin (phi + tau * IZR (-1))) by apply sin_tau.
      rewrite atan2_polar; [|nra|unfold tau; lra]. apply (rmod_unique _ _ _ (-1)); unfold tau; lra.
Qed.

(** * Angles between vectors *)
Lemma vlength_ne a : a <> vzero -> 0 < vlength a.
Proof. intros H. destruct (vlength_pos a) as [|E]; [assumption|]. exfalso. apply H, vlength_zero. auto. Qed.
Lemma smul_length k a : vlength (smul k a) = Rabs k * vlength a.
Proof.
  unfold vlength, smul. cbn. replace (_ + _ + _) with (Rsqr k * (vx a * vx a + vy a * vy a + vz a * vz a)) by (unfold Rsqr; ring).
  rewrite sqrt_mult; [|apply Rle_0_sqr|nra]. rewrite sqrt_Rsqr_abs. reflexivity.
Qed.
Lemma angle_ok u v : u <> vzero -> v <> vzero ->
  0 <= angle_between u v <= PI /\ vlength u * vlength v * cos (angle_between u v) = dot u v.
Proof.
  intros Hu Hv. apply vlength_ne in Hu, Hv. unfold angle_between.
  set (a := smul (vlength v) u). set (b := smul (vlength u) v). set (L := vlength u * vlength v).
  pose proof (vlength_sq u) as Su. pose proof (vlength_sq v) as Sv. fold (dot u u) in Su. fold (dot v v) in Sv.
  set (lu := vlength u) in *. set (lv := vlength v) in *.
  assert (Sm : vlength (vsub a b) * vlength (vsub a b) = 2 * L * L - 2 * L * dot u v).
  { rewrite vlength_sq. unfold a, b, L, dot in *. cbn. nra. }
  assert (Sp : vlength (vadd a b) * vlength (vadd a b) = 2 * L * L + 2 * L * dot u v).
  { rewrite vlength_sq. unfold a, b, L, dot in *. cbn. nra. }
  assert (HL : 0 < L) by (unfold L; nra).
  pose proof (vlength_pos (vsub a b)) as Pm. pose proof (vlength_pos (vadd a b)) as Pp.
  set (m := vlength (vsub a b)) in *. set (p := vlength (vadd a b)) in *.
  assert (N : p <> 0 \/ m <> 0). { destruct (Req_dec p 0) as [E|]; [|auto]. right. intros E'. rewrite E in Sp. rewrite E' in Sm. nra. }
  destruct (atan2_spec m p N) as (C & S1 & _). pose proof (atan2_right m p Pp) as B1. pose proof (atan2_nonneg m p Pm) as B2.
  assert (Rr : rho p m * rho p m = 4 * L * L) by (rewrite rho_sq; nra).
  split; [lra|]. rewrite cos_2a_cos. set (x := cos (atan2 m p)) in *.
  assert (E2 : rho p m * rho p m * (x * x) = p * p) by (transitivity ((rho p m * x) * (rho p m * x)); [ring|rewrite C; reflexivity]). rewrite Rr, Sp in E2.
  assert (E3 : 2 * L * (2 * L * (x * x)) = 2 * L * (L + dot u v)) by lra. apply Rmult_eq_reg_l in E3; [|lra]. lra.
Qed.
Lemma cos_inj a b : 0 <= a <= PI -> 0 <= b <= PI -> cos a = cos b -> a = b.
Proof.
  intros Ha Hb E. destruct (Rtotal_order a b) as [L|[L|L]]; [|assumption|]; exfalso.
  - assert (cos b < cos a) by (apply cos_decreasing_1; lra). lra.
  - assert (cos a < cos b) by (apply cos_decreasing_1; lra). lra.
Qed.
Lemma dot_sym u v : dot u v = dot v u. Proof. unfold dot. ring. Qed.
Lemma angle_sym u v : angle_between u v = angle_between v u.
Proof.
  unfold angle_between. set (a := smul (vlength v) u). set (b := smul (vlength u) v). do 2 f_equal.
  - unfold vlength. cbn. f_equal. ring.
  - unfold vlength. cbn. f_equal. ring.
Qed.
Lemma smul_ne k a : 0 < k -> a <> vzero -> smul k a <> vzero.
Proof.
  intros Hk Ha E. apply Ha. apply vlength_zero. assert (vlength (smul k a) = 0).
  { rewrite E. unfold vlength. cbn. replace (0 * 0 + 0 * 0 + 0 * 0) with 0 by ring. apply sqrt_0. }
  rewrite smul_length, Rabs_right in H by lra. nra.
Qed.
Lemma angle_scale k u v : 0 < k -> u <> vzero -> v <> vzero -> angle_between (smul k u) v = angle_between u v.
Proof.
  intros Hk Hu Hv. destruct (angle_ok u v Hu Hv) as [B1 C1]. destruct (angle_ok (smul k u) v (smul_ne k u Hk Hu) Hv) as [B2 C2].
  apply cos_inj; [assumption|assumption|]. rewrite smul_length, Rabs_right in C2 by lra. replace (dot (smul k u) v) with (k * dot u v) in C2 by (unfold dot; cbn; ring).
  apply vlength_ne in Hu, Hv. assert (0 < vlength u * vlength v) by nra.
  apply Rmult_eq_reg_l with (k * (vlength u * vlength v)); [|nra]. rewrite <- C1 in C2. lra.
Qed.
Lemma angle_extremes u k : u <> vzero -> 0 < k -> angle_between u (smul k u) = 0 /\ angle_between u (smul (- k) u) = PI.
Proof.
  intros Hu Hk. pose proof PI_RGT_0. pose proof (vlength_ne u Hu) as L. pose proof (vlength_sq u) as S1. fold (dot u u) in S1. split.
  - destruct (angle_ok u (smul k u) Hu (smul_ne k u Hk Hu)) as [B C]. apply cos_inj; [assumption|lra|]. rewrite cos_0.
    rewrite smul_length, Rabs_right in C by lra. replace (dot u (smul k u)) with (k * dot u u) in C by (unfold dot; cbn; ring). rewrite <- S1 in C.
    apply Rmult_eq_reg_l with (vlength u * (k * vlength u)); [lra|]. assert (0 < k * vlength u) by nra. nra.
  - assert (N : smul (- k) u <> vzero). { intros E. apply (smul_ne k u Hk Hu). replace (smul k u) with (smul (-1) (smul (- k) u)) by vring. rewrite E. vring. }
    destruct (angle_ok u (smul (- k) u) Hu N) as [B C]. apply cos_inj; [assumption|lra|]. rewrite cos_PI.
    rewrite smul_length, Rabs_left in C by lra. replace (dot u (smul (- k) u)) with (- k * dot u u) in C by (unfold dot; cbn; ring). rewrite <- S1 in C.
    apply Rmult_eq_reg_l with (vlength u * (k * vlength u)); [|assert (0 < k * vlength u) by nra; nra]. lra.
Qed.
Lemma angle_rotated M u v : orthogonal M -> angle_between (mxv M u) (mxv M v) = angle_between u v.
Proof.
  intros H. unfold angle_between. rewrite !orth_length by assumption.
  replace (vsub (smul (vlength v) (mxv M u)) (smul (vlength u) (mxv M v))) with (mxv M (vsub (smul (vlength v) u) (smul (vlength u) v))) by (vgring).
  replace (vadd (smul (vlength v) (mxv M u)) (smul (vlength u) (mxv M v))) with (mxv M (vadd (smul (vlength v) u) (smul (vlength u) v))) by (vgring).
  rewrite !orth_length by assumption. reflexivity.
Qed.
