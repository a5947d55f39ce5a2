From Coquelicot Require Import Coquelicot.
From Coq Require Import Reals Lra Lia ZArith List.
From Verif Require Import Real_Math Real_Math_Proofs Vector_Model Vector_Proofs Vector_Proofs2 Geo_Model Geo_Spec Geo_Proofs Geo_Proofs2 Geo_Proofs3 Pi_Bounds Planet_Proofs Light_Proofs Spin_Model Spin_Spec Spin_Proofs Spin_Proofs2.
Import ListNotations.
Open Scope R_scope.

(** * The celestial matrix is nearly orthogonal *)
Definition near (A : mat) (e : R) : Prop := forall v, vlength (vsub (mxv A v) v) <= e * vlength v.
Lemma abs_sum_length v : Rabs (vx v) <= vlength v /\ Rabs (vy v) <= vlength v /\ Rabs (vz v) <= vlength v.
Proof.
  pose proof (vlength_sq v) as S. pose proof (vlength_pos v) as P.
  assert (H : forall a, a * a <= vlength v * vlength v -> Rabs a <= vlength v).
  { intros a Ha. rewrite <- (Rabs_right (vlength v)) by lra. apply Rsqr_le_abs_0. exact Ha. }
  repeat split; apply H; nra.
Qed.
Lemma bias_near : near (mxm bias (transp bias)) (6 / 10 ^ 14).
Proof.
  intros v. pose proof bias_close as B. cbv zeta in B. set (E := mxm bias (transp bias)) in *.
  assert (Sy : vx (r2 E) = vy (r1 E) /\ vx (r3 E) = vz (r1 E) /\ vy (r3 E) = vz (r2 E)) by (unfold E; cbn; unfold dot; repeat split; ring).
  clearbody E. destruct B as (A1 & A2 & A3 & A4 & A5 & A6). destruct Sy as (S1 & S2 & S3). destruct (abs_sum_length v) as (X & Y & Z).
  pose proof (vlength_pos v) as P. set (l := vlength v) in *.
  assert (Row : forall a b c, Rabs a <= 1 / 10 ^ 14 -> Rabs b <= 1 / 10 ^ 14 -> Rabs c <= 1 / 10 ^ 14 -> Rabs (a * vx v + b * vy v + c * vz v) <= 3 / 10 ^ 14 * l).
  { intros a b c Ha Hb Hc. eapply Rle_trans; [apply Rabs_triang|]. eapply Rle_trans; [apply Rplus_le_compat_r, Rabs_triang|]. rewrite !Rabs_mult.
    assert (M : forall p q, Rabs p <= 1 / 10 ^ 14 -> Rabs q <= l -> Rabs p * Rabs q <= 1 / 10 ^ 14 * l) by (intros; apply Rmult_le_compat; try apply Rabs_pos; assumption).
    pose proof (M a (vx v) Ha X). pose proof (M b (vy v) Hb Y). pose proof (M c (vz v) Hc Z). lra. }
  assert (R1 : Rabs ((vx (r1 E) - 1) * vx v + vy (r1 E) * vy v + vz (r1 E) * vz v) <= 3 / 10 ^ 14 * l) by (apply Row; assumption).
  assert (R2 : Rabs (vy (r1 E) * vx v + (vy (r2 E) - 1) * vy v + vz (r2 E) * vz v) <= 3 / 10 ^ 14 * l) by (apply Row; assumption).
  assert (R3 : Rabs (vz (r1 E) * vx v + vz (r2 E) * vy v + (vz (r3 E) - 1) * vz v) <= 3 / 10 ^ 14 * l) by (apply Row; assumption).
  clear Row. apply length_le; [lra|].
  assert (Sq : forall a, Rabs a <= 3 / 10 ^ 14 * l -> a * a <= (3 / 10 ^ 14 * l) * (3 / 10 ^ 14 * l)).
  { intros a Ha. replace (a * a) with (Rabs a * Rabs a) by (rewrite <- Rabs_mult; apply Rabs_right; nra). pose proof (Rabs_pos a). apply Rmult_le_compat; assumption. }
  apply Sq in R1, R2, R3. cbn. unfold dot. rewrite S1, S2, S3.
  replace (vx (r1 E) * vx v + vy (r1 E) * vy v + vz (r1 E) * vz v - vx v) with ((vx (r1 E) - 1) * vx v + vy (r1 E) * vy v + vz (r1 E) * vz v) by ring.
  replace (vy (r1 E) * vx v + vy (r2 E) * vy v + vz (r2 E) * vz v - vy v) with (vy (r1 E) * vx v + (vy (r2 E) - 1) * vy v + vz (r2 E) * vz v) by ring.
  replace (vz (r1 E) * vx v + vz (r2 E) * vy v + vz (r3 E) * vz v - vz v) with (vz (r1 E) * vx v + vz (r2 E) * vy v + (vz (r3 E) - 1) * vz v) by ring.
  assert (0 <= l * l) by nra. lra.
Qed.
Lemma near_conj Q A e : orthogonal Q -> near A e -> near (mxm Q (mxm A (transp Q))) e.
Proof.
  intros O H v. rewrite !mxv_mxm. pose proof (H (mxv (transp Q) v)) as K. rewrite orth_length in K by (apply orth_transp; assumption).
  rewrite <- (orth_sub Q) in K by assumption. rewrite <- (mxv_mxm Q (transp Q)), (proj1 O), mxv_id in K. exact K.
Qed.
Lemma M_near t : near (mxm (M_of t) (transp (M_of t))) (6 / 10 ^ 14).
Proof.
  Transparent M_of. unfold M_of. cbv zeta. Opaque M_of. unfold time_M, mxmxm. set (N := build_nutation_matrix _ _ _). set (P := compute_precession _).
  assert (O : orthogonal (mxm N P)) by (apply orth_mxm; [apply nutation_ok|apply precession_ok]).
  set (Q := mxm N P) in *. clearbody Q. rewrite transp_mxm. replace (mxm (mxm Q bias) (mxm (transp bias) (transp Q))) with (mxm Q (mxm (mxm bias (transp bias)) (transp Q))) by (rewrite !mxm_assoc; reflexivity).
  apply near_conj; [assumption|apply bias_near].
Qed.
Lemma MT_injective t u v : mxv (transp (M_of t)) u = mxv (transp (M_of t)) v -> u = v.
Proof.
  intros E. assert (Z : mxv (mxm (M_of t) (transp (M_of t))) (vsub u v) = vzero).
  { replace (mxv _ _) with (vsub (mxv (M_of t) (mxv (transp (M_of t)) u)) (mxv (M_of t) (mxv (transp (M_of t)) v))).
    - rewrite E. unfold vzero. apply vec_ext; cbn -[mxv]; ring.
    - rewrite <- !mxv_mxm. set (A := mxm _ _). clearbody A. vgring. }
  pose proof (M_near t (vsub u v)) as N. rewrite Z in N.
  replace (vlength (vsub vzero (vsub u v))) with (vlength (vsub u v)) in N by (unfold vlength; f_equal; cbn; ring).
  pose proof (vlength_pos (vsub u v)). apply (length_sub_zero u v (vlength (vsub u v))); lra.
Qed.

(** * Uniqueness of derivatives; a site under a displaced pole *)
Lemma vderiv_unique f t a b : vderiv f t a -> vderiv f t b -> a = b.
Proof. intros (A1 & A2 & A3) (B1 & B2 & B3). apply vec_ext; eapply uniqueness_limite; eassumption. Qed.

(** * The satellite frame *)
Lemma theta_range jd fr : 0 <= fst (theta_GMST1982 jd fr) < tau.
Proof.
  unfold theta_GMST1982. cbn [fst]. match goal with |- _ <= rmod ?a 1 * _ < _ => pose proof (rmod_bounds a 1 ltac:(lra)) as B; set (x := rmod a 1) in * end.
  pose proof tau_pos. split; nra.
Qed.
Definition theta_unwrapped (jd : R) : R := tau * (gmst_1982 (centuries jd) / 86400).
Lemma theta_ok jd fr : same_mod tau (fst (theta_GMST1982 jd fr)) (theta_unwrapped (jd + fr)).
Proof.
  unfold theta_GMST1982. cbv zeta. cbn [fst]. rewrite <- (Rmult_1_l tau) at 1. unfold theta_unwrapped. rewrite (Rmult_comm tau). apply sm_scale.
  eapply sm_trans; [apply sm_rmod|]. eapply sm_trans; [apply sm_plus; [apply sm_plus; [apply sm_rmod|apply sm_refl]|apply sm_rmod]|].
  exists 2451545%Z. unfold gmst_1982, centuries, DAY_S, T0. replace (jd + fr - 2451545) with (jd - 2451545 + fr) by ring.
  set (d := jd - 2451545 + fr). replace jd with (d + 2451545 - fr) at 1 by (unfold d; ring). clearbody d. set (T := d / 36525). replace d with (36525 * T) by (unfold T; field). clearbody T. lra.
Qed.
Lemma theta_rate jd fr s : derivable_pt_lim (fun s => theta_unwrapped (jd + (fr + s))) s (snd (theta_GMST1982 jd (fr + s))).
Proof.
  unfold theta_GMST1982. cbv zeta. cbn [snd]. apply is_derive_Reals. unfold theta_unwrapped, gmst_1982, centuries, DAY_S, T0.
  replace 8640184.812866 with (8640184812866 / 1000000) by lra. replace 0.093104 with (93104 / 1000000) by lra. replace (6.2e-6) with (62 / 10000000) by lra.
  auto_derive; [trivial|]. field.
Qed.
Lemma theta_turn jd fr : rot_z (- fst (theta_GMST1982 jd fr)) = rot_z (- theta_unwrapped (jd + fr)).
Proof. apply sm_rot_z, sm_opp, theta_ok. Qed.
Lemma cross_eq w v : cross_120 (smul w (V3 0 0 (-1))) v = smul (- w) (zturn v).
Proof. apply vec_ext; cbn; ring. Qed.
Lemma TEME_cases jd r v xp yp fr : let W := mxm (rot_x yp) (rot_y xp) in let '(theta, theta_dot) := theta_GMST1982 jd fr in
  let q := mxv (rot_z (- theta)) r in
  TEME_to_ITRF jd r v xp yp fr = (mxv W q, mxv W (vadd (mxv (rot_z (- theta)) v) (smul (- theta_dot) (zturn q)))).
Proof.
  intros W. unfold TEME_to_ITRF. destruct (theta_GMST1982 jd fr) as [theta theta_dot]. cbv zeta. rewrite cross_eq.
  destruct (Req_EM_T xp 0) as [Hx|]; [destruct (Req_EM_T yp 0) as [Hy|]|]; try reflexivity.
  assert (I : W = identity). { unfold W. rewrite Hx, Hy. apply mat_ext; apply vec_ext; gsimp; rewrite ?cos_0, ?sin_0; ring. }
  rewrite I, !mxv_id. reflexivity.
Qed.
Lemma TEME_velocity jd fr xp yp p v : vderiv p 0 v ->
  vderiv (fun s => fst (TEME_to_ITRF jd (p s) v xp yp (fr + s))) 0 (snd (TEME_to_ITRF jd (p 0) v xp yp fr)).
Proof.
  intros Hp. set (W := mxm (rot_x yp) (rot_y xp)).
  pose proof (mderiv_rotz (fun s => theta_unwrapped (jd + (fr + s))) 0 _ (theta_rate jd fr 0)) as D.
  pose proof (mderiv_mxv _ 0 _ p v D Hp) as X. pose proof (mderiv_mxv _ 0 _ _ _ (mderiv_const W 0) X) as Y. cbn beta in Y. clear X D.
  eapply vderiv_eq; [eapply vderiv_ext; [|exact Y]|].
  - intros s. cbn beta. pose proof (TEME_cases jd (p s) v xp yp (fr + s)) as C. pose proof (theta_turn jd (fr + s)) as T. cbv zeta in C.
    destruct (theta_GMST1982 jd (fr + s)) as [theta theta_dot]. rewrite C. cbn [fst] in *. rewrite T. reflexivity.
  - pose proof (TEME_cases jd (p 0) v xp yp fr) as C. pose proof (theta_turn jd fr) as T. cbv zeta in C. rewrite !Rplus_0_r in *.
    destruct (theta_GMST1982 jd fr) as [theta theta_dot]. rewrite C. cbn [fst snd] in *. rewrite T. fold W. set (u := theta_unwrapped (jd + fr)). clearbody u W.
    set (P := p 0). clearbody P. unfold vzero. apply vec_ext; gsimp; rewrite ?cos_neg, ?sin_neg; ring.
Qed.
(** The satellite frame and the Earth-fixed frame differ by that angle. *)
Lemma TEME_frame t : tirs_rotation_at t = mxm (rot_z (- fst (theta_GMST1982 (whole t) (ut1_fraction t)))) (TEME_rotation_at t).
Proof.
  unfold TEME_rotation_at, tirs_rotation_at. destruct (theta_GMST1982 _ _) as [theta theta_dot]. cbn [fst]. rewrite mxm_assoc, rotz_add. do 2 f_equal. field.
Qed.
Lemma AU_KM_pos : 0 < AU_KM. Proof. unfold AU_KM. lra. Qed.
Lemma satellite_itrs r v t : polar_motion_table t = None ->
  vlength (vsub (mxv (itrs_rotation_at t) (fst (satellite_at r v t))) (fst (ITRF_position_velocity r v t))) <= 6 / 10 ^ 14 * (vlength r / AU_KM).
Proof.
  intros Hn. rewrite (itrs_no_table t Hn). unfold satellite_at, ITRF_position_velocity. set (R := smul (/ AU_KM) r). cbn [fst].
  pose proof (TEME_cases (whole t) R (smul DAY_S (smul (/ AU_KM) v)) 0 0 (ut1_fraction t)) as C. cbv zeta in C.
  unfold tirs_rotation_at, TEME_rotation_at. destruct (theta_GMST1982 _ _) as [theta theta_dot]. rewrite C. cbn [fst].
  replace (mxm (rot_x 0) (rot_y 0)) with identity by (symmetry; apply mat_ext; apply vec_ext; gsimp; rewrite ?cos_0, ?sin_0; ring).
  rewrite mxv_id, transp_mxm, !mxv_mxm, (proj2 (proj2 (tr_rot _))). set (g := gast t). set (A := mxv (rot_z (- (theta - g / 24 * tau))) R).
  replace (rot_z (- theta)) with (mxm (rot_z (- g * tau / 24)) (rot_z (- (theta - g / 24 * tau)))) by (rewrite rotz_add; f_equal; field).
  rewrite mxv_mxm. rewrite orth_sub by apply rot_ok. rewrite <- (mxv_mxm (M_of t)). fold A. eapply Rle_trans; [apply M_near|].
  unfold A. rewrite orth_length by apply rot_ok. unfold R. rewrite smul_length. rewrite Rabs_right by (left; apply Rinv_0_lt_compat, AU_KM_pos). apply Req_le. unfold Rdiv. ring.
Qed.

(** * The deprecated conversions *)
Lemma to_GCRS_forth t r v : polar_motion_table t = None ->
  ITRF_to_GCRS2 t r v None = from_time_and_frame_vectors (itrs_rotation_at t) (Some spin_matrix) r v.
Proof.
  intros Hn. rewrite (itrs_no_table t Hn). unfold ITRF_to_GCRS2, from_time_and_frame_vectors, tirs_rotation_at, spin_matrix.
  rewrite transp_mxm, (proj2 (proj2 (tr_rot _))). replace (- (- gast t * tau / 24)) with (gast t / 24 * tau) by field.
  set (Q := mxm (transp (M_of t)) (rot_z (gast t / 24 * tau))). clearbody Q. f_equal. f_equal. apply vec_ext; cbn; unfold dot; cbn; ring.
Qed.
Lemma second_spin_cases t later d : 0 < d < 24 -> same_mod 24 (gast later) (gast t + d) ->
  second_spin t later = if Rlt_dec (gast t + d) 24 then d / 24 * tau else (d - 24) / 24 * tau.
Proof.
  intros Hd H. pose proof (gast_range t) as A. pose proof (gast_range later) as B. unfold second_spin.
  destruct (Rlt_dec (gast t + d) 24) as [L|L].
  - rewrite (sm_unique 24 (gast later) (gast t + d)); [|lra|lra|lra|assumption]. field.
  - rewrite (sm_unique 24 (gast later) (gast t + d - 24)); [field|lra|lra|lra|]. eapply sm_trans; [exact H|]. exists 1%Z. lra.
Qed.
Lemma second_spin_turned t : second_spin t (turned t one_second) =
  if Rlt_dec (gast t + 24 * (100273781191135448 / 10 ^ 17) * one_second) 24 then spin_rate / DAY_S else spin_rate / DAY_S - tau.
Proof.
  rewrite (second_spin_cases t _ (24 * (100273781191135448 / 10 ^ 17) * one_second)); [|unfold one_second; lra|apply gast_turned].
  destruct (Rlt_dec _ _); unfold spin_rate, one_second, DAY_S, tau; field.
Qed.
Lemma to_GCRS_position t s r v h : fst (ITRF_to_GCRS2 (turned t s) r v h) = mxv (transp (itrs_rotation (gast t * tau / 24 + spin_rate * s) (M_of t))) r.
Proof.
  rewrite <- tirs_turned. unfold ITRF_to_GCRS2, tirs_rotation_at. cbn [fst]. rewrite turned_M. rewrite transp_mxm, (proj2 (proj2 (tr_rot _))). do 3 f_equal. field.
Qed.
Lemma to_GCRS_velocity t r h : (h = Some (turned t one_second)) -> gast t + 24 * (100273781191135448 / 10 ^ 17) * one_second < 24 ->
  vderiv (fun s => fst (ITRF_to_GCRS2 (turned t s) r vzero h)) 0 (snd (ITRF_to_GCRS2 t r vzero h)).
Proof.
  intros -> L. pose proof (spin_deriv identity (M_of t) (gast t * tau / 24) spin_rate 0) as D. apply mderiv_transp in D.
  pose proof (mderiv_mxv _ 0 _ (fun _ => r) vzero D (vderiv_const r 0)) as X. cbn beta in X.
  eapply vderiv_eq; [eapply vderiv_ext; [|exact X]|].
  - intros s. cbn beta. rewrite to_GCRS_position, mxm_id_l. reflexivity.
  - rewrite !mxm_id_l, mxv_zero, vadd_zero. unfold ITRF_to_GCRS2. cbn [snd]. rewrite second_spin_turned. destruct (Rlt_dec _ _) as [_|C]; [|contradiction].
    rewrite transp_mxm. unfold itrs_rotation. rewrite transp_mxm, (proj2 (proj2 (tr_rot _))). replace (- - (gast t * tau / 24 + spin_rate * 0)) with (gast t / 24 * tau) by field.
    set (Q := mxm (transp (M_of t)) (rot_z (gast t / 24 * tau))). clearbody Q. rewrite mxv_mxm. f_equal. unfold DAY_S, vzero. apply vec_ext; cbn; unfold dot; cbn; field.
Qed.
