(** The ecliptic frame of date (C148), whatever the nutation. *)
From Coq Require Import Reals ZArith List Lra Lia Psatz.
From Verif Require Import Real_Math Real_Math_Proofs Vector_Model Geo_Model Geo_Proofs Spin_Model Spin_Proofs4 Frames_Model Frames_Spec Frames_Proofs Precession_Spec Precession_Proofs Precession_Proofs2.
Import ListNotations.
Open Scope R_scope.

Lemma precession_agrees : forall jd, let T := (jd - 2451545) / 36525 in
  (Rabs T <= 1 -> close (compute_precession jd) (three_angles T) (2 / 10 ^ 12)) /\ (Rabs T <= 10 -> close (compute_precession jd) (three_angles T) (2 / 10 ^ 8)).
Proof.
  intros jd T. assert (J : forall k, k <> 0 -> jd = T0 + 36525 * (k * (T / k))) by (intros k K; unfold T, T0; field; exact K). split; intros H.
  - pose proof (agree_one (T / 1)) as A. rewrite <- J in A by lra. replace (1 * (T / 1)) with T in A by field. apply A. replace (T / 1) with T by field. exact H.
  - pose proof (agree_ten (T / 10)) as A. rewrite <- J in A by lra. replace (10 * (T / 10)) with T in A by field. apply A. unfold Rdiv. rewrite Rabs_mult, (Rabs_pos_eq (/ 10)) by lra. lra.
Qed.
Lemma pole_agrees : forall jd, let T := (jd - 2451545) / 36525 in let v := mxv (rot_x (- (mean_obliquity jd * arcsecond))) (mxv (compute_precession jd) (ecliptic_pole T)) in
  (Rabs T <= 1 -> vclose v (V3 0 0 1) (4 / 10 ^ 13)) /\ (Rabs T <= 10 -> vclose v (V3 0 0 1) (21 / 10 ^ 9)).
Proof.
  intros jd T v. assert (J : forall k, k <> 0 -> jd = T0 + 36525 * (k * (T / k))) by (intros k K; unfold T, T0; field; exact K). split; intros H.
  - pose proof (pole_one (T / 1)) as A. rewrite <- J in A by lra. replace (1 * (T / 1)) with T in A by field. fold v in A. assert (B : Rabs (T / 1) <= 1) by (replace (T / 1) with T by field; exact H).
    destruct (A B) as (X & Y & Z). repeat split; lra.
  - pose proof (pole_ten (T / 10)) as A. rewrite <- J in A by lra. replace (10 * (T / 10)) with T in A by field. fold v in A. assert (B : Rabs (T / 10) <= 1) by (unfold Rdiv; rewrite Rabs_mult, (Rabs_pos_eq (/ 10)) by lra; lra).
    destruct (A B) as (X & Y & Z). repeat split; lra.
Qed.
Lemma ecliptic_matrix t : build_ecliptic_matrix t = mxm (rot_z (d_psi t)) (mxm (rot_x (- mean_obliquity_radians t)) (mxm (compute_precession (tdb_of t)) bias)).
Proof.
  unfold build_ecliptic_matrix, Spin_Model.M_of, time_M, mxmxm. cbv zeta. set (e := mean_obliquity_radians t). rewrite nutation_product. set (P := compute_precession _). set (o := e + d_eps t).
  assert (E : mxm (rot_x (- o)) (Geo_Spec.R1 (- o)) = M3 (V3 1 0 0) (V3 0 1 0) (V3 0 0 1)).
  { unfold Geo_Spec.R1, rot_x, mxm, transp, mxv, dot. cbn [r1 r2 r3 vx vy vz]. rewrite !Ropp_involutive, !cos_neg, !sin_neg. pose proof (sin2_cos2 o) as Q. unfold Rsqr in Q. f_equal; f_equal; lra. }
  assert (I : forall A, mxm (M3 (V3 1 0 0) (V3 0 1 0) (V3 0 0 1)) A = A) by (intros [[a1 a2 a3] [b1 b2 b3] [c1 c2 c3]]; unfold mxm, transp, mxv, dot; cbn [r1 r2 r3 vx vy vz]; f_equal; f_equal; ring).
  rewrite <- !mxm_assoc. rewrite (mxm_assoc (rot_x (- o))), E, I.
  assert (R : mxm (Geo_Spec.R3 (- d_psi t)) (Geo_Spec.R1 e) = mxm (rot_z (d_psi t)) (rot_x (- e))).
  { unfold Geo_Spec.R1, Geo_Spec.R3, rot_x, rot_z, mxm, transp, mxv, dot. cbn [r1 r2 r3 vx vy vz]. rewrite ?Ropp_involutive, ?cos_neg, ?sin_neg. f_equal; f_equal; ring. }
  rewrite (mxm_assoc (Geo_Spec.R3 _)), R, <- mxm_assoc. reflexivity.
Qed.
Lemma spun_pole a v e : vclose v (V3 0 0 1) e -> vclose (mxv (rot_z a) v) (V3 0 0 1) (2 * e).
Proof.
  intros (X & Y & Z). cbn [vx vy vz] in *. unfold vclose, rot_z, mxv, dot. cbn [r1 r2 r3 vx vy vz]. rewrite !Rminus_0_r in *.
  assert (E0 : 0 <= e) by (pose proof (Rabs_pos (vx v)); lra). pose proof (COS_bound a). pose proof (SIN_bound a).
  assert (C : Rabs (cos a) <= 1) by (apply Rabs_le; lra). assert (S : Rabs (sin a) <= 1) by (apply Rabs_le; lra).
  assert (M : forall c x, Rabs c <= 1 -> Rabs x <= e -> Rabs (c * x) <= e) by (intros c x Hc Hx; rewrite Rabs_mult; pose proof (Rabs_pos c); pose proof (Rabs_pos x); nra).
  pose proof (M _ _ C X) as A1. pose proof (M _ _ S X) as A2. pose proof (M _ _ C Y) as A3. pose proof (M _ _ S Y) as A4.
  apply Rabs_def2_le in A1. apply Rabs_def2_le in A2. apply Rabs_def2_le in A3. apply Rabs_def2_le in A4. apply Rabs_def2_le in Z.
  repeat split; apply Rabs_le; lra.
Qed.
Lemma ecliptic_of_date_pole : forall t v, let T := (tdb_of t - 2451545) / 36525 in mxv bias v = ecliptic_pole T ->
  (Rabs T <= 1 -> vclose (mxv (build_ecliptic_matrix t) v) (V3 0 0 1) (1 / 10 ^ 12)) /\ (Rabs T <= 10 -> vclose (mxv (build_ecliptic_matrix t) v) (V3 0 0 1) (5 / 10 ^ 8)).
Proof.
  intros t v T E. destruct (pole_agrees (tdb_of t)) as [A B]. fold T in A, B. rewrite ecliptic_matrix, !mxv_mxm, E. unfold mean_obliquity_radians.
  split; intros H; [destruct (spun_pole (d_psi t) _ _ (A H)) as (X & Y & Z)|destruct (spun_pole (d_psi t) _ _ (B H)) as (X & Y & Z)]; repeat split; lra.
Qed.
Lemma pole_seen : forall T, exists v, mxv bias v = ecliptic_pole T.
Proof. intros T. apply onto. pose proof bias_det. lra. Qed.
