From Coq Require Import Reals Lra Lia.
From Verif Require Import Real_Math.
Open Scope R_scope.

Lemma tau_pos : 0 < tau. Proof. unfold tau. pose proof PI_RGT_0. lra. Qed.
Lemma rfloor_bounds x : IZR (rfloor x) <= x < IZR (rfloor x) + 1.
Proof. unfold rfloor. pose proof (base_Int_part x). lra. Qed.
Lemma rfloor_unique x n : IZR n <= x < IZR n + 1 -> rfloor x = n.
Proof.
  intros H. pose proof (rfloor_bounds x) as B. set (k := rfloor x) in *.
  assert (IZR k < IZR (n + 1)) by (rewrite plus_IZR; lra). assert (IZR n < IZR (k + 1)) by (rewrite plus_IZR; lra).
  apply lt_IZR in H0, H1. lia.
Qed.
Lemma rmod_bounds x m : 0 < m -> 0 <= rmod x m < m.
Proof.
  intros Hm. unfold rmod. pose proof (rfloor_bounds (x / m)) as [H1 H2]. set (k := IZR (rfloor (x / m))) in *.
  assert (E : x = m * (x / m)) by (field; lra). split.
  - rewrite E at 1. nra.
  - rewrite E at 1. nra.
Qed.
Lemma rmod_shift x m : exists k, rmod x m = x + m * IZR k.
Proof. exists (- rfloor (x / m))%Z. unfold rmod. rewrite opp_IZR. ring. Qed.
Lemma rmod_id x m : 0 <= x < m -> rmod x m = x.
Proof.
  intros H. unfold rmod. rewrite (rfloor_unique (x / m) 0); [ring|]. split.
  - apply Rmult_le_pos; [lra|]. apply Rlt_le, Rinv_0_lt_compat. lra.
  - apply Rmult_lt_reg_r with m; [lra|]. unfold Rdiv. rewrite Rmult_assoc, Rinv_l by lra. lra.
Qed.
Lemma rmod_unique x m y k : 0 < m -> 0 <= y < m -> x = y + m * IZR k -> rmod x m = y.
Proof.
  intros Hm Hy ->. unfold rmod. rewrite (rfloor_unique _ k); [ring|].
  assert (E : (y + m * IZR k) / m = y / m + IZR k) by (field; lra). rewrite E.
  assert (0 <= y / m) by (apply Rmult_le_pos; [lra|apply Rlt_le, Rinv_0_lt_compat; assumption]).
  assert (y / m < 1) by (apply Rmult_lt_reg_r with m; [lra|]; unfold Rdiv; rewrite Rmult_assoc, Rinv_l by lra; lra). lra.
Qed.
Lemma cos_tau_nat x n : cos (x + tau * INR n) = cos x.
Proof. unfold tau. replace (x + 2 * PI * INR n) with (x + 2 * INR n * PI) by ring. apply cos_period. Qed.
Lemma sin_tau_nat x n : sin (x + tau * INR n) = sin x.
Proof. unfold tau. replace (x + 2 * PI * INR n) with (x + 2 * INR n * PI) by ring. apply sin_period. Qed.
Lemma IZR_cases k : (exists n, IZR k = INR n) \/ (exists n, IZR k = - INR n).
Proof.
  destruct (Z_le_dec 0 k).
  - left. exists (Z.to_nat k). rewrite INR_IZR_INZ, Z2Nat.id by assumption. reflexivity.
  - right. exists (Z.to_nat (- k)). rewrite INR_IZR_INZ, Z2Nat.id by lia. rewrite opp_IZR. ring.
Qed.
Lemma cos_tau x k : cos (x + tau * IZR k) = cos x.
Proof.
  destruct (IZR_cases k) as [[n ->]|[n ->]]; [apply cos_tau_nat|].
  rewrite <- (cos_tau_nat (x + tau * - INR n) n). f_equal. ring.
Qed.
Lemma sin_tau x k : sin (x + tau * IZR k) = sin x.
Proof.
  destruct (IZR_cases k) as [[n ->]|[n ->]]; [apply sin_tau_nat|].
  rewrite <- (sin_tau_nat (x + tau * - INR n) n). f_equal. ring.
Qed.
Lemma cos_rmod x : cos (rmod x tau) = cos x.
Proof. destruct (rmod_shift x tau) as [k ->]. apply cos_tau. Qed.
Lemma sin_rmod x : sin (rmod x tau) = sin x.
Proof. destruct (rmod_shift x tau) as [k ->]. apply sin_tau. Qed.

(** * arctan2 *)
Lemma atan_cos_sin x : cos (atan x) = / sqrt (1 + x * x) /\ sin (atan x) = x / sqrt (1 + x * x).
Proof.
  pose proof (cos_atan x) as C. pose proof (sin_atan x) as S1. unfold Rsqr in *. rewrite C, S1. split; [|reflexivity]. unfold Rdiv. ring.
Qed.
Definition rho (x y : R) : R := sqrt (x * x + y * y).
Lemma rho_pos x y : (x <> 0 \/ y <> 0) -> 0 < rho x y.
Proof. intros H. apply sqrt_lt_R0. destruct H; nra. Qed.
Lemma rho_sq x y : rho x y * rho x y = x * x + y * y.
Proof. apply sqrt_sqrt. nra. Qed.
Lemma sqrt_ratio x y : x <> 0 -> sqrt (1 + y / x * (y / x)) = rho x y / Rabs x.
Proof.
  intros H. unfold rho. assert (0 < Rabs x) by (apply Rabs_pos_lt; assumption).
  replace (1 + y / x * (y / x)) with ((x * x + y * y) / (x * x)) by (field; assumption).
  rewrite sqrt_div_alt by nra. f_equal. replace (x * x) with (Rsqr x) by reflexivity. apply sqrt_Rsqr_abs.
Qed.
Lemma atan2_spec y x : (x <> 0 \/ y <> 0) ->
  rho x y * cos (atan2 y x) = x /\ rho x y * sin (atan2 y x) = y /\ - PI < atan2 y x <= PI.
Proof.
  intros H. pose proof (rho_pos x y H) as Hr. pose proof PI_RGT_0 as HP. unfold atan2.
  destruct (Rlt_dec 0 x) as [Hx|Hx].
  - destruct (atan_cos_sin (y / x)) as [C S1]. rewrite C, S1, sqrt_ratio by lra. rewrite Rabs_right by lra. pose proof (atan_bound (y / x)).
    split; [field; lra|]. split; [field; lra|lra].
  - destruct (Rlt_dec x 0) as [Hx'|Hx'].
    + destruct (atan_cos_sin (y / x)) as [C S1]. pose proof (atan_bound (y / x)) as AB.
      assert (E : sqrt (1 + y / x * (y / x)) = rho x y / - x) by (rewrite sqrt_ratio by lra; rewrite Rabs_left by lra; reflexivity).
      destruct (Rle_dec 0 y) as [Hy|Hy].
      * rewrite neg_cos, neg_sin, C, S1, E. split; [field; lra|]. split; [field; lra|]. split; [lra|].
        assert (y / x <= 0). { assert (0 < / - x) by (apply Rinv_0_lt_compat; lra). replace (y / x) with (- (y * / - x)) by (field; lra). nra. }
        destruct (Req_dec (y / x) 0) as [Z0|NZ]; [rewrite Z0, atan_0; lra|]. pose proof (atan_increasing (y / x) 0 ltac:(lra)) as I. rewrite atan_0 in I. lra.
      * replace (atan (y / x) - PI) with (- (PI - atan (y / x))) by ring. rewrite cos_neg, sin_neg.
        replace (PI - atan (y/x)) with (- atan (y/x) + PI) by ring. rewrite neg_cos, neg_sin, cos_neg, sin_neg, C, S1, E.
        split; [field; lra|]. split; [field; lra|].
        assert (0 < y / x). { assert (0 < / - x) by (apply Rinv_0_lt_compat; lra). replace (y / x) with (- y * / - x) by (field; lra). nra. }
        pose proof (atan_increasing 0 (y / x) ltac:(lra)) as I. rewrite atan_0 in I. lra.
    + assert (x = 0) by lra. subst x.
      destruct (Rlt_dec 0 y) as [Hy|Hy].
      * rewrite cos_PI2, sin_PI2. assert (R0 : rho 0 y = y) by (unfold rho; replace (0 * 0 + y * y) with (y * y) by ring; apply sqrt_square; lra). rewrite R0. lra.
      * destruct (Rlt_dec y 0) as [Hy'|Hy']; [|lra].
        rewrite cos_neg, sin_neg, cos_PI2, sin_PI2. assert (R0 : rho 0 y = - y) by (unfold rho; replace (0 * 0 + y * y) with ((- y) * (- y)) by ring; apply sqrt_square; lra). rewrite R0. lra.
Qed.
Lemma atan2_00 : atan2 0 0 = 0.
Proof. unfold atan2. destruct (Rlt_dec 0 0); lra. Qed.
(** Angles in (-pi, pi] with one cosine and one sine are equal. *)
Lemma angle_unique a b : cos a = cos b -> sin a = sin b -> - (2 * PI) < a - b < 2 * PI -> a = b.
Proof.
  intros C S1 H.
  assert (E : cos (a - b) = 1). { rewrite cos_minus, C, S1. pose proof (sin2_cos2 b) as Q. unfold Rsqr in Q. lra. }
  assert (S0 : sin (a - b) = 0). { rewrite sin_minus, C, S1. ring. }
  assert (E2 : sin ((a - b) / 2) = 0).
  { assert (D := cos_2a_sin ((a - b) / 2)). replace (2 * ((a - b) / 2)) with (a - b) in D by field. nra. }
  destruct (Rtotal_order (a - b) 0) as [L|[L|L]]; [|lra|].
  - assert (0 < sin (- ((a - b) / 2))) by (apply sin_gt_0; lra). rewrite sin_neg in H0. lra.
  - assert (0 < sin ((a - b) / 2)) by (apply sin_gt_0; lra). lra.
Qed.
Lemma atan2_polar r t : 0 < r -> - PI < t <= PI -> atan2 (r * sin t) (r * cos t) = t.
Proof.
  intros Hr Ht. assert (N : r * cos t <> 0 \/ r * sin t <> 0).
  { pose proof (sin2_cos2 t) as Q. unfold Rsqr in Q. destruct (Req_dec (cos t) 0) as [E|E]; [right|left]; [assert (sin t <> 0) by nra|]; nra. }
  destruct (atan2_spec (r * sin t) (r * cos t) N) as (C & S1 & B).
  assert (R0 : rho (r * cos t) (r * sin t) = r).
  { unfold rho. replace (r * cos t * (r * cos t) + r * sin t * (r * sin t)) with (r * r * (Rsqr (sin t) + Rsqr (cos t))) by (unfold Rsqr; ring).
    rewrite sin2_cos2, Rmult_1_r. apply sqrt_square. lra. }
  rewrite R0 in C, S1. apply angle_unique; [nra|nra|lra].
Qed.
Lemma atan2_nonneg y x : 0 <= y -> 0 <= atan2 y x <= PI.
Proof.
  intros Hy. destruct (Req_dec x 0) as [Ex|Nx]; [destruct (Req_dec y 0) as [Ey|Ny]|].
  1: subst; rewrite atan2_00; pose proof PI_RGT_0; lra.
  all: destruct (atan2_spec y x ltac:(auto)) as (C & S1 & B); split; [|lra]; destruct (Rle_dec 0 (atan2 y x)) as [|N]; [assumption|exfalso].
  all: assert (P : 0 < rho x y) by (apply rho_pos; auto); assert (sin (atan2 y x) < 0) by (apply sin_lt_0_var; lra); nra.
Qed.
Lemma atan2_right y x : 0 <= x -> - (PI / 2) <= atan2 y x <= PI / 2.
Proof.
  intros Hx. pose proof PI_RGT_0. unfold atan2. destruct (Rlt_dec 0 x); [pose proof (atan_bound (y / x)); lra|].
  destruct (Rlt_dec x 0); [lra|]. destruct (Rlt_dec 0 y); [lra|]. destruct (Rlt_dec y 0); lra.
Qed.
