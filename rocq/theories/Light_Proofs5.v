(** Refraction. *)
From Coq Require Import Reals Lra Lia Psatz ZArith List Bool.
Import ListNotations.
From Verif Require Import Real_Math Light_Model Light_Spec.
Open Scope R_scope.

(** ** Bounds on sines and cosines *)
Lemma cos_poly x : 0 <= x <= 2 -> 1 - x ^ 2 / 2 + x ^ 4 / 24 - x ^ 6 / 720 + x ^ 8 / 40320 - x ^ 10 / 3628800 <= cos x.
Proof.
  intros Hx. pose proof (pre_cos_bound x 2 ltac:(lra) ltac:(lra)) as [H _]. unfold cos_approx in H. change (2 * 2 + 1)%nat with 5%nat in H. cbn [sum_f_R0] in H. unfold cos_term in H.
  assert (F : forall n, INR (fact (S n)) = INR (S n) * INR (fact n)) by (intros n; rewrite <- mult_INR; reflexivity).
  change (2 * 0)%nat with 0%nat in H. change (2 * 1)%nat with 2%nat in H. change (2 * 2)%nat with 4%nat in H. change (2 * 3)%nat with 6%nat in H. change (2 * 4)%nat with 8%nat in H. change (2 * 5)%nat with 10%nat in H.
  rewrite !F in H. change (INR (fact 0)) with 1 in H. rewrite !INR_IZR_INZ in H. cbn [Z.of_nat Pos.of_succ_nat Pos.succ] in H.
  cbn [pow] in *. lra.
Qed.
Lemma pi_low : 31415 / 10000 < PI.
Proof.
  pose proof (cos_poly (31415 / 20000) ltac:(lra)) as H. assert (0 < cos (31415 / 20000)) by lra. pose proof PI2_3_2. pose proof PI_RGT_0.
  destruct (Rlt_dec (31415 / 20000) (PI / 2)); [lra|]. exfalso. assert (cos (31415 / 20000) <= 0) by (apply cos_le_0; lra). lra.
Qed.
Lemma sin_low x : 0 <= x <= 1 -> x - x * x * x / 6 <= sin x.
Proof. intros Hx. pose proof (pre_sin_bound x 0 ltac:(lra) ltac:(lra)) as [L _]. unfold sin_approx, sin_term in L. cbn in L. lra. Qed.

(** The angle whose cotangent is taken. *)
Definition ang (a : R) : R := (a + (731 / 100) / (a + 44 / 10)) * DEG2RAD.
Lemma ang_diff a b : -1 <= a -> -1 <= b -> ang b - ang a = (b - a) * (1 - (731 / 100) / ((a + 44 / 10) * (b + 44 / 10))) * DEG2RAD.
Proof. intros Ha Hb. unfold ang. field. lra. Qed.
Lemma factor_bound a b : -1 <= a -> -1 <= b -> 0 < 1 - (731 / 100) / ((a + 44 / 10) * (b + 44 / 10)) <= 1.
Proof.
  intros Ha Hb. assert (H : 34 / 10 * (34 / 10) <= (a + 44 / 10) * (b + 44 / 10)) by nra. set (y := (a + 44 / 10) * (b + 44 / 10)) in *.
  assert (0 < 731 / 100 / y) by (apply Rdiv_lt_0_compat; lra). assert (731 / 100 / y < 1). { apply Rmult_lt_reg_r with y; [lra|]. unfold Rdiv. rewrite Rmult_assoc, Rinv_l by lra. lra. } lra.
Qed.
Lemma ang_mono a b : -1 <= a -> a <= b -> ang a <= ang b.
Proof. intros Ha Hb. pose proof (ang_diff a b Ha ltac:(lra)) as E. pose proof (factor_bound a b Ha ltac:(lra)). assert (0 < DEG2RAD) by (unfold DEG2RAD; lra). set (f := 1 - _) in *. assert (0 <= (b - a) * f * DEG2RAD) by (apply Rmult_le_pos; [apply Rmult_le_pos; lra|lra]). lra. Qed.
Lemma ang_lip a b : -1 <= a -> a <= b -> ang b - ang a <= (b - a) * DEG2RAD.
Proof. intros Ha Hb. rewrite ang_diff by lra. pose proof (factor_bound a b Ha ltac:(lra)). assert (0 < DEG2RAD) by (unfold DEG2RAD; lra). set (f := 1 - _) in *. apply Rmult_le_compat_r; [lra|]. assert ((b - a) * f <= (b - a) * 1) by (apply Rmult_le_compat_l; lra). lra. Qed.
Lemma ang_low : 2 / 100 <= ang (-1). Proof. unfold ang, DEG2RAD. lra. Qed.
Lemma ang_high : 15704 / 10000 <= ang (899 / 10) <= 157041 / 100000. Proof. unfold ang, DEG2RAD. lra. Qed.
Lemma ang_range a : -1 <= a <= 899 / 10 -> 2 / 100 <= ang a <= 157041 / 100000.
Proof. intros H. pose proof (ang_mono (-1) a ltac:(lra) ltac:(lra)). pose proof (ang_mono a (899 / 10) ltac:(lra) ltac:(lra)). pose proof ang_low. pose proof ang_high. lra. Qed.
Lemma sin_at_least x y : 0 <= x <= y -> y <= PI / 2 -> sin x <= sin y.
Proof. intros H1 H2. pose proof PI_RGT_0. apply sin_incr_1; lra. Qed.
Lemma sin_ang a : -1 <= a <= 899 / 10 -> 199986 / 10 ^ 7 <= sin (ang a).
Proof. intros H. pose proof (ang_range a H). pose proof pi_low. apply Rle_trans with (sin (2 / 100)); [|apply sin_at_least; lra]. pose proof (sin_low (2 / 100) ltac:(lra)). lra. Qed.

(** ** Refraction in degrees, for a factor [k] of pressure over temperature *)
Definition factor (T P : R) : R := (28 / 100) * P / (T + 273).
Definition cotan (x : R) : R := cos x / sin x.
Definition refr (k a : R) : R := (16667 / 10 ^ 6) * cotan (ang a) * k.
Lemma refraction_in a T P : -1 <= a <= 899 / 10 -> refraction a T P = refr (factor T P) a.
Proof.
  intros H. unfold refraction. destruct (Rle_dec (-1) a); [|lra]. destruct (Rle_dec a (899 / 10)); [|lra]. unfold refr, cotan, tan, factor. fold (ang a).
  pose proof (sin_ang a H). pose proof (ang_range a H). pose proof pi_low. assert (0 < cos (ang a)) by (apply cos_gt_0; lra).
  unfold Rdiv. rewrite Rinv_mult_distr, Rinv_involutive by (try apply Rinv_neq_0_compat; lra). ring.
Qed.
Lemma refraction_out a T P : a < -1 \/ 899 / 10 < a -> refraction a T P = 0.
Proof. intros H. unfold refraction. destruct (Rle_dec (-1) a); [|reflexivity]. destruct (Rle_dec a (899 / 10)); [lra|reflexivity]. Qed.
Lemma cotan_pos a : -1 <= a <= 899 / 10 -> 0 < cotan (ang a).
Proof. intros H. pose proof (sin_ang a H). pose proof (ang_range a H). pose proof pi_low. apply Rdiv_lt_0_compat; [apply cos_gt_0|]; lra. Qed.
Lemma cotan_diff x y : sin x <> 0 -> sin y <> 0 -> cotan x - cotan y = sin (y - x) / (sin x * sin y).
Proof. intros H1 H2. unfold cotan. rewrite sin_minus. field. split; assumption. Qed.
(** Decreasing, and not fast. *)
Lemma refr_diff k a b s : 0 <= k -> -1 <= a -> a <= b -> b <= 899 / 10 -> 0 < s -> s <= sin (ang a) -> s <= sin (ang b) ->
  0 <= refr k a - refr k b <= (16667 / 10 ^ 6) * DEG2RAD / (s * s) * k * (b - a).
Proof.
  intros Hk Ha Hab Hb Hs Sa Sb. unfold refr. replace (16667 / 10 ^ 6 * cotan (ang a) * k - 16667 / 10 ^ 6 * cotan (ang b) * k) with (16667 / 10 ^ 6 * k * (cotan (ang a) - cotan (ang b))) by ring.
  rewrite cotan_diff by lra. pose proof (ang_mono a b Ha Hab) as M. pose proof (ang_lip a b Ha Hab) as L. pose proof (ang_range a ltac:(lra)) as Ra. pose proof (ang_range b ltac:(lra)) as Rb. pose proof pi_low.
  assert (D : 0 <= sin (ang b - ang a) <= ang b - ang a). { split; [apply sin_ge_0; lra|]. destruct (Req_dec (ang b - ang a) 0) as [E|E]; [rewrite E, sin_0; lra|]. apply Rlt_le, sin_lt_x. lra. }
  set (d := sin (ang b - ang a)) in *. set (sa := sin (ang a)) in *. set (sb := sin (ang b)) in *. assert (I : / (sa * sb) <= / (s * s)) by (apply Rinv_le_contravar; nra). assert (I0 : 0 < / (sa * sb)) by (apply Rinv_0_lt_compat; nra).
  assert (G : 0 < DEG2RAD) by (unfold DEG2RAD; lra).
  assert (Q : 0 <= d / (sa * sb) <= (b - a) * DEG2RAD / (s * s)). { unfold Rdiv. split; [apply Rmult_le_pos; lra|]. apply Rmult_le_compat; lra. }
  split; [apply Rmult_le_pos; [apply Rmult_le_pos; lra|lra]|].
  replace (16667 / 10 ^ 6 * DEG2RAD / (s * s) * k * (b - a)) with (16667 / 10 ^ 6 * k * ((b - a) * DEG2RAD / (s * s))) by (field; lra). apply Rmult_le_compat_l; [apply Rmult_le_pos; lra|lra].
Qed.
Definition kmax : R := 3.
Definition rate : R := 9 / 10.
(** Near the horizon the flattening of [ang] matters. *)
Lemma quad u v : 34 / 10 <= u -> u <= v -> u * v - 731 / 100 <= 29 / 100 * (u * u - 44 / 10 * u + 731 / 100) * (v * v - 44 / 10 * v + 731 / 100).
Proof.
  intros Hu Hv. assert (exists a, 0 <= a /\ u = 34 / 10 + a) as [a [Ha E1]] by (exists (u - 34 / 10); lra). assert (exists b, 0 <= b /\ v = 34 / 10 + b) as [b [Hb E2]] by (exists (v - 34 / 10); lra).
  subst u v. clear Hu Hv. assert (H1 : 0 <= a * b) by nra. assert (H2 : 0 <= a * b * (a + b)) by nra. assert (H3 : 0 <= a * b * (a * b)) by nra.
  pose proof (Rle_0_sqr (a + b - 462 / 1000)) as H4. pose proof (Rle_0_sqr (a - b)) as H5. unfold Rsqr in *.
  set (x := a * a) in *. nra.
Qed.
Lemma ang_quad a : -1 <= a -> ang a * (a + 44 / 10) = ((a + 44 / 10) * (a + 44 / 10) - 44 / 10 * (a + 44 / 10) + 731 / 100) * DEG2RAD.
Proof. intros H. unfold ang. field. lra. Qed.
Lemma slope_low a b : -1 <= a -> a <= b -> b <= 20 -> (1 - (731 / 100) / ((a + 44 / 10) * (b + 44 / 10))) * (DEG2RAD * DEG2RAD) <= 29 / 100 * (ang a * ang b).
Proof.
  intros Ha Hab Hb. pose proof (quad (a + 44 / 10) (b + 44 / 10) ltac:(lra) ltac:(lra)) as Q. pose proof (ang_quad a Ha) as EA. pose proof (ang_quad b ltac:(lra)) as EB.
  set (u := a + 44 / 10) in *. set (v := b + 44 / 10) in *. assert (Hu : 0 < u) by (unfold u; lra). assert (Hv : 0 < v) by (unfold v; lra).
  assert (0 < u * v) by nra. apply Rmult_le_reg_r with (u * v); [assumption|].
  replace (29 / 100 * (ang a * ang b) * (u * v)) with (29 / 100 * (ang a * u) * (ang b * v)) by ring. rewrite EA, EB.
  replace ((1 - 731 / 100 / (u * v)) * (DEG2RAD * DEG2RAD) * (u * v)) with ((u * v - 731 / 100) * (DEG2RAD * DEG2RAD)) by (field; lra).
  set (qu := u * u - 44 / 10 * u + 731 / 100) in *. set (qv := v * v - 44 / 10 * v + 731 / 100) in *.
  replace (29 / 100 * (qu * DEG2RAD) * (qv * DEG2RAD)) with (29 / 100 * qu * qv * (DEG2RAD * DEG2RAD)) by ring. apply Rmult_le_compat_r; [unfold DEG2RAD; lra|assumption].
Qed.
Lemma ang_20 : 35 / 100 <= ang 20 <= 36 / 100. Proof. unfold ang, DEG2RAD. lra. Qed.
Lemma sin_near x : 0 <= x <= 36 / 100 -> 97 / 100 * x <= sin x.
Proof. intros H. pose proof (sin_low x ltac:(lra)). assert (x * x <= 36 / 100 * (36 / 100)) by nra. assert (x * x * x <= 36 / 100 * (36 / 100) * x) by nra. lra. Qed.
Lemma refr_rate k a b : 0 <= k <= kmax -> -1 <= a -> a <= b -> b <= 899 / 10 -> 0 <= refr k a - refr k b <= rate * (b - a).
Proof.
  intros Hk Ha Hab Hb. unfold kmax, rate in *. split; [apply (refr_diff k a b (199986 / 10 ^ 7) ltac:(lra) Ha Hab Hb ltac:(lra) (sin_ang a ltac:(lra)) (sin_ang b ltac:(lra)))|].
  unfold refr. replace (16667 / 10 ^ 6 * cotan (ang a) * k - 16667 / 10 ^ 6 * cotan (ang b) * k) with (16667 / 10 ^ 6 * k * (cotan (ang a) - cotan (ang b))) by ring.
  pose proof (sin_ang a ltac:(lra)) as Sa. pose proof (sin_ang b ltac:(lra)) as Sb. rewrite cotan_diff by lra.
  pose proof (ang_mono a b Ha Hab) as M. pose proof (ang_range a ltac:(lra)) as Ra. pose proof (ang_range b ltac:(lra)) as Rb. pose proof pi_low as PL.
  assert (D : 0 <= sin (ang b - ang a) <= ang b - ang a). { split; [apply sin_ge_0; lra|]. destruct (Req_dec (ang b - ang a) 0) as [E|E]; [rewrite E, sin_0; lra|]. apply Rlt_le, sin_lt_x. lra. }
  assert (G : 0 < DEG2RAD) by (unfold DEG2RAD; lra). assert (SS : 0 < sin (ang a) * sin (ang b)) by (apply Rmult_lt_0_compat; lra).
  assert (Q : sin (ang b - ang a) <= 179 / 10 * (b - a) * (sin (ang a) * sin (ang b))).
  { destruct (Rle_dec b 20) as [B|B].
    - pose proof (slope_low a b Ha Hab B) as SL. pose proof (ang_mono b 20 ltac:(lra) B) as MB. pose proof ang_20. pose proof (sin_near (ang a) ltac:(lra)) as Na. pose proof (sin_near (ang b) ltac:(lra)) as Nb.
      pose proof (ang_diff a b Ha ltac:(lra)) as AD. set (f := 1 - _) in *. assert (P : (97 / 100 * ang a) * (97 / 100 * ang b) <= sin (ang a) * sin (ang b)) by (apply Rmult_le_compat; lra).
      apply Rle_trans with ((b - a) * (f * DEG2RAD)); [lra|]. replace (179 / 10 * (b - a) * (sin (ang a) * sin (ang b))) with ((b - a) * (179 / 10 * (sin (ang a) * sin (ang b)))) by ring. apply Rmult_le_compat_l; [lra|].
      apply Rmult_le_reg_r with DEG2RAD; [exact G|]. rewrite Rmult_assoc. eapply Rle_trans; [exact SL|].
      set (z := ang a * ang b) in *. assert (97 / 100 * ang a * (97 / 100 * ang b) = 97 / 100 * (97 / 100) * z) as Z by (unfold z; ring). rewrite Z in P. set (y := sin (ang a) * sin (ang b)) in *. unfold DEG2RAD. lra.
    - pose proof (ang_mono 20 b ltac:(lra) ltac:(lra)) as MB. pose proof ang_20. assert (33 / 100 <= sin (ang b)). { apply Rle_trans with (sin (35 / 100)); [pose proof (sin_near (35 / 100) ltac:(lra)); lra|apply sin_at_least; lra]. }
      assert (P : (199986 / 10 ^ 7) * (33 / 100) <= sin (ang a) * sin (ang b)) by (apply Rmult_le_compat; lra). pose proof (ang_lip a b Ha Hab) as L.
      apply Rle_trans with ((b - a) * DEG2RAD); [lra|]. replace (179 / 10 * (b - a) * (sin (ang a) * sin (ang b))) with ((b - a) * (179 / 10 * (sin (ang a) * sin (ang b)))) by ring. apply Rmult_le_compat_l; [lra|]. unfold DEG2RAD. lra. }
  assert (Q' : sin (ang b - ang a) / (sin (ang a) * sin (ang b)) <= 179 / 10 * (b - a)).
  { apply Rmult_le_reg_r with (sin (ang a) * sin (ang b)); [exact SS|]. unfold Rdiv. rewrite Rmult_assoc, Rinv_l by lra. lra. }
  apply Rle_trans with (16667 / 10 ^ 6 * k * (179 / 10 * (b - a))); [apply Rmult_le_compat_l; lra|].
  apply Rle_trans with (16667 / 10 ^ 6 * 3 * (179 / 10 * (b - a))); [apply Rmult_le_compat_r; lra|lra].
Qed.
Lemma refr_pos k a : 0 <= k -> -1 <= a <= 899 / 10 -> 0 <= refr k a.
Proof. intros Hk Ha. pose proof (cotan_pos a Ha). unfold refr. apply Rmult_le_pos; [apply Rmult_le_pos|]; lra. Qed.
Lemma refr_low k : 0 <= k <= kmax -> refr k (-1) <= 251 / 100.
Proof.
  intros Hk. unfold kmax in Hk. pose proof (sin_ang (-1) ltac:(lra)) as S. pose proof (COS_bound (ang (-1))) as B. pose proof (cotan_pos (-1) ltac:(lra)) as P. unfold refr.
  assert (cotan (ang (-1)) <= 5001 / 100). { unfold cotan. apply Rmult_le_reg_r with (sin (ang (-1))); [lra|]. unfold Rdiv at 1. rewrite Rmult_assoc, Rinv_l by lra. nra. }
  assert (16667 / 10 ^ 6 * cotan (ang (-1)) * k <= 16667 / 10 ^ 6 * (5001 / 100) * (3)) by (apply Rmult_le_compat; [apply Rmult_le_pos; lra|lra|apply Rmult_le_compat_l; lra|lra]). lra.
Qed.
Lemma refr_high k : 0 <= k <= kmax -> refr k (899 / 10) <= 25 / 10 ^ 6.
Proof.
  intros Hk. unfold kmax in Hk. pose proof ang_high as A. pose proof pi_low as PL. pose proof (cotan_pos (899 / 10) ltac:(lra)) as P. unfold refr. set (x := ang (899 / 10)) in *.
  (* cot x = sin (PI/2 - x) / sin x *)
  assert (U : PI < 31416 / 10000).
  { destruct (Rlt_dec PI (31416 / 10000)); [assumption|exfalso]. apply Rnot_lt_le in n. assert (0 <= cos (15708 / 10000)) by (apply cos_ge_0; lra).
    pose proof (pre_cos_bound (15708 / 10000) 2 ltac:(lra) ltac:(lra)) as [_ H']. unfold cos_approx in H'. change (2 * (2 + 1))%nat with 6%nat in H'. cbn [sum_f_R0] in H'. unfold cos_term in H'.
    assert (F : forall n, INR (fact (S n)) = INR (S n) * INR (fact n)) by (intros m; rewrite <- mult_INR; reflexivity).
    change (2 * 0)%nat with 0%nat in H'. change (2 * 1)%nat with 2%nat in H'. change (2 * 2)%nat with 4%nat in H'. change (2 * 3)%nat with 6%nat in H'. change (2 * 4)%nat with 8%nat in H'. change (2 * 5)%nat with 10%nat in H'. change (2 * 6)%nat with 12%nat in H'.
    rewrite !F in H'. change (INR (fact 0)) with 1 in H'. rewrite !INR_IZR_INZ in H'. cbn [Z.of_nat Pos.of_succ_nat Pos.succ] in H'. cbn [pow] in H'. lra. }
  assert (S : 84 / 100 <= sin x). { apply Rle_trans with (sin 1); [|apply sin_at_least; lra]. pose proof (pre_sin_bound 1 1 ltac:(lra) ltac:(lra)) as [L _]. unfold sin_approx, sin_term in L. cbn in L. lra. }
  assert (Cx : cos x <= PI / 2 - x). { rewrite <- sin_shift. destruct (Req_dec (PI / 2 - x) 0) as [E|E]; [rewrite E, sin_0; lra|]. apply Rlt_le, sin_lt_x. lra. }
  assert (0 < cos x) by (apply cos_gt_0; lra).
  assert (cotan x <= 48 / 10 ^ 5). { unfold cotan. assert (/ sin x <= / (84 / 100)) by (apply Rinv_le_contravar; lra). assert (0 < / sin x) by (apply Rinv_0_lt_compat; lra). unfold Rdiv at 1. apply Rle_trans with (4 / 10 ^ 4 * / (84 / 100)); [apply Rmult_le_compat; lra|lra]. }
  assert (16667 / 10 ^ 6 * cotan x * k <= 16667 / 10 ^ 6 * (48 / 10 ^ 5) * (3)) by (apply Rmult_le_compat; [apply Rmult_le_pos; lra|lra|apply Rmult_le_compat_l; lra|lra]). lra.
Qed.

Lemma factor_le T P : -273 < T -> 0 <= P -> 28 * P <= 300 * (T + 273) -> 0 <= factor T P <= kmax.
Proof.
  intros HT HP H. unfold factor, kmax. split.
  - apply Rmult_le_pos; [lra|]. apply Rlt_le, Rinv_0_lt_compat. lra.
  - apply Rmult_le_reg_r with (T + 273); [lra|]. unfold Rdiv. rewrite Rmult_assoc, Rinv_l by lra. lra.
Qed.

(** ** The loop *)
Section Loop.
Variables h T P : R.
Hypothesis Hh : -1 <= h <= 899 / 10.
Hypothesis Hk : 0 <= factor T P <= kmax.
Let k := factor T P.
Let g (a : R) : R := h + refraction a T P.
Lemma g_in a : h <= a <= 899 / 10 -> g a = h + refr k a.
Proof. intros H. unfold g, k. rewrite refraction_in by lra. reflexivity. Qed.
Lemma g_out a : 899 / 10 < a -> g a = h.
Proof. intros H. unfold g. rewrite refraction_out by lra. lra. Qed.
Lemma g_above a : h <= a -> h <= g a.
Proof. intros H. destruct (Rle_dec a (899 / 10)) as [B|B]; [rewrite g_in by lra; pose proof (refr_pos k a (proj1 Hk) ltac:(lra)); lra|rewrite g_out by lra; lra]. Qed.
Lemma refr_le a : h <= a <= 899 / 10 -> refr k a <= refr k h.
Proof. intros H. pose proof (refr_rate k h a Hk ltac:(lra) ltac:(lra) ltac:(lra)). lra. Qed.
Lemma near_top : 89 < h -> refr k h - refr k (899 / 10) <= 1 / 100 * (899 / 10 - h).
Proof.
  intros Hn. assert (S : forall b, 89 <= b <= 899 / 10 -> 84 / 100 <= sin (ang b)).
  { intros b Hb. pose proof pi_low. pose proof (ang_range b ltac:(lra)). assert (1 <= ang b). { pose proof (ang_mono 89 b ltac:(lra) ltac:(lra)). assert (1 <= ang 89) by (unfold ang, DEG2RAD; lra). lra. }
    apply Rle_trans with (sin 1); [|apply sin_at_least; lra]. pose proof (pre_sin_bound 1 1 ltac:(lra) ltac:(lra)) as [L1 _]. unfold sin_approx, sin_term in L1. cbn in L1. lra. }
  pose proof (refr_diff k h (899 / 10) (84 / 100) (proj1 Hk) ltac:(lra) ltac:(lra) ltac:(lra) ltac:(lra) (S h ltac:(lra)) (S (899 / 10) ltac:(lra))) as [_ V].
  assert (K : 16667 / 10 ^ 6 * DEG2RAD / (84 / 100 * (84 / 100)) * k * (899 / 10 - h) <= 16667 / 10 ^ 6 * DEG2RAD / (84 / 100 * (84 / 100)) * 3 * (899 / 10 - h)).
  { apply Rmult_le_compat_r; [lra|]. apply Rmult_le_compat_l; [unfold DEG2RAD; lra|]. unfold kmax in Hk. unfold k. lra. }
  assert (16667 / 10 ^ 6 * DEG2RAD / (84 / 100 * (84 / 100)) * 3 * (899 / 10 - h) <= 1 / 100 * (899 / 10 - h)) by (apply Rmult_le_compat_r; [lra|unfold DEG2RAD; lra]).
  lra.
Qed.
(** Near the top the refraction is below the tolerance. *)
Lemma top_edge a : h <= a <= 899 / 10 -> 899 / 10 < g a -> refr k a <= 29 / 10 ^ 6.
Proof.
  intros Ha Ho. rewrite g_in in Ho by assumption. pose proof (refr_le a Ha) as L. pose proof (refr_rate k h (899 / 10) Hk ltac:(lra) ltac:(lra) ltac:(lra)) as [_ U]. pose proof (refr_high k Hk) as H9. unfold rate in U.
  pose proof (near_top ltac:(lra)). lra.
Qed.
Lemma refract_loop_eq n a : refract_loop (S n) h T P a = if Rlt_dec (3 / 10 ^ 5) (Rabs (g a - a)) then refract_loop n h T P (g a) else Some (g a).
Proof. reflexivity. Qed.
Lemma loop_stops : forall n a d, h <= a <= 899 / 10 -> Rabs (g a - a) <= d -> rate ^ n * d <= 3 / 10 ^ 5 -> exists b, refract_loop (S (S n)) h T P a = Some b.
Proof.
  induction n as [|n IH]; intros a d Ha Hd Hn.
  - rewrite refract_loop_eq. destruct (Rlt_dec _ _) as [L|L]; [|eexists; reflexivity]. rewrite pow_O in Hn. lra.
  - rewrite refract_loop_eq. destruct (Rlt_dec _ _) as [L|L]; [|eexists; reflexivity].
    pose proof (g_above a (proj1 Ha)) as GA. destruct (Rle_dec (g a) (899 / 10)) as [B|B].
    + apply (IH (g a) (rate * d)); [lra| |rewrite <- tech_pow_Rmult in Hn; lra].
      rewrite (g_in (g a)) by lra. rewrite (g_in a) by lra. replace (h + refr k (h + refr k a) - (h + refr k a)) with (refr k (h + refr k a) - refr k a) by ring. rewrite <- (g_in a) by lra.
      assert (R0 : 0 < rate) by (unfold rate; lra). destruct (Rle_dec a (g a)) as [O|O].
      * pose proof (refr_rate k a (g a) Hk ltac:(lra) O B). rewrite Rabs_left1 by lra. rewrite Rabs_right in Hd by lra. assert (rate * (g a - a) <= rate * d) by (apply Rmult_le_compat_l; lra). lra.
      * pose proof (refr_rate k (g a) a Hk ltac:(lra) ltac:(lra) ltac:(lra)). rewrite Rabs_right by lra. rewrite Rabs_left1 in Hd by lra. assert (rate * (a - g a) <= rate * d) by (apply Rmult_le_compat_l; lra). lra.
    + apply Rnot_le_lt in B. pose proof (top_edge a Ha B) as TE. rewrite refract_loop_eq. rewrite (g_out (g a) B). pose proof (g_in a Ha) as E.
      destruct (Rlt_dec _ _) as [L'|L']; [|eexists; reflexivity]. exfalso. rewrite Rabs_left1 in L' by lra. lra.
Qed.
Lemma loop_more : forall n m a b, refract_loop n h T P a = Some b -> (n <= m)%nat -> refract_loop m h T P a = Some b.
Proof.
  induction n as [|n IH]; intros m a b H Hm; [discriminate|]. destruct m as [|m]; [lia|]. rewrite refract_loop_eq in *. destruct (Rlt_dec _ _); [|assumption]. apply IH; [assumption|lia].
Qed.
Lemma loop_solves : forall n a b, h <= a -> refract_loop n h T P a = Some b -> h <= b /\ Rabs (b - (h + refraction b T P)) <= 3 / 10 ^ 5.
Proof.
  induction n as [|n IH]; intros a b Ha H; [discriminate|]. rewrite refract_loop_eq in H. destruct (Rlt_dec _ _) as [L|L]; [apply (IH (g a)); [apply g_above; exact Ha|exact H]|].
  injection H as <-. split; [apply g_above; exact Ha|]. apply Rnot_lt_le in L. change (Rabs (g a - g (g a)) <= 3 / 10 ^ 5). pose proof (g_above a Ha) as GA.
  destruct (Rle_dec a (899 / 10)) as [A|A].
  - destruct (Rle_dec (g a) (899 / 10)) as [B|B].
    + rewrite (g_in (g a)) by lra. rewrite (g_in a) at 1 by lra. replace (h + refr k a - (h + refr k (g a))) with (refr k a - refr k (g a)) by ring. unfold rate in *. destruct (Rle_dec a (g a)) as [O|O].
      * pose proof (refr_rate k a (g a) Hk ltac:(lra) O B) as RR. unfold rate in RR. rewrite Rabs_right by lra. rewrite Rabs_right in L by lra. lra.
      * pose proof (refr_rate k (g a) a Hk ltac:(lra) ltac:(lra) ltac:(lra)) as RR. unfold rate in RR. rewrite Rabs_left1 by lra. rewrite Rabs_left1 in L by lra. lra.
    + apply Rnot_le_lt in B. pose proof (top_edge a ltac:(lra) B) as TE. rewrite (g_out (g a) B). pose proof (g_in a ltac:(lra)) as E. rewrite Rabs_right by lra. lra.
  - rewrite (g_out a) in * by lra. rewrite Rabs_left1 in L by lra. rewrite (g_in h) by lra. pose proof (refr_pos k h (proj1 Hk) Hh).
    pose proof (refr_rate k h (899 / 10) Hk ltac:(lra) ltac:(lra) ltac:(lra)) as [_ U]. pose proof (refr_high k Hk). pose proof (near_top ltac:(lra)). rewrite Rabs_left1 by lra. lra.
Qed.
End Loop.
Lemma rate_110 : rate ^ 110 * (251 / 100) <= 3 / 10 ^ 5.
Proof.
  change 110%nat with (10 * 11)%nat. rewrite pow_mult. unfold rate. assert (0 <= (9 / 10) ^ 10 <= 35 / 100) as H by (cbn [pow]; lra). pose proof (pow_incr _ _ 11 H) as H'. assert ((35 / 100) ^ 11 <= 1 / 10 ^ 5) by (cbn [pow]; lra). lra.
Qed.

(** The loop of [refract] stops, on an altitude that solves the equation. *)
Lemma refract_solves h T P fuel :
  -273 < T -> 0 <= P -> 28 * P <= 300 * (T + 273) -> (112 <= fuel)%nat ->
  exists alt, refract fuel h T P = Some alt /\ h <= alt /\ Rabs (alt - (h + refraction alt T P)) <= 3 / 10 ^ 5.
Proof.
  intros HT HP HK HF. pose proof (factor_le T P HT HP HK) as K. unfold refract. destruct (Rle_dec (-1) h) as [A|A]; [destruct (Rle_dec h (899 / 10)) as [B|B]|].
  - destruct (loop_stops h T P ltac:(lra) K 110 h (251 / 100)) as [alt Ea]; [lra| |exact rate_110|].
    + rewrite refraction_in by lra. replace (h + refr (factor T P) h - h) with (refr (factor T P) h) by ring. pose proof (refr_pos _ h (proj1 K) ltac:(lra)). rewrite Rabs_right by lra.
      pose proof (refr_low _ K). pose proof (refr_rate _ (-1) h K ltac:(lra) ltac:(lra) ltac:(lra)). lra.
    + exists alt. apply (loop_more h T P _ fuel) in Ea; [|exact HF]. split; [exact Ea|]. apply (loop_solves h T P ltac:(lra) K _ h alt ltac:(lra) Ea).
  - exists h. destruct fuel as [|fuel]; [lia|]. cbn [refract_loop]. rewrite refraction_out by lra. rewrite Rplus_0_r, Rminus_diag_eq, Rabs_R0 by reflexivity. destruct (Rlt_dec _ _) as [L|L]; [lra|]. repeat split; lra.
  - exists h. destruct fuel as [|fuel]; [lia|]. cbn [refract_loop]. rewrite refraction_out by lra. rewrite Rplus_0_r, Rminus_diag_eq, Rabs_R0 by reflexivity. destruct (Rlt_dec _ _) as [L|L]; [lra|]. repeat split; lra.
Qed.
(** Under enough pressure it goes on for ever. *)
Lemma thick_air : 3 / 10 ^ 5 < refraction (899 / 10) 10 10000.
Proof.
  rewrite refraction_in by lra. unfold refr, factor. pose proof ang_high as A. pose proof pi_low as PL. pose proof (sin_ang (899 / 10) ltac:(lra)) as S. set (x := ang (899 / 10)) in *.
  assert (C1 : 2 / 10 ^ 4 <= cos x). { rewrite <- sin_shift. pose proof (sin_low (34 / 10 ^ 5) ltac:(lra)). pose proof (sin_at_least (34 / 10 ^ 5) (PI / 2 - x) ltac:(lra) ltac:(lra)). lra. }
  assert (cos x <= cotan x). { pose proof (SIN_bound x). unfold cotan. apply Rmult_le_reg_r with (sin x); [lra|]. unfold Rdiv. rewrite Rmult_assoc, Rinv_l by lra. nra. }
  assert (16667 / 10 ^ 6 * (2 / 10 ^ 4) * (28 / 100 * 10000 / (10 + 273)) <= 16667 / 10 ^ 6 * cotan x * (28 / 100 * 10000 / (10 + 273))) by (apply Rmult_le_compat_r; lra). lra.
Qed.
Lemma refract_for_ever fuel : refract fuel (899 / 10) 10 10000 = None.
Proof.
  unfold refract. pose proof thick_air as TA. assert (G : forall n, refract_loop n (899 / 10) 10 10000 (899 / 10) = None /\ refract_loop n (899 / 10) 10 10000 (899 / 10 + refraction (899 / 10) 10 10000) = None); [|apply G].
  induction n as [|n [I1 I2]]; [split; reflexivity|]. cbn [refract_loop]. rewrite (refraction_out (899 / 10 + refraction (899 / 10) 10 10000)) by lra. rewrite Rplus_0_r. split.
  - destruct (Rlt_dec _ _) as [L|L]; [exact I2|]. rewrite Rabs_right in L by lra. lra.
  - destruct (Rlt_dec _ _) as [L|L]; [exact I1|]. rewrite Rabs_left in L by lra. lra.
Qed.

(** ** Arrays *)
Definition one_result (n : nat) (T P : R) (x : refracting) : option R := if mask x then refract_loop n (given x) T P (current x) else Some (current x).
Lemma one_pass n T P x : one_result n T P (refract_pass T P x) = one_result (S n) T P x.
Proof.
  unfold one_result, refract_pass. cbn [mask given current]. destruct (mask x).
  - cbn [refract_loop]. destruct (Rlt_dec _ _); reflexivity.
  - rewrite Rminus_diag_eq, Rabs_R0 by reflexivity. destruct (Rlt_dec _ _) as [L|L]; [lra|reflexivity].
Qed.
Lemma none_marked T P n xs : existsb mask xs = false -> all_results (map (one_result n T P) xs) = Some (map current xs).
Proof. induction xs as [|x xs IH]; [reflexivity|]. cbn [existsb]. intros H. apply orb_false_iff in H. destruct H as [H1 H2]. cbn [map all_results]. rewrite (IH H2). unfold one_result. rewrite H1. reflexivity. Qed.
Lemma one_marked T P xs : existsb mask xs = true -> all_results (map (one_result 0 T P) xs) = None.
Proof.
  induction xs as [|x xs IH]; [discriminate|]. cbn [existsb]. intros H. cbn [map all_results]. unfold one_result at 1. destruct (mask x); [reflexivity|]. cbn [orb] in H. rewrite (IH H). reflexivity.
Qed.
Lemma passes_results T P : forall n xs, refract_passes n T P xs = all_results (map (one_result n T P) xs).
Proof.
  induction n as [|n IH]; intros xs; cbn [refract_passes]; destruct (existsb mask xs) eqn:E.
  - symmetry. apply one_marked, E.
  - symmetry. apply none_marked, E.
  - rewrite IH, map_map. f_equal. apply map_ext. intros x. apply one_pass.
  - symmetry. apply none_marked, E.
Qed.
Lemma array_elementwise n hs T P : refract_array n hs T P = all_results (map (fun h => refract n h T P) hs).
Proof. unfold refract_array. rewrite passes_results, map_map. reflexivity. Qed.
Lemma coldest : -273 < -89 /\ 0 <= 1090 /\ 28 * 1090 <= 300 * (-89 + 273). Proof. lra. Qed.
