(** What is read back from a measurement object, exactly and up to rounding. *)
From Coq Require Import Reals ZArith Bool List Lra Lia.
From Coq Require Import Floats.SpecFloat.
From Flocq Require Import Core BinarySingleNaN Relative.
From Verif Require Import Real_Math Real_Math_Proofs Float64 Float64_Proofs Measure_Model Measure_Spec Measure_Proofs.
Import ListNotations.
Open Scope R_scope.

Opaque fmul fdiv of_Z tau64 AU_KM64 AU_M64 DAY_S64.
Lemma given_back c u x o : made_from c u x o -> fst (perform o (Read u)) = Value (Number x).
Proof.
  intros H. destruct H as [x k y o H|x k o H|x o H|x o H|x a o H|x d h p s o H|x h p s o H|x p s o H|x s|c n x o H].
  9: reflexivity. 9: destruct c, n; cbn in H; try discriminate; injection H as <-; reflexivity.
  all: cbn in H; injection H as <-; reflexivity.
Qed.
Transparent fmul fdiv of_Z tau64 AU_KM64 AU_M64 DAY_S64.

(** ** Relative errors *)
Definition u53 : R := bpow radix2 (-53).
Lemma u53_small : 0 < u53 <= / 2 ^ 53. Proof. unfold u53. split; [apply bpow_gt_0|]. apply Req_le. cbn. lra. Qed.
(** Equal up to [n] roundings. *)
Definition rel (n : nat) (x y : R) : Prop := exists f, x = f * y /\ (1 - u53) ^ n <= f <= / (1 - u53) ^ n.
Lemma one_u : / 2 <= 1 - u53 <= 1. Proof. pose proof u53_small as H. assert (/ 2 ^ 53 <= / 2) by (apply Rinv_le_contravar; lra). lra. Qed.
Lemma pow_u n : 0 < (1 - u53) ^ n <= 1.
Proof. pose proof one_u. split; [apply pow_lt; lra|]. apply Rle_trans with (1 ^ n); [apply pow_incr; lra|rewrite pow1; lra]. Qed.
Lemma rel_refl x : rel 0 x x. Proof. exists 1. cbn. lra. Qed.
Lemma rel_mul n k x y z w : rel n x y -> rel k z w -> rel (n + k) (x * z) (y * w).
Proof.
  intros (f & -> & F) (g & -> & G). exists (f * g). split; [ring|]. pose proof (pow_u n). pose proof (pow_u k). rewrite pow_add. rewrite Rinv_mult.
  split; apply Rmult_le_compat; try lra.
Qed.
Lemma rel_inv n x y : rel n x y -> rel n (/ x) (/ y).
Proof.
  intros (f & -> & F). exists (/ f). pose proof (pow_u n). assert (0 < f) by lra. split; [apply Rinv_mult|].
  split; [rewrite <- (Rinv_inv ((1 - u53) ^ n)); apply Rinv_le_contravar; [assumption|apply F]|apply Rinv_le_contravar; [lra|apply F]].
Qed.
Lemma rel_trans n k x y z : rel n x y -> rel k y z -> rel (n + k) x z.
Proof.
  intros (f & -> & F) (g & -> & G). exists (f * g). split; [ring|]. pose proof (pow_u n). pose proof (pow_u k). rewrite pow_add. rewrite Rinv_mult.
  split; apply Rmult_le_compat; try lra.
Qed.
Lemma rel_mono n k x y : (n <= k)%nat -> rel n x y -> rel k x y.
Proof.
  intros L (f & -> & F). exists f. split; [reflexivity|]. pose proof one_u.
  assert ((1 - u53) ^ k <= (1 - u53) ^ n). { replace k with (n + (k - n))%nat by lia. rewrite pow_add. pose proof (pow_u n). pose proof (pow_u (k - n)). nra. }
  split; [lra|]. apply Rle_trans with (1 := proj2 F). apply Rinv_le_contravar; [apply pow_u|assumption].
Qed.
Lemma rel_round x : bpow radix2 (-1022) <= Rabs x -> rel 1 (rnd x) x.
Proof.
  intros H. destruct (relative_error_N_FLT_ex radix2 (-1074) 53 eq_refl (fun z => negb (Z.even z)) x) as (e & E1 & E2); [exact H|].
  exists (1 + e). split; [change (rnd x) with (round radix2 (FLT_exp (-1074) 53) ZnearestE x); rewrite E2; ring|].
  assert (Rabs e <= u53). { apply Rle_trans with (1 := E1). apply Req_le. unfold u53. cbn. lra. }
  apply Rabs_le_inv in H0. pose proof u53_small. pose proof one_u. rewrite pow_1. split; [lra|]. apply Rle_trans with (1 + u53); [lra|].
  apply (Rmult_le_reg_r (1 - u53)); [lra|]. rewrite Rinv_l by lra. nra.
Qed.
Lemma rel_size n x y : (n <= 10)%nat -> rel n x y -> / 2 * Rabs y <= Rabs x <= 2 * Rabs y.
Proof.
  intros L (f & -> & F). pose proof (pow_u n). rewrite Rabs_mult, (Rabs_pos_eq f) by lra.
  assert (B : / 2 <= (1 - u53) ^ n).
  { assert (forall k, 1 - INR k * u53 <= (1 - u53) ^ k). { induction k as [|k IH]; [cbn; lra|]. rewrite S_INR. pose proof (pow_u k). pose proof u53_small. cbn [pow]. pose proof (pos_INR k). nra. }
    specialize (H0 n). apply le_INR in L. replace (INR 10) with 10 in L by (cbn; lra). pose proof u53_small. assert (/ 2 ^ 53 <= / 100) by (apply Rinv_le_contravar; lra). pose proof (pos_INR n). nra. }
  assert (/ (1 - u53) ^ n <= 2). { rewrite <- (Rinv_inv 2). apply Rinv_le_contravar; lra. }
  pose proof (Rabs_pos y). split; apply Rmult_le_compat_r; lra.
Qed.
(** A float that is [r] up to [n] roundings, with [2^lo <= |r| <= 2^hi]. *)
Definition val (y : b64) (r : R) (n : nat) (lo hi : Z) : Prop :=
  (exists b : bf, y = B2SF b /\ is_finite b = true /\ rel n (B2R b) r) /\ bpow radix2 lo <= Rabs r <= bpow radix2 hi.
Lemma half_bpow e : / 2 * bpow radix2 e = bpow radix2 (e - 1).
Proof. replace (e - 1)%Z with (-1 + e)%Z by lia. rewrite bpow_plus. cbn. lra. Qed.
Lemma twice_bpow e : 2 * bpow radix2 e = bpow radix2 (e + 1).
Proof. replace (e + 1)%Z with (1 + e)%Z by lia. rewrite bpow_plus. cbn. lra. Qed.
Lemma val_mul a b r s n k lo hi lo' hi' : val a r n lo hi -> val b s k lo' hi' -> (n <= 10)%nat -> (k <= 10)%nat -> (-1000 <= lo + lo')%Z -> (hi + hi' <= 1000)%Z ->
  val (fmul a b) (r * s) (n + k + 1) (lo + lo') (hi + hi').
Proof.
  intros ((x & -> & Fx & Rx) & Bx) ((y & -> & Fy & Ry) & By) N K L H.
  assert (S : bpow radix2 (lo + lo') <= Rabs (r * s) <= bpow radix2 (hi + hi')).
  { rewrite Rabs_mult, !bpow_plus. pose proof (bpow_ge_0 radix2 lo). pose proof (bpow_ge_0 radix2 lo'). split; apply Rmult_le_compat; try lra; apply Rabs_pos. }
  assert (T : bpow radix2 (-1002) <= Rabs (B2R x * B2R y) <= bpow radix2 1002).
  { rewrite Rabs_mult. destruct (rel_size n _ _ N Rx) as [X1 X2]. destruct (rel_size k _ _ K Ry) as [Y1 Y2].
    assert (E : Rabs (r * s) = Rabs r * Rabs s) by apply Rabs_mult. pose proof (Rabs_pos r). pose proof (Rabs_pos s). split.
    - apply Rle_trans with (/ 2 * (/ 2 * Rabs (r * s))); [|rewrite E; replace (/ 2 * (/ 2 * (Rabs r * Rabs s))) with (/ 2 * Rabs r * (/ 2 * Rabs s)) by ring; apply Rmult_le_compat; lra].
      apply Rle_trans with (/ 2 * (/ 2 * bpow radix2 (lo + lo'))); [rewrite !half_bpow; apply bpow_le; lia|lra].
    - apply Rle_trans with (2 * (2 * Rabs (r * s))); [rewrite E; replace (2 * (2 * (Rabs r * Rabs s))) with (2 * Rabs r * (2 * Rabs s)) by ring; apply Rmult_le_compat; try lra; apply Rabs_pos|].
      apply Rle_trans with (2 * (2 * bpow radix2 (hi + hi'))); [lra|rewrite !twice_bpow; apply bpow_le; lia]. }
  split; [|exact S]. exists (Bmult mode_NE x y). pose proof (Bmult_correct 53 1024 Hprec Hmax mode_NE x y) as C. cbn [round_mode] in C.
  rewrite round_lt in C by (apply Rle_lt_trans with (1 := proj2 T); apply bpow_lt; reflexivity).
  destruct C as (C1 & C2 & _). split; [apply mul_equiv|]. split; [rewrite C2, Fx, Fy; reflexivity|]. rewrite C1.
  replace (n + k + 1)%nat with (1 + (n + k))%nat by lia. apply rel_trans with (B2R x * B2R y); [apply rel_round|apply rel_mul; assumption].
  apply Rle_trans with (2 := proj1 T). apply bpow_le. lia.
Qed.
Lemma val_div a b r s n k lo hi lo' hi' : val a r n lo hi -> val b s k lo' hi' -> (n <= 10)%nat -> (k <= 10)%nat -> (-1000 <= lo - hi')%Z -> (hi - lo' <= 1000)%Z ->
  val (fdiv a b) (r / s) (n + k + 1) (lo - hi') (hi - lo').
Proof.
  intros ((x & -> & Fx & Rx) & Bx) ((y & -> & Fy & Ry) & By) N K L H.
  assert (s0 : s <> 0). { intros ->. rewrite Rabs_R0 in By. pose proof (bpow_gt_0 radix2 lo'). lra. }
  assert (Ps : 0 < Rabs s) by (apply Rabs_pos_lt; assumption).
  assert (S : bpow radix2 (lo - hi') <= Rabs (r / s) <= bpow radix2 (hi - lo')).
  { unfold Rdiv, Z.sub. rewrite Rabs_mult, (Rabs_inv s), !bpow_plus, !bpow_opp. pose proof (bpow_gt_0 radix2 lo). pose proof (bpow_gt_0 radix2 lo'). pose proof (bpow_gt_0 radix2 hi').
    split; apply Rmult_le_compat; try lra; try apply Rabs_pos; try (apply Rlt_le, Rinv_0_lt_compat; lra); apply Rinv_le_contravar; lra. }
  destruct (rel_size k _ _ K Ry) as [Y1 Y2]. assert (y0 : B2R y <> 0). { intros E. rewrite E, Rabs_R0 in Y1. lra. }
  assert (RQ : rel (n + k) (B2R x / B2R y) (r / s)) by (apply rel_mul; [exact Rx|apply rel_inv; exact Ry]).
  assert (T : bpow radix2 (-1002) <= Rabs (B2R x / B2R y) <= bpow radix2 1002).
  { destruct (rel_size n _ _ N Rx) as [X1 X2]. unfold Rdiv. rewrite Rabs_mult, Rabs_inv.
    assert (E : Rabs (r / s) = Rabs r * / Rabs s) by (unfold Rdiv; rewrite Rabs_mult, Rabs_inv; reflexivity). pose proof (Rabs_pos r).
    assert (0 < / Rabs s) by (apply Rinv_0_lt_compat; assumption). assert (Py : 0 < Rabs (B2R y)) by lra.
    assert (I1 : / 2 * / Rabs s <= / Rabs (B2R y)) by (rewrite <- Rinv_mult; apply Rinv_le_contravar; lra).
    assert (I2 : / Rabs (B2R y) <= 2 * / Rabs s) by (replace (2 * / Rabs s) with (/ (/ 2 * Rabs s)) by (rewrite Rinv_mult, Rinv_inv; reflexivity); apply Rinv_le_contravar; lra).
    split.
    - apply Rle_trans with (/ 2 * (/ 2 * Rabs (r / s))); [|rewrite E; replace (/ 2 * (/ 2 * (Rabs r * / Rabs s))) with (/ 2 * Rabs r * (/ 2 * / Rabs s)) by ring; apply Rmult_le_compat; lra].
      apply Rle_trans with (/ 2 * (/ 2 * bpow radix2 (lo - hi'))); [rewrite !half_bpow; apply bpow_le; lia|lra].
    - apply Rle_trans with (2 * (2 * Rabs (r / s))); [rewrite E; replace (2 * (2 * (Rabs r * / Rabs s))) with (2 * Rabs r * (2 * / Rabs s)) by ring; apply Rmult_le_compat; try lra; try apply Rabs_pos; apply Rlt_le, Rinv_0_lt_compat; lra|].
      apply Rle_trans with (2 * (2 * bpow radix2 (hi - lo'))); [lra|rewrite !twice_bpow; apply bpow_le; lia]. }
  split; [|exact S]. exists (Bdiv mode_NE x y). pose proof (Bdiv_correct 53 1024 Hprec Hmax mode_NE x y y0) as C. cbn [round_mode] in C.
  rewrite round_lt in C by (apply Rle_lt_trans with (1 := proj2 T); apply bpow_lt; reflexivity).
  destruct C as (C1 & C2 & _). split; [apply div_equiv|]. split; [rewrite C2; exact Fx|]. rewrite C1.
  replace (n + k + 1)%nat with (1 + (n + k))%nat by lia. apply rel_trans with (B2R x / B2R y); [apply rel_round|exact RQ].
  apply Rle_trans with (2 := proj1 T). apply bpow_le. lia.
Qed.
