From Coq Require Import Reals Lra Lia Psatz ZArith.
From Coquelicot Require Import Coquelicot.
From Verif Require Import Real_Math Real_Math_Proofs Vector_Model Vector_Proofs Vector_Proofs2 Geo_Model Geo_Spec Geo_Proofs Kepler_Model Kepler_Spec Kepler_Proofs Kepler_Proofs2 Kepler_Proofs3 Kepler_Proofs4 Kepler_Proofs5 Kepler_Proofs6 Kepler_Proofs7.
Open Scope R_scope.

(** * The truncated series *)
Lemma fact_S n : INR (fact (S n)) = INR (S n) * INR (fact n).
Proof. rewrite fact_simpl, mult_INR. reflexivity. Qed.
Lemma fact_pos n : 0 < INR (fact n).
Proof. apply lt_0_INR, lt_O_fact. Qed.
Lemma mono_derive m y a : is_derive (fun z => a * z ^ S m / INR (fact (S m))) y (a * y ^ m / INR (fact m)).
Proof.
  assert (G : forall F, is_derive (fun z => a * z ^ S m / F) y (a * (INR (S m) * y ^ m) / F)).
  { intros F. auto_derive; [trivial|]. change (match m with O => 1 | S _ => INR m + 1 end) with (INR (S m)). unfold Rdiv. ring. }
  specialize (G (INR (fact (S m)))). replace (a * y ^ m / INR (fact m)) with (a * (INR (S m) * y ^ m) / INR (fact (S m))); [exact G|].
  pose proof (fact_pos m) as Fm. rewrite fact_S. assert (INR (S m) <> 0) by (apply not_0_INR; lia). field. split; [lra|assumption].
Qed.
Lemma integrate_bound (g g' : R -> R) M m : g 0 = 0 -> (forall y, is_derive g y (g' y)) ->
  (forall y, 0 <= y <= 1 -> Rabs (g' y) <= M * y ^ m / INR (fact m)) -> forall y, 0 <= y <= 1 -> Rabs (g y) <= M * y ^ S m / INR (fact (S m)).
Proof.
  intros G0 D B y Hy. pose proof (fact_pos m) as Fm. pose proof (fact_pos (S m)) as Fs.
  assert (Dq : forall z, is_derive (fun z => M * z ^ S m / INR (fact (S m))) z (M * z ^ m / INR (fact m))).
  { intros z. apply mono_derive. }
  destruct (Req_dec y 0) as [->|N]. { rewrite G0, Rabs_R0, pow_i by lia. lra. }
  assert (W : forall s, s = 1 \/ s = -1 -> s * g y <= M * y ^ S m / INR (fact (S m))).
  { intros s Hs. set (h := fun z => M * z ^ S m / INR (fact (S m)) - s * g z).
    destruct (MVT_cor2 h (fun z => M * z ^ m / INR (fact m) - s * g' z) 0 y) as (c & E & I); [lra| |].
    - intros z _. apply is_derive_Reals. unfold h. apply (is_derive_minus (fun z => M * z ^ S m / INR (fact (S m))) (fun z => s * g z)); [apply Dq|]. apply (is_derive_scal g z s), D.
    - assert (Z : h 0 = 0) by (unfold h; rewrite G0, pow_i by lia; field; lra). rewrite Z, !Rminus_0_r in E.
      pose proof (B c ltac:(lra)) as Q. apply Rabs_le_between in Q. assert (0 <= (M * c ^ m / INR (fact m) - s * g' c) * y) by (apply Rmult_le_pos; [destruct Hs as [-> | ->]; lra|lra]).
      unfold h in E. lra. }
  pose proof (W 1 (or_introl eq_refl)) as W1. pose proof (W (-1) (or_intror eq_refl)) as W2. apply Rabs_le. split; lra.
Qed.
Section Series.
Variables (s : R) (c sn : R -> R) (M : R).
Hypothesis s_unit : s = 1 \/ s = -1.
Hypothesis c_derive : forall y, is_derive c y (- s * sn y).
Hypothesis sn_derive : forall y, is_derive sn y (c y).
Hypothesis c_0 : c 0 = 1.
Hypothesis sn_0 : sn 0 = 0.
Hypothesis c_bound : forall y, 0 <= y <= 1 -> Rabs (c y) <= M.
Fixpoint Pc (n : nat) (y : R) : R := match n with O => 0 | S n => Pc n y + (- s) ^ n * y ^ (2 * n) / INR (fact (2 * n)) end.
Fixpoint Ps (n : nat) (y : R) : R := match n with O => 0 | S n => Ps n y + (- s) ^ n * y ^ (2 * n + 1) / INR (fact (2 * n + 1)) end.
Lemma Ps_derive n y : is_derive (Ps n) y (Pc n y).
Proof.
  induction n as [|n IH]; cbn [Ps Pc].
  - apply (is_derive_const 0 y).
  - replace (2 * n + 1)%nat with (S (2 * n)) by lia. apply (is_derive_plus (Ps n) (fun z => (- s) ^ n * z ^ S (2 * n) / INR (fact (S (2 * n))))); [assumption|]. apply mono_derive.
Qed.
Lemma Pc_derive n y : is_derive (Pc (S n)) y (- s * Ps n y).
Proof.
  induction n as [|n IH].
  - cbn [Pc Ps]. replace (- s * 0) with 0 by ring. apply is_derive_ext with (fun _ => 1). { intros z. cbn. field. } apply (is_derive_const 1 y).
  - cbn [Ps]. change (Pc (S (S n))) with (fun z => Pc (S n) z + (- s) ^ (S n) * z ^ (2 * S n) / INR (fact (2 * S n))). rewrite Rmult_plus_distr_l.
    apply (is_derive_plus (Pc (S n)) (fun z => (- s) ^ (S n) * z ^ (2 * S n) / INR (fact (2 * S n)))); [assumption|].
    replace (2 * S n)%nat with (S (2 * n + 1)) by lia. replace (- s * ((- s) ^ n * y ^ (2 * n + 1) / INR (fact (2 * n + 1)))) with ((- s) ^ S n * y ^ (2 * n + 1) / INR (fact (2 * n + 1))) by (cbn [pow]; unfold Rdiv; ring). apply mono_derive.
Qed.
Lemma Ps_0 n : Ps n 0 = 0.
Proof. induction n as [|n IH]; [reflexivity|]. cbn [Ps]. rewrite IH, pow_i by lia. unfold Rdiv. ring. Qed.
Lemma Pc_0 n : Pc (S n) 0 = 1.
Proof. induction n as [|n IH]; [cbn; field|]. change (Pc (S (S n)) 0) with (Pc (S n) 0 + (- s) ^ (S n) * 0 ^ (2 * S n) / INR (fact (2 * S n))). rewrite IH, pow_i by lia. unfold Rdiv. ring. Qed.
Lemma s_abs : Rabs s = 1.
Proof. unfold Rabs. destruct (Rcase_abs s); destruct s_unit; lra. Qed.
Lemma remainder n : (forall y, 0 <= y <= 1 -> Rabs (c y - Pc n y) <= M * y ^ (2 * n) / INR (fact (2 * n))) /\
  (forall y, 0 <= y <= 1 -> Rabs (sn y - Ps n y) <= M * y ^ (S (2 * n)) / INR (fact (S (2 * n)))).
Proof.
  assert (St : forall n, (forall y, 0 <= y <= 1 -> Rabs (c y - Pc n y) <= M * y ^ (2 * n) / INR (fact (2 * n))) -> forall y, 0 <= y <= 1 -> Rabs (sn y - Ps n y) <= M * y ^ (S (2 * n)) / INR (fact (S (2 * n)))).
  { intros m H. apply (integrate_bound (fun y => sn y - Ps m y) (fun y => c y - Pc m y)); [rewrite sn_0, Ps_0; ring| |exact H].
    intros y. apply (is_derive_minus sn (Ps m)); [apply sn_derive|apply Ps_derive]. }
  induction n as [|n [_ IH]]; (split; [|apply St]).
  - intros y Hy. cbn. specialize (c_bound y Hy). replace (c y - 0) with (c y) by ring. replace (M * 1 / 1) with M by field. assumption.
  - intros y Hy. cbn. specialize (c_bound y Hy). replace (c y - 0) with (c y) by ring. replace (M * 1 / 1) with M by field. assumption.
  - replace (2 * S n)%nat with (S (S (2 * n))) by lia. apply (integrate_bound (fun y => c y - Pc (S n) y) (fun y => - s * sn y - - s * Ps n y)); [rewrite c_0, Pc_0; ring| |].
    + intros y. apply (is_derive_minus c (Pc (S n))); [apply c_derive|apply Pc_derive].
    + intros y Hy. replace (- s * sn y - - s * Ps n y) with (- s * (sn y - Ps n y)) by ring. rewrite Rabs_mult, Rabs_Ropp. rewrite s_abs, Rmult_1_l. apply IH. assumption.
  - replace (2 * S n)%nat with (S (S (2 * n))) by lia. apply (integrate_bound (fun y => c y - Pc (S n) y) (fun y => - s * sn y - - s * Ps n y)); [rewrite c_0, Pc_0; ring| |].
    + intros y. apply (is_derive_minus c (Pc (S n))); [apply c_derive|apply Pc_derive].
    + intros y Hy. replace (- s * sn y - - s * Ps n y) with (- s * (sn y - Ps n y)) by ring. rewrite Rabs_mult, Rabs_Ropp. rewrite s_abs, Rmult_1_l. apply IH. assumption.
Qed.
(** The model's sums in terms of these. *)
Definition sum2 (x : R) (n : nat) : R := sum_f_R0 (fun k => (- x) ^ k / INR (fact (2 * k + 2))) n.
Definition sum3 (x : R) (n : nat) : R := sum_f_R0 (fun k => (- x) ^ k / INR (fact (2 * k + 3))) n.
Lemma Pc_sum n y x : x = s * (y * y) -> Pc (S (S n)) y = 1 - x * sum2 x n.
Proof.
  intros E. induction n as [|n IH].
  - unfold sum2. cbn. rewrite E. field.
  - change (Pc (S (S (S n))) y) with (Pc (S (S n)) y + (- s) ^ (S (S n)) * y ^ (2 * S (S n)) / INR (fact (2 * S (S n)))). rewrite IH. unfold sum2 at 2. rewrite tech5. fold (sum2 x n).
    replace (2 * S n + 2)%nat with (2 * S (S n))%nat by lia. rewrite (pow_mult y 2). replace (y ^ 2) with (y * y) by ring. assert (PX : (- x) ^ S n = (- s) ^ S n * (y * y) ^ S n) by (rewrite E; replace (- (s * (y * y))) with (- s * (y * y)) by ring; apply Rpow_mult_distr). rewrite PX.
    set (F := INR (fact _)). set (S0 := sum2 x n). clearbody S0 F. rewrite E. cbn [pow]. unfold Rdiv. ring.
Qed.
Lemma Ps_sum n y x : x = s * (y * y) -> Ps (S (S n)) y = y * (1 - x * sum3 x n).
Proof.
  intros E. induction n as [|n IH].
  - unfold sum3. cbn. rewrite E. field.
  - change (Ps (S (S (S n))) y) with (Ps (S (S n)) y + (- s) ^ (S (S n)) * y ^ (2 * S (S n) + 1) / INR (fact (2 * S (S n) + 1))). rewrite IH. unfold sum3 at 2. rewrite tech5. fold (sum3 x n).
    replace (2 * S n + 3)%nat with (2 * S (S n) + 1)%nat by lia. rewrite pow_add, (pow_mult y 2). replace (y ^ 2) with (y * y) by ring. assert (PX : (- x) ^ S n = (- s) ^ S n * (y * y) ^ S n) by (rewrite E; replace (- (s * (y * y))) with (- s * (y * y)) by ring; apply Rpow_mult_distr). rewrite PX.
    set (F := INR (fact _)). set (S0 := sum3 x n). clearbody S0 F. rewrite E. cbn [pow]. unfold Rdiv. ring.
Qed.
Lemma series_close y x n : 0 < y <= 1 -> x = s * (y * y) -> 0 <= M ->
  Rabs (sum2 x n - (1 - c y) / x) <= M / INR (fact (2 * S (S n))) /\ Rabs (sum3 x n - (1 - sn y / y) / x) <= M / INR (fact (2 * S (S n))).
Proof.
  intros Hy E HM. destruct (remainder (S (S n))) as [Rc Rs]. specialize (Rc y ltac:(lra)). specialize (Rs y ltac:(lra)). rewrite (Pc_sum n y x E) in Rc. rewrite (Ps_sum n y x E) in Rs.
  assert (Yp : 0 < y * y) by nra. assert (Xn : x <> 0) by (rewrite E; destruct s_unit as [H|H]; rewrite H; lra). assert (Xa : Rabs x = y * y) by (rewrite E, Rabs_mult, (Rabs_right (y * y)) by lra; rewrite s_abs; ring).
  pose proof (fact_pos (2 * S (S n))) as Fp. set (F := INR (fact (2 * S (S n)))) in *.
  assert (Small : forall m, (2 <= m)%nat -> y ^ m <= y * y). { intros m Hm. replace m with (2 + (m - 2))%nat by lia. rewrite pow_add. replace (y ^ 2) with (y * y) by ring. rewrite <- (Rmult_1_r (y * y)) at 2. apply Rmult_le_compat_l; [lra|]. rewrite <- (pow1 (m - 2)). apply pow_incr. lra. }
  assert (MF : 0 <= M / F) by (apply Rmult_le_pos; [assumption|apply Rlt_le, Rinv_0_lt_compat; assumption]).
  split; apply Rmult_le_reg_l with (Rabs x); try (rewrite Xa; lra); rewrite <- Rabs_mult.
  - replace (x * (sum2 x n - (1 - c y) / x)) with (c y - (1 - x * sum2 x n)) by (field; assumption). eapply Rle_trans; [exact Rc|]. rewrite Xa.
    replace (M * y ^ (2 * S (S n)) / F) with (y ^ (2 * S (S n)) * (M / F)) by (unfold Rdiv; ring). apply Rmult_le_compat_r; [assumption|]. apply Small. lia.
  - replace (x * (sum3 x n - (1 - sn y / y) / x)) with ((sn y - y * (1 - x * sum3 x n)) / y) by (field; lra). unfold Rdiv at 1. rewrite Rabs_mult, (Rabs_right (/ y)) by (apply Rle_ge, Rlt_le, Rinv_0_lt_compat; lra).
    apply Rmult_le_reg_r with y; [lra|]. rewrite Rmult_assoc, Rinv_l, Rmult_1_r by lra. eapply Rle_trans; [exact Rs|]. rewrite Xa.
    rewrite fact_S. fold F. assert (Fs : 1 <= INR (S (2 * S (S n)))) by (apply (le_INR 1); lia).
    apply Rle_trans with (M * y ^ S (2 * S (S n)) / F).
    + unfold Rdiv. apply Rmult_le_compat_l; [apply Rmult_le_pos; [assumption|apply pow_le; lra]|]. apply Rinv_le_contravar; [assumption|]. rewrite <- (Rmult_1_l F) at 1. apply Rmult_le_compat_r; lra.
    + replace (M * y ^ S (2 * S (S n)) / F) with (y ^ (2 * S (S n)) * (M / F) * y) by (cbn [pow]; unfold Rdiv; ring). apply Rmult_le_compat_r; [lra|]. apply Rmult_le_compat_r; [assumption|]. apply Small. lia.
Qed.
End Series.
Lemma zero_sum (a : nat -> R) n : sum_f_R0 (fun k => (- 0) ^ k / a k) n = / a 0%nat.
Proof. induction n as [|n IH]; [cbn; unfold Rdiv; ring|]. rewrite tech5, IH, Ropp_0, pow_i by lia. unfold Rdiv. ring. Qed.
Lemma fact_step n v : INR (fact n) = IZR v -> INR (fact (S n)) = IZR (Z.of_nat (S n) * v).
Proof. intros H. rewrite fact_S, H, INR_IZR_INZ, mult_IZR. reflexivity. Qed.
Lemma fact_20 : INR (fact 20) = 2432902008176640000.
Proof.
  assert (F : INR (fact 0) = IZR 1) by reflexivity. do 20 apply fact_step in F. rewrite F. reflexivity.
Qed.
Lemma cosh_1 y : 0 <= y <= 1 -> Rabs (cosh y) <= 2.
Proof.
  intros H. rewrite Rabs_right by (pose proof (hyp_pos y); lra). eapply Rle_trans; [apply (cosh_le y 1); lra|]. unfold cosh. pose proof exp_le_3. assert (exp (- (1)) <= 1). { apply Rlt_le. apply Rlt_le_trans with (exp 0); [apply exp_increasing; lra|rewrite exp_0; lra]. } lra.
Qed.
Lemma cos_1 y : Rabs (cos y) <= 2.
Proof. pose proof (COS_bound y). apply Rabs_le. lra. Qed.
Lemma mid_series x : -1 <= x <= 1 -> Rabs (sum2 x 8 - stumpff2 x) <= 2 / 2432902008176640000 /\ Rabs (sum3 x 8 - stumpff3 x) <= 2 / 2432902008176640000.
Proof.
  intros H. rewrite <- fact_20. destruct (Rtotal_order x 0) as [L|[L|L]].
  - assert (Y : 0 < sqrt (- x) <= 1). { split; [apply sqrt_lt_R0; lra|]. rewrite <- sqrt_1. apply sqrt_le_1; lra. }
    assert (E : x = -1 * (sqrt (- x) * sqrt (- x))) by (rewrite sqrt_sqrt; lra).
    assert (Hc : forall z : R_AbsRing, is_derive cosh z (- -1 * sinh z)) by (intros z; auto_derive; [trivial|ring]).
    assert (Hs : forall z : R_AbsRing, is_derive sinh z (cosh z)) by (intros z; auto_derive; [trivial|ring]).
    assert (C0 : cosh 0 = 1) by (unfold cosh; rewrite Ropp_0, exp_0; field).
    pose proof (series_close (-1) cosh sinh 2 (or_intror eq_refl) Hc Hs C0 sinh_zero cosh_1 (sqrt (- x)) x 8 Y E ltac:(lra)) as Q.
    unfold stumpff3, stumpff2, stumpff0, stumpff1. destruct (Req_EM_T x 0); [lra|]. destruct (Rlt_dec 0 x); [lra|]. destruct (Rlt_dec x 0); [|lra]. exact Q.
  - subst x. unfold sum2, sum3, stumpff2, stumpff3. destruct (Req_EM_T 0 0); [|lra]. rewrite (zero_sum (fun k => INR (fact (2 * k + 2)))), (zero_sum (fun k => INR (fact (2 * k + 3)))).
    replace (INR (fact (2 * 0 + 2))) with 2 by (cbn; ring). replace (INR (fact (2 * 0 + 3))) with 6 by (cbn; ring). pose proof (fact_pos 20) as Fp. assert (0 <= 2 / INR (fact 20)) by (apply Rlt_le, Rdiv_lt_0_compat; lra).
    split; rewrite Rminus_diag_eq by field; rewrite Rabs_R0; assumption.
  - assert (Y : 0 < sqrt x <= 1). { split; [apply sqrt_lt_R0; lra|]. rewrite <- sqrt_1. apply sqrt_le_1; lra. }
    assert (E : x = 1 * (sqrt x * sqrt x)) by (rewrite sqrt_sqrt; lra).
    assert (Hc : forall z : R_AbsRing, is_derive cos z (- 1 * sin z)) by (intros z; auto_derive; [trivial|ring]).
    assert (Hs : forall z : R_AbsRing, is_derive sin z (cos z)) by (intros z; auto_derive; [trivial|ring]).
    pose proof (series_close 1 cos sin 2 (or_introl eq_refl) Hc Hs cos_0 sin_0 (fun y _ => cos_1 y) (sqrt x) x 8 Y E ltac:(lra)) as Q.
    unfold stumpff3, stumpff2, stumpff0, stumpff1. destruct (Req_EM_T x 0); [lra|]. destruct (Rlt_dec 0 x); [|lra]. exact Q.
Qed.
Lemma stumpff_close x : close4 (1 / 10 ^ 18) (stumpff x) (exact x).
Proof.
  assert (Z : 0 <= 1 / 10 ^ 18) by lra. unfold stumpff, exact, series_terms. destruct (Rlt_dec x (-1)) as [L|L]; [|destruct (Rlt_dec 1 x) as [U|U]].
  - unfold close4, stumpff3, stumpff2, stumpff0, stumpff1. destruct (Rlt_dec 0 x); [lra|]. destruct (Rlt_dec x 0); [|lra]. destruct (Req_EM_T x 0); [lra|]. rewrite (Rabs_left x) by lra.
    repeat split; rewrite Rminus_diag_eq by reflexivity; rewrite Rabs_R0; assumption.
  - unfold close4, stumpff3, stumpff2, stumpff0, stumpff1. destruct (Rlt_dec 0 x); [|lra]. destruct (Req_EM_T x 0); [lra|]. rewrite (Rabs_right x) by lra.
    repeat split; rewrite Rminus_diag_eq by reflexivity; rewrite Rabs_R0; assumption.
  - destruct (mid_series x ltac:(lra)) as [M2 M3]. change (pred 9) with 8%nat. fold (sum2 x 8). fold (sum3 x 8). cbv zeta. unfold close4.
    assert (E0 : stumpff0 x = 1 - x * stumpff2 x /\ stumpff1 x = 1 - x * stumpff3 x).
    { unfold stumpff2, stumpff3. destruct (Req_EM_T x 0) as [->|N].
      - unfold stumpff0, stumpff1. destruct (Rlt_dec 0 0); [lra|]. rewrite Ropp_0, sqrt_0. split; [unfold cosh; rewrite Ropp_0, exp_0; field|ring].
      - split; field; assumption. }
    destruct E0 as [-> ->]. assert (Xa : Rabs x <= 1) by (apply Rabs_le; lra).
    assert (Sm : forall d, Rabs d <= 2 / 2432902008176640000 -> Rabs (x * d) <= 1 / 10 ^ 18). { intros d Hd. rewrite Rabs_mult. pose proof (Rabs_pos d). apply Rle_trans with (1 * Rabs d); [apply Rmult_le_compat_r; assumption|]. lra. }
    repeat split.
    + replace (1 - x * sum2 x 8 - (1 - x * stumpff2 x)) with (- (x * (sum2 x 8 - stumpff2 x))) by ring. rewrite Rabs_Ropp. apply Sm. assumption.
    + replace (1 - x * sum3 x 8 - (1 - x * stumpff3 x)) with (- (x * (sum3 x 8 - stumpff3 x))) by ring. rewrite Rabs_Ropp. apply Sm. assumption.
    + lra.
    + lra.
Qed.
Lemma stumpff_follows fuel bound pos vel t0 gm P V : 0 < gm -> cross pos vel <> vzero -> (1064 <= fuel)%nat ->
  newtonian gm P V -> P t0 = pos -> V t0 = vel -> forall t,
    2 * reach pos vel gm (t - t0) <= bound -> drift pos vel gm (2 * reach pos vel gm (t - t0)) <= pace pos vel gm / 2 ->
    exists p v, propagate stumpff fuel bound pos vel t0 t gm = Some (p, v) /\
      vlength (vsub p (P t)) <= position_slack pos vel gm (t - t0) /\ vlength (vsub v (V t)) <= velocity_slack pos vel gm (t - t0).
Proof. exact (propagate_near stumpff fuel bound pos vel t0 gm P V stumpff_close). Qed.
(** The unit circle: a radian ahead the bounds are below 1e-15. *)
Lemma circle_slack (p := V3 1 0 0) (v := V3 0 1 0) :
  2 * reach p v 1 1 <= 2 /\ drift p v 1 (2 * reach p v 1 1) <= pace p v 1 / 2 /\ position_slack p v 1 1 <= 1 / 10 ^ 15 /\ velocity_slack p v 1 1 <= 1 / 10 ^ 15.
Proof.
  assert (Lp : vlength p = 1) by (unfold vlength, p; cbn; transitivity (sqrt 1); [f_equal; ring|apply sqrt_1]). assert (Lv : vlength v = 1) by (unfold vlength, v; cbn; transitivity (sqrt 1); [f_equal; ring|apply sqrt_1]).
  assert (La : laplace p v 1 = vzero) by (unfold laplace; rewrite Lp; apply vec_ext; cbn; field).
  assert (L0 : vlength (laplace p v 1) = 0) by (rewrite La; unfold vlength, vzero; cbn; transitivity (sqrt 0); [f_equal; ring|apply sqrt_0]).
  assert (Cl : closest p v 1 = 1) by (unfold closest; rewrite L0; unfold dot, cross, p, v; cbn; field).
  assert (Pa : pace p v 1 = 1) by (unfold pace; rewrite Cl; replace (1 / 1) with 1 by field; rewrite sqrt_1; ring).
  assert (Re : reach p v 1 1 = 1) by (unfold reach; rewrite Pa, Rabs_R1; field). assert (D : dot p v = 0) by (unfold dot, p, v; cbn; ring).
  assert (Gr : forall x, growth p v 1 x = 1). { intros x. unfold growth. rewrite L0. rewrite Rmax_left by lra. rewrite sqrt_0, Rmult_0_l. apply cosh_0. }
  unfold position_slack, velocity_slack, miss. cbv zeta. rewrite Re, Gr. unfold drift. rewrite Cl, Pa, Lp, Lv, D, Rabs_R0. replace (1 / 1) with 1 by field. rewrite sqrt_1. lra.
Qed.

(** * Comets *)
Lemma comet_p_eq q e : 0 <= e -> (if Req_EM_T e 1 then q * 2 else q / (1 - e) * (1 - e * e)) = q * (1 + e) /\ comet_orbits_p q e = q * (1 + e).
Proof.
  intros He. unfold comet_orbits_p. destruct (Req_EM_T e 1) as [->|N]; [split; lra|]. cbv zeta. split; field; lra.
Qed.
Lemma comet_state q e i Om w t gm o : 0 < q -> 0 <= e -> 0 < gm -> comet_orbit q e i Om w t gm = Some o ->
  o_epoch o = t /\ mu_au3_d2 o = gm * CONVERT_GM /\ vlength (o_position o) = q /\ dot (o_position o) (o_velocity o) = 0 /\
  cross (o_position o) (o_velocity o) <> vzero /\ closest (o_position o) (o_velocity o) (mu_au3_d2 o) = q /\ vlength (laplace (o_position o) (o_velocity o) (mu_au3_d2 o)) = e.
Proof.
  intros Hq He Hg. unfold comet_orbit, from_periapsis. destruct (comet_p_eq q e He) as [-> _].
  assert (Cg : 0 < CONVERT_GM). { unfold CONVERT_GM, DAY_S, AU_KM. repeat apply Rdiv_lt_0_compat; lra. }
  set (mu := gm * CONVERT_GM). assert (Mp : 0 < mu) by (apply Rmult_lt_0_compat; assumption).
  assert (Pp : 0 < q * (1 + e)) by nra. assert (Vp : 0 < 1 + e * cos 0) by (rewrite cos_0; lra). set (p := q * (1 + e)) in *.
  assert (Fin : forall o', Some (Orbit (fst (elements_vec p e (DEG2RAD * i) (DEG2RAD * Om) (DEG2RAD * w) 0 mu)) (snd (elements_vec p e (DEG2RAD * i) (DEG2RAD * Om) (DEG2RAD * w) 0 mu)) t mu) = Some o' ->
    o_epoch o' = t /\ mu_au3_d2 o' = mu /\ vlength (o_position o') = q /\ dot (o_position o') (o_velocity o') = 0 /\
    cross (o_position o') (o_velocity o') <> vzero /\ closest (o_position o') (o_velocity o') (mu_au3_d2 o') = q /\ vlength (laplace (o_position o') (o_velocity o') (mu_au3_d2 o')) = e).
  { intros o' E. assert (Eo : o' = Orbit (fst (elements_vec p e (DEG2RAD * i) (DEG2RAD * Om) (DEG2RAD * w) 0 mu)) (snd (elements_vec p e (DEG2RAD * i) (DEG2RAD * Om) (DEG2RAD * w) 0 mu)) t mu) by congruence. subst o'. cbn [o_epoch mu_au3_d2 o_position o_velocity].
    pose proof (state_length p e (DEG2RAD * i) (DEG2RAD * Om) (DEG2RAD * w) 0 mu Pp Vp) as L. pose proof (state_momentum p e (DEG2RAD * i) (DEG2RAD * Om) (DEG2RAD * w) 0 mu Pp Vp) as H.
    pose proof (state_laplace p e (DEG2RAD * i) (DEG2RAD * Om) (DEG2RAD * w) 0 mu Pp Mp Vp) as EV. pose proof (state_radial p e (DEG2RAD * i) (DEG2RAD * Om) (DEG2RAD * w) 0 mu Pp Vp) as RV.
    pose proof (h_pos p mu Pp Mp) as Hh. pose proof (h_sq p mu Pp Mp) as Hs.
    set (pos := fst _) in *. set (vel := snd _) in *.
    assert (U : vlength (along (DEG2RAD * i) (DEG2RAD * Om) (DEG2RAD * w)) = 1). { apply Rsqr_inj; [apply vlength_pos|lra|]. unfold Rsqr. transitivity 1; [|ring]. rewrite <- dot_length. apply along_along. }
    assert (UP : dot (pole (DEG2RAD * i) (DEG2RAD * Om)) (pole (DEG2RAD * i) (DEG2RAD * Om)) = 1). { unfold pole, dot. cbn [vx vy vz]. pose proof (sin2_cos2 (DEG2RAD * i)) as S1. pose proof (sin2_cos2 (DEG2RAD * Om)) as S2. unfold Rsqr in *. set (a := sin (DEG2RAD * i)) in *. set (b := cos (DEG2RAD * i)) in *. set (c := sin (DEG2RAD * Om)) in *. set (d := cos (DEG2RAD * Om)) in *. replace (a * c * (a * c) + - (a * d) * - (a * d) + b * b) with (a * a * (c * c + d * d) + b * b) by ring. rewrite S2. lra. }
    assert (HH : dot (cross pos vel) (cross pos vel) = p * mu). { rewrite H. transitivity (sqrt (p * mu) * sqrt (p * mu) * dot (pole (DEG2RAD * i) (DEG2RAD * Om)) (pole (DEG2RAD * i) (DEG2RAD * Om))); [unfold dot; cbn; ring|]. rewrite UP, Rmult_1_r. exact Hs. }
    assert (LE : vlength (laplace pos vel mu) = e) by (rewrite EV, smul_length, U, Rabs_right by lra; ring).
    split; [reflexivity|]. split; [reflexivity|]. split; [|split; [|split; [|split]]].
    - rewrite L, cos_0. unfold p. field. lra.
    - rewrite RV, sin_0. ring.
    - intros Z. rewrite Z in HH. unfold dot, vzero in HH. cbn in HH. assert (0 < p * mu) by (apply Rmult_lt_0_compat; assumption). lra.
    - unfold closest. rewrite HH, LE. unfold p. field. split; lra.
    - exact LE. }
  unfold with_state, ele_to_vec.
  assert (Sp : forall X : vec * vec, (let (p0, v0) := X in Some (Orbit p0 v0 t mu)) = Some (Orbit (fst X) (snd X) t mu)) by (intros [? ?]; reflexivity).
  destruct (Rlt_dec 1 e); [destruct (Rlt_dec (acos (-1 / e)) 0); [discriminate|]|]; (destruct (Rle_dec 0 (DEG2RAD * i)); [|discriminate]); (destruct (Rle_dec (DEG2RAD * i) PI); [|discriminate]); rewrite Sp; apply Fin.
Qed.
Lemma comet_perihelion q e i Om w t0 gm o P V : 0 < q -> 0 <= e -> 0 < gm -> comet_orbit q e i Om w t0 gm = Some o ->
  newtonian (mu_au3_d2 o) P V -> P (o_epoch o) = o_position o -> V (o_epoch o) = o_velocity o ->
  vlength (P t0) = q /\ (forall t, q <= vlength (P t)).
Proof.
  intros Hq He Hg E N P0 V0. destruct (comet_state q e i Om w t0 gm o Hq He Hg E) as (Et & Em & L & _ & Hc & Cl & _).
  assert (Cg : 0 < CONVERT_GM). { unfold CONVERT_GM, DAY_S, AU_KM. repeat apply Rdiv_lt_0_compat; lra. }
  split.
  - rewrite <- Et, P0. exact L.
  - intros t. rewrite <- Cl. apply (motion_closest (o_position o) (o_velocity o) (o_epoch o) (mu_au3_d2 o) P V); try assumption. rewrite Em. apply Rmult_lt_0_compat; assumption.
Qed.

(** * Inadmissible anomalies, and the mass that is kept *)
Lemma refused_above p e i Om w v mu : 1 < e -> acos (-1 / e) < v -> ele_to_vec p e i Om w v mu = None.
Proof. intros He Hv. unfold ele_to_vec. destruct (Rlt_dec 1 e); [|lra]. destruct (Rlt_dec (acos (-1 / e)) v); [reflexivity|lra]. Qed.
Lemma accepted_below : ele_to_vec 1 2 0 0 0 (- PI) 1 <> None /\ Rabs (- PI) <= PI /\ acos (-1 / 2) < Rabs (- PI) /\ 1 + 2 * cos (- PI) < 0.
Proof.
  pose proof PI_RGT_0 as P. assert (Ab : acos (-1 / 2) < PI). { pose proof (acos_bound (-1 / 2)) as [_ B]. destruct B as [B|B]; [assumption|]. exfalso. assert (Q : cos (acos (-1 / 2)) = -1 / 2) by (apply cos_acos; lra). rewrite B, cos_PI in Q. lra. }
  split; [|split; [|split]].
  - unfold ele_to_vec. destruct (Rlt_dec 1 2); [|lra]. destruct (Rlt_dec (acos (-1 / 2)) (- PI)) as [L|_]; [pose proof (acos_bound (-1 / 2)); lra|]. destruct (Rle_dec 0 0); [|lra]. destruct (Rle_dec 0 PI); [|lra]. discriminate.
  - rewrite Rabs_Ropp, Rabs_right by lra. lra.
  - rewrite Rabs_Ropp, Rabs_right by lra. lra.
  - rewrite cos_neg, cos_PI. lra.
Qed.
Lemma kept_mass_periapsis p e i Om w t gm o : from_periapsis p e i Om w t gm = Some o -> mu_au3_d2 o = gm * CONVERT_GM /\ o_epoch o = t.
Proof. unfold from_periapsis, with_state. destruct (ele_to_vec _ _ _ _ _ _ _) as [[? ?]|]; [|discriminate]. intros E. injection E as <-. split; reflexivity. Qed.
Lemma kept_mass_mean p e i Om w M t gm o : from_mean_anomaly p e i Om w M t gm = Some o -> mu_au3_d2 o = gm * CONVERT_GM /\ o_epoch o = t.
Proof. unfold from_mean_anomaly, with_state. destruct (anomaly_of _ _ _ _); [|discriminate]. destruct (ele_to_vec _ _ _ _ _ _ _) as [[? ?]|]; [|discriminate]. intros E. injection E as <-. split; reflexivity. Qed.
Lemma wrong_mass p e i Om w v t mu o : mu <> 0 -> from_true_anomaly p e i Om w v t (Some mu) None = Some o \/ from_true_anomaly p e i Om w v t None (Some (mu * CONVERT_GM)) = Some o ->
  mu_au3_d2 o = mu /\ mu_au3_d2 o <> mu * CONVERT_GM.
Proof.
  intros Hm H. assert (Cg : 0 < CONVERT_GM < 1 / 10 ^ 10). { unfold CONVERT_GM, DAY_S, AU_KM. split; [repeat apply Rdiv_lt_0_compat; lra|]. replace (86400 * 86400 / (1495978707 / 10) / (1495978707 / 10) / (1495978707 / 10)) with (86400 * 86400 * 1000 / (1495978707 * 1495978707 * 1495978707)) by field. apply Rmult_lt_reg_r with (1495978707 * 1495978707 * 1495978707); [lra|]. unfold Rdiv. rewrite Rmult_assoc, Rinv_l by lra. lra. }
  assert (E : mu_au3_d2 o = mu).
  { unfold from_true_anomaly in H. destruct H as [H|H].
    - destruct (Req_EM_T mu 0); [contradiction|]. cbn [Bool.eqb] in H. destruct (ele_to_vec _ _ _ _ _ _ _) as [[? ?]|]; [|discriminate]. injection H as <-. reflexivity.
    - destruct (Req_EM_T (mu * CONVERT_GM) 0) as [Z|_]; [apply Rmult_integral in Z; destruct Z; lra|]. cbn [Bool.eqb] in H.
      destruct (ele_to_vec _ _ _ _ _ _ _) as [[? ?]|]; [|discriminate]. injection H as <-. cbn [mu_au3_d2]. unfold CONVERT_GM, DAY_S, AU_KM. field. }
  split; [assumption|]. rewrite E. intros Q. assert (mu * (1 - CONVERT_GM) = 0) by lra. apply Rmult_integral in H0. destruct H0; lra.
Qed.
Lemma true_anomaly_accepted : from_true_anomaly 1000 0 0 0 0 0 0 (Some 1) None <> None.
Proof.
  unfold from_true_anomaly. destruct (Req_EM_T 1 0); [lra|]. cbn [Bool.eqb]. unfold ele_to_vec. destruct (Rlt_dec 1 0); [lra|]. pose proof PI_RGT_0. destruct (Rle_dec 0 0); [|lra]. destruct (Rle_dec 0 PI); [|lra].
  destruct (elements_vec _ _ _ _ _ _ _). discriminate.
Qed.
Lemma comet_ex : comet_orbit 1 (3 / 2) 10 20 30 2451545 1 <> None.
Proof.
  unfold comet_orbit, from_periapsis, with_state, ele_to_vec. destruct (Req_EM_T _ _); [lra|]. destruct (Rlt_dec _ _); [|lra]. pose proof (acos_bound (-1 / (3 / 2))). destruct (Rlt_dec _ 0); [lra|]. assert (D : 0 < DEG2RAD < 1 / 50) by (unfold DEG2RAD; lra). pose proof PI2_3_2 as P3. unfold PI2 in P3.
  destruct (Rle_dec 0 _); [|lra]. destruct (Rle_dec _ PI); [|lra]. destruct (elements_vec _ _ _ _ _ _ _). discriminate.
Qed.
(** * Forms of the earlier results for the property file *)
Lemma accepted_is p e i Om w v mu pos vel : ele_to_vec p e i Om w v mu = Some (pos, vel) -> pos = fst (elements_vec p e i Om w v mu) /\ vel = snd (elements_vec p e i Om w v mu).
Proof.
  unfold ele_to_vec. destruct (Rlt_dec 1 e); [destruct (Rlt_dec _ v); [discriminate|]|]; (destruct (Rle_dec 0 i); [|discriminate]); (destruct (Rle_dec i PI); [|discriminate]); intros E; inversion E; split; reflexivity.
Qed.
Lemma state_elements p e i Om w v mu pos vel : 0 < p -> 0 < mu -> 0 < 1 + e * cos v -> ele_to_vec p e i Om w v mu = Some (pos, vel) ->
  vlength pos = p / (1 + e * cos v) /\ pos = smul (vlength pos) (along i Om (w + v)) /\ cross pos vel = smul (sqrt (p * mu)) (pole i Om) /\
  dot vel vel = mu * (2 / vlength pos - (1 - e * e) / p) /\ laplace pos vel mu = smul e (along i Om w).
Proof.
  intros Hp Hm Hv E. apply accepted_is in E. destruct E as [-> ->].
  pose proof (state_length p e i Om w v mu Hp Hv) as L. rewrite L. split; [reflexivity|]. split; [rewrite (Rplus_comm w v); exact (pos_eq p e i Om w v mu)|].
  split; [exact (state_momentum p e i Om w v mu Hp Hv)|]. split; [exact (state_speed p e i Om w v mu Hp Hm Hv)|exact (state_laplace p e i Om w v mu Hp Hm Hv)].
Qed.
Lemma elements_accepted : ele_to_vec 1 (1 / 2) 1 2 3 3 1 <> None /\ ele_to_vec 1 1 1 2 3 1 1 <> None /\ ele_to_vec 1 2 1 2 3 (-1) 1 <> None /\ 0 < 1 + 2 * cos (-1).
Proof.
  pose proof PI2_3_2 as P3. unfold PI2 in P3. unfold ele_to_vec. pose proof (acos_bound (-1 / 2)).
  assert (0 < cos (-1)) by (apply cos_gt_0; lra).
  repeat split; try lra; repeat (match goal with |- context [Rlt_dec ?a ?b] => destruct (Rlt_dec a b) end; try lra); (destruct (Rle_dec 0 1); [|lra]); (destruct (Rle_dec 1 PI); [|lra]); discriminate.
Qed.
Lemma circular_anomaly p gm M : anomaly_of 0 p gm M = None.
Proof. unfold anomaly_of. destruct (Rlt_dec 0 1); [|lra]. rewrite circular_fails. reflexivity. Qed.
Lemma rmod_same_angle x : same_angle (rmod x tau) x.
Proof. unfold same_angle, rmod. exists (- rfloor (x / tau))%Z. rewrite opp_IZR. ring. Qed.
Lemma normpi_same_angle x : same_angle (normpi x) x.
Proof. unfold normpi. destruct (rmod_same_angle (x + PI)) as [k E]. exists k. rewrite E. ring. Qed.
Lemma elements_round p e i Om w v mu pos vel : 0 < p -> tiny < e -> 0 < i < PI -> 0 < 1 + e * cos v -> 0 < mu ->
  ele_to_vec p e i Om w v mu = Some (pos, vel) ->
  exists el, osculating pos vel mu = Some el /\ el_p el = p /\ el_e el = e /\ el_i el = i /\
    same_angle (el_Om el) Om /\ same_angle (el_w el) w /\ same_angle (el_v el) v /\ 0 <= el_Om el < tau /\ 0 <= el_w el < tau.
Proof.
  intros Hp He Hi Hv Hm E. apply accepted_is in E. destruct E as [-> ->]. eexists. split; [exact (elements_back p e i Om w v mu Hp He Hi Hv Hm)|]. cbn [el_p el_e el_i el_Om el_w el_v].
  pose proof tau_pos as T. repeat split; try apply rmod_same_angle; try (apply rmod_bounds; assumption).
  unfold reported_v. destruct (Rlt_dec e (1 - tiny)); [apply rmod_same_angle|apply normpi_same_angle].
Qed.
Lemma circle_state : let pos := V3 1 0 0 in let vel := V3 0 1 0 in cross pos vel <> vzero /\ laplace pos vel 1 = vzero.
Proof.
  cbv zeta. split; [intros H; apply (f_equal vz) in H; cbn in H; lra|]. assert (L : vlength (V3 1 0 0) = 1) by (unfold vlength; cbn; replace (1 * 1 + 0 * 0 + 0 * 0) with 1 by ring; apply sqrt_1).
  unfold laplace. rewrite L. unfold cross, vzero. apply vec_ext; cbn; field.
Qed.
Lemma hyperbolic_time_ok p e F i Om w mu : 0 < p -> 1 < e -> - PI <= F < PI ->
  let el := Elements p e i Om w (true_anomaly_hyperbolic e F) in let a := p / (e * e - 1) in let n := sqrt (mu / a ^ 3) * 86400 in too_small <= n ->
  seen_hyperbolic e F (el_v el) /\ n * days_since_periapsis el mu = hyperbolic_mean_anomaly e F.
Proof.
  intros Hp He HF el a n Hn. destruct (hyperbolic_time p e F i Om w mu Hp He Hn) as [S D]. split; [exact S|]. rewrite normpi_id in D by assumption. exact D.
Qed.
Lemma motion_ex : let a := 3 / (2 * 2 - 1) in too_small <= sqrt (1 / a ^ 3) * 86400.
Proof. cbv zeta. replace (1 / (3 / (2 * 2 - 1)) ^ 3) with 1 by field. rewrite sqrt_1. unfold too_small. lra. Qed.
Lemma comet_eccentricity q e i Om w t gm o : 0 < q -> 0 <= e -> 0 < gm -> comet_orbit q e i Om w t gm = Some o ->
  o_epoch o = t /\ mu_au3_d2 o = gm * CONVERT_GM /\ vlength (laplace (o_position o) (o_velocity o) (mu_au3_d2 o)) = e.
Proof. intros H1 H2 H3 H4. destruct (comet_state q e i Om w t gm o H1 H2 H3 H4) as (A & B & _ & _ & _ & _ & C). auto. Qed.
Lemma comets_p q e : 0 <= e -> comet_orbits_p q e = q * (1 + e).
Proof. intros H. apply comet_p_eq. assumption. Qed.
