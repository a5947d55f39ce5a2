(** The ten steps of [eccentric_anomaly]: they suffice up to an eccentricity of 0.85,
    and do not at the periapsis of an orbit that is almost a parabola. *)
From Coq Require Import Reals Lra Lia Psatz ZArith.
From Verif Require Import Real_Math Real_Math_Proofs Vector_Model Geo_Model Geo_Spec Geo_Proofs Kepler_Model Kepler_Spec Kepler_Proofs2 Kepler_Proofs4 Light_Proofs5.
Open Scope R_scope.

(** * Sines and cosines *)
Ltac series H :=
  let F := fresh "F" in
  assert (F : forall n, INR (fact (S n)) = INR (S n) * INR (fact n)) by (intros n; rewrite <- mult_INR; reflexivity);
  unfold sin_approx, cos_approx in H; cbn [Nat.mul Nat.add sum_f_R0] in H; unfold sin_term, cos_term in H; cbn [Nat.mul Nat.add] in H;
  rewrite !F in H; change (INR (fact 0)) with 1 in H; rewrite !INR_IZR_INZ in H; cbn [Z.of_nat Pos.of_succ_nat Pos.succ] in H.
Lemma cos_up x : -2 <= x <= 2 -> cos x <= 1 - x ^ 2 / 2 + x ^ 4 / 24.
Proof. intros Hx. pose proof (pre_cos_bound x 0 ltac:(lra) ltac:(lra)) as [_ H]. series H. cbn [pow] in *. lra. Qed.
Lemma cos_dn x : -2 <= x <= 2 -> 1 - x ^ 2 / 2 + x ^ 4 / 24 - x ^ 6 / 720 <= cos x.
Proof. intros Hx. pose proof (pre_cos_bound x 1 ltac:(lra) ltac:(lra)) as [H _]. series H. cbn [pow] in *. lra. Qed.
Lemma cos_dn2 x : -2 <= x <= 2 -> 1 - x ^ 2 / 2 <= cos x.
Proof. intros Hx. pose proof (pre_cos_bound x 0 ltac:(lra) ltac:(lra)) as [H _]. series H. cbn [pow] in *. lra. Qed.
Lemma cos_up8 x : -2 <= x <= 2 -> cos x <= 1 - x ^ 2 / 2 + x ^ 4 / 24 - x ^ 6 / 720 + x ^ 8 / 40320.
Proof. intros Hx. pose proof (pre_cos_bound x 1 ltac:(lra) ltac:(lra)) as [_ H]. series H. cbn [pow] in *. lra. Qed.
Lemma sin_up x : 0 <= x <= 2 -> sin x <= x - x ^ 3 / 6 + x ^ 5 / 120.
Proof. intros Hx. pose proof (pre_sin_bound x 0 ltac:(lra) ltac:(lra)) as [_ H]. series H. cbn [pow] in *. lra. Qed.
Lemma sin_dn x : 0 <= x <= 2 -> x - x ^ 3 / 6 <= sin x.
Proof. intros Hx. pose proof (pre_sin_bound x 0 ltac:(lra) ltac:(lra)) as [H _]. series H. cbn [pow] in *. lra. Qed.
Lemma sin_le x : 0 <= x -> sin x <= x.
Proof. intros Hx. destruct (Req_dec x 0) as [->|N]; [rewrite sin_0; lra|]. apply Rlt_le, sin_lt_x. lra. Qed.
Lemma pi_high : PI < 31418 / 10000.
Proof.
  pose proof (cos_up8 (31418 / 20000) ltac:(lra)) as H. assert (cos (31418 / 20000) < 0) by (cbn [pow] in H; lra). pose proof PI2_3_2. pose proof PI_RGT_0.
  destruct (Rlt_dec (PI / 2) (31418 / 20000)); [lra|]. exfalso. assert (0 <= cos (31418 / 20000)) by (apply cos_ge_0; lra). lra.
Qed.
(** The parabola that the starting value puts in place of the sine. *)
Lemma parabola_sine x : 0 <= x <= PI -> Rabs (4 * (x / PI) * (1 - x / PI) - sin x) <= 6 / 100.
Proof.
  intros Hx. pose proof pi_low as PL. pose proof pi_high as PH. set (u := PI / 2 - x).
  assert (Es : sin x = cos u) by (unfold u; rewrite cos_shift; reflexivity). rewrite Es.
  assert (Ep : 4 * (x / PI) * (1 - x / PI) = 1 - 4 / (PI * PI) * (u * u)) by (unfold u; field; lra). rewrite Ep.
  assert (Hu : -15709 / 10000 <= u <= 15709 / 10000) by (unfold u; lra).
  pose proof (cos_up u ltac:(lra)) as U. pose proof (cos_dn u ltac:(lra)) as D.
  assert (K : 405 / 1000 <= 4 / (PI * PI) <= 406 / 1000).
  { assert (9869 / 1000 <= PI * PI <= 98710 / 10000) by nra. set (q := PI * PI) in *.
    assert (E : 4 / q * q = 4) by (field; lra). assert (0 < 4 / q) by (apply Rdiv_lt_0_compat; lra). split; nra. }
  set (k := 4 / (PI * PI)) in *. clearbody k. set (w := u * u). assert (W : 0 <= w <= 2468 / 1000) by (unfold w; nra).
  replace (u ^ 2) with w in * by (unfold w; ring). replace (u ^ 4) with (w * w) in * by (unfold w; ring). replace (u ^ 6) with (w * w * w) in * by (unfold w; ring).
  clearbody w u. assert (0 <= k * w) by nra. assert (405 / 1000 * w <= k * w <= 406 / 1000 * w) by nra.
  assert (A : 0 <= w * (2468 / 1000 - w)) by nra. assert (B : w * w * w <= 2468 / 1000 * (w * w)) by nra. pose proof (Rle_0_sqr (w - 1242 / 1000)) as Sq. unfold Rsqr in Sq.
  apply Rabs_le. split; lra.
Qed.
(** The third-order expansion of the sine. *)
Lemma cubic_sine d : Rabs d <= 1 -> Rabs (sin d - d) <= Rabs d ^ 3 / 6.
Proof.
  intros Hd. destruct (Rle_dec 0 d).
  - rewrite (Rabs_right d) in * by lra. pose proof (sin_dn d ltac:(lra)). pose proof (sin_le d ltac:(lra)). apply Rabs_le. split; [lra|]. assert (0 <= d ^ 3) by (apply pow_le; lra). lra.
  - assert (H0 : 0 <= - d <= 1) by (split; [lra|]; rewrite Rabs_left in Hd; lra). rewrite (Rabs_left d) by lra.
    pose proof (sin_dn (- d) ltac:(lra)) as A. pose proof (sin_le (- d) ltac:(lra)) as B. rewrite sin_neg in *. assert (0 <= (- d) ^ 3) by (apply pow_le; lra). apply Rabs_le. split; lra.
Qed.
Lemma quartic_cosine d : Rabs d <= 1 -> Rabs (cos d - 1 + d * d / 2) <= Rabs d ^ 4 / 24.
Proof.
  intros Hd. assert (-1 <= d <= 1) by (apply Rabs_bounds; assumption). assert (Q : d ^ 4 = Rsqr (d * d)) by (unfold Rsqr; ring). pose proof (Rle_0_sqr (d * d)) as Z. replace (Rabs d ^ 4) with (d ^ 4) by (rewrite RPow_abs, Rabs_right; lra).
  pose proof (cos_up d ltac:(lra)). pose proof (cos_dn2 d ltac:(lra)). replace (d ^ 2) with (d * d) in * by ring. apply Rabs_le. split; lra.
Qed.
Lemma sine_expansion x d : Rabs d <= 45 / 100 -> Rabs (sin (x - d) - (sin x - d * cos x - d * d / 2 * sin x)) <= 19 / 100 * Rabs d ^ 3.
Proof.
  intros Hd. pose proof (cubic_sine d ltac:(lra)) as A. pose proof (quartic_cosine d ltac:(lra)) as B.
  rewrite sin_minus. replace (sin x * cos d - cos x * sin d - (sin x - d * cos x - d * d / 2 * sin x)) with (sin x * (cos d - 1 + d * d / 2) + - (cos x * (sin d - d))) by ring.
  eapply Rle_trans; [apply Rabs_triang|]. rewrite Rabs_Ropp, !Rabs_mult.
  assert (Rabs (sin x) <= 1) by (apply Rabs_le, SIN_bound). assert (Rabs (cos x) <= 1) by (apply Rabs_le, COS_bound).
  pose proof (Rabs_pos d). pose proof (Rabs_pos (sin x)). pose proof (Rabs_pos (cos x)). pose proof (Rabs_pos (cos d - 1 + d * d / 2)). pose proof (Rabs_pos (sin d - d)).
  assert (Rabs (sin x) * Rabs (cos d - 1 + d * d / 2) <= Rabs d ^ 4 / 24) by nra.
  assert (Rabs (cos x) * Rabs (sin d - d) <= Rabs d ^ 3 / 6) by nra.
  set (a := Rabs d) in *. assert (0 <= a ^ 3) by (apply pow_le; assumption). replace (a ^ 4) with (a * a ^ 3) in * by ring. nra.
Qed.

(** * One step, with an eccentricity of at most 0.85 *)
Lemma halley_step e M x : 0 < e <= 85 / 100 ->
  let f1 := 1 - e * cos x in let f2 := e * sin x in let f := x - f2 - M in let d := f1 * f1 - 1 / 2 * f * f2 in let dE := f * f1 / d in
  Rabs f <= 51 / 1000 -> d <> 0 /\ Rabs dE <= 9 * Rabs f /\ Rabs (x - dE - e * sin (x - dE) - M) <= 110 * Rabs f ^ 3.
Proof.
  intros He f1 f2 f d dE Hf. pose proof (sin2_cos2 x) as Q. unfold Rsqr in Q. pose proof (COS_bound x) as C.
  assert (G : 15 / 100 <= f1 <= 185 / 100) by (unfold f1; nra).
  assert (T : f2 * f2 <= 7225 / 10000 - (1 - f1) * (1 - f1)) by (unfold f1, f2; nra).
  assert (P4 : 7225 / 10000 - (1 - f1) * (1 - f1) >= 0) by nra.
  pose proof (Rabs_pos f) as Pf. set (a := Rabs f) in *. pose proof (Rabs_pos f2) as P2. set (b := Rabs f2) in *.
  assert (Eb : b * b = f2 * f2) by (unfold b; rewrite <- Rabs_mult, Rabs_right; [reflexivity|nra]).
  set (g := f1) in *.
  (* the correction to the denominator *)
  assert (K1 : a * b <= 4 / 10 * (g * g)).
  { assert (H : (a * b) * (a * b) <= (4 / 10 * (g * g)) * (4 / 10 * (g * g))).
    { assert (A2 : a * a <= 2601 / 1000000) by nra. replace ((a * b) * (a * b)) with ((a * a) * (b * b)) by ring. rewrite Eb.
      assert (S1 : (a * a) * (f2 * f2) <= 2601 / 1000000 * (7225 / 10000 - (1 - g) * (1 - g))) by nra. 
      assert (S2 : 2601 / 1000000 * (7225 / 10000 - (1 - g) * (1 - g)) <= 16 / 100 * ((g * g) * (g * g))).
      { clear - G. pose proof (Rle_0_sqr (g * g - 35 / 1000)) as A. unfold Rsqr in A. pose proof (Rle_0_sqr (g - 189 / 1000)) as B. unfold Rsqr in B. nra. }
      nra. }
    assert (0 <= 4 / 10 * (g * g)) by nra. assert (0 <= a * b) by nra. nra. }
  assert (K2 : Rabs (1 / 2 * f * f2) <= 2 / 10 * (g * g)). { rewrite !Rabs_mult, (Rabs_right (1 / 2)) by lra. fold a b. lra. }
  apply Rabs_bounds in K2. assert (D : 8 / 10 * (g * g) <= d) by (unfold d; lra). assert (Dp : 0 < d) by nra.
  assert (ED : dE * d = f * g) by (unfold dE; field; lra).
  assert (BD : Rabs dE * (8 / 10 * g) <= a).
  { assert (H : Rabs dE * d = a * g). { transitivity (Rabs (dE * d)); [rewrite Rabs_mult, (Rabs_right d) by lra; reflexivity|]. rewrite ED, Rabs_mult, (Rabs_right g) by lra. reflexivity. }
    pose proof (Rabs_pos dE). assert (Rabs dE * (8 / 10 * (g * g)) <= a * g) by (rewrite <- H; apply Rmult_le_compat_l; assumption). apply Rmult_le_reg_r with g; [lra|]. lra. }
  pose proof (Rabs_pos dE) as PD. set (h := Rabs dE) in *.
  assert (B9 : h <= 9 * a) by nra. split; [lra|]. split; [exact B9|].
  (* the next residual *)
  assert (Hh : h <= 45 / 100). { assert (h * (12 / 100) <= a) by nra. nra. }
  pose proof (sine_expansion x dE Hh) as X. fold h in X. set (R3 := sin (x - dE) - _) in X.
  assert (Ef : x - dE - e * sin (x - dE) - M = f2 * f2 * (dE * dE) * f / (4 * (g * g)) - e * R3).
  { replace (sin (x - dE)) with (R3 + (sin x - dE * cos x - dE * dE / 2 * sin x)) by (unfold R3; ring).
    assert (L : x - dE - e * (sin x - dE * cos x - dE * dE / 2 * sin x) - M = f - g * dE + f2 * (dE * dE) / 2) by (unfold f, f2, g, f1; field).
    assert (W : f - g * dE = - (dE * f * f2) / (2 * g)). { apply Rmult_eq_reg_r with (2 * g); [|lra]. replace (- (dE * f * f2) / (2 * g) * (2 * g)) with (- (dE * f * f2)) by (field; lra). unfold d in ED. nra. }
    replace (x - dE - e * (R3 + (sin x - dE * cos x - dE * dE / 2 * sin x)) - M) with (x - dE - e * (sin x - dE * cos x - dE * dE / 2 * sin x) - M - e * R3) by ring. rewrite L, W.
    assert (V : dE = f / g + dE * f * f2 / (2 * (g * g))). { apply Rmult_eq_reg_r with g; [|lra]. replace ((f / g + dE * f * f2 / (2 * (g * g))) * g) with (f - - (dE * f * f2) / (2 * g)) by (field; lra). lra. }
    replace (- (dE * f * f2) / (2 * g) + f2 * (dE * dE) / 2) with (f2 * dE / 2 * (dE - f / g)) by (field; lra).
    replace (dE - f / g) with (dE * f * f2 / (2 * (g * g))) by lra. field. lra. }
  rewrite Ef. eapply Rle_trans; [apply Rabs_triang|]. rewrite Rabs_Ropp.
  assert (A1 : Rabs (f2 * f2 * (dE * dE) * f / (4 * (g * g))) = (b * b) * (h * h) * a / (4 * (g * g))).
  { unfold Rdiv. rewrite !Rabs_mult. fold a b h. rewrite (Rabs_right (/ (4 * (g * g)))); [reflexivity|]. apply Rle_ge, Rlt_le, Rinv_0_lt_compat. nra. }
  assert (A2 : Rabs (e * R3) <= 85 / 100 * (19 / 100 * h ^ 3)). { rewrite Rabs_mult, (Rabs_right e) by lra. pose proof (Rabs_pos R3). nra. }
  rewrite A1, Eb. 
  set (t := a / (8 / 10 * g)). assert (Ht : h <= t). { unfold t. apply Rmult_le_reg_r with (8 / 10 * g); [lra|]. replace (a / (8 / 10 * g) * (8 / 10 * g)) with a by (field; lra). exact BD. }
  assert (H3 : h ^ 3 <= t ^ 3) by (apply pow_incr; lra). assert (H2 : h * h <= t * t) by nra.
  assert (A3 : f2 * f2 * (h * h) * a / (4 * (g * g)) <= (7225 / 10000 - (1 - g) * (1 - g)) * (t * t) * a / (4 * (g * g))).
  { apply Rmult_le_compat_r; [apply Rlt_le, Rinv_0_lt_compat; nra|]. apply Rmult_le_compat_r; [assumption|]. apply Rmult_le_compat; try nra. }
  assert (A4 : (7225 / 10000 - (1 - g) * (1 - g)) * (t * t) * a / (4 * (g * g)) + 85 / 100 * (19 / 100 * t ^ 3) = a ^ 3 * ((7225 / 10000 - (1 - g) * (1 - g)) * (100 / 256) + 85 / 100 * (19 / 100) * (1000 / 512) * g) / (g * g * (g * g))).
  { unfold t. field. lra. }
  assert (A5 : a ^ 3 * ((7225 / 10000 - (1 - g) * (1 - g)) * (100 / 256) + 85 / 100 * (19 / 100) * (1000 / 512) * g) / (g * g * (g * g)) <= 110 * a ^ 3).
  { assert (P : 0 < g * g * (g * g)) by (assert (0 < g * g) by nra; nra). apply Rmult_le_reg_r with (g * g * (g * g)); [assumption|]. unfold Rdiv at 1. rewrite Rmult_assoc, Rinv_l by lra. rewrite Rmult_1_r.
    assert (0 <= a ^ 3) by (apply pow_le; assumption). replace (110 * a ^ 3 * (g * g * (g * g))) with (a ^ 3 * (110 * (g * g * (g * g)))) by ring. apply Rmult_le_compat_l; [assumption|].
    clear - G. pose proof (Rle_0_sqr (g * g - 225 / 10000)) as A. unfold Rsqr in A. nra. }
  lra.
Qed.

(** * The start value *)
Lemma start_value e M (b := 1 / 4 * PI / e - 1) (E := 1 / 2 * PI * b * (rsign b * sqrt (1 + M / (e * b * b)) - 1)) :
  0 < e -> b <> 0 -> 0 <= M <= PI -> 0 <= E <= PI /\ E - e * (4 * (E / PI) * (1 - E / PI)) = M.
Proof.
  intros He Hb HM. pose proof PI_RGT_0 as P. assert (Eb : e * (b + 1) = PI / 4) by (unfold b; field; lra).
  assert (P1 : 0 < e * b * b) by (assert (0 < b * b) by nra; nra).
  assert (P2 : 0 <= M / (e * b * b)) by (apply Rmult_le_pos; [lra|apply Rlt_le, Rinv_0_lt_compat; assumption]).
  set (q := sqrt (1 + M / (e * b * b))) in *. assert (Q : q * q = 1 + M / (e * b * b)) by (apply sqrt_sqrt; lra). assert (Q0 : 0 <= q) by apply sqrt_pos. assert (Q1 : 1 <= q) by nra.
  set (w := b * rsign b * q). assert (W : w * w = b * b + M / e).
  { assert (rsign b * rsign b = 1) by (destruct (rsign_cases b) as [[_ ->]|[[_ ->]|[L _]]]; lra). transitivity (b * b * (q * q) * (rsign b * rsign b)); [unfold w; ring|]. rewrite H, Q. field. lra. }
  assert (W0 : Rabs b <= w). { unfold w. destruct (rsign_cases b) as [[L ->]|[[L ->]|[L _]]]; [rewrite Rabs_right by lra; nra|rewrite Rabs_left by lra; nra|lra]. }
  assert (EE : E = PI / 2 * (w - b)) by (unfold E, w; field). clearbody E w. subst E.
  assert (b <= w) by (pose proof (Rle_abs b); lra). pose proof (Rabs_pos b) as W1.
  assert (Me : M / e * e = M) by (field; lra). split; [split|].
  - nra.
  - assert (w <= b + 2); [|nra]. assert (B1 : -1 < b) by nra. assert (M / e <= 4 * (b + 1)); [|nra]. apply Rmult_le_reg_r with e; [lra|]. rewrite Me. lra.
  - replace (PI / 2 * (w - b) / PI) with ((w - b) / 2) by (field; lra). 
    replace (PI / 2 * (w - b) - e * (4 * ((w - b) / 2) * (1 - (w - b) / 2))) with ((w - b) * (PI / 2 - 2 * (e * (b + 1)) + e * (w + b))) by field. rewrite Eb.
    replace ((w - b) * (PI / 2 - 2 * (PI / 4) + e * (w + b))) with (e * (w * w - b * b)) by field. rewrite W. lra.
Qed.
(** * Five steps suffice *)
Lemma halley_found n e M x : 0 < e <= 85 / 100 -> Rabs (x - e * sin x - M) <= 51 / 1000 -> halley (5 + n) e M x <> None.
Proof.
  intros He H0. change (5 + n)%nat with (S (S (S (S (S n))))).
  assert (Step : forall m x0 r, r <= 51 / 1000 -> Rabs (x0 - e * sin x0 - M) <= r -> (9 * r < 1 / 10 ^ 14 \/ forall x1, Rabs (x1 - e * sin x1 - M) <= 110 * r ^ 3 -> halley m e M x1 <> None) -> halley (S m) e M x0 <> None).
  { intros m x0 r Hr Hx K. cbn [halley]. destruct (halley_step e M x0 He) as (N & L & B); [lra|]. cbv zeta.
    destruct (Req_EM_T _ 0) as [Z|_]; [contradiction|]. destruct (Rlt_dec _ _) as [_|F]; [discriminate|].
    destruct K as [K|K]; [exfalso; lra|]. apply K. eapply Rle_trans; [exact B|]. apply Rmult_le_compat_l; [lra|]. apply pow_incr. split; [apply Rabs_pos|assumption]. }
  apply Step with (51 / 1000); [lra|exact H0|]. right. intros x1 H1.
  apply Step with (15 / 1000); [lra|eapply Rle_trans; [exact H1|]; lra|]. right. intros x2 H2.
  apply Step with (4 / 10000); [lra|eapply Rle_trans; [exact H2|]; lra|]. right. intros x3 H3.
  apply Step with (1 / 10 ^ 8); [lra|eapply Rle_trans; [exact H3|]; lra|]. right. intros x4 H4.
  apply Step with (1 / 10 ^ 20); [lra|eapply Rle_trans; [exact H4|]; lra|]. left. lra.
Qed.
Lemma normpi_range M : - PI <= normpi M < PI.
Proof. unfold normpi. pose proof (rmod_bounds (M + PI) tau tau_pos). unfold tau in *. lra. Qed.
Lemma eccentric_found e M : 0 < e <= 85 / 100 -> e <> PI / 4 -> eccentric_anomaly e M <> None.
Proof.
  intros He Ne. pose proof PI_RGT_0 as P. unfold eccentric_anomaly. destruct (Req_EM_T e 0); [lra|]. set (b := 1 / 4 * PI / e - 1).
  assert (Eb : e * (b + 1) = PI / 4) by (unfold b; field; lra). destruct (Req_EM_T b 0) as [Z|Z]; [exfalso; rewrite Z in Eb; lra|].
  set (N := normpi M * rsign (normpi M)). pose proof (normpi_range M) as R0.
  assert (HN : 0 <= N <= PI) by (unfold N; destruct (rsign_cases (normpi M)) as [[L ->]|[[L ->]|[L ->]]]; lra).
  set (E0 := 1 / 2 * PI * b * _). destruct (start_value e N ltac:(lra) Z HN) as [HE Hs]. fold b E0 in HE, Hs.
  assert (H : halley 10 e N E0 <> None).
  { apply (halley_found 5); [assumption|]. replace (E0 - e * sin E0 - N) with (e * (4 * (E0 / PI) * (1 - E0 / PI) - sin E0)) by lra.
    rewrite Rabs_mult, Rabs_right by lra. pose proof (parabola_sine E0 HE) as B. pose proof (Rabs_pos (4 * (E0 / PI) * (1 - E0 / PI) - sin E0)). nra. }
  destruct (halley 10 e N E0); [discriminate|contradiction].
Qed.
Lemma anomaly_found e p gm M : 0 < e <= 85 / 100 -> e <> PI / 4 -> exists v, anomaly_of e p gm M = Some v /\
  exists E (k : Z), Rabs (elliptic_mean_anomaly e E - (M + tau * IZR k)) <= 5 / 10 ^ 14 /\ (cos (E / 2) <> 0 -> seen_elliptic e E v).
Proof.
  intros He Ne. destruct (anomaly_of e p gm M) as [v|] eqn:A.
  - exists v. split; [reflexivity|]. apply (anomaly_elliptic e p gm M v); [lra|assumption].
  - exfalso. unfold anomaly_of in A. destruct (Rlt_dec e 1); [|lra]. destruct (eccentric_anomaly e M) eqn:B; [discriminate|]. exact (eccentric_found e M He Ne B).
Qed.
Lemma quarter_pi_fails p gm M : anomaly_of (PI / 4) p gm M = None.
Proof.
  pose proof PI_RGT_0 as P. pose proof pi_high. unfold anomaly_of, eccentric_anomaly. destruct (Rlt_dec (PI / 4) 1); [|lra]. destruct (Req_EM_T (PI / 4) 0); [reflexivity|].
  destruct (Req_EM_T _ 0) as [_|N]; [reflexivity|]. exfalso. apply N. field. lra.
Qed.

(** * Almost a parabola *)
Lemma slow_step e x : 1 - 1 / 10 ^ 11 <= e < 1 -> 5 / 10 ^ 5 <= x <= 7 / 10 ->
  let f1 := 1 - e * cos x in let f2 := e * sin x in let f := x - f2 - 0 in let d := f1 * f1 - 1 / 2 * f * f2 in let dE := f * f1 / d in
  1 / 10 ^ 14 <= dE <= 65 / 100 * x.
Proof.
  intros He Hx f1 f2 f d dE. pose proof (sin_up x ltac:(lra)) as SU. pose proof (sin_dn x ltac:(lra)) as SD. pose proof (cos_up x ltac:(lra)) as CU. pose proof (cos_dn2 x ltac:(lra)) as CD.
  pose proof (sin_le x ltac:(lra)) as SX. replace (x ^ 3) with (x * x * x) in * by ring. replace (x ^ 5) with (x * x * (x * x * x)) in * by ring. replace (x ^ 2) with (x * x) in * by ring. replace (x ^ 4) with (x * x * (x * x)) in * by ring.
  assert (X2 : 25 / 10 ^ 10 <= x * x <= 49 / 100) by nra. set (y := x * x) in *.
  assert (X3 : 0 < y * x) by nra. 
  assert (SP : 0 < sin x) by nra. assert (CP : 3 / 4 <= cos x <= 1) by (split; [lra|apply COS_bound]).
  (* bounds on the three derivatives *)
  assert (F1a : 4795 / 10000 * y <= f1). { unfold f1. nra. }
  assert (F1b : f1 <= 504 / 1000 * y). { unfold f1. nra. }
  assert (F2a : 0 < f2 <= x). { unfold f2. split; nra. }
  assert (Fa : 16 / 100 * (y * x) <= f). { unfold f, f2. nra. }
  assert (Fb : f <= 171 / 1000 * (y * x)). { unfold f, f2. nra. }
  assert (P1 : 0 < f1) by nra. assert (P : 0 < f) by nra.
  assert (D1 : 1 / 2 * f * f2 <= 171 / 2000 * (y * y)). { assert (f * f2 <= 171 / 1000 * (y * x) * x) by (apply Rmult_le_compat; lra). replace (171 / 1000 * (y * x) * x) with (171 / 1000 * (y * y)) in * by (unfold y; ring). lra. }
  assert (D2 : 4795 / 10000 * (4795 / 10000) * (y * y) <= f1 * f1). { replace (4795 / 10000 * (4795 / 10000) * (y * y)) with (4795 / 10000 * y * (4795 / 10000 * y)) by ring. apply Rmult_le_compat; lra. }
  assert (Y2 : 0 < y * y) by nra.
  assert (Dp : 0 < d) by (unfold d; lra). assert (Du : d <= f1 * f1). { unfold d. assert (0 < f * f2) by nra. lra. }
  assert (ED : dE * d = f * f1) by (unfold dE; field; lra). split.
  - apply Rmult_le_reg_r with d; [assumption|]. rewrite ED. apply Rle_trans with (1 / 10 ^ 14 * (f1 * f1)); [apply Rmult_le_compat_l; lra|].
    assert (1 / 10 ^ 14 * f1 <= f); [|nra]. assert (1 / 10 ^ 14 <= 1 / 100 * x) by lra. nra.
  - apply Rmult_le_reg_r with d; [assumption|]. rewrite ED.
    assert (T : f * f1 + 65 / 200 * x * (f * f2) <= 65 / 100 * x * (f1 * f1)); [|unfold d; lra].
    assert (T1 : x * (f * f2) <= 171 / 1000 * (y * y * x)). { replace (171 / 1000 * (y * y * x)) with (x * (171 / 1000 * (y * x) * x)) by (unfold y; ring). apply Rmult_le_compat_l; [lra|]. apply Rmult_le_compat; lra. }
    assert (T2 : f1 * (65 / 100 * x * f1 - f) >= 4795 / 10000 * y * (65 / 100 * (4795 / 10000) * (y * x) - 171 / 1000 * (y * x))).
    { assert (65 / 100 * x * f1 >= 65 / 100 * (4795 / 10000) * (y * x)) by nra. assert (0 <= 65 / 100 * (4795 / 10000) * (y * x) - 171 / 1000 * (y * x)) by nra. apply Rle_ge, Rmult_le_compat; lra || nra. }
    nra.
Qed.
Lemma halley_slow n e x : 1 - 1 / 10 ^ 11 <= e < 1 -> (n <= 10)%nat -> 66 / 100 * (35 / 100) ^ (10 - n) <= x <= 7 / 10 -> halley n e 0 x = None.
Proof.
  intros He. revert x. induction n as [|n IH]; intros x Hn Hx; [reflexivity|]. cbn [halley]. cbv zeta.
  destruct (Req_EM_T _ 0); [reflexivity|].
  assert (Lo : 5 / 10 ^ 5 <= x). { apply Rle_trans with (66 / 100 * (35 / 100) ^ 9); [lra|]. eapply Rle_trans; [|apply Hx]. apply Rmult_le_compat_l; [lra|].
    pose (m := (10 - S n)%nat). assert (E9 : (35 / 100) ^ 9 = (35 / 100) ^ m * (35 / 100) ^ n) by (rewrite <- pow_add; f_equal; unfold m; lia). rewrite E9. fold m.
    apply Rle_trans with ((35 / 100) ^ m * 1); [|lra]. apply Rmult_le_compat_l; [apply pow_le; lra|]. rewrite <- (pow1 n). apply pow_incr. lra. }
  pose proof (slow_step e x He ltac:(lra)) as S0. cbv zeta in S0. set (dE := (x - e * sin x - 0) * (1 - e * cos x) / _) in *. rewrite Rabs_right by lra.
  destruct (Rlt_dec dE (1 / 10 ^ 14)) as [L|_]; [exfalso; lra|]. apply IH; [lia|]. split; [|lra].
  replace (10 - n)%nat with (S (10 - S n)) by lia. cbn [pow]. lra.
Qed.
Lemma near_parabola e p gm : 1 - 1 / 10 ^ 11 <= e < 1 -> anomaly_of e p gm 0 = None.
Proof.
  intros He. pose proof pi_low as PL. pose proof pi_high as PH. unfold anomaly_of. destruct (Rlt_dec e 1); [|lra]. unfold eccentric_anomaly. rewrite (normpi_id 0) by lra.
  destruct (Req_EM_T e 0); [lra|]. set (b := 1 / 4 * PI / e - 1). destruct (Req_EM_T b 0); [reflexivity|].
  assert (Eb : e * (b + 1) = PI / 4) by (unfold b; field; lra). assert (Nb : b < 0) by nra.
  destruct (rsign_cases b) as [[L _]|[[_ Es]|[L _]]]; [lra| |lra]. rewrite Es. replace (1 + 0 * rsign 0 / (e * b * b)) with 1 by (field; lra). rewrite sqrt_1.
  replace (1 / 2 * PI * b * (-1 * 1 - 1)) with (- (PI * b)) by field. rewrite Rmult_0_l. rewrite halley_slow; [reflexivity|assumption|lia|].
  change (10 - 10)%nat with 0%nat. cbn [pow]. assert (-21463 / 100000 <= b <= -2145 / 10000) by (split; nra). split; nra.
Qed.
