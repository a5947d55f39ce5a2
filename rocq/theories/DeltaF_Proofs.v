(** Proofs about Delta T in binary64. *)
From Coq Require Import ZArith Reals List Bool Lia Lra.
From Coq.Floats Require Import SpecFloat.
From Flocq Require Import Core BinarySingleNaN.
From Verif Require Import Float64 Float64_Proofs Float_Time_Model Float_Time_Proofs4 SexaF_Proofs2 CalF_Proofs2 Curve_Model Curve_Spec SplF_Model SplF_Spec SplF_Proofs SplF_Proofs2 Ut1F_Model Ut1F_Proofs DeltaF_Model DeltaF_Spec.
Import ListNotations.
Open Scope R_scope.

(** ** One stretch of the table *)
Lemma product_near (a a0 b b0 k l : R) : Rabs a0 <= 1 -> Rabs b0 <= 1 -> Rabs (a - a0) <= k * eps -> Rabs (b - b0) <= l * eps -> 0 <= k <= 100 -> 0 <= l <= 100 -> Rabs (a * b - a0 * b0) <= (k + l + / 100) * eps.
Proof.
  intros A0 B0 A B K L. pose proof eps_val as Ev. replace (a * b - a0 * b0) with ((a - a0) * b + a0 * (b - b0)) by ring. pose proof (Rabs_triang ((a - a0) * b) (a0 * (b - b0))) as T. rewrite !Rabs_mult in T.
  assert (L1 : l * eps <= 100 * eps) by (apply Rmult_le_compat_r; lra). assert (Q : Rabs b <= 1 + 100 * eps). { replace b with (b - b0 + b0) by ring. pose proof (Rabs_triang (b - b0) b0). lra. }
  assert (T1 : Rabs (a - a0) * Rabs b <= k * eps * (1 + 100 * eps)) by (apply Rmult_le_compat; (apply Rabs_pos || assumption)). assert (T2 : Rabs a0 * Rabs (b - b0) <= 1 * (l * eps)) by (apply Rmult_le_compat; (apply Rabs_pos || assumption)).
  assert (T3 : k * eps * (100 * eps) <= / 100 * eps). { replace (k * eps * (100 * eps)) with (k * (100 * eps) * eps) by ring. apply Rmult_le_compat_r; [lra|]. assert (k * (100 * eps) <= 100 * (100 * eps)) by (apply Rmult_le_compat_r; lra). lra. }
  lra.
Qed.
(** Rounding something near [M u] with a slack for small numbers. *)
Lemma rnd_scaled (x y M k : R) : 0 < M -> eta <= / 1000 * (eps * M) -> Rabs (y / M) <= 1 -> Rabs (x / M - y / M) <= k * eps -> 0 <= k <= 100 -> Rabs (rnd x / M - y / M) <= (k + 1 + / 100) * eps.
Proof.
  intros M0 EM Y X K. pose proof eps_val as Ev. pose proof (rnd_err x) as R.
  assert (XA : Rabs (x / M) <= 1 + 100 * eps). { replace (x / M) with (x / M - y / M + y / M) by ring. pose proof (Rabs_triang (x / M - y / M) (y / M)). assert (k * eps <= 100 * eps) by (apply Rmult_le_compat_r; lra). lra. }
  assert (D : forall z, Rabs (z / M) = Rabs z / M) by (intros z; unfold Rdiv; rewrite Rabs_mult, (Rabs_pos_eq (/ M)) by (left; apply Rinv_0_lt_compat; lra); reflexivity).
  assert (R1 : Rabs (rnd x / M - x / M) <= eps * Rabs (x / M) + / 1000 * eps).
  { replace (rnd x / M - x / M) with ((rnd x - x) / M) by (field; lra). rewrite !D. apply (Rmult_le_reg_r M); [lra|]. replace (Rabs (rnd x - x) / M * M) with (Rabs (rnd x - x)) by (field; lra). replace ((eps * (Rabs x / M) + / 1000 * eps) * M) with (eps * Rabs x + / 1000 * (eps * M)) by (field; lra). lra. }
  assert (XE : eps * Rabs (x / M) <= eps * (1 + 100 * eps)) by (apply Rmult_le_compat_l; lra). assert (eps * (100 * eps) <= / 200 * eps) by (rewrite Rmult_comm; apply Rmult_le_compat_r; lra).
  replace (rnd x / M - y / M) with (rnd x / M - x / M + (x / M - y / M)) by ring. pose proof (Rabs_triang (rnd x / M - x / M) (x / M - y / M)). lra.
Qed.
Lemma eta_600 : eta <= / 1000 * (eps * bpow radix2 (-700)).
Proof.
  unfold eta. change eps with (bpow radix2 (-53)). rewrite <- bpow_plus. assert (B : bpow radix2 (-20) <= / 1000) by (change (bpow radix2 (-20)) with (/ 1048576); lra).
  assert (bpow radix2 (-1075) <= bpow radix2 (-20) * bpow radix2 (-53 + -700)) by (rewrite <- bpow_plus; apply bpow_le; lia). pose proof (bpow_gt_0 radix2 (-53 + -700)).
  assert (bpow radix2 (-20) * bpow radix2 (-53 + -700) <= / 1000 * bpow radix2 (-53 + -700)) by (apply Rmult_le_compat_r; lra). lra.
Qed.
Lemma eta_by M : bpow radix2 (-700) <= M -> eta <= / 1000 * (eps * M).
Proof. intros B. pose proof eta_600. pose proof eps_val. assert (eps * bpow radix2 (-700) <= eps * M) by (apply Rmult_le_compat_l; lra). lra. Qed.
Lemma near_abs (x y M k : R) : 0 < M -> Rabs (x / M - y / M) <= k * eps -> Rabs (x - y) <= k * eps * M.
Proof.
  intros M0 H. assert (E : Rabs (x - y) = Rabs (x / M - y / M) * M). { replace (x / M - y / M) with ((x - y) * / M) by (field; lra). rewrite Rabs_mult, (Rabs_pos_eq (/ M)) by (left; apply Rinv_0_lt_compat; lra). field. lra. }
  rewrite E. apply Rmult_le_compat_r; lra.
Qed.
Lemma over_abs y M : 0 < M -> Rabs y <= M -> Rabs (y / M) <= 1.
Proof. intros M0 H. unfold Rdiv. rewrite Rabs_mult, (Rabs_pos_eq (/ M)) by (left; apply Rinv_0_lt_compat; lra). apply (Rmult_le_reg_r M); [lra|]. replace (Rabs y * / M * M) with (Rabs y) by (field; lra). lra. Qed.
Lemma over_rev y M : 0 < M -> Rabs (y / M) <= 2 -> Rabs y <= 2 * M.
Proof. intros M0 H. replace y with (y / M * M) by (field; lra). rewrite Rabs_mult, (Rabs_pos_eq M) by lra. apply Rmult_le_compat_r; lra. Qed.
Lemma stretch_close Y (x x0 y0 x1 y1 : bf) : bpow radix2 (-300) <= Y <= bpow radix2 300 -> fair x -> fair_node Y (x0, y0) -> fair_node Y (x1, y1) -> bpow radix2 (-300) <= B2R x1 - B2R x0 -> B2R x0 <= B2R x <= B2R x1 ->
  exists v : bf, fadd (fmul (fdiv (fsub (B2SF y1) (B2SF y0)) (fsub (B2SF x1) (B2SF x0))) (fsub (B2SF x) (B2SF x0))) (B2SF y0) = B2SF v /\ is_finite v = true /\
    Rabs (B2R v - (B2R y0 + (B2R x - B2R x0) * ((B2R y1 - B2R y0) / (B2R x1 - B2R x0)))) <= 13 * (eps * Y).
Proof.
  intros (Y1 & Y2) Hx (H0 & F0 & B0) (H1 & F1 & B1) G BX. cbn [fst snd] in *. fold LO in G, Y1. fold HI in Y2. pose proof LO_pos as L0. pose proof eps_val as Ev. pose proof HI_ge as G1. pose proof HI_LO as HL.
  destruct (gap_close x0 x1 H0 H1 G) as (w & -> & Fw & Vw & Pw). destruct (offset_close x x0 (B2R x1 - B2R x0) Hx H0 G ltac:(apply Rabs_le; lra)) as (d & -> & Fd & Vd & _).
  set (g := B2R x1 - B2R x0) in *. set (z := B2R x - B2R x0) in *. assert (G0 : 0 < g) by lra. assert (G2 : g <= 2 * HI). { destruct H0 as (_ & Q0). destruct H1 as (_ & Q1). fold HI in Q0, Q1. apply Rabs_le_inv in Q0, Q1. unfold g. lra. }
  set (M := 2 * Y). assert (M0 : 0 < M) by (unfold M; lra). assert (ML : bpow radix2 (-700) <= M) by (assert (bpow radix2 (-700) <= LO) by (apply bpow_le; lia); unfold M; lra).
  assert (T7 : 1000 * HI <= bpow radix2 700). { assert (1024 * HI <= bpow radix2 700) by (change 1024 with (bpow radix2 10); unfold HI; rewrite <- bpow_plus; apply bpow_le; lia). lra. }
  assert (T8 : bpow radix2 700 <= bpow radix2 1007) by (apply bpow_le; lia). assert (T9 : 1000 * (HI * HI) <= bpow radix2 700). { assert (1024 * (HI * HI) <= bpow radix2 700) by (change 1024 with (bpow radix2 10); unfold HI; rewrite <- !bpow_plus; apply bpow_le; lia). assert (0 <= HI * HI) by (apply Rmult_le_pos; lra). lra. }
  set (D := B2R y1 - B2R y0). assert (BD : Rabs D <= M) by (apply Rabs_le_inv in B0, B1; unfold D, M; apply Rabs_le; lra).
  destruct (fsub_val y1 y0 F1 F0) as (e & -> & Fe & Ve). { fold D. unfold M in *. apply Rle_lt_trans with (2 * Y); [exact BD|]. lra. } fold D in Ve.
  pose proof (over_abs D M M0 BD) as UD. assert (E1 : Rabs (B2R e / M - D / M) <= 102 / 100 * eps). { rewrite Ve. eapply Rle_trans; [apply (rnd_scaled D D M 0 M0 (eta_by M ML) UD)|]; [rewrite Rminus_eq_0, Rabs_R0; lra|lra|lra]. }
  pose proof (shrink g (B2R w) G0 Vw) as Q. pose proof (times_near (B2R e / M) (D / M) (g / B2R w) _ _ UD E1 Q ltac:(lra) ltac:(lra)) as E2.
  set (K := M / g). assert (K0 : 0 < K) by (apply Rdiv_lt_0_compat; lra). replace (B2R e / M * (g / B2R w)) with (B2R e / B2R w / K) in E2 by (unfold K; field; lra).
  replace (D / M) with (D / g / K) in E2, UD by (unfold K; field; lra).
  assert (KL : bpow radix2 (-700) <= K). { unfold K. apply (Rmult_le_reg_r g); [lra|]. replace (M / g * g) with M by (field; lra). assert (bpow radix2 (-700) * g <= bpow radix2 (-700) * (2 * HI)) by (apply Rmult_le_compat_l; [apply bpow_ge_0|lra]). assert (bpow radix2 (-700) * HI <= LO) by (unfold HI, LO; rewrite <- bpow_plus; apply bpow_le; lia). unfold M. lra. }
  assert (KU : K <= 2 * (HI * HI)). { unfold K. apply (Rmult_le_reg_r g); [lra|]. replace (M / g * g) with M by (field; lra). assert (2 * (HI * HI) * LO <= 2 * (HI * HI) * g) by (apply Rmult_le_compat_l; [assert (0 <= HI * HI) by (apply Rmult_le_pos; lra); lra|lra]). replace (2 * (HI * HI) * LO) with (2 * HI * (HI * LO)) in H by ring. rewrite HL in H. unfold M. lra. }
  assert (Q1 : Rabs (B2R e / B2R w / K) <= 2). { replace (B2R e / B2R w / K) with (B2R e / B2R w / K - D / g / K + D / g / K) by ring. pose proof (Rabs_triang (B2R e / B2R w / K - D / g / K) (D / g / K)). lra. }
  apply (over_rev _ K K0) in Q1. destruct (fdiv_val e w Fe ltac:(lra)) as (s & -> & Fs & Vs); [lra|].
  pose proof (rnd_scaled (B2R e / B2R w) (D / g) K _ K0 (eta_by K KL) UD E2 ltac:(lra)) as E3. rewrite <- Vs in E3.
  pose proof (over_abs z g G0 ltac:(unfold z, g; apply Rabs_le; lra)) as UZ. pose proof (product_near _ _ _ _ _ _ UD UZ E3 Vd ltac:(lra) ltac:(lra)) as E4.
  replace (B2R s / K * (B2R d / g)) with (B2R s * B2R d / M) in E4 by (unfold K; field; lra). replace (D / g / K * (z / g)) with (D * z / g / M) in E4 by (unfold K; field; lra).
  assert (UP : Rabs (D * z / g / M) <= 1). { replace (D * z / g / M) with (D / M * (z / g)) by (field; lra). rewrite Rabs_mult. pose proof (over_abs D M M0 BD). assert (Rabs (D / M) * Rabs (z / g) <= 1 * 1) by (apply Rmult_le_compat; (apply Rabs_pos || assumption)). lra. }
  assert (Q2 : Rabs (B2R s * B2R d / M) <= 2). { replace (B2R s * B2R d / M) with (B2R s * B2R d / M - D * z / g / M + D * z / g / M) by ring. pose proof (Rabs_triang (B2R s * B2R d / M - D * z / g / M) (D * z / g / M)). lra. }
  apply (over_rev _ M M0) in Q2. destruct (fmul_val s d Fs Fd) as (p & -> & Fp & Vp & _); [unfold M in Q2; lra|].
  pose proof (rnd_scaled (B2R s * B2R d) (D * z / g) M _ M0 (eta_by M ML) UP E4 ltac:(lra)) as E5. rewrite <- Vp in E5. apply (near_abs _ _ M _ M0) in E5.
  assert (UV : Rabs (B2R y0 + D * z / g) <= Y). { assert (UZ' : 0 <= z / g <= 1) by (split; [apply Rmult_le_pos; [unfold z; lra|left; apply Rinv_0_lt_compat; lra]|apply Rabs_le_inv in UZ; lra]). replace (B2R y0 + D * z / g) with (B2R y0 * (1 - z / g) + B2R y1 * (z / g)) by (unfold D; field; lra). pose proof (Rabs_triang (B2R y0 * (1 - z / g)) (B2R y1 * (z / g))) as T. rewrite !Rabs_mult, (Rabs_pos_eq (1 - z / g)), (Rabs_pos_eq (z / g)) in T by lra.
    assert (Rabs (B2R y0) * (1 - z / g) <= Y * (1 - z / g)) by (apply Rmult_le_compat_r; lra). assert (Rabs (B2R y1) * (z / g) <= Y * (z / g)) by (apply Rmult_le_compat_r; lra). lra. }
  assert (EY : 0 < eps * Y) by (apply Rmult_lt_0_compat; lra). assert (EY2 : eps * Y <= / 1000 * Y) by (apply Rmult_le_compat_r; lra).
  assert (Y0 : 0 < Y) by lra. assert (E6 : Rabs ((B2R p + B2R y0) / Y - (B2R y0 + D * z / g) / Y) <= 115 / 10 * eps). { replace ((B2R p + B2R y0) / Y - (B2R y0 + D * z / g) / Y) with ((B2R p - D * z / g) / Y) by (field; lra). unfold Rdiv at 1. rewrite Rabs_mult, (Rabs_pos_eq (/ Y)) by (left; apply Rinv_0_lt_compat; lra). apply (Rmult_le_reg_r Y); [lra|]. replace (Rabs (B2R p - D * z / g) * / Y * Y) with (Rabs (B2R p - D * z / g)) by (field; lra). unfold M in E5. lra. }
  destruct (fadd_val p y0 Fp F0) as (v & -> & Fv & Vv). { replace (B2R p + B2R y0) with (B2R p - D * z / g + (B2R y0 + D * z / g)) by ring. pose proof (Rabs_triang (B2R p - D * z / g) (B2R y0 + D * z / g)). unfold M in E5. lra. }
  exists v. split; [reflexivity|]. split; [exact Fv|]. pose proof (rnd_scaled (B2R p + B2R y0) (B2R y0 + D * z / g) Y _ Y0 (eta_by Y ltac:(assert (bpow radix2 (-700) <= LO) by (apply bpow_le; lia); lra)) (over_abs _ _ Y0 UV) E6 ltac:(lra)) as E7. rewrite <- Vv in E7. apply (near_abs _ _ Y _ Y0) in E7.
  replace (B2R y0 + z * (D / g)) with (B2R y0 + D * z / g) by (field; lra). lra.
Qed.
