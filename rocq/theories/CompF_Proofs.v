(** Proofs about the arguments of the complementary terms in binary64. *)
From Coq Require Import ZArith Reals List Lia Lra.
From Flocq Require Import Core BinarySingleNaN.
From Verif Require Import Float64 Float64_Proofs Float_Time_Model Float_Time_Proofs Float_Time_Proofs4 SexaF_Proofs2 CalF_Proofs CalF_Proofs2 Measure_Model Wrap_Model Wrap_Spec Wrap_Proofs Wrap_Proofs2 EraF_Model EraF_Proofs PrecF_Spec FundF_Spec CompF_Model CompF_Spec.
Import ListNotations.
Open Scope R_scope.

Lemma step_big_r k (q t c : bf) (Q C e B r Cb : R) : is_finite q = true -> is_finite t = true -> is_finite c = true -> (-1000 <= k <= 39)%Z ->
  Rabs (B2R q - Q) <= e -> Rabs Q <= B -> Rabs (B2R t) <= 8 -> Rabs (B2R c - C) <= r -> Rabs C <= Cb ->
  8 * B + 8 * e + Cb + r + bpow radix2 (k - 54) < bpow radix2 k ->
  exists v : bf, fadd (B2SF c) (fmul (B2SF q) (B2SF t)) = B2SF v /\ is_finite v = true /\ Rabs (B2R v - (C + Q * B2R t)) <= 8 * e + r + 2 * bpow radix2 (k - 54) /\ Rabs (C + Q * B2R t) <= 8 * B + Cb.
Proof.
  intros Fq Ft Fc Hk HQ HB H8 HC HCb S. pose proof top_ge as TT. assert (K : bpow radix2 k <= bpow radix2 39) by (apply bpow_le; lia). change (bpow radix2 39) with 549755813888 in K. pose proof (bpow_gt_0 radix2 (k - 54)) as U0.
  assert (Z0 : Rabs (B2R t - B2R t) <= 0) by (rewrite Rminus_eq_0, Rabs_R0; lra). pose proof (product_close q t Q (B2R t) e B 0 HQ HB Z0 H8 (Rle_refl 0)) as P.
  assert (QT : Rabs (Q * B2R t) <= 8 * B). { rewrite Rabs_mult. assert (Rabs Q * Rabs (B2R t) <= B * 8) by (apply Rmult_le_compat; (apply Rabs_pos || assumption)). lra. }
  assert (R0 : 0 <= r) by (pose proof (Rabs_pos (B2R c - C)); lra). assert (C0 : 0 <= Cb) by (pose proof (Rabs_pos C); lra).
  assert (M : Rabs (B2R q * B2R t) < bpow radix2 k). { apply Rabs_le_inv in P, QT. apply Rabs_lt. lra. }
  destruct (fmul_val q t Fq Ft) as (p & -> & Fp & Vp & _); [lra|]. pose proof (rnd_small (B2R q * B2R t) k ltac:(lia) M) as R. rewrite <- Vp in R. apply Rabs_le_inv in P, QT, HC, HCb.
  assert (M2 : Rabs (B2R c + B2R p) < bpow radix2 k) by (apply Rabs_lt; lra). destruct (fadd_val c p Fc Fp) as (v & -> & Fv & Vv); [lra|]. pose proof (rnd_small _ k ltac:(lia) M2) as R2. rewrite <- Vv in R2. exists v. split; [reflexivity|]. split; [exact Fv|]. split; apply Rabs_le; lra.
Qed.
(** The whole turns of the rate are cut off before they are turned into radians. *)
Lemma comp_end (p t : bf) (P V : R) (N : Z) : is_finite p = true -> is_finite t = true -> Rabs (B2R p - P) <= 8 / 10 ^ 9 -> Rabs P <= 12000000 -> Rabs (B2R t) <= 8 -> Rabs (IZR N) <= 1342 ->
  Rabs (V - (P + 1296000 * (IZR N * B2R t))) <= 21 / 10 ^ 7 ->
  folded 0 tau_float (2 / 10 ^ 11) (V * arcsecond_25) (frem (fadd (fmul (B2SF p) FrameF_Model.ASEC2RAD64) (fmul (frem (fmul (of_Z N) (B2SF t)) (of_Z 1)) tau64)) tau64).
Proof.
  intros Fp Ft HP BP B8 BN HV. pose proof top_ge as TT. assert (NT : Rabs (IZR N * B2R t) <= 1342 * 8) by (rewrite Rabs_mult; apply Rmult_le_compat; (apply Rabs_pos || assumption)).
  assert (NZ : (-1342 <= N <= 1342)%Z). { apply Rabs_le_inv in BN. split; apply le_IZR; [change (IZR (-1342)) with (- 1342)|]; lra. } destruct (of_Z_bf N ltac:(unfold fits; lia)) as (m & -> & Fm & Vm).
  apply Rabs_le_inv in HP, BP, NT, HV. set (X := IZR N * B2R t) in *.
  destruct (fmul_val m t Fm Ft) as (z & -> & Fz & Vz & _); [rewrite Vm; fold X; apply Rabs_lt; lra|]. rewrite Vm in Vz. fold X in Vz. pose proof (rnd_err X 14 ltac:(lia) ltac:(change (bpow radix2 14) with 16384; lra)) as R1. change (bpow radix2 (14 - 54)) with (/ 1099511627776) in R1. rewrite <- Vz in R1.
  destruct (rem_1 z Fz) as (r & k & -> & Fr & Br & Vr). apply Rabs_le_inv in Vr. destruct tau_bf as (u & Eu & Fu & Vu). rewrite Eu. pose proof tau_range as TR.
  assert (RT : B2R r * B2R u = B2R r * (7074237752028440 / 1125899906842624)) by (rewrite Vu; unfold tau_float; replace (2 ^ 50) with 1125899906842624 by ring; reflexivity).
  destruct (fmul_val r u Fr Fu) as (w & -> & Fw & Vw & _); [rewrite RT; apply Rabs_lt; lra|]. rewrite RT in Vw. pose proof (rnd_err (B2R r * (7074237752028440 / 1125899906842624)) 3 ltac:(lia) ltac:(change (bpow radix2 3) with 8; lra)) as R2. change (bpow radix2 (3 - 54)) with (/ 2251799813685248) in R2. rewrite <- Vw in R2.
  destruct (const_bf 5723669695270813 (-70) 70 ltac:(unfold small; lia) eq_refl) as (c & Ec & Fc & Vc). change (IZR (Z.pow_pos 2 70)) with 1180591620717411303424 in Vc. unfold FrameF_Model.ASEC2RAD64. rewrite Ec.
  destruct (fmul_val p c Fp Fc) as (y & -> & Fy & Vy & _); [rewrite Vc; apply Rabs_lt; lra|]. pose proof (rnd_err (B2R p * B2R c) 6 ltac:(lia) ltac:(change (bpow radix2 6) with 64; rewrite Vc; lra)) as R3. change (bpow radix2 (6 - 54)) with (/ 281474976710656) in R3. rewrite <- Vy, Vc in R3.
  destruct (fadd_val y w Fy Fw) as (s & -> & Fs & Vs); [apply Rabs_lt; lra|]. pose proof (rnd_err (B2R y + B2R w) 7 ltac:(lia) ltac:(change (bpow radix2 7) with 128; lra)) as R4. change (bpow radix2 (7 - 54)) with (/ 140737488355328) in R4. rewrite <- Vs in R4.
  rewrite <- Eu. destruct (rem_tau s Fs) as (b & l & -> & Fb & Bb & Vb). exists b, (l + k)%Z. split; [reflexivity|]. split; [exact Fb|]. split; [exact Bb|]. rewrite plus_IZR. apply Rabs_le_inv in Vb. unfold tau_float in *. replace (2 ^ 50) with 1125899906842624 in * by ring. unfold arcsecond_25. apply Rabs_le. lra.
Qed.
Lemma comp_moon_anomaly (t : bf) : is_finite t = true -> Rabs (B2R t) <= 8 -> folded 0 tau_float (2 / 10 ^ 11) (moon_anomaly (B2R t) * arcsecond_25) (frem (lunar64 (fl 8347152959097614 (-34)) (fl 6149733613796170 (-33)) (fl 8973197077554345 (-48)) (fl 7441387736296818 (-57)) (fl (-4513918274836727) (-64)) (1325) (B2SF t)) tau64).
Proof.
  intros Ft B8. unfold lunar64.
  destruct (const_bf (8347152959097614) (-34) 34 ltac:(unfold small; lia) eq_refl) as (c0 & -> & F0 & V0). change (IZR (Z.pow_pos 2 34)) with 17179869184 in V0.
  destruct (const_bf (6149733613796170) (-33) 33 ltac:(unfold small; lia) eq_refl) as (c1 & -> & F1 & V1). change (IZR (Z.pow_pos 2 33)) with 8589934592 in V1.
  destruct (const_bf (8973197077554345) (-48) 48 ltac:(unfold small; lia) eq_refl) as (c2 & -> & F2 & V2). change (IZR (Z.pow_pos 2 48)) with 281474976710656 in V2.
  destruct (const_bf (7441387736296818) (-57) 57 ltac:(unfold small; lia) eq_refl) as (c3 & -> & F3 & V3). change (IZR (Z.pow_pos 2 57)) with 144115188075855872 in V3.
  destruct (const_bf (-4513918274836727) (-64) 64 ltac:(unfold small; lia) eq_refl) as (c4 & -> & F4 & V4). change (IZR (Z.pow_pos 2 64)) with 18446744073709551616 in V4.
  destruct (step_big_r (-4) c4 t c3 (- (2447 / 10 ^ 7)) (51635 / 10 ^ 6) (168 / 10 ^ 22) (245 / 10 ^ 6) (377 / 10 ^ 21) (517 / 10 ^ 4) F4 Ft F3 ltac:(lia)) as (q3 & -> & G3 & Q3 & M3); [rewrite V4; apply Rabs_le; lra|apply Rabs_le; lra|exact B8|rewrite V3; apply Rabs_le; lra|apply Rabs_le; lra|change (bpow radix2 (-4 - 54)) with (/ 288230376151711744); change (bpow radix2 (-4)) with (/ 16); lra|].
  set (W3 := (51635 / 10 ^ 6) + (- (2447 / 10 ^ 7)) * B2R t) in *. change (bpow radix2 (-4 - 54)) with (/ 288230376151711744) in Q3.
  destruct (step_big_r (6) q3 t c2 W3 (318792 / 10 ^ 4) (753 / 10 ^ 20) (537 / 10 ^ 4) (957 / 10 ^ 18) (319 / 10 ^ 1) G3 Ft F2 ltac:(lia)) as (q2 & -> & G2 & Q2 & M2); [lra|lra|exact B8|rewrite V2; apply Rabs_le; lra|apply Rabs_le; lra|change (bpow radix2 (6 - 54)) with (/ 281474976710656); change (bpow radix2 (6)) with 64; lra|].
  set (W2 := (318792 / 10 ^ 4) + W3 * B2R t) in *. change (bpow radix2 (6 - 54)) with (/ 281474976710656) in Q2.
  destruct (step_big_r (20) q2 t c1 W2 (7159232178 / 10 ^ 4) (821 / 10 ^ 17) (324 / 10 ^ 1) (177 / 10 ^ 13) (716000) G2 Ft F1 ltac:(lia)) as (q1 & -> & G1 & Q1 & M1); [lra|lra|exact B8|rewrite V1; apply Rabs_le; lra|apply Rabs_le; lra|change (bpow radix2 (20 - 54)) with (/ 17179869184); change (bpow radix2 (20)) with 1048576; lra|].
  set (W1 := (7159232178 / 10 ^ 4) + W2 * B2R t) in *. change (bpow radix2 (20 - 54)) with (/ 17179869184) in Q1.
  destruct (step_big_r (23) q1 t c0 W1 (485868249036 / 10 ^ 6) (136 / 10 ^ 12) (717000) (683 / 10 ^ 14) (486000) G1 Ft F0 ltac:(lia)) as (q0 & -> & G0 & Q0 & M0); [lra|lra|exact B8|rewrite V0; apply Rabs_le; lra|apply Rabs_le; lra|change (bpow radix2 (23 - 54)) with (/ 2147483648); change (bpow radix2 (23)) with 8388608; lra|].
  set (W0 := (485868249036 / 10 ^ 6) + W1 * B2R t) in *. change (bpow radix2 (23 - 54)) with (/ 2147483648) in Q0.
  apply comp_end with W0; [exact G0|exact Ft|lra|lra|exact B8|apply Rabs_le; lra|replace (moon_anomaly (B2R t) - (W0 + 1296000 * (IZR (1325) * B2R t))) with (0 / 1) by (unfold W0, W1, W2, W3, moon_anomaly; field); apply Rabs_le; lra].
Qed.
Lemma comp_sun_anomaly (t : bf) : is_finite t = true -> Rabs (B2R t) <= 8 -> folded 0 tau_float (2 / 10 ^ 11) (sun_anomaly (B2R t) * arcsecond_25) (frem (lunar64 (fl 5528072992666008 (-32)) (fl 5551593329018903 (-32)) (fl (-4982782627722717) (-53)) (fl 5017514388048998 (-65)) (fl (-6782498861021528) (-69)) (99) (B2SF t)) tau64).
Proof.
  intros Ft B8. unfold lunar64.
  destruct (const_bf (5528072992666008) (-32) 32 ltac:(unfold small; lia) eq_refl) as (c0 & -> & F0 & V0). change (IZR (Z.pow_pos 2 32)) with 4294967296 in V0.
  destruct (const_bf (5551593329018903) (-32) 32 ltac:(unfold small; lia) eq_refl) as (c1 & -> & F1 & V1). change (IZR (Z.pow_pos 2 32)) with 4294967296 in V1.
  destruct (const_bf (-4982782627722717) (-53) 53 ltac:(unfold small; lia) eq_refl) as (c2 & -> & F2 & V2). change (IZR (Z.pow_pos 2 53)) with 9007199254740992 in V2.
  destruct (const_bf (5017514388048998) (-65) 65 ltac:(unfold small; lia) eq_refl) as (c3 & -> & F3 & V3). change (IZR (Z.pow_pos 2 65)) with 36893488147419103232 in V3.
  destruct (const_bf (-6782498861021528) (-69) 69 ltac:(unfold small; lia) eq_refl) as (c4 & -> & F4 & V4). change (IZR (Z.pow_pos 2 69)) with 590295810358705651712 in V4.
  destruct (step_big_r (-12) c4 t c3 (- (1149 / 10 ^ 8)) (136 / 10 ^ 6) (116 / 10 ^ 24) (115 / 10 ^ 7) (118 / 10 ^ 23) (136 / 10 ^ 6) F4 Ft F3 ltac:(lia)) as (q3 & -> & G3 & Q3 & M3); [rewrite V4; apply Rabs_le; lra|apply Rabs_le; lra|exact B8|rewrite V3; apply Rabs_le; lra|apply Rabs_le; lra|change (bpow radix2 (-12 - 54)) with (/ 73786976294838206464); change (bpow radix2 (-12)) with (/ 4096); lra|].
  set (W3 := (136 / 10 ^ 6) + (- (1149 / 10 ^ 8)) * B2R t) in *. change (bpow radix2 (-12 - 54)) with (/ 73786976294838206464) in Q3.
  destruct (step_big_r (0) q3 t c2 W3 (- (5532 / 10 ^ 4)) (296 / 10 ^ 22) (228 / 10 ^ 6) (276 / 10 ^ 19) (554 / 10 ^ 3) G3 Ft F2 ltac:(lia)) as (q2 & -> & G2 & Q2 & M2); [lra|lra|exact B8|rewrite V2; apply Rabs_le; lra|apply Rabs_le; lra|change (bpow radix2 (0 - 54)) with (/ 18014398509481984); change (bpow radix2 (0)) with 1; lra|].
  set (W2 := (- (5532 / 10 ^ 4)) + W3 * B2R t) in *. change (bpow radix2 (0 - 54)) with (/ 18014398509481984) in Q2.
  destruct (step_big_r (21) q2 t c1 W2 (12925810481 / 10 ^ 4) (141 / 10 ^ 18) (556 / 10 ^ 3) (160 / 10 ^ 13) (1300000) G2 Ft F1 ltac:(lia)) as (q1 & -> & G1 & Q1 & M1); [lra|lra|exact B8|rewrite V1; apply Rabs_le; lra|apply Rabs_le; lra|change (bpow radix2 (21 - 54)) with (/ 8589934592); change (bpow radix2 (21)) with 2097152; lra|].
  set (W1 := (12925810481 / 10 ^ 4) + W2 * B2R t) in *. change (bpow radix2 (21 - 54)) with (/ 8589934592) in Q1.
  destruct (step_big_r (24) q1 t c0 W1 (1287104793048 / 10 ^ 6) (252 / 10 ^ 12) (1310000) (406 / 10 ^ 13) (1290000) G1 Ft F0 ltac:(lia)) as (q0 & -> & G0 & Q0 & M0); [lra|lra|exact B8|rewrite V0; apply Rabs_le; lra|apply Rabs_le; lra|change (bpow radix2 (24 - 54)) with (/ 1073741824); change (bpow radix2 (24)) with 16777216; lra|].
  set (W0 := (1287104793048 / 10 ^ 6) + W1 * B2R t) in *. change (bpow radix2 (24 - 54)) with (/ 1073741824) in Q0.
  apply comp_end with W0; [exact G0|exact Ft|lra|lra|exact B8|apply Rabs_le; lra|replace (sun_anomaly (B2R t) - (W0 + 1296000 * (IZR (99) * B2R t))) with (2 / 10 ^ 6) by (unfold W0, W1, W2, W3, sun_anomaly; field); apply Rabs_le; lra].
Qed.
Lemma comp_latitude_argument (t : bf) : is_finite t = true -> Rabs (B2R t) <= 8 -> folded 0 tau_float (2 / 10 ^ 11) (latitude_argument (B2R t) * arcsecond_25) (frem (lunar64 (fl 5768648335331256 (-34)) (fl 5072577100099302 (-34)) (fl (-7178287446065834) (-49)) (fl (-4782318401109201) (-62)) (fl 4923067058391605 (-70)) (1342) (B2SF t)) tau64).
Proof.
  intros Ft B8. unfold lunar64.
  destruct (const_bf (5768648335331256) (-34) 34 ltac:(unfold small; lia) eq_refl) as (c0 & -> & F0 & V0). change (IZR (Z.pow_pos 2 34)) with 17179869184 in V0.
  destruct (const_bf (5072577100099302) (-34) 34 ltac:(unfold small; lia) eq_refl) as (c1 & -> & F1 & V1). change (IZR (Z.pow_pos 2 34)) with 17179869184 in V1.
  destruct (const_bf (-7178287446065834) (-49) 49 ltac:(unfold small; lia) eq_refl) as (c2 & -> & F2 & V2). change (IZR (Z.pow_pos 2 49)) with 562949953421312 in V2.
  destruct (const_bf (-4782318401109201) (-62) 62 ltac:(unfold small; lia) eq_refl) as (c3 & -> & F3 & V3). change (IZR (Z.pow_pos 2 62)) with 4611686018427387904 in V3.
  destruct (const_bf (4923067058391605) (-70) 70 ltac:(unfold small; lia) eq_refl) as (c4 & -> & F4 & V4). change (IZR (Z.pow_pos 2 70)) with 1180591620717411303424 in V4.
  destruct (step_big_r (-9) c4 t c3 (417 / 10 ^ 8) (- (1037 / 10 ^ 6)) (127 / 10 ^ 24) (417 / 10 ^ 8) (612 / 10 ^ 22) (104 / 10 ^ 5) F4 Ft F3 ltac:(lia)) as (q3 & -> & G3 & Q3 & M3); [rewrite V4; apply Rabs_le; lra|apply Rabs_le; lra|exact B8|rewrite V3; apply Rabs_le; lra|apply Rabs_le; lra|change (bpow radix2 (-9 - 54)) with (/ 9223372036854775808); change (bpow radix2 (-9)) with (/ 512); lra|].
  set (W3 := (- (1037 / 10 ^ 6)) + (417 / 10 ^ 8) * B2R t) in *. change (bpow radix2 (-9 - 54)) with (/ 9223372036854775808) in Q3.
  destruct (step_big_r (4) q3 t c2 W3 (- (127512 / 10 ^ 4)) (282 / 10 ^ 21) (108 / 10 ^ 5) (832 / 10 ^ 18) (128 / 10 ^ 1) G3 Ft F2 ltac:(lia)) as (q2 & -> & G2 & Q2 & M2); [lra|lra|exact B8|rewrite V2; apply Rabs_le; lra|apply Rabs_le; lra|change (bpow radix2 (4 - 54)) with (/ 1125899906842624); change (bpow radix2 (4)) with 16; lra|].
  set (W2 := (- (127512 / 10 ^ 4)) + W3 * B2R t) in *. change (bpow radix2 (4 - 54)) with (/ 1125899906842624) in Q2.
  destruct (step_big_r (19) q2 t c1 W2 (2952628478 / 10 ^ 4) (264 / 10 ^ 17) (129 / 10 ^ 1) (125 / 10 ^ 13) (296000) G2 Ft F1 ltac:(lia)) as (q1 & -> & G1 & Q1 & M1); [lra|lra|exact B8|rewrite V1; apply Rabs_le; lra|apply Rabs_le; lra|change (bpow radix2 (19 - 54)) with (/ 34359738368); change (bpow radix2 (19)) with 524288; lra|].
  set (W1 := (2952628478 / 10 ^ 4) + W2 * B2R t) in *. change (bpow radix2 (19 - 54)) with (/ 34359738368) in Q1.
  destruct (step_big_r (22) q1 t c0 W1 (335779526232 / 10 ^ 6) (715 / 10 ^ 13) (297000) (279 / 10 ^ 13) (336000) G1 Ft F0 ltac:(lia)) as (q0 & -> & G0 & Q0 & M0); [lra|lra|exact B8|rewrite V0; apply Rabs_le; lra|apply Rabs_le; lra|change (bpow radix2 (22 - 54)) with (/ 4294967296); change (bpow radix2 (22)) with 4194304; lra|].
  set (W0 := (335779526232 / 10 ^ 6) + W1 * B2R t) in *. change (bpow radix2 (22 - 54)) with (/ 4294967296) in Q0.
  apply comp_end with W0; [exact G0|exact Ft|lra|lra|exact B8|apply Rabs_le; lra|replace (latitude_argument (B2R t) - (W0 + 1296000 * (IZR (1342) * B2R t))) with (0 / 1) by (unfold W0, W1, W2, W3, latitude_argument; field); apply Rabs_le; lra].
Qed.
Lemma comp_elongation (t : bf) : is_finite t = true -> Rabs (B2R t) <= 8 -> folded 0 tau_float (2 / 10 ^ 11) (elongation (B2R t) * arcsecond_25) (frem (lunar64 (fl 4605324655143086 (-32)) (fl 4748521035073061 (-32)) (fl (-7172657946531620) (-50)) (fl 7601211479872942 (-60)) (fl (-4676618557566846) (-67)) (1236) (B2SF t)) tau64).
Proof.
  intros Ft B8. unfold lunar64.
  destruct (const_bf (4605324655143086) (-32) 32 ltac:(unfold small; lia) eq_refl) as (c0 & -> & F0 & V0). change (IZR (Z.pow_pos 2 32)) with 4294967296 in V0.
  destruct (const_bf (4748521035073061) (-32) 32 ltac:(unfold small; lia) eq_refl) as (c1 & -> & F1 & V1). change (IZR (Z.pow_pos 2 32)) with 4294967296 in V1.
  destruct (const_bf (-7172657946531620) (-50) 50 ltac:(unfold small; lia) eq_refl) as (c2 & -> & F2 & V2). change (IZR (Z.pow_pos 2 50)) with 1125899906842624 in V2.
  destruct (const_bf (7601211479872942) (-60) 60 ltac:(unfold small; lia) eq_refl) as (c3 & -> & F3 & V3). change (IZR (Z.pow_pos 2 60)) with 1152921504606846976 in V3.
  destruct (const_bf (-4676618557566846) (-67) 67 ltac:(unfold small; lia) eq_refl) as (c4 & -> & F4 & V4). change (IZR (Z.pow_pos 2 67)) with 147573952589676412928 in V4.
  destruct (step_big_r (-7) c4 t c3 (- (3169 / 10 ^ 8)) (6593 / 10 ^ 6) (354 / 10 ^ 23) (317 / 10 ^ 7) (108 / 10 ^ 21) (660 / 10 ^ 5) F4 Ft F3 ltac:(lia)) as (q3 & -> & G3 & Q3 & M3); [rewrite V4; apply Rabs_le; lra|apply Rabs_le; lra|exact B8|rewrite V3; apply Rabs_le; lra|apply Rabs_le; lra|change (bpow radix2 (-7 - 54)) with (/ 2305843009213693952); change (bpow radix2 (-7)) with (/ 128); lra|].
  set (W3 := (6593 / 10 ^ 6) + (- (3169 / 10 ^ 8)) * B2R t) in *. change (bpow radix2 (-7 - 54)) with (/ 2305843009213693952) in Q3.
  destruct (step_big_r (3) q3 t c2 W3 (- (63706 / 10 ^ 4)) (102 / 10 ^ 20) (686 / 10 ^ 5) (444 / 10 ^ 18) (638 / 10 ^ 2) G3 Ft F2 ltac:(lia)) as (q2 & -> & G2 & Q2 & M2); [lra|lra|exact B8|rewrite V2; apply Rabs_le; lra|apply Rabs_le; lra|change (bpow radix2 (3 - 54)) with (/ 2251799813685248); change (bpow radix2 (3)) with 8; lra|].
  set (W2 := (- (63706 / 10 ^ 4)) + W3 * B2R t) in *. change (bpow radix2 (3 - 54)) with (/ 2251799813685248) in Q2.
  destruct (step_big_r (21) q2 t c1 W2 (1105601209 / 10 ^ 3) (136 / 10 ^ 17) (644 / 10 ^ 2) (349 / 10 ^ 13) (1110000) G2 Ft F1 ltac:(lia)) as (q1 & -> & G1 & Q1 & M1); [lra|lra|exact B8|rewrite V1; apply Rabs_le; lra|apply Rabs_le; lra|change (bpow radix2 (21 - 54)) with (/ 8589934592); change (bpow radix2 (21)) with 2097152; lra|].
  set (W1 := (1105601209 / 10 ^ 3) + W2 * B2R t) in *. change (bpow radix2 (21 - 54)) with (/ 8589934592) in Q1.
  destruct (step_big_r (24) q1 t c0 W1 (1072260703692 / 10 ^ 6) (271 / 10 ^ 12) (1120000) (118 / 10 ^ 12) (1080000) G1 Ft F0 ltac:(lia)) as (q0 & -> & G0 & Q0 & M0); [lra|lra|exact B8|rewrite V0; apply Rabs_le; lra|apply Rabs_le; lra|change (bpow radix2 (24 - 54)) with (/ 1073741824); change (bpow radix2 (24)) with 16777216; lra|].
  set (W0 := (1072260703692 / 10 ^ 6) + W1 * B2R t) in *. change (bpow radix2 (24 - 54)) with (/ 1073741824) in Q0.
  apply comp_end with W0; [exact G0|exact Ft|lra|lra|exact B8|apply Rabs_le; lra|replace (elongation (B2R t) - (W0 + 1296000 * (IZR (1236) * B2R t))) with (- (2 / 10 ^ 6)) by (unfold W0, W1, W2, W3, elongation; field); apply Rabs_le; lra].
Qed.
Lemma comp_node (t : bf) : is_finite t = true -> Rabs (B2R t) <= 8 -> folded 0 tau_float (2 / 10 ^ 11) (node (B2R t) * arcsecond_25) (frem (lunar64 (fl 7733696750075851 (-34)) (fl (-8295996360648714) (-34)) (fl 8412949283909455 (-50)) (fl 8879801428481935 (-60)) (fl (-8764417044300882) (-67)) (-5) (B2SF t)) tau64).
Proof.
  intros Ft B8. unfold lunar64.
  destruct (const_bf (7733696750075851) (-34) 34 ltac:(unfold small; lia) eq_refl) as (c0 & -> & F0 & V0). change (IZR (Z.pow_pos 2 34)) with 17179869184 in V0.
  destruct (const_bf (-8295996360648714) (-34) 34 ltac:(unfold small; lia) eq_refl) as (c1 & -> & F1 & V1). change (IZR (Z.pow_pos 2 34)) with 17179869184 in V1.
  destruct (const_bf (8412949283909455) (-50) 50 ltac:(unfold small; lia) eq_refl) as (c2 & -> & F2 & V2). change (IZR (Z.pow_pos 2 50)) with 1125899906842624 in V2.
  destruct (const_bf (8879801428481935) (-60) 60 ltac:(unfold small; lia) eq_refl) as (c3 & -> & F3 & V3). change (IZR (Z.pow_pos 2 60)) with 1152921504606846976 in V3.
  destruct (const_bf (-8764417044300882) (-67) 67 ltac:(unfold small; lia) eq_refl) as (c4 & -> & F4 & V4). change (IZR (Z.pow_pos 2 67)) with 147573952589676412928 in V4.
  destruct (step_big_r (-6) c4 t c3 (- (5939 / 10 ^ 8)) (7702 / 10 ^ 6) (123 / 10 ^ 23) (594 / 10 ^ 7) (391 / 10 ^ 21) (771 / 10 ^ 5) F4 Ft F3 ltac:(lia)) as (q3 & -> & G3 & Q3 & M3); [rewrite V4; apply Rabs_le; lra|apply Rabs_le; lra|exact B8|rewrite V3; apply Rabs_le; lra|apply Rabs_le; lra|change (bpow radix2 (-6 - 54)) with (/ 1152921504606846976); change (bpow radix2 (-6)) with (/ 64); lra|].
  set (W3 := (7702 / 10 ^ 6) + (- (5939 / 10 ^ 8)) * B2R t) in *. change (bpow radix2 (-6 - 54)) with (/ 1152921504606846976) in Q3.
  destruct (step_big_r (3) q3 t c2 W3 (74722 / 10 ^ 4) (216 / 10 ^ 20) (819 / 10 ^ 5) (516 / 10 ^ 19) (748 / 10 ^ 2) G3 Ft F2 ltac:(lia)) as (q2 & -> & G2 & Q2 & M2); [lra|lra|exact B8|rewrite V2; apply Rabs_le; lra|apply Rabs_le; lra|change (bpow radix2 (3 - 54)) with (/ 2251799813685248); change (bpow radix2 (3)) with 8; lra|].
  set (W2 := (74722 / 10 ^ 4) + W3 * B2R t) in *. change (bpow radix2 (3 - 54)) with (/ 2251799813685248) in Q2.
  destruct (step_big_r (19) q2 t c1 W2 (- (4828905431 / 10 ^ 4)) (967 / 10 ^ 18) (755 / 10 ^ 2) (109 / 10 ^ 13) (483000) G2 Ft F1 ltac:(lia)) as (q1 & -> & G1 & Q1 & M1); [lra|lra|exact B8|rewrite V1; apply Rabs_le; lra|apply Rabs_le; lra|change (bpow radix2 (19 - 54)) with (/ 34359738368); change (bpow radix2 (19)) with 524288; lra|].
  set (W1 := (- (4828905431 / 10 ^ 4)) + W2 * B2R t) in *. change (bpow radix2 (19 - 54)) with (/ 34359738368) in Q1.
  destruct (step_big_r (23) q1 t c0 W1 (450160398036 / 10 ^ 6) (699 / 10 ^ 13) (484000) (306 / 10 ^ 13) (451000) G1 Ft F0 ltac:(lia)) as (q0 & -> & G0 & Q0 & M0); [lra|lra|exact B8|rewrite V0; apply Rabs_le; lra|apply Rabs_le; lra|change (bpow radix2 (23 - 54)) with (/ 2147483648); change (bpow radix2 (23)) with 8388608; lra|].
  set (W0 := (450160398036 / 10 ^ 6) + W1 * B2R t) in *. change (bpow radix2 (23 - 54)) with (/ 2147483648) in Q0.
  apply comp_end with W0; [exact G0|exact Ft|lra|lra|exact B8|apply Rabs_le; lra|replace (node (B2R t) - (W0 + 1296000 * (IZR (-5) * B2R t))) with (0 / 1) by (unfold W0, W1, W2, W3, node; field); apply Rabs_le; lra].
Qed.
Lemma comp_mercury (t : bf) : is_finite t = true -> Rabs (B2R t) <= 8 -> folded 0 tau_float (2 / 10 ^ 11) (mercury_longitude (B2R t)) (frem (planet64 (fl 4956896885072313 (-50)) (fl 5736790569690931 (-41)) (B2SF t)) tau64).
Proof.
  intros Ft B8. unfold planet64.
  destruct (const_bf (4956896885072313) (-50) 50 ltac:(unfold small; lia) eq_refl) as (c0 & -> & F0 & V0). change (IZR (Z.pow_pos 2 50)) with 1125899906842624 in V0.
  destruct (const_bf (5736790569690931) (-41) 41 ltac:(unfold small; lia) eq_refl) as (c1 & -> & F1 & V1). change (IZR (Z.pow_pos 2 41)) with 2199023255552 in V1.
  destruct (step_big_r (15) c1 t c0 (26087903141574 / 10 ^ 10) (4402608842 / 10 ^ 9) (209 / 10 ^ 15) (2610) (269 / 10 ^ 18) (441 / 10 ^ 2) F1 Ft F0 ltac:(lia)) as (q0 & -> & G0 & Q0 & M0); [rewrite V1; apply Rabs_le; lra|apply Rabs_le; lra|exact B8|rewrite V0; apply Rabs_le; lra|apply Rabs_le; lra|change (bpow radix2 (15 - 54)) with (/ 549755813888); change (bpow radix2 (15)) with 32768; lra|].
  set (W0 := (4402608842 / 10 ^ 9) + (26087903141574 / 10 ^ 10) * B2R t) in *. change (bpow radix2 (15 - 54)) with (/ 549755813888) in Q0.
  apply fold_more with (/ 2 ^ 51) (B2R q0); [apply rem_tau; exact G0|]. unfold mercury_longitude. fold W0. lra.
Qed.
Lemma comp_venus (t : bf) : is_finite t = true -> Rabs (B2R t) <= 8 -> folded 0 tau_float (2 / 10 ^ 11) (venus_longitude (B2R t)) (frem (planet64 (fl 7152046540541616 (-51)) (fl 8983700972684440 (-43)) (B2SF t)) tau64).
Proof.
  intros Ft B8. unfold planet64.
  destruct (const_bf (7152046540541616) (-51) 51 ltac:(unfold small; lia) eq_refl) as (c0 & -> & F0 & V0). change (IZR (Z.pow_pos 2 51)) with 2251799813685248 in V0.
  destruct (const_bf (8983700972684440) (-43) 43 ltac:(unfold small; lia) eq_refl) as (c1 & -> & F1 & V1). change (IZR (Z.pow_pos 2 43)) with 8796093022208 in V1.
  destruct (step_big_r (14) c1 t c0 (10213285546211 / 10 ^ 10) (3176146697 / 10 ^ 9) (121 / 10 ^ 16) (1030) (817 / 10 ^ 19) (318 / 10 ^ 2) F1 Ft F0 ltac:(lia)) as (q0 & -> & G0 & Q0 & M0); [rewrite V1; apply Rabs_le; lra|apply Rabs_le; lra|exact B8|rewrite V0; apply Rabs_le; lra|apply Rabs_le; lra|change (bpow radix2 (14 - 54)) with (/ 1099511627776); change (bpow radix2 (14)) with 16384; lra|].
  set (W0 := (3176146697 / 10 ^ 9) + (10213285546211 / 10 ^ 10) * B2R t) in *. change (bpow radix2 (14 - 54)) with (/ 1099511627776) in Q0.
  apply fold_more with (/ 2 ^ 51) (B2R q0); [apply rem_tau; exact G0|]. unfold venus_longitude. fold W0. lra.
Qed.
Lemma comp_earth (t : bf) : is_finite t = true -> Rabs (B2R t) <= 8 -> folded 0 tau_float (2 / 10 ^ 11) (earth_longitude (B2R t)) (frem (planet64 (fl 7896928252735627 (-52)) (fl 5526651964210943 (-43)) (B2SF t)) tau64).
Proof.
  intros Ft B8. unfold planet64.
  destruct (const_bf (7896928252735627) (-52) 52 ltac:(unfold small; lia) eq_refl) as (c0 & -> & F0 & V0). change (IZR (Z.pow_pos 2 52)) with 4503599627370496 in V0.
  destruct (const_bf (5526651964210943) (-43) 43 ltac:(unfold small; lia) eq_refl) as (c1 & -> & F1 & V1). change (IZR (Z.pow_pos 2 43)) with 8796093022208 in V1.
  destruct (step_big_r (13) c1 t c0 (6283075849991 / 10 ^ 10) (1753470314 / 10 ^ 9) (456 / 10 ^ 16) (629) (940 / 10 ^ 19) (176 / 10 ^ 2) F1 Ft F0 ltac:(lia)) as (q0 & -> & G0 & Q0 & M0); [rewrite V1; apply Rabs_le; lra|apply Rabs_le; lra|exact B8|rewrite V0; apply Rabs_le; lra|apply Rabs_le; lra|change (bpow radix2 (13 - 54)) with (/ 2199023255552); change (bpow radix2 (13)) with 8192; lra|].
  set (W0 := (1753470314 / 10 ^ 9) + (6283075849991 / 10 ^ 10) * B2R t) in *. change (bpow radix2 (13 - 54)) with (/ 2199023255552) in Q0.
  apply fold_more with (/ 2 ^ 51) (B2R q0); [apply rem_tau; exact G0|]. unfold earth_longitude. fold W0. lra.
Qed.
Lemma comp_mars (t : bf) : is_finite t = true -> Rabs (B2R t) <= 8 -> folded 0 tau_float (2 / 10 ^ 11) (mars_longitude (B2R t)) (frem (planet64 (fl 6984498582046696 (-50)) (fl 5876867531279441 (-44)) (B2SF t)) tau64).
Proof.
  intros Ft B8. unfold planet64.
  destruct (const_bf (6984498582046696) (-50) 50 ltac:(unfold small; lia) eq_refl) as (c0 & -> & F0 & V0). change (IZR (Z.pow_pos 2 50)) with 1125899906842624 in V0.
  destruct (const_bf (5876867531279441) (-44) 44 ltac:(unfold small; lia) eq_refl) as (c1 & -> & F1 & V1). change (IZR (Z.pow_pos 2 44)) with 17592186044416 in V1.
  destruct (step_big_r (12) c1 t c0 (33406124267 / 10 ^ 8) (6203480913 / 10 ^ 9) (142 / 10 ^ 16) (335) (771 / 10 ^ 19) (621 / 10 ^ 2) F1 Ft F0 ltac:(lia)) as (q0 & -> & G0 & Q0 & M0); [rewrite V1; apply Rabs_le; lra|apply Rabs_le; lra|exact B8|rewrite V0; apply Rabs_le; lra|apply Rabs_le; lra|change (bpow radix2 (12 - 54)) with (/ 4398046511104); change (bpow radix2 (12)) with 4096; lra|].
  set (W0 := (6203480913 / 10 ^ 9) + (33406124267 / 10 ^ 8) * B2R t) in *. change (bpow radix2 (12 - 54)) with (/ 4398046511104) in Q0.
  apply fold_more with (/ 2 ^ 51) (B2R q0); [apply rem_tau; exact G0|]. unfold mars_longitude. fold W0. lra.
Qed.
Lemma comp_jupiter (t : bf) : is_finite t = true -> Rabs (B2R t) <= 8 -> folded 0 tau_float (2 / 10 ^ 11) (jupiter_longitude (B2R t)) (frem (planet64 (fl 5400234760960972 (-53)) (fl 7454737568661022 (-47)) (B2SF t)) tau64).
Proof.
  intros Ft B8. unfold planet64.
  destruct (const_bf (5400234760960972) (-53) 53 ltac:(unfold small; lia) eq_refl) as (c0 & -> & F0 & V0). change (IZR (Z.pow_pos 2 53)) with 9007199254740992 in V0.
  destruct (const_bf (7454737568661022) (-47) 47 ltac:(unfold small; lia) eq_refl) as (c1 & -> & F1 & V1). change (IZR (Z.pow_pos 2 47)) with 140737488355328 in V1.
  destruct (step_big_r (9) c1 t c0 (529690962641 / 10 ^ 10) (599546497 / 10 ^ 9) (299 / 10 ^ 17) (530 / 10 ^ 1) (484 / 10 ^ 19) (600 / 10 ^ 3) F1 Ft F0 ltac:(lia)) as (q0 & -> & G0 & Q0 & M0); [rewrite V1; apply Rabs_le; lra|apply Rabs_le; lra|exact B8|rewrite V0; apply Rabs_le; lra|apply Rabs_le; lra|change (bpow radix2 (9 - 54)) with (/ 35184372088832); change (bpow radix2 (9)) with 512; lra|].
  set (W0 := (599546497 / 10 ^ 9) + (529690962641 / 10 ^ 10) * B2R t) in *. change (bpow radix2 (9 - 54)) with (/ 35184372088832) in Q0.
  apply fold_more with (/ 2 ^ 51) (B2R q0); [apply rem_tau; exact G0|]. unfold jupiter_longitude. fold W0. lra.
Qed.
Lemma comp_saturn (t : bf) : is_finite t = true -> Rabs (B2R t) <= 8 -> folded 0 tau_float (2 / 10 ^ 11) (saturn_longitude (B2R t)) (frem (planet64 (fl 7872443082281539 (-53)) (fl 6003836060101977 (-48)) (B2SF t)) tau64).
Proof.
  intros Ft B8. unfold planet64.
  destruct (const_bf (7872443082281539) (-53) 53 ltac:(unfold small; lia) eq_refl) as (c0 & -> & F0 & V0). change (IZR (Z.pow_pos 2 53)) with 9007199254740992 in V0.
  destruct (const_bf (6003836060101977) (-48) 48 ltac:(unfold small; lia) eq_refl) as (c1 & -> & F1 & V1). change (IZR (Z.pow_pos 2 48)) with 281474976710656 in V1.
  destruct (step_big_r (8) c1 t c0 (21329910496 / 10 ^ 9) (874016757 / 10 ^ 9) (120 / 10 ^ 18) (214 / 10 ^ 1) (363 / 10 ^ 19) (875 / 10 ^ 3) F1 Ft F0 ltac:(lia)) as (q0 & -> & G0 & Q0 & M0); [rewrite V1; apply Rabs_le; lra|apply Rabs_le; lra|exact B8|rewrite V0; apply Rabs_le; lra|apply Rabs_le; lra|change (bpow radix2 (8 - 54)) with (/ 70368744177664); change (bpow radix2 (8)) with 256; lra|].
  set (W0 := (874016757 / 10 ^ 9) + (21329910496 / 10 ^ 9) * B2R t) in *. change (bpow radix2 (8 - 54)) with (/ 70368744177664) in Q0.
  apply fold_more with (/ 2 ^ 51) (B2R q0); [apply rem_tau; exact G0|]. unfold saturn_longitude. fold W0. lra.
Qed.
Lemma comp_uranus (t : bf) : is_finite t = true -> Rabs (B2R t) <= 8 -> folded 0 tau_float (2 / 10 ^ 11) (uranus_longitude (B2R t)) (frem (planet64 (fl 6171388259861846 (-50)) (fl 8419659486012780 (-50)) (B2SF t)) tau64).
Proof.
  intros Ft B8. unfold planet64.
  destruct (const_bf (6171388259861846) (-50) 50 ltac:(unfold small; lia) eq_refl) as (c0 & -> & F0 & V0). change (IZR (Z.pow_pos 2 50)) with 1125899906842624 in V0.
  destruct (const_bf (8419659486012780) (-50) 50 ltac:(unfold small; lia) eq_refl) as (c1 & -> & F1 & V1). change (IZR (Z.pow_pos 2 50)) with 1125899906842624 in V1.
  destruct (step_big_r (7) c1 t c0 (74781598567 / 10 ^ 10) (5481293872 / 10 ^ 9) (432 / 10 ^ 18) (748 / 10 ^ 2) (196 / 10 ^ 18) (549 / 10 ^ 2) F1 Ft F0 ltac:(lia)) as (q0 & -> & G0 & Q0 & M0); [rewrite V1; apply Rabs_le; lra|apply Rabs_le; lra|exact B8|rewrite V0; apply Rabs_le; lra|apply Rabs_le; lra|change (bpow radix2 (7 - 54)) with (/ 140737488355328); change (bpow radix2 (7)) with 128; lra|].
  set (W0 := (5481293872 / 10 ^ 9) + (74781598567 / 10 ^ 10) * B2R t) in *. change (bpow radix2 (7 - 54)) with (/ 140737488355328) in Q0.
  apply fold_more with (/ 2 ^ 51) (B2R q0); [apply rem_tau; exact G0|]. unfold uranus_longitude. fold W0. lra.
Qed.
Lemma comp_neptune (t : bf) : is_finite t = true -> Rabs (B2R t) <= 8 -> folded 0 tau_float (2 / 10 ^ 11) (neptune_longitude (B2R t)) (frem (planet64 (fl 5980652275691912 (-50)) (fl 8586796254490132 (-51)) (B2SF t)) tau64).
Proof.
  intros Ft B8. unfold planet64.
  destruct (const_bf (5980652275691912) (-50) 50 ltac:(unfold small; lia) eq_refl) as (c0 & -> & F0 & V0). change (IZR (Z.pow_pos 2 50)) with 1125899906842624 in V0.
  destruct (const_bf (8586796254490132) (-51) 51 ltac:(unfold small; lia) eq_refl) as (c1 & -> & F1 & V1). change (IZR (Z.pow_pos 2 51)) with 2251799813685248 in V1.
  destruct (step_big_r (6) c1 t c0 (38133035638 / 10 ^ 10) (5311886287 / 10 ^ 9) (103 / 10 ^ 18) (382 / 10 ^ 2) (105 / 10 ^ 18) (532 / 10 ^ 2) F1 Ft F0 ltac:(lia)) as (q0 & -> & G0 & Q0 & M0); [rewrite V1; apply Rabs_le; lra|apply Rabs_le; lra|exact B8|rewrite V0; apply Rabs_le; lra|apply Rabs_le; lra|change (bpow radix2 (6 - 54)) with (/ 281474976710656); change (bpow radix2 (6)) with 64; lra|].
  set (W0 := (5311886287 / 10 ^ 9) + (38133035638 / 10 ^ 10) * B2R t) in *. change (bpow radix2 (6 - 54)) with (/ 281474976710656) in Q0.
  apply fold_more with (/ 2 ^ 51) (B2R q0); [apply rem_tau; exact G0|]. unfold neptune_longitude. fold W0. lra.
Qed.
Lemma comp_accumulated (t : bf) : is_finite t = true -> Rabs (B2R t) <= 8 -> folded 0 tau_float (2 / 10 ^ 11) (accumulated_precession (B2R t)) (frem (fmul (planet64 (fl 7027560973736998 (-58)) (fl 6359740807558830 (-70)) (B2SF t)) (B2SF t)) tau64).
Proof.
  intros Ft B8. unfold planet64.
  destruct (const_bf (7027560973736998) (-58) 58 ltac:(unfold small; lia) eq_refl) as (c0 & -> & F0 & V0). change (IZR (Z.pow_pos 2 58)) with 288230376151711744 in V0.
  destruct (const_bf (6359740807558830) (-70) 70 ltac:(unfold small; lia) eq_refl) as (c1 & -> & F1 & V1). change (IZR (Z.pow_pos 2 70)) with 1180591620717411303424 in V1.
  destruct (step_big_r (-5) c1 t c0 (538691 / 10 ^ 11) (2438175 / 10 ^ 8) (117 / 10 ^ 24) (539 / 10 ^ 8) (709 / 10 ^ 21) (244 / 10 ^ 4) F1 Ft F0 ltac:(lia)) as (q0 & -> & G0 & Q0 & M0); [rewrite V1; apply Rabs_le; lra|apply Rabs_le; lra|exact B8|rewrite V0; apply Rabs_le; lra|apply Rabs_le; lra|change (bpow radix2 (-5 - 54)) with (/ 576460752303423488); change (bpow radix2 (-5)) with (/ 32); lra|].
  set (W0 := (2438175 / 10 ^ 8) + (538691 / 10 ^ 11) * B2R t) in *. change (bpow radix2 (-5 - 54)) with (/ 576460752303423488) in Q0.
  assert (Z0 : Rabs (B2R t - B2R t) <= 0) by (rewrite Rminus_eq_0, Rabs_R0; lra). assert (HQ : Rabs (B2R q0 - W0) <= / 10 ^ 16) by lra. assert (HM : Rabs W0 <= 3 / 100) by lra. pose proof (product_close q0 t W0 (B2R t) _ _ 0 HQ HM Z0 B8 (Rle_refl 0)) as P.
  assert (MM : Rabs (W0 * B2R t) <= 3 / 100 * 8) by (rewrite Rabs_mult; apply Rmult_le_compat; (apply Rabs_pos || assumption)). pose proof top_ge as TT. apply Rabs_le_inv in P, MM.
  destruct (fmul_val q0 t G0 Ft) as (p & -> & Fp & Vp & _); [apply Rabs_lt; lra|]. pose proof (rnd_err (B2R q0 * B2R t) 0 ltac:(lia) ltac:(change (bpow radix2 0) with 1; lra)) as RR. change (bpow radix2 (0 - 54)) with (/ 18014398509481984) in RR. rewrite <- Vp in RR.
  apply fold_more with (/ 2 ^ 51) (B2R p); [apply rem_tau; exact Fp|]. unfold accumulated_precession. fold W0. apply Rabs_le. lra.
Qed.
Lemma complementary_close (t : bf) : is_finite t = true -> Rabs (B2R t) <= 8 -> Forall2 (fun f x => folded 0 tau_float (2 / 10 ^ 11) (f (B2R t)) x) all_arguments (complementary_arguments64 (B2SF t)).
Proof.
  intros Ft B8. unfold all_arguments, mean_arguments, complementary_arguments64. cbn [map app].
  apply Forall2_cons; [exact (comp_moon_anomaly t Ft B8)|].
  apply Forall2_cons; [exact (comp_sun_anomaly t Ft B8)|].
  apply Forall2_cons; [exact (comp_latitude_argument t Ft B8)|].
  apply Forall2_cons; [exact (comp_elongation t Ft B8)|].
  apply Forall2_cons; [exact (comp_node t Ft B8)|].
  apply Forall2_cons; [exact (comp_mercury t Ft B8)|].
  apply Forall2_cons; [exact (comp_venus t Ft B8)|].
  apply Forall2_cons; [exact (comp_earth t Ft B8)|].
  apply Forall2_cons; [exact (comp_mars t Ft B8)|].
  apply Forall2_cons; [exact (comp_jupiter t Ft B8)|].
  apply Forall2_cons; [exact (comp_saturn t Ft B8)|].
  apply Forall2_cons; [exact (comp_uranus t Ft B8)|].
  apply Forall2_cons; [exact (comp_neptune t Ft B8)|].
  apply Forall2_cons; [exact (comp_accumulated t Ft B8)|].
  apply Forall2_nil.
Qed.
