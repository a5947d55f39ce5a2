(** Proofs about the fundamental arguments of nutation in binary64. *)
From Coq Require Import ZArith Reals List Lia Lra.
From Coq.Floats Require Import SpecFloat.
From Flocq Require Import Core BinarySingleNaN.
From Verif Require Import Float64 Float64_Proofs Float_Time_Model Float_Time_Proofs Float_Time_Proofs4 SexaF_Proofs2 CalF_Proofs CalF_Proofs2 Wrap_Model Wrap_Spec Wrap_Proofs Wrap_Proofs2 EraF_Model EraF_Proofs PrecF_Model PrecF_Spec PrecF_Proofs FundF_Model FundF_Spec.
Import ListNotations.
Open Scope R_scope.

Lemma ffmod_correct (x m : bf) : is_finite x = true -> is_finite m = true -> 0 < B2R m <= bpow radix2 900 ->
  exists (b : bf) (n : Z), ffmod (B2SF x) (B2SF m) = B2SF b /\ is_finite b = true /\ Rabs (B2R b) < B2R m /\ B2R b = B2R x - B2R m * IZR n.
Proof.
  intros Fx Fm [Pm Um]. destruct m as [| | |sm mm em Hm]; try discriminate; [cbn in Pm; lra|]. destruct sm; [exfalso; apply (Rlt_not_le _ _ Pm), Rlt_le; exact (F2R_lt_0 radix2 (Float radix2 (Zneg mm) em) eq_refl)|].
  destruct (mantissa_bound false mm em Hm) as [Bm Em]. destruct x as [sx| | |sx mx ex Hx]; try discriminate.
  - exists (B754_zero sx), 0%Z. split; [reflexivity|]. split; [reflexivity|]. split; [cbn [B2R]; rewrite Rabs_R0; exact Pm|cbn [B2R]; ring].
  - set (X := B754_finite sx mx ex Hx : bf) in *. set (Y := B754_finite false mm em Hm : bf) in *. destruct (mantissa_bound sx mx ex Hx) as [Bx Ex].
    set (k := Z.min ex em). assert (K1 : (k <= ex)%Z) by lia. assert (K2 : (k <= em)%Z) by lia.
    set (A := (Zpos mx * 2 ^ (ex - k))%Z). set (B := (Zpos mm * 2 ^ (em - k))%Z).
    assert (PA : (0 < A)%Z) by (unfold A; pose proof (Z.pow_pos_nonneg 2 (ex - k)); nia). assert (PB : (0 < B)%Z) by (unfold B; pose proof (Z.pow_pos_nonneg 2 (em - k)); nia).
    set (r := (A mod B)%Z). pose proof (Z.mod_pos_bound A B PB) as Rb. fold r in Rb. pose proof (Z.div_mod A B ltac:(lia)) as Dm. fold r in Dm.
    assert (Rs : (r < 2 ^ 53)%Z). { destruct (Z.le_gt_cases ex em) as [L|L].
      - assert (A = Zpos mx) by (unfold A; replace (ex - k)%Z with 0%Z by lia; rewrite Z.pow_0_r; lia). assert (r <= A)%Z by (apply Z.mod_le; lia). lia.
      - assert (B = Zpos mm) by (unfold B; replace (em - k)%Z with 0%Z by lia; rewrite Z.pow_0_r; lia). lia. }
    assert (Ek : (k <= 900)%Z). { destruct (Z.le_gt_cases em 900) as [L|L]; [lia|]. exfalso. assert (bpow radix2 901 <= B2R Y).
      { apply Rle_trans with (bpow radix2 em); [apply bpow_le; lia|]. unfold Y. cbn [B2R cond_Zopp]. unfold F2R. cbn [Fnum Fexp]. rewrite <- (Rmult_1_l (bpow radix2 em)) at 1. apply Rmult_le_compat_r; [apply bpow_ge_0|apply (IZR_le 1); lia]. }
      assert (bpow radix2 900 < bpow radix2 901) by (apply bpow_lt; lia). lra. }
    assert (Sr : small r k) by (split; lia). assert (Sn : small (- r) k) by (split; lia).
    assert (Vm : B2R Y = IZR B * bpow radix2 k) by (unfold Y, B; cbn [B2R cond_Zopp]; apply scaled; exact K2).
    assert (Va : F2R (Float radix2 (Zpos mx) ex) = IZR A * bpow radix2 k) by (apply scaled; exact K1).
    assert (Vx : B2R X = (if sx then - (IZR A * bpow radix2 k) else IZR A * bpow radix2 k)). { unfold X. cbn [B2R]. destruct sx; cbn [cond_Zopp Z.opp]; [|exact Va]. change (Zneg mx) with (- Zpos mx)%Z. rewrite F2R_Zopp, Va. reflexivity. }
    assert (ER : ffmod (B2SF X) (B2SF Y) = if (r =? 0)%Z then S754_zero sx else fl (if sx then - r else r) k).
    { unfold X, Y. cbn [B2SF ffmod]. fold k A B. rewrite Z.rem_mod_nonneg by lia. fold r. reflexivity. }
    pose proof (bpow_gt_0 radix2 k) as Kp.
    assert (DR : IZR A = IZR B * IZR (A / B) + IZR r) by (rewrite <- mult_IZR, <- plus_IZR; f_equal; exact Dm).
    assert (LRr : 0 <= IZR r) by (apply (IZR_le 0); lia). assert (URr : IZR r < IZR B) by (apply IZR_lt; lia).
    rewrite ER. destruct (Z.eqb_spec r 0) as [Zr|Zr].
    + exists (B754_zero sx), (if sx then - (A / B) else A / B)%Z. split; [reflexivity|]. split; [reflexivity|]. split; [cbn [B2R]; rewrite Rabs_R0; exact Pm|]. rewrite Vx, Vm. rewrite Zr in DR. cbn [B2R]. destruct sx; [rewrite opp_IZR|]; rewrite DR; ring.
    + assert (P1 : 0 <= IZR r * bpow radix2 k) by (apply Rmult_le_pos; lra). assert (P2 : IZR r * bpow radix2 k < IZR B * bpow radix2 k) by (apply Rmult_lt_compat_r; lra).
      destruct sx.
      * destruct (fl_bf (- r) k Sn) as (b & -> & Fb & Vb). exists b, (- (A / B))%Z. split; [reflexivity|]. split; [exact Fb|]. unfold F2R in Vb. cbn [Fnum Fexp] in Vb. rewrite opp_IZR in Vb. rewrite Vb, Vm, Vx, opp_IZR, DR. split; [apply Rabs_lt; lra|ring].
      * destruct (fl_bf r k Sr) as (b & -> & Fb & Vb). exists b, (A / B)%Z. split; [reflexivity|]. split; [exact Fb|]. unfold F2R in Vb. cbn [Fnum Fexp] in Vb. rewrite Vb, Vm, Vx, DR. split; [apply Rabs_lt; lra|ring].
Qed.
Lemma step_big k (q t c : bf) (Q C e B r Cb : R) : is_finite q = true -> is_finite t = true -> is_finite c = true -> (-1000 <= k <= 39)%Z ->
  Rabs (B2R q - Q) <= e -> Rabs Q <= B -> Rabs (B2R t) <= 8 -> Rabs (B2R c - C) <= r -> Rabs C <= Cb ->
  8 * B + 8 * e + Cb + r + bpow radix2 (k - 54) < bpow radix2 k ->
  exists v : bf, fadd (fmul (B2SF q) (B2SF t)) (B2SF c) = B2SF v /\ is_finite v = true /\ Rabs (B2R v - (Q * B2R t + C)) <= 8 * e + r + 2 * bpow radix2 (k - 54) /\ Rabs (Q * B2R t + C) <= 8 * B + Cb.
Proof.
  intros Fq Ft Fc Hk HQ HB H8 HC HCb S. pose proof top_ge as TT. assert (K : bpow radix2 k <= bpow radix2 39) by (apply bpow_le; lia). change (bpow radix2 39) with 549755813888 in K. pose proof (bpow_gt_0 radix2 (k - 54)) as U0.
  assert (Z0 : Rabs (B2R t - B2R t) <= 0) by (rewrite Rminus_eq_0, Rabs_R0; lra). pose proof (product_close q t Q (B2R t) e B 0 HQ HB Z0 H8 (Rle_refl 0)) as P.
  assert (QT : Rabs (Q * B2R t) <= 8 * B). { rewrite Rabs_mult. assert (Rabs Q * Rabs (B2R t) <= B * 8) by (apply Rmult_le_compat; (apply Rabs_pos || assumption)). lra. }
  assert (R0 : 0 <= r) by (pose proof (Rabs_pos (B2R c - C)); lra). assert (C0 : 0 <= Cb) by (pose proof (Rabs_pos C); lra).
  assert (M : Rabs (B2R q * B2R t) < bpow radix2 k). { apply Rabs_le_inv in P, QT. apply Rabs_lt. lra. }
  destruct (fmul_val q t Fq Ft) as (p & -> & Fp & Vp & _); [lra|]. pose proof (rnd_small (B2R q * B2R t) k ltac:(lia) M) as R. rewrite <- Vp in R. apply Rabs_le_inv in P, QT, HC, HCb.
  assert (M2 : Rabs (B2R p + B2R c) < bpow radix2 k) by (apply Rabs_lt; lra). destruct (fadd_val p c Fp Fc) as (v & -> & Fv & Vv); [lra|]. pose proof (rnd_small _ k ltac:(lia) M2) as R2. rewrite <- Vv in R2. exists v. split; [reflexivity|]. split; [exact Fv|]. split; apply Rabs_le; lra.
Qed.
(** Whole turns are cut off exactly, and the rest is turned into radians. *)
Lemma argument_end (q : bf) (W V : R) : is_finite q = true -> Rabs (B2R q - W) <= 49 / 10 ^ 7 -> W = V -> angle_up_to_turns (24 / 10 ^ 12) V (fmul (ffmod (B2SF q) (of_Z 1296000)) FrameF_Model.ASEC2RAD64).
Proof.
  intros Fq HW <-. pose proof top_ge as TT. destruct (of_Z_bf 1296000 ltac:(unfold fits; lia)) as (m & -> & Fm & Vm). destruct (ffmod_correct q m Fq Fm) as (b & n & -> & Fb & Bb & Vb). { rewrite Vm. split; [lra|]. apply Rle_trans with (bpow radix2 40); [change (bpow radix2 40) with 1099511627776; lra|apply bpow_le; lia]. } rewrite Vm in Bb, Vb.
  destruct (const_bf 5723669695270813 (-70) 70 ltac:(unfold small; lia) eq_refl) as (c & Ec & Fc & Vc). change (IZR (Z.pow_pos 2 70)) with 1180591620717411303424 in Vc. unfold FrameF_Model.ASEC2RAD64. rewrite Ec.
  apply Rabs_lt_inv in Bb. destruct (fmul_val b c Fb Fc) as (r & -> & Fr & Vr & _); [rewrite Vc; apply Rabs_lt; lra|].
  assert (RR : B2R b * B2R c - bpow radix2 (3 - 54) <= B2R r <= B2R b * B2R c + bpow radix2 (3 - 54)) by (rewrite Vr; apply rnd_small; [lia|change (bpow radix2 3) with 8; rewrite Vc; apply Rabs_lt; lra]). change (bpow radix2 (3 - 54)) with (/ 2251799813685248) in RR. rewrite Vc in RR.
  exists r, n. split; [reflexivity|]. split; [exact Fr|]. apply Rabs_le_inv in HW. unfold arcsecond_25. split; apply Rabs_le; lra.
Qed.
Lemma moon_anomaly_close (t : bf) : is_finite t = true -> Rabs (B2R t) <= 8 -> angle_up_to_turns (24 / 10 ^ 12) (moon_anomaly (B2R t)) (argument64 (B2SF t) (Row (fl 8347152959097614 (-34)) (fl 7205461628416111 (-22)) (fl 8973197077554345 (-48)) (fl 7441387736296818 (-57)) (fl (-4513918274836727) (-64)))).
Proof.
  intros Ft B8. unfold argument64. cbn [r0 r1 r2 r3 r4].
  destruct (const_bf (8347152959097614) (-34) 34 ltac:(unfold small; lia) eq_refl) as (c0 & -> & F0 & V0). change (IZR (Z.pow_pos 2 34)) with 17179869184 in V0.
  destruct (const_bf (7205461628416111) (-22) 22 ltac:(unfold small; lia) eq_refl) as (c1 & -> & F1 & V1). change (IZR (Z.pow_pos 2 22)) with 4194304 in V1.
  destruct (const_bf (8973197077554345) (-48) 48 ltac:(unfold small; lia) eq_refl) as (c2 & -> & F2 & V2). change (IZR (Z.pow_pos 2 48)) with 281474976710656 in V2.
  destruct (const_bf (7441387736296818) (-57) 57 ltac:(unfold small; lia) eq_refl) as (c3 & -> & F3 & V3). change (IZR (Z.pow_pos 2 57)) with 144115188075855872 in V3.
  destruct (const_bf (-4513918274836727) (-64) 64 ltac:(unfold small; lia) eq_refl) as (c4 & -> & F4 & V4). change (IZR (Z.pow_pos 2 64)) with 18446744073709551616 in V4.
  destruct (step_big (-4) c4 t c3 (- (2447 / 10 ^ 7)) (51635 / 10 ^ 6) (168 / 10 ^ 22) (245 / 10 ^ 6) (377 / 10 ^ 21) (517 / 10 ^ 4) F4 Ft F3 ltac:(lia)) as (q3 & -> & G3 & Q3 & M3); [rewrite V4; apply Rabs_le; lra|apply Rabs_le; lra|exact B8|rewrite V3; apply Rabs_le; lra|apply Rabs_le; lra|change (bpow radix2 (-4 - 54)) with (/ 288230376151711744); change (bpow radix2 (-4)) with (/ 16); lra|].
  set (W3 := (- (2447 / 10 ^ 7)) * B2R t + (51635 / 10 ^ 6)) in *. change (bpow radix2 (-4 - 54)) with (/ 288230376151711744) in Q3.
  destruct (step_big (6) q3 t c2 W3 (318792 / 10 ^ 4) (753 / 10 ^ 20) (537 / 10 ^ 4) (957 / 10 ^ 18) (319 / 10 ^ 1) G3 Ft F2 ltac:(lia)) as (q2 & -> & G2 & Q2 & M2); [lra|lra|exact B8|rewrite V2; apply Rabs_le; lra|apply Rabs_le; lra|change (bpow radix2 (6 - 54)) with (/ 281474976710656); change (bpow radix2 (6)) with 64; lra|].
  set (W2 := W3 * B2R t + (318792 / 10 ^ 4)) in *. change (bpow radix2 (6 - 54)) with (/ 281474976710656) in Q2.
  destruct (step_big (31) q2 t c1 W2 (17179159232178 / 10 ^ 4) (821 / 10 ^ 17) (324 / 10 ^ 1) (108 / 10 ^ 9) (1720000000) G2 Ft F1 ltac:(lia)) as (q1 & -> & G1 & Q1 & M1); [lra|lra|exact B8|rewrite V1; apply Rabs_le; lra|apply Rabs_le; lra|change (bpow radix2 (31 - 54)) with (/ 8388608); change (bpow radix2 (31)) with 2147483648; lra|].
  set (W1 := W2 * B2R t + (17179159232178 / 10 ^ 4)) in *. change (bpow radix2 (31 - 54)) with (/ 8388608) in Q1.
  destruct (step_big (34) q1 t c0 W1 (485868249036 / 10 ^ 6) (350 / 10 ^ 9) (1730000000) (683 / 10 ^ 14) (486000) G1 Ft F0 ltac:(lia)) as (q0 & -> & G0 & Q0 & M0); [lra|lra|exact B8|rewrite V0; apply Rabs_le; lra|apply Rabs_le; lra|change (bpow radix2 (34 - 54)) with (/ 1048576); change (bpow radix2 (34)) with 17179869184; lra|].
  set (W0 := W1 * B2R t + (485868249036 / 10 ^ 6)) in *. change (bpow radix2 (34 - 54)) with (/ 1048576) in Q0.
  apply argument_end with W0; [exact G0|lra|unfold W0, W1, W2, W3, moon_anomaly; ring].
Qed.
Lemma sun_anomaly_close (t : bf) : is_finite t = true -> Rabs (B2R t) <= 8 -> angle_up_to_turns (24 / 10 ^ 12) (sun_anomaly (B2R t)) (argument64 (B2SF t) (Row (fl 5528072992674598 (-32)) (fl 8697079332421920 (-26)) (fl (-4982782627722717) (-53)) (fl 5017514388048998 (-65)) (fl (-6782498861021528) (-69)))).
Proof.
  intros Ft B8. unfold argument64. cbn [r0 r1 r2 r3 r4].
  destruct (const_bf (5528072992674598) (-32) 32 ltac:(unfold small; lia) eq_refl) as (c0 & -> & F0 & V0). change (IZR (Z.pow_pos 2 32)) with 4294967296 in V0.
  destruct (const_bf (8697079332421920) (-26) 26 ltac:(unfold small; lia) eq_refl) as (c1 & -> & F1 & V1). change (IZR (Z.pow_pos 2 26)) with 67108864 in V1.
  destruct (const_bf (-4982782627722717) (-53) 53 ltac:(unfold small; lia) eq_refl) as (c2 & -> & F2 & V2). change (IZR (Z.pow_pos 2 53)) with 9007199254740992 in V2.
  destruct (const_bf (5017514388048998) (-65) 65 ltac:(unfold small; lia) eq_refl) as (c3 & -> & F3 & V3). change (IZR (Z.pow_pos 2 65)) with 36893488147419103232 in V3.
  destruct (const_bf (-6782498861021528) (-69) 69 ltac:(unfold small; lia) eq_refl) as (c4 & -> & F4 & V4). change (IZR (Z.pow_pos 2 69)) with 590295810358705651712 in V4.
  destruct (step_big (-12) c4 t c3 (- (1149 / 10 ^ 8)) (136 / 10 ^ 6) (116 / 10 ^ 24) (115 / 10 ^ 7) (118 / 10 ^ 23) (136 / 10 ^ 6) F4 Ft F3 ltac:(lia)) as (q3 & -> & G3 & Q3 & M3); [rewrite V4; apply Rabs_le; lra|apply Rabs_le; lra|exact B8|rewrite V3; apply Rabs_le; lra|apply Rabs_le; lra|change (bpow radix2 (-12 - 54)) with (/ 73786976294838206464); change (bpow radix2 (-12)) with (/ 4096); lra|].
  set (W3 := (- (1149 / 10 ^ 8)) * B2R t + (136 / 10 ^ 6)) in *. change (bpow radix2 (-12 - 54)) with (/ 73786976294838206464) in Q3.
  destruct (step_big (0) q3 t c2 W3 (- (5532 / 10 ^ 4)) (296 / 10 ^ 22) (228 / 10 ^ 6) (276 / 10 ^ 19) (554 / 10 ^ 3) G3 Ft F2 ltac:(lia)) as (q2 & -> & G2 & Q2 & M2); [lra|lra|exact B8|rewrite V2; apply Rabs_le; lra|apply Rabs_le; lra|change (bpow radix2 (0 - 54)) with (/ 18014398509481984); change (bpow radix2 (0)) with 1; lra|].
  set (W2 := W3 * B2R t + (- (5532 / 10 ^ 4))) in *. change (bpow radix2 (0 - 54)) with (/ 18014398509481984) in Q2.
  destruct (step_big (27) q2 t c1 W2 (1295965810481 / 10 ^ 4) (141 / 10 ^ 18) (556 / 10 ^ 3) (588 / 10 ^ 11) (130000000) G2 Ft F1 ltac:(lia)) as (q1 & -> & G1 & Q1 & M1); [lra|lra|exact B8|rewrite V1; apply Rabs_le; lra|apply Rabs_le; lra|change (bpow radix2 (27 - 54)) with (/ 134217728); change (bpow radix2 (27)) with 134217728; lra|].
  set (W1 := W2 * B2R t + (1295965810481 / 10 ^ 4)) in *. change (bpow radix2 (27 - 54)) with (/ 134217728) in Q1.
  destruct (step_big (30) q1 t c0 W1 (128710479305 / 10 ^ 5) (210 / 10 ^ 10) (131000000) (238 / 10 ^ 13) (1290000) G1 Ft F0 ltac:(lia)) as (q0 & -> & G0 & Q0 & M0); [lra|lra|exact B8|rewrite V0; apply Rabs_le; lra|apply Rabs_le; lra|change (bpow radix2 (30 - 54)) with (/ 16777216); change (bpow radix2 (30)) with 1073741824; lra|].
  set (W0 := W1 * B2R t + (128710479305 / 10 ^ 5)) in *. change (bpow radix2 (30 - 54)) with (/ 16777216) in Q0.
  apply argument_end with W0; [exact G0|lra|unfold W0, W1, W2, W3, sun_anomaly; ring].
Qed.
Lemma latitude_argument_close (t : bf) : is_finite t = true -> Rabs (B2R t) <= 8 -> angle_up_to_turns (24 / 10 ^ 12) (latitude_argument (B2R t)) (argument64 (B2SF t) (Row (fl 5768648335331256 (-34)) (fl 7296106156671579 (-22)) (fl (-7178287446065834) (-49)) (fl (-4782318401109201) (-62)) (fl 4923067058391605 (-70)))).
Proof.
  intros Ft B8. unfold argument64. cbn [r0 r1 r2 r3 r4].
  destruct (const_bf (5768648335331256) (-34) 34 ltac:(unfold small; lia) eq_refl) as (c0 & -> & F0 & V0). change (IZR (Z.pow_pos 2 34)) with 17179869184 in V0.
  destruct (const_bf (7296106156671579) (-22) 22 ltac:(unfold small; lia) eq_refl) as (c1 & -> & F1 & V1). change (IZR (Z.pow_pos 2 22)) with 4194304 in V1.
  destruct (const_bf (-7178287446065834) (-49) 49 ltac:(unfold small; lia) eq_refl) as (c2 & -> & F2 & V2). change (IZR (Z.pow_pos 2 49)) with 562949953421312 in V2.
  destruct (const_bf (-4782318401109201) (-62) 62 ltac:(unfold small; lia) eq_refl) as (c3 & -> & F3 & V3). change (IZR (Z.pow_pos 2 62)) with 4611686018427387904 in V3.
  destruct (const_bf (4923067058391605) (-70) 70 ltac:(unfold small; lia) eq_refl) as (c4 & -> & F4 & V4). change (IZR (Z.pow_pos 2 70)) with 1180591620717411303424 in V4.
  destruct (step_big (-9) c4 t c3 (417 / 10 ^ 8) (- (1037 / 10 ^ 6)) (127 / 10 ^ 24) (417 / 10 ^ 8) (612 / 10 ^ 22) (104 / 10 ^ 5) F4 Ft F3 ltac:(lia)) as (q3 & -> & G3 & Q3 & M3); [rewrite V4; apply Rabs_le; lra|apply Rabs_le; lra|exact B8|rewrite V3; apply Rabs_le; lra|apply Rabs_le; lra|change (bpow radix2 (-9 - 54)) with (/ 9223372036854775808); change (bpow radix2 (-9)) with (/ 512); lra|].
  set (W3 := (417 / 10 ^ 8) * B2R t + (- (1037 / 10 ^ 6))) in *. change (bpow radix2 (-9 - 54)) with (/ 9223372036854775808) in Q3.
  destruct (step_big (4) q3 t c2 W3 (- (127512 / 10 ^ 4)) (282 / 10 ^ 21) (108 / 10 ^ 5) (832 / 10 ^ 18) (128 / 10 ^ 1) G3 Ft F2 ltac:(lia)) as (q2 & -> & G2 & Q2 & M2); [lra|lra|exact B8|rewrite V2; apply Rabs_le; lra|apply Rabs_le; lra|change (bpow radix2 (4 - 54)) with (/ 1125899906842624); change (bpow radix2 (4)) with 16; lra|].
  set (W2 := W3 * B2R t + (- (127512 / 10 ^ 4))) in *. change (bpow radix2 (4 - 54)) with (/ 1125899906842624) in Q2.
  destruct (step_big (31) q2 t c1 W2 (17395272628478 / 10 ^ 4) (264 / 10 ^ 17) (129 / 10 ^ 1) (181 / 10 ^ 10) (1740000000) G2 Ft F1 ltac:(lia)) as (q1 & -> & G1 & Q1 & M1); [lra|lra|exact B8|rewrite V1; apply Rabs_le; lra|apply Rabs_le; lra|change (bpow radix2 (31 - 54)) with (/ 8388608); change (bpow radix2 (31)) with 2147483648; lra|].
  set (W1 := W2 * B2R t + (17395272628478 / 10 ^ 4)) in *. change (bpow radix2 (31 - 54)) with (/ 8388608) in Q1.
  destruct (step_big (34) q1 t c0 W1 (335779526232 / 10 ^ 6) (260 / 10 ^ 9) (1750000000) (279 / 10 ^ 13) (336000) G1 Ft F0 ltac:(lia)) as (q0 & -> & G0 & Q0 & M0); [lra|lra|exact B8|rewrite V0; apply Rabs_le; lra|apply Rabs_le; lra|change (bpow radix2 (34 - 54)) with (/ 1048576); change (bpow radix2 (34)) with 17179869184; lra|].
  set (W0 := W1 * B2R t + (335779526232 / 10 ^ 6)) in *. change (bpow radix2 (34 - 54)) with (/ 1048576) in Q0.
  apply argument_end with W0; [exact G0|lra|unfold W0, W1, W2, W3, latitude_argument; ring].
Qed.
Lemma elongation_close (t : bf) : is_finite t = true -> Rabs (B2R t) <= 8 -> angle_up_to_turns (24 / 10 ^ 12) (elongation (B2R t)) (argument64 (B2SF t) (Row (fl 4605324655134497 (-32)) (fl 6723308255797314 (-22)) (fl (-7172657946531620) (-50)) (fl 7601211479872942 (-60)) (fl (-4676618557566846) (-67)))).
Proof.
  intros Ft B8. unfold argument64. cbn [r0 r1 r2 r3 r4].
  destruct (const_bf (4605324655134497) (-32) 32 ltac:(unfold small; lia) eq_refl) as (c0 & -> & F0 & V0). change (IZR (Z.pow_pos 2 32)) with 4294967296 in V0.
  destruct (const_bf (6723308255797314) (-22) 22 ltac:(unfold small; lia) eq_refl) as (c1 & -> & F1 & V1). change (IZR (Z.pow_pos 2 22)) with 4194304 in V1.
  destruct (const_bf (-7172657946531620) (-50) 50 ltac:(unfold small; lia) eq_refl) as (c2 & -> & F2 & V2). change (IZR (Z.pow_pos 2 50)) with 1125899906842624 in V2.
  destruct (const_bf (7601211479872942) (-60) 60 ltac:(unfold small; lia) eq_refl) as (c3 & -> & F3 & V3). change (IZR (Z.pow_pos 2 60)) with 1152921504606846976 in V3.
  destruct (const_bf (-4676618557566846) (-67) 67 ltac:(unfold small; lia) eq_refl) as (c4 & -> & F4 & V4). change (IZR (Z.pow_pos 2 67)) with 147573952589676412928 in V4.
  destruct (step_big (-7) c4 t c3 (- (3169 / 10 ^ 8)) (6593 / 10 ^ 6) (354 / 10 ^ 23) (317 / 10 ^ 7) (108 / 10 ^ 21) (660 / 10 ^ 5) F4 Ft F3 ltac:(lia)) as (q3 & -> & G3 & Q3 & M3); [rewrite V4; apply Rabs_le; lra|apply Rabs_le; lra|exact B8|rewrite V3; apply Rabs_le; lra|apply Rabs_le; lra|change (bpow radix2 (-7 - 54)) with (/ 2305843009213693952); change (bpow radix2 (-7)) with (/ 128); lra|].
  set (W3 := (- (3169 / 10 ^ 8)) * B2R t + (6593 / 10 ^ 6)) in *. change (bpow radix2 (-7 - 54)) with (/ 2305843009213693952) in Q3.
  destruct (step_big (3) q3 t c2 W3 (- (63706 / 10 ^ 4)) (102 / 10 ^ 20) (686 / 10 ^ 5) (444 / 10 ^ 18) (638 / 10 ^ 2) G3 Ft F2 ltac:(lia)) as (q2 & -> & G2 & Q2 & M2); [lra|lra|exact B8|rewrite V2; apply Rabs_le; lra|apply Rabs_le; lra|change (bpow radix2 (3 - 54)) with (/ 2251799813685248); change (bpow radix2 (3)) with 8; lra|].
  set (W2 := W3 * B2R t + (- (63706 / 10 ^ 4))) in *. change (bpow radix2 (3 - 54)) with (/ 2251799813685248) in Q2.
  destruct (step_big (31) q2 t c1 W2 (1602961601209 / 10 ^ 3) (136 / 10 ^ 17) (644 / 10 ^ 2) (122 / 10 ^ 9) (1610000000) G2 Ft F1 ltac:(lia)) as (q1 & -> & G1 & Q1 & M1); [lra|lra|exact B8|rewrite V1; apply Rabs_le; lra|apply Rabs_le; lra|change (bpow radix2 (31 - 54)) with (/ 8388608); change (bpow radix2 (31)) with 2147483648; lra|].
  set (W1 := W2 * B2R t + (1602961601209 / 10 ^ 3)) in *. change (bpow radix2 (31 - 54)) with (/ 8388608) in Q1.
  destruct (step_big (34) q1 t c0 W1 (107226070369 / 10 ^ 5) (365 / 10 ^ 9) (1620000000) (123 / 10 ^ 12) (1080000) G1 Ft F0 ltac:(lia)) as (q0 & -> & G0 & Q0 & M0); [lra|lra|exact B8|rewrite V0; apply Rabs_le; lra|apply Rabs_le; lra|change (bpow radix2 (34 - 54)) with (/ 1048576); change (bpow radix2 (34)) with 17179869184; lra|].
  set (W0 := W1 * B2R t + (107226070369 / 10 ^ 5)) in *. change (bpow radix2 (34 - 54)) with (/ 1048576) in Q0.
  apply argument_end with W0; [exact G0|lra|unfold W0, W1, W2, W3, elongation; ring].
Qed.
Lemma node_close (t : bf) : is_finite t = true -> Rabs (B2R t) <= 8 -> angle_up_to_turns (24 / 10 ^ 12) (node (B2R t)) (argument64 (B2SF t) (Row (fl 7733696750075851 (-34)) (fl (-7476346792060545) (-30)) (fl 8412949283909455 (-50)) (fl 8879801428481935 (-60)) (fl (-8764417044300882) (-67)))).
Proof.
  intros Ft B8. unfold argument64. cbn [r0 r1 r2 r3 r4].
  destruct (const_bf (7733696750075851) (-34) 34 ltac:(unfold small; lia) eq_refl) as (c0 & -> & F0 & V0). change (IZR (Z.pow_pos 2 34)) with 17179869184 in V0.
  destruct (const_bf (-7476346792060545) (-30) 30 ltac:(unfold small; lia) eq_refl) as (c1 & -> & F1 & V1). change (IZR (Z.pow_pos 2 30)) with 1073741824 in V1.
  destruct (const_bf (8412949283909455) (-50) 50 ltac:(unfold small; lia) eq_refl) as (c2 & -> & F2 & V2). change (IZR (Z.pow_pos 2 50)) with 1125899906842624 in V2.
  destruct (const_bf (8879801428481935) (-60) 60 ltac:(unfold small; lia) eq_refl) as (c3 & -> & F3 & V3). change (IZR (Z.pow_pos 2 60)) with 1152921504606846976 in V3.
  destruct (const_bf (-8764417044300882) (-67) 67 ltac:(unfold small; lia) eq_refl) as (c4 & -> & F4 & V4). change (IZR (Z.pow_pos 2 67)) with 147573952589676412928 in V4.
  destruct (step_big (-6) c4 t c3 (- (5939 / 10 ^ 8)) (7702 / 10 ^ 6) (123 / 10 ^ 23) (594 / 10 ^ 7) (391 / 10 ^ 21) (771 / 10 ^ 5) F4 Ft F3 ltac:(lia)) as (q3 & -> & G3 & Q3 & M3); [rewrite V4; apply Rabs_le; lra|apply Rabs_le; lra|exact B8|rewrite V3; apply Rabs_le; lra|apply Rabs_le; lra|change (bpow radix2 (-6 - 54)) with (/ 1152921504606846976); change (bpow radix2 (-6)) with (/ 64); lra|].
  set (W3 := (- (5939 / 10 ^ 8)) * B2R t + (7702 / 10 ^ 6)) in *. change (bpow radix2 (-6 - 54)) with (/ 1152921504606846976) in Q3.
  destruct (step_big (3) q3 t c2 W3 (74722 / 10 ^ 4) (216 / 10 ^ 20) (819 / 10 ^ 5) (516 / 10 ^ 19) (748 / 10 ^ 2) G3 Ft F2 ltac:(lia)) as (q2 & -> & G2 & Q2 & M2); [lra|lra|exact B8|rewrite V2; apply Rabs_le; lra|apply Rabs_le; lra|change (bpow radix2 (3 - 54)) with (/ 2251799813685248); change (bpow radix2 (3)) with 8; lra|].
  set (W2 := W3 * B2R t + (74722 / 10 ^ 4)) in *. change (bpow radix2 (3 - 54)) with (/ 2251799813685248) in Q2.
  destruct (step_big (23) q2 t c1 W2 (- (69628905431 / 10 ^ 4)) (967 / 10 ^ 18) (755 / 10 ^ 2) (396 / 10 ^ 12) (6970000) G2 Ft F1 ltac:(lia)) as (q1 & -> & G1 & Q1 & M1); [lra|lra|exact B8|rewrite V1; apply Rabs_le; lra|apply Rabs_le; lra|change (bpow radix2 (23 - 54)) with (/ 2147483648); change (bpow radix2 (23)) with 8388608; lra|].
  set (W1 := W2 * B2R t + (- (69628905431 / 10 ^ 4))) in *. change (bpow radix2 (23 - 54)) with (/ 2147483648) in Q1.
  destruct (step_big (26) q1 t c0 W1 (450160398036 / 10 ^ 6) (135 / 10 ^ 11) (6980000) (306 / 10 ^ 13) (451000) G1 Ft F0 ltac:(lia)) as (q0 & -> & G0 & Q0 & M0); [lra|lra|exact B8|rewrite V0; apply Rabs_le; lra|apply Rabs_le; lra|change (bpow radix2 (26 - 54)) with (/ 268435456); change (bpow radix2 (26)) with 67108864; lra|].
  set (W0 := W1 * B2R t + (450160398036 / 10 ^ 6)) in *. change (bpow radix2 (26 - 54)) with (/ 268435456) in Q0.
  apply argument_end with W0; [exact G0|lra|unfold W0, W1, W2, W3, node; ring].
Qed.
Lemma fundamental_close (t : bf) : is_finite t = true -> Rabs (B2R t) <= 8 -> Forall2 (fun f x => angle_up_to_turns (24 / 10 ^ 12) (f (B2R t)) x) mean_arguments (fundamental_arguments64 (B2SF t)).
Proof.
  intros Ft B8. unfold mean_arguments, fundamental_arguments64, fa_rows. cbn [map]. apply Forall2_cons; [exact (moon_anomaly_close t Ft B8)|]. apply Forall2_cons; [exact (sun_anomaly_close t Ft B8)|]. apply Forall2_cons; [exact (latitude_argument_close t Ft B8)|]. apply Forall2_cons; [exact (elongation_close t Ft B8)|]. apply Forall2_cons; [exact (node_close t Ft B8)|]. apply Forall2_nil.
Qed.
Lemma fundamental_example : exists t : bf, is_finite t = true /\ B2R t = 1 / 4 /\ Rabs (B2R t) <= 8.
Proof. destruct (const_bf 1 (-2) 2 ltac:(unfold small; lia) eq_refl) as (f & _ & Ff & Vf). change (IZR (Z.pow_pos 2 2)) with 4 in Vf. exists f. split; [exact Ff|]. split; [exact Vf|]. rewrite Vf. apply Rabs_le. lra. Qed.
