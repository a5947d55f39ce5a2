(** Proofs about the angles of precession in binary64. *)
From Coq Require Import ZArith Reals Lia Lra.
From Flocq Require Import Core BinarySingleNaN.
From Verif Require Import Float64 Float64_Proofs Float_Time_Model Float_Time_Proofs Float_Time_Proofs4 SexaF_Proofs2 CalF_Proofs CalF_Proofs2 Spin_Spec Wrap_Model Wrap_Spec Wrap_Proofs Wrap_Proofs2 EraF_Model EraF_Proofs PrecF_Model PrecF_Spec.
Open Scope R_scope.

Lemma psi_close (t : bf) (T : R) : is_finite t = true -> Rabs (B2R t - T) <= / 281474976710656 -> Rabs T <= 75 / 10 ->
  exists s : bf, psia64 (B2SF t) = B2SF s /\ is_finite s = true /\ Rabs (B2R s - psi_2003 T) <= 332 / 10 ^ 13 /\ Rabs (psi_2003 T) <= 40400.
Proof.
  intros Ft HT BT. pose proof top_ge as TT. set (d := / 281474976710656) in *. assert (Dv : d = / 281474976710656) by reflexivity. clearbody d. assert (B8 : Rabs (B2R t) <= 8) by (apply Rabs_le_inv in HT, BT; apply Rabs_le; lra). assert (T8 : Rabs T <= 8) by lra. unfold psia64. cbv zeta.
  destruct (const_bf (-7185552840334452) (-76) 76 ltac:(unfold small; lia) eq_refl) as (c0 & -> & F0 & V0). change (IZR (Z.pow_pos 2 76)) with 75557863725914323419136 in V0.
  destruct (const_bf (4901336793872775) (-65) 65 ltac:(unfold small; lia) eq_refl) as (c1 & -> & F1 & V1). change (IZR (Z.pow_pos 2 65)) with 36893488147419103232 in V1.
  destruct (const_bf (5259397319715515) (-62) 62 ltac:(unfold small; lia) eq_refl) as (c2 & -> & F2 & V2). change (IZR (Z.pow_pos 2 62)) with 4611686018427387904 in V2.
  destruct (const_bf (4859415072770194) (-52) 52 ltac:(unfold small; lia) eq_refl) as (c3 & -> & F3 & V3). change (IZR (Z.pow_pos 2 52)) with 4503599627370496 in V3.
  destruct (const_bf (5539869003280844) (-40) 40 ltac:(unfold small; lia) eq_refl) as (c4 & -> & F4 & V4). change (IZR (Z.pow_pos 2 40)) with 1099511627776 in V4.
  destruct (step_close false (-12) c0 t c1 (- (951 / 10 ^ 10)) T (132851 / 10 ^ 9) (229 / 10 ^ 26) (951 / 10 ^ 10) d (846 / 10 ^ 23) F0 Ft F1 ltac:(lia)) as (q1 & E1 & G1 & Q1 & M1); [rewrite V0; apply Rabs_le; lra|apply Rabs_le; lra|exact HT|exact B8|exact T8|lra|rewrite V1; apply Rabs_le; lra|change (bpow radix2 (-12 - 54)) with (/ 73786976294838206464); change (bpow radix2 (-12)) with (/ 4096); rewrite (Rabs_pos_eq (132851 / 10 ^ 9)) by lra; lra|].
  cbv iota in E1, Q1, M1. rewrite E1. set (W1 := (- (951 / 10 ^ 10)) * T + 132851 / 10 ^ 9) in *. change (bpow radix2 (-12 - 54)) with (/ 73786976294838206464) in Q1. rewrite (Rabs_pos_eq (132851 / 10 ^ 9)) in M1 by lra.
  destruct (step_close true (-8) q1 t c2 W1 T (114045 / 10 ^ 8) (363 / 10 ^ 22) (134 / 10 ^ 6) d (111 / 10 ^ 21) G1 Ft F2 ltac:(lia)) as (q2 & E2 & G2 & Q2 & M2); [lra|lra|exact HT|exact B8|exact T8|lra|rewrite V2; apply Rabs_le; lra|change (bpow radix2 (-8 - 54)) with (/ 4611686018427387904); change (bpow radix2 (-8)) with (/ 256); rewrite (Rabs_pos_eq (114045 / 10 ^ 8)) by lra; lra|].
  cbv iota in E2, Q2, M2. rewrite E2. set (W2 := W1 * T - 114045 / 10 ^ 8) in *. change (bpow radix2 (-8 - 54)) with (/ 4611686018427387904) in Q2. rewrite (Rabs_pos_eq (114045 / 10 ^ 8)) in M2 by lra.
  destruct (step_close true (1) q2 t c3 W2 T (10790069 / 10 ^ 7) (133 / 10 ^ 20) (222 / 10 ^ 5) d (988 / 10 ^ 20) G2 Ft F3 ltac:(lia)) as (q3 & E3 & G3 & Q3 & M3); [lra|lra|exact HT|exact B8|exact T8|lra|rewrite V3; apply Rabs_le; lra|change (bpow radix2 (1 - 54)) with (/ 9007199254740992); change (bpow radix2 (1)) with 2; rewrite (Rabs_pos_eq (10790069 / 10 ^ 7)) by lra; lra|].
  cbv iota in E3, Q3, M3. rewrite E3. set (W3 := W2 * T - 10790069 / 10 ^ 7) in *. change (bpow radix2 (1 - 54)) with (/ 9007199254740992) in Q3. rewrite (Rabs_pos_eq (10790069 / 10 ^ 7)) in M3 by lra.
  destruct (step_close false (13) q3 t c4 W3 T (5038481507 / 10 ^ 6) (253 / 10 ^ 18) (110 / 10 ^ 2) d (462 / 10 ^ 15) G3 Ft F4 ltac:(lia)) as (q4 & E4 & G4 & Q4 & M4); [lra|lra|exact HT|exact B8|exact T8|lra|rewrite V4; apply Rabs_le; lra|change (bpow radix2 (13 - 54)) with (/ 2199023255552); change (bpow radix2 (13)) with 8192; rewrite (Rabs_pos_eq (5038481507 / 10 ^ 6)) by lra; lra|].
  cbv iota in E4, Q4, M4. rewrite E4. set (W4 := W3 * T + 5038481507 / 10 ^ 6) in *. change (bpow radix2 (13 - 54)) with (/ 2199023255552) in Q4. rewrite (Rabs_pos_eq (5038481507 / 10 ^ 6)) in M4 by lra.
  assert (HQ : Rabs (B2R q4 - W4) <= 140 / 10 ^ 14) by lra. assert (HM : Rabs W4 <= 5050) by lra. pose proof (product_close q4 t W4 T _ _ d HQ HM HT B8 ltac:(lra)) as P.
  assert (MM : Rabs (W4 * T) <= 5050 * 8) by (rewrite Rabs_mult; apply Rmult_le_compat; (apply Rabs_pos || assumption)). apply Rabs_le_inv in P, MM.
  destruct (fmul_val q4 t G4 Ft) as (p & -> & Fp & Vp & _); [apply Rabs_lt; lra|]. assert (RR : B2R q4 * B2R t - bpow radix2 (16 - 54) <= B2R p <= B2R q4 * B2R t + bpow radix2 (16 - 54)) by (rewrite Vp; apply rnd_small; [lia|change (bpow radix2 16) with 65536; apply Rabs_lt; lra]). change (bpow radix2 (16 - 54)) with (/ 274877906944) in RR.
  exists p. split; [reflexivity|]. split; [exact Fp|]. replace (psi_2003 T) with (W4 * T) by (unfold W4, W3, W2, W1, psi_2003; ring). split; apply Rabs_le; lra.
Qed.
Lemma omega_close (t : bf) (T : R) : is_finite t = true -> Rabs (B2R t - T) <= / 281474976710656 -> Rabs T <= 75 / 10 ->
  exists s : bf, omegaa64 (B2SF t) = B2SF s /\ is_finite s = true /\ Rabs (B2R s - omega_2003 T) <= 177 / 10 ^ 13 /\ Rabs (omega_2003 T) <= 84400.
Proof.
  intros Ft HT BT. pose proof top_ge as TT. set (d := / 281474976710656) in *. assert (Dv : d = / 281474976710656) by reflexivity. clearbody d. assert (B8 : Rabs (B2R t) <= 8) by (apply Rabs_le_inv in HT, BT; apply Rabs_le; lra). assert (T8 : Rabs T <= 8) by lra. unfold omegaa64. cbv zeta.
  destruct (const_bf (6303414781334402) (-74) 74 ltac:(unfold small; lia) eq_refl) as (c0 & -> & F0 & V0). change (IZR (Z.pow_pos 2 74)) with 18889465931478580854784 in V0.
  destruct (const_bf (8821380590000497) (-74) 74 ltac:(unfold small; lia) eq_refl) as (c1 & -> & F1 & V1). change (IZR (Z.pow_pos 2 74)) with 18889465931478580854784 in V1.
  destruct (const_bf (8906353210733031) (-60) 60 ltac:(unfold small; lia) eq_refl) as (c2 & -> & F2 & V2). change (IZR (Z.pow_pos 2 60)) with 1152921504606846976 in V2.
  destruct (const_bf (7387676005700946) (-57) 57 ltac:(unfold small; lia) eq_refl) as (c3 & -> & F3 & V3). change (IZR (Z.pow_pos 2 57)) with 144115188075855872 in V3.
  destruct (const_bf (7423085107411184) (-58) 58 ltac:(unfold small; lia) eq_refl) as (c4 & -> & F4 & V4). change (IZR (Z.pow_pos 2 58)) with 288230376151711744 in V4.
  destruct (const_bf (5798646066567971) (-36) 36 ltac:(unfold small; lia) eq_refl) as (c5 & -> & F5 & V5). change (IZR (Z.pow_pos 2 36)) with 68719476736 in V5.
  destruct (step_close true (-18) c0 t c1 (3337 / 10 ^ 10) T (467 / 10 ^ 9) (252 / 10 ^ 25) (334 / 10 ^ 9) d (151 / 10 ^ 25) F0 Ft F1 ltac:(lia)) as (q1 & E1 & G1 & Q1 & M1); [rewrite V0; apply Rabs_le; lra|apply Rabs_le; lra|exact HT|exact B8|exact T8|lra|rewrite V1; apply Rabs_le; lra|change (bpow radix2 (-18 - 54)) with (/ 4722366482869645213696); change (bpow radix2 (-18)) with (/ 262144); rewrite (Rabs_pos_eq (467 / 10 ^ 9)) by lra; lra|].
  cbv iota in E1, Q1, M1. rewrite E1. set (W1 := (3337 / 10 ^ 10) * T - 467 / 10 ^ 9) in *. change (bpow radix2 (-18 - 54)) with (/ 4722366482869645213696) in Q1. rewrite (Rabs_pos_eq (467 / 10 ^ 9)) in M1 by lra.
  destruct (step_close true (-7) q1 t c2 W1 T (772503 / 10 ^ 8) (185 / 10 ^ 23) (314 / 10 ^ 8) d (907 / 10 ^ 22) G1 Ft F2 ltac:(lia)) as (q2 & E2 & G2 & Q2 & M2); [lra|lra|exact HT|exact B8|exact T8|lra|rewrite V2; apply Rabs_le; lra|change (bpow radix2 (-7 - 54)) with (/ 2305843009213693952); change (bpow radix2 (-7)) with (/ 128); rewrite (Rabs_pos_eq (772503 / 10 ^ 8)) by lra; lra|].
  cbv iota in E2, Q2, M2. rewrite E2. set (W2 := W1 * T - 772503 / 10 ^ 8) in *. change (bpow radix2 (-7 - 54)) with (/ 2305843009213693952) in Q2. rewrite (Rabs_pos_eq (772503 / 10 ^ 8)) in M2 by lra.
  destruct (step_close false (-3) q2 t c3 W2 T (512623 / 10 ^ 7) (994 / 10 ^ 21) (776 / 10 ^ 5) d (357 / 10 ^ 20) G2 Ft F3 ltac:(lia)) as (q3 & E3 & G3 & Q3 & M3); [lra|lra|exact HT|exact B8|exact T8|lra|rewrite V3; apply Rabs_le; lra|change (bpow radix2 (-3 - 54)) with (/ 144115188075855872); change (bpow radix2 (-3)) with (/ 8); rewrite (Rabs_pos_eq (512623 / 10 ^ 7)) by lra; lra|].
  cbv iota in E3, Q3, M3. rewrite E3. set (W3 := W2 * T + 512623 / 10 ^ 7) in *. change (bpow radix2 (-3 - 54)) with (/ 144115188075855872) in Q3. rewrite (Rabs_pos_eq (512623 / 10 ^ 7)) in M3 by lra.
  destruct (step_close true (0) q3 t c4 W3 T (25754 / 10 ^ 6) (535 / 10 ^ 19) (114 / 10 ^ 3) d (974 / 10 ^ 21) G3 Ft F4 ltac:(lia)) as (q4 & E4 & G4 & Q4 & M4); [lra|lra|exact HT|exact B8|exact T8|lra|rewrite V4; apply Rabs_le; lra|change (bpow radix2 (0 - 54)) with (/ 18014398509481984); change (bpow radix2 (0)) with 1; rewrite (Rabs_pos_eq (25754 / 10 ^ 6)) by lra; lra|].
  cbv iota in E4, Q4, M4. rewrite E4. set (W4 := W3 * T - 25754 / 10 ^ 6) in *. change (bpow radix2 (0 - 54)) with (/ 18014398509481984) in Q4. rewrite (Rabs_pos_eq (25754 / 10 ^ 6)) in M4 by lra.
  destruct (step_close false (17) q4 t c5 W4 T (84381406 / 10 ^ 3) (955 / 10 ^ 18) (938 / 10 ^ 3) d (295 / 10 ^ 14) G4 Ft F5 ltac:(lia)) as (q5 & E5 & G5 & Q5 & M5); [lra|lra|exact HT|exact B8|exact T8|lra|rewrite V5; apply Rabs_le; lra|change (bpow radix2 (17 - 54)) with (/ 137438953472); change (bpow radix2 (17)) with 131072; rewrite (Rabs_pos_eq (84381406 / 10 ^ 3)) by lra; lra|].
  cbv iota in E5, Q5, M5. rewrite E5. set (W5 := W4 * T + 84381406 / 10 ^ 3) in *. change (bpow radix2 (17 - 54)) with (/ 137438953472) in Q5. rewrite (Rabs_pos_eq (84381406 / 10 ^ 3)) in M5 by lra.
  exists q5. split; [reflexivity|]. split; [exact G5|]. replace (omega_2003 T) with W5 by (unfold W5, W4, W3, W2, W1, omega_2003; ring). split; lra.
Qed.
Lemma chi_close (t : bf) (T : R) : is_finite t = true -> Rabs (B2R t - T) <= / 281474976710656 -> Rabs T <= 75 / 10 ->
  exists s : bf, chia64 (B2SF t) = B2SF s /\ is_finite s = true /\ Rabs (B2R s - chi_2003 T) <= 263 / 10 ^ 15 /\ Rabs (chi_2003 T) <= 240.
Proof.
  intros Ft HT BT. pose proof top_ge as TT. set (d := / 281474976710656) in *. assert (Dv : d = / 281474976710656) by reflexivity. clearbody d. assert (B8 : Rabs (B2R t) <= 8) by (apply Rabs_le_inv in HT, BT; apply Rabs_le; lra). assert (T8 : Rabs T <= 8) by lra. unfold chia64. cbv zeta.
  destruct (const_bf (-8462480737302404) (-77) 77 ltac:(unfold small; lia) eq_refl) as (c0 & -> & F0 & V0). change (IZR (Z.pow_pos 2 77)) with 151115727451828646838272 in V0.
  destruct (const_bf (6296353367702986) (-65) 65 ltac:(unfold small; lia) eq_refl) as (c1 & -> & F1 & V1). change (IZR (Z.pow_pos 2 65)) with 36893488147419103232 in V1.
  destruct (const_bf (5589225103753441) (-62) 62 ltac:(unfold small; lia) eq_refl) as (c2 & -> & F2 & V2). change (IZR (Z.pow_pos 2 62)) with 4611686018427387904 in V2.
  destruct (const_bf (5362501828864609) (-51) 51 ltac:(unfold small; lia) eq_refl) as (c3 & -> & F3 & V3). change (IZR (Z.pow_pos 2 51)) with 2251799813685248 in V3.
  destruct (const_bf (5942726577146598) (-49) 49 ltac:(unfold small; lia) eq_refl) as (c4 & -> & F4 & V4). change (IZR (Z.pow_pos 2 49)) with 562949953421312 in V4.
  destruct (step_close false (-12) c0 t c1 (- (56 / 10 ^ 9)) T (170663 / 10 ^ 9) (163 / 10 ^ 26) (560 / 10 ^ 10) d (124 / 10 ^ 22) F0 Ft F1 ltac:(lia)) as (q1 & E1 & G1 & Q1 & M1); [rewrite V0; apply Rabs_le; lra|apply Rabs_le; lra|exact HT|exact B8|exact T8|lra|rewrite V1; apply Rabs_le; lra|change (bpow radix2 (-12 - 54)) with (/ 73786976294838206464); change (bpow radix2 (-12)) with (/ 4096); rewrite (Rabs_pos_eq (170663 / 10 ^ 9)) by lra; lra|].
  cbv iota in E1, Q1, M1. rewrite E1. set (W1 := (- (56 / 10 ^ 9)) * T + 170663 / 10 ^ 9) in *. change (bpow radix2 (-12 - 54)) with (/ 73786976294838206464) in Q1. rewrite (Rabs_pos_eq (170663 / 10 ^ 9)) in M1 by lra.
  destruct (step_close true (-8) q1 t c2 W1 T (121197 / 10 ^ 8) (402 / 10 ^ 22) (172 / 10 ^ 6) d (759 / 10 ^ 22) G1 Ft F2 ltac:(lia)) as (q2 & E2 & G2 & Q2 & M2); [lra|lra|exact HT|exact B8|exact T8|lra|rewrite V2; apply Rabs_le; lra|change (bpow radix2 (-8 - 54)) with (/ 4611686018427387904); change (bpow radix2 (-8)) with (/ 256); rewrite (Rabs_pos_eq (121197 / 10 ^ 8)) by lra; lra|].
  cbv iota in E2, Q2, M2. rewrite E2. set (W2 := W1 * T - 121197 / 10 ^ 8) in *. change (bpow radix2 (-8 - 54)) with (/ 4611686018427387904) in Q2. rewrite (Rabs_pos_eq (121197 / 10 ^ 8)) in M2 by lra.
  destruct (step_close true (2) q2 t c3 W2 T (23814292 / 10 ^ 7) (146 / 10 ^ 20) (259 / 10 ^ 5) d (960 / 10 ^ 19) G2 Ft F3 ltac:(lia)) as (q3 & E3 & G3 & Q3 & M3); [lra|lra|exact HT|exact B8|exact T8|lra|rewrite V3; apply Rabs_le; lra|change (bpow radix2 (2 - 54)) with (/ 4503599627370496); change (bpow radix2 (2)) with 4; rewrite (Rabs_pos_eq (23814292 / 10 ^ 7)) by lra; lra|].
  cbv iota in E3, Q3, M3. rewrite E3. set (W3 := W2 * T - 23814292 / 10 ^ 7) in *. change (bpow radix2 (2 - 54)) with (/ 4503599627370496) in Q3. rewrite (Rabs_pos_eq (23814292 / 10 ^ 7)) in M3 by lra.
  destruct (step_close false (5) q3 t c4 W3 T (10556403 / 10 ^ 6) (567 / 10 ^ 18) (241 / 10 ^ 2) d (510 / 10 ^ 18) G3 Ft F4 ltac:(lia)) as (q4 & E4 & G4 & Q4 & M4); [lra|lra|exact HT|exact B8|exact T8|lra|rewrite V4; apply Rabs_le; lra|change (bpow radix2 (5 - 54)) with (/ 562949953421312); change (bpow radix2 (5)) with 32; rewrite (Rabs_pos_eq (10556403 / 10 ^ 6)) by lra; lra|].
  cbv iota in E4, Q4, M4. rewrite E4. set (W4 := W3 * T + 10556403 / 10 ^ 6) in *. change (bpow radix2 (5 - 54)) with (/ 562949953421312) in Q4. rewrite (Rabs_pos_eq (10556403 / 10 ^ 6)) in M4 by lra.
  assert (HQ : Rabs (B2R q4 - W4) <= 174 / 10 ^ 16) by lra. assert (HM : Rabs W4 <= 299 / 10 ^ 1) by lra. pose proof (product_close q4 t W4 T _ _ d HQ HM HT B8 ltac:(lra)) as P.
  assert (MM : Rabs (W4 * T) <= 299 / 10 ^ 1 * 8) by (rewrite Rabs_mult; apply Rmult_le_compat; (apply Rabs_pos || assumption)). apply Rabs_le_inv in P, MM.
  destruct (fmul_val q4 t G4 Ft) as (p & -> & Fp & Vp & _); [apply Rabs_lt; lra|]. assert (RR : B2R q4 * B2R t - bpow radix2 (8 - 54) <= B2R p <= B2R q4 * B2R t + bpow radix2 (8 - 54)) by (rewrite Vp; apply rnd_small; [lia|change (bpow radix2 8) with 256; apply Rabs_lt; lra]). change (bpow radix2 (8 - 54)) with (/ 70368744177664) in RR.
  exists p. split; [reflexivity|]. split; [exact Fp|]. replace (chi_2003 T) with (W4 * T) by (unfold W4, W3, W2, W1, chi_2003; ring). split; apply Rabs_le; lra.
Qed.
Lemma to_radians k (s : bf) (S e B : R) : is_finite s = true -> Rabs (B2R s - S) <= e -> Rabs S <= B -> (-20 <= k <= 0)%Z -> (B + e) * (48482 / 10 ^ 10) < bpow radix2 k ->
  exists r : bf, fmul (B2SF s) FrameF_Model.ASEC2RAD64 = B2SF r /\ is_finite r = true /\ Rabs (B2R r - S * arcsecond_25) <= e * (48482 / 10 ^ 10) + B / 10 ^ 22 + bpow radix2 (k - 54).
Proof.
  intros Fs He HB Hk HS. pose proof top_ge as TT. assert (K : bpow radix2 k <= bpow radix2 0) by (apply bpow_le; lia). change (bpow radix2 0) with 1 in K.
  destruct (const_bf 5723669695270813 (-70) 70 ltac:(unfold small; lia) eq_refl) as (c & Ec & Fc & Vc). change (IZR (Z.pow_pos 2 70)) with 1180591620717411303424 in Vc. unfold FrameF_Model.ASEC2RAD64. rewrite Ec.
  apply Rabs_le_inv in He, HB. destruct (fmul_val s c Fs Fc) as (r & -> & Fr & Vr & _); [rewrite Vc; apply Rabs_lt; lra|].
  assert (RR : B2R s * B2R c - bpow radix2 (k - 54) <= B2R r <= B2R s * B2R c + bpow radix2 (k - 54)) by (rewrite Vr; apply rnd_small; [lia|rewrite Vc; apply Rabs_lt; lra]). rewrite Vc in RR.
  exists r. split; [reflexivity|]. split; [exact Fr|]. unfold arcsecond_25. apply Rabs_le. lra.
Qed.
Lemma centuries_close (jd : bf) : is_finite jd = true -> Rabs (B2R jd - 2451545) <= 262000 ->
  exists t : bf, fdiv (fsub (B2SF jd) T0_64) (of_Z 36525) = B2SF t /\ is_finite t = true /\ Rabs (B2R t - centuries (B2R jd)) <= / 281474976710656 /\ Rabs (centuries (B2R jd)) <= 75 / 10.
Proof.
  intros Fj B. pose proof top_ge as TT. apply Rabs_le_inv in B.
  destruct (of_Z_bf 2451545 ltac:(unfold fits; lia)) as (o & Eo & Fo & Vo). unfold T0_64. rewrite Eo. destruct (fsub_val jd o Fj Fo) as (g & -> & Fg & Vg); [rewrite Vo; apply Rabs_lt; lra|]. rewrite Vo in Vg.
  assert (R1 : B2R jd - 2451545 - bpow radix2 (18 - 54) <= B2R g <= B2R jd - 2451545 + bpow radix2 (18 - 54)) by (rewrite Vg; apply rnd_small; [lia|change (bpow radix2 18) with 262144; apply Rabs_lt; lra]). change (bpow radix2 (18 - 54)) with (/ 68719476736) in R1.
  destruct (of_Z_bf 36525 ltac:(unfold fits; lia)) as (y & Ey & Fy & Vy). rewrite Ey.
  destruct (fdiv_val g y Fg) as (t & -> & Ft & Vq); [rewrite Vy; lra|rewrite Vy; apply Rabs_lt; lra|]. rewrite Vy in Vq.
  assert (R3 : B2R g / 36525 - bpow radix2 (3 - 54) <= B2R t <= B2R g / 36525 + bpow radix2 (3 - 54)) by (rewrite Vq; apply rnd_small; [lia|change (bpow radix2 3) with 8; apply Rabs_lt; lra]). change (bpow radix2 (3 - 54)) with (/ 2251799813685248) in R3.
  exists t. split; [reflexivity|]. split; [exact Ft|]. unfold centuries. split; apply Rabs_le; lra.
Qed.
Lemma angles_close (jd : bf) : is_finite jd = true -> Rabs (B2R jd - 2451545) <= 262000 ->
  let a := precession_angles64 (B2SF jd) in let T := centuries (B2R jd) in
  near_angle (2 / 10 ^ 16) (pa_psia a) (psi_2003 T * arcsecond_25) /\ near_angle (2 / 10 ^ 16) (pa_omegaa a) (omega_2003 T * arcsecond_25) /\ near_angle (2 / 10 ^ 18) (pa_chia a) (chi_2003 T * arcsecond_25) /\ near_angle (2 / 10 ^ 16) (pa_eps0 a) (84381406 / 10 ^ 3 * arcsecond_25).
Proof.
  intros Fj B a T. destruct (centuries_close jd Fj B) as (t & Et & Ft & Vt & BT). unfold a, precession_angles64. rewrite Et. cbv zeta. cbn [pa_psia pa_omegaa pa_chia pa_eps0]. fold T in Vt, BT.
  destruct (psi_close t T Ft Vt BT) as (p & -> & Fp & Vp & Bp). destruct (omega_close t T Ft Vt BT) as (o & -> & Fo & Vo & Bo). destruct (chi_close t T Ft Vt BT) as (x & -> & Fx & Vx & Bx).
  destruct (const_bf 5798646066567971 (-36) 36 ltac:(unfold small; lia) eq_refl) as (z & Ez & Fz & Vz). change (IZR (Z.pow_pos 2 36)) with 68719476736 in Vz. unfold eps0_64. rewrite Ez.
  split; [|split; [|split]].
  - destruct (to_radians (-2) p _ _ _ Fp Vp Bp ltac:(lia)) as (r & -> & Fr & Vr); [change (bpow radix2 (-2)) with (/ 4); lra|]. change (bpow radix2 (-2 - 54)) with (/ 72057594037927936) in Vr. exists r. split; [reflexivity|]. split; [exact Fr|lra].
  - destruct (to_radians (-1) o _ _ _ Fo Vo Bo ltac:(lia)) as (r & -> & Fr & Vr); [change (bpow radix2 (-1)) with (/ 2); lra|]. change (bpow radix2 (-1 - 54)) with (/ 36028797018963968) in Vr. exists r. split; [reflexivity|]. split; [exact Fr|lra].
  - destruct (to_radians (-9) x _ _ _ Fx Vx Bx ltac:(lia)) as (r & -> & Fr & Vr); [change (bpow radix2 (-9)) with (/ 512); lra|]. change (bpow radix2 (-9 - 54)) with (/ 9223372036854775808) in Vr. exists r. split; [reflexivity|]. split; [exact Fr|lra].
  - destruct (to_radians (-1) z (84381406 / 10 ^ 3) (8 / 10 ^ 12) 84382 Fz) as (r & -> & Fr & Vr); [rewrite Vz; apply Rabs_le; lra|apply Rabs_le; lra|lia|change (bpow radix2 (-1)) with (/ 2); lra|]. change (bpow radix2 (-1 - 54)) with (/ 36028797018963968) in Vr. exists r. split; [reflexivity|]. split; [exact Fr|lra].
Qed.
Lemma sprime_close (jd : bf) : is_finite jd = true -> Rabs (B2R jd - 2451545) <= 262000 -> near_angle (2 / 10 ^ 19) (sprime64 (B2SF jd)) (- (47 / 10 ^ 6) * centuries (B2R jd)).
Proof.
  intros Fj B. pose proof top_ge as TT. apply Rabs_le_inv in B. unfold sprime64.
  destruct (of_Z_bf 2451545 ltac:(unfold fits; lia)) as (o & Eo & Fo & Vo). unfold T0_64. rewrite Eo. destruct (fsub_val jd o Fj Fo) as (g & -> & Fg & Vg); [rewrite Vo; apply Rabs_lt; lra|]. rewrite Vo in Vg.
  assert (R1 : B2R jd - 2451545 - bpow radix2 (18 - 54) <= B2R g <= B2R jd - 2451545 + bpow radix2 (18 - 54)) by (rewrite Vg; apply rnd_small; [lia|change (bpow radix2 18) with 262144; apply Rabs_lt; lra]). change (bpow radix2 (18 - 54)) with (/ 68719476736) in R1.
  destruct (const_bf (-6935975771714791) (-67) 67 ltac:(unfold small; lia) eq_refl) as (c & -> & Fc & Vc). change (IZR (Z.pow_pos 2 67)) with 147573952589676412928 in Vc.
  destruct (fmul_val c g Fc Fg) as (p & -> & Fp & Vp & _); [rewrite Vc; apply Rabs_lt; lra|].
  assert (R2 : B2R c * B2R g - bpow radix2 (4 - 54) <= B2R p <= B2R c * B2R g + bpow radix2 (4 - 54)) by (rewrite Vp; apply rnd_small; [lia|change (bpow radix2 4) with 16; rewrite Vc; apply Rabs_lt; lra]). change (bpow radix2 (4 - 54)) with (/ 1125899906842624) in R2. rewrite Vc in R2.
  destruct (of_Z_bf 36525 ltac:(unfold fits; lia)) as (y & Ey & Fy & Vy). rewrite Ey.
  destruct (fdiv_val p y Fp) as (t & -> & Ft & Vq); [rewrite Vy; lra|rewrite Vy; apply Rabs_lt; lra|]. rewrite Vy in Vq.
  assert (R3 : B2R p / 36525 - bpow radix2 (-11 - 54) <= B2R t <= B2R p / 36525 + bpow radix2 (-11 - 54)) by (rewrite Vq; apply rnd_small; [lia|change (bpow radix2 (-11)) with (/ 2048); apply Rabs_lt; lra]). change (bpow radix2 (-11 - 54)) with (/ 36893488147419103232) in R3.
  exists t. split; [reflexivity|]. split; [exact Ft|]. unfold centuries. apply Rabs_le. lra.
Qed.
