(** Proofs about the mean obliquity and the sidereal time of 1982 in binary64. *)
From Coq Require Import ZArith Reals Lia Lra.
From Coquelicot Require Import Coquelicot.
From Flocq Require Import Core BinarySingleNaN.
From Verif Require Import Float64 Float64_Proofs Float_Time_Model Float_Time_Proofs Float_Time_Proofs4 SexaF_Proofs2 CalF_Proofs CalF_Proofs2 Spin_Spec Wrap_Model Wrap_Spec Wrap_Proofs Wrap_Proofs2 EraF_Model EraF_Proofs ObliqF_Model ObliqF_Spec.
Open Scope R_scope.

Lemma obliquity_close (jd : bf) : is_finite jd = true -> Rabs (B2R jd - 2451545) <= 262000 ->
  exists s : bf, mean_obliquity64 (B2SF jd) = B2SF s /\ is_finite s = true /\ Rabs (B2R s - obliquity_2003 (centuries (B2R jd))) <= 3 / 10 ^ 11.
Proof.
  intros Fj B. pose proof top_ge as TT. apply Rabs_le_inv in B. unfold mean_obliquity64. cbv zeta.
  destruct (of_Z_bf 2451545 ltac:(unfold fits; lia)) as (o & Eo & Fo & Vo). unfold T0_64. rewrite Eo. destruct (fsub_val jd o Fj Fo) as (g & -> & Fg & Vg); [rewrite Vo; apply Rabs_lt; lra|]. rewrite Vo in Vg.
  assert (R1 : B2R jd - 2451545 - bpow radix2 (18 - 54) <= B2R g <= B2R jd - 2451545 + bpow radix2 (18 - 54)) by (rewrite Vg; apply rnd_small; [lia|change (bpow radix2 18) with 262144; apply Rabs_lt; lra]). change (bpow radix2 (18 - 54)) with (/ 68719476736) in R1.
  destruct (of_Z_bf 36525 ltac:(unfold fits; lia)) as (y & Ey & Fy & Vy). rewrite Ey.
  destruct (fdiv_val g y Fg) as (t & -> & Ft & Vq); [rewrite Vy; lra|rewrite Vy; apply Rabs_lt; lra|]. rewrite Vy in Vq.
  assert (R3 : B2R g / 36525 - bpow radix2 (3 - 54) <= B2R t <= B2R g / 36525 + bpow radix2 (3 - 54)) by (rewrite Vq; apply rnd_small; [lia|change (bpow radix2 3) with 8; apply Rabs_lt; lra]). change (bpow radix2 (3 - 54)) with (/ 2251799813685248) in R3.
  assert (HC : centuries (B2R jd) = (B2R jd - 2451545) / 36525) by reflexivity. set (T := centuries (B2R jd)) in *. set (d := / 281474976710656). assert (Dv : d = / 281474976710656) by reflexivity. clearbody d.
  assert (HT : Rabs (B2R t - T) <= d) by (apply Rabs_le; lra). assert (T8 : Rabs T <= 8) by (apply Rabs_le; lra). assert (B8 : Rabs (B2R t) <= 8) by (apply Rabs_le; lra).
  destruct (const_bf (-6558422571409363) (-77) 77 ltac:(unfold small; lia) eq_refl) as (c5 & -> & F5 & V5). change (IZR (Z.pow_pos 2 77)) with 151115727451828646838272 in V5.
  destruct (const_bf 5440166188265831 (-73) 73 ltac:(unfold small; lia) eq_refl) as (c4 & -> & F4 & V4). change (IZR (Z.pow_pos 2 73)) with 9444732965739290427392 in V4.
  destruct (const_bf 4619525884658714 (-61) 61 ltac:(unfold small; lia) eq_refl) as (c3 & -> & F3 & V3). change (IZR (Z.pow_pos 2 61)) with 2305843009213693952 in V3.
  destruct (const_bf 6755197679792438 (-65) 65 ltac:(unfold small; lia) eq_refl) as (c2 & -> & F2 & V2). change (IZR (Z.pow_pos 2 65)) with 36893488147419103232 in V2.
  destruct (const_bf 6591689231738687 (-47) 47 ltac:(unfold small; lia) eq_refl) as (c1 & -> & F1 & V1). change (IZR (Z.pow_pos 2 47)) with 140737488355328 in V1.
  destruct (const_bf 5798646066567971 (-36) 36 ltac:(unfold small; lia) eq_refl) as (c0 & -> & F0 & V0). change (IZR (Z.pow_pos 2 36)) with 68719476736 in V0.
  destruct (step_close true (-19) c5 t c4 (- (434 / 10 ^ 10)) T (576 / 10 ^ 9) (/ 10 ^ 23) (44 / 10 ^ 9) d (/ 10 ^ 22) F5 Ft F4 ltac:(lia)) as (q1 & E1 & G1 & Q1 & M1); [rewrite V5; apply Rabs_le; lra|apply Rabs_le; lra|exact HT|exact B8|exact T8|lra|rewrite V4; apply Rabs_le; lra|change (bpow radix2 (-19 - 54)) with (/ 9444732965739290427392); change (bpow radix2 (-19)) with (/ 524288); rewrite (Rabs_pos_eq (576 / 10 ^ 9)) by lra; lra|].
  cbv iota in E1, Q1, M1. rewrite E1. set (W1 := - (434 / 10 ^ 10) * T - 576 / 10 ^ 9) in *. change (bpow radix2 (-19 - 54)) with (/ 9444732965739290427392) in Q1. rewrite (Rabs_pos_eq (576 / 10 ^ 9)) in M1 by lra.
  destruct (step_close false (-8) q1 t c3 W1 T (20034 / 10 ^ 7) (/ 10 ^ 21) (94 / 10 ^ 8) d (3 / 10 ^ 19) G1 Ft F3 ltac:(lia)) as (q2 & E2 & G2 & Q2 & M2); [lra|lra|exact HT|exact B8|exact T8|lra|rewrite V3; apply Rabs_le; lra|change (bpow radix2 (-8 - 54)) with (/ 4611686018427387904); change (bpow radix2 (-8)) with (/ 256); rewrite (Rabs_pos_eq (20034 / 10 ^ 7)) by lra; lra|].
  cbv iota in E2, Q2, M2. rewrite E2. set (W2 := W1 * T + 20034 / 10 ^ 7) in *. change (bpow radix2 (-8 - 54)) with (/ 4611686018427387904) in Q2. rewrite (Rabs_pos_eq (20034 / 10 ^ 7)) in M2 by lra.
  destruct (step_close true (-5) q2 t c2 W2 T (1831 / 10 ^ 7) (/ 10 ^ 18) (202 / 10 ^ 5) d (2 / 10 ^ 20) G2 Ft F2 ltac:(lia)) as (q3 & E3 & G3 & Q3 & M3); [lra|lra|exact HT|exact B8|exact T8|lra|rewrite V2; apply Rabs_le; lra|change (bpow radix2 (-5 - 54)) with (/ 576460752303423488); change (bpow radix2 (-5)) with (/ 32); rewrite (Rabs_pos_eq (1831 / 10 ^ 7)) by lra; lra|].
  cbv iota in E3, Q3, M3. rewrite E3. set (W3 := W2 * T - 1831 / 10 ^ 7) in *. change (bpow radix2 (-5 - 54)) with (/ 576460752303423488) in Q3. rewrite (Rabs_pos_eq (1831 / 10 ^ 7)) in M3 by lra.
  destruct (step_close true 6 q3 t c1 W3 T (46836769 / 10 ^ 6) (2 / 10 ^ 17) (165 / 10 ^ 4) d (4 / 10 ^ 15) G3 Ft F1 ltac:(lia)) as (q4 & E4 & G4 & Q4 & M4); [lra|lra|exact HT|exact B8|exact T8|lra|rewrite V1; apply Rabs_le; lra|change (bpow radix2 (6 - 54)) with (/ 281474976710656); change (bpow radix2 6) with 64; rewrite (Rabs_pos_eq (46836769 / 10 ^ 6)) by lra; lra|].
  cbv iota in E4, Q4, M4. rewrite E4. set (W4 := W3 * T - 46836769 / 10 ^ 6) in *. change (bpow radix2 (6 - 54)) with (/ 281474976710656) in Q4. rewrite (Rabs_pos_eq (46836769 / 10 ^ 6)) in M4 by lra.
  destruct (step_close false 17 q4 t c0 W4 T (84381406 / 10 ^ 3) (12 / 10 ^ 15) 47 d (73 / 10 ^ 13) G4 Ft F0 ltac:(lia)) as (q5 & E5 & G5 & Q5 & M5); [lra|lra|exact HT|exact B8|exact T8|lra|rewrite V0; apply Rabs_le; lra|change (bpow radix2 (17 - 54)) with (/ 137438953472); change (bpow radix2 17) with 131072; rewrite (Rabs_pos_eq (84381406 / 10 ^ 3)) by lra; lra|].
  cbv iota in E5, Q5. change (bpow radix2 (17 - 54)) with (/ 137438953472) in Q5. exists q5. split; [exact E5|]. split; [exact G5|]. replace (obliquity_2003 T) with (W4 * T + 84381406 / 10 ^ 3) by (unfold W4, W3, W2, W1, obliquity_2003; ring). lra.
Qed.
(** ** The sidereal time of 1982 *)
Lemma step_close_r k (q t c : bf) (Q T C e B d r : R) : is_finite q = true -> is_finite t = true -> is_finite c = true -> (-1000 <= k <= 30)%Z ->
  Rabs (B2R q - Q) <= e -> Rabs Q <= B -> Rabs (B2R t - T) <= d -> Rabs (B2R t) <= 8 -> Rabs T <= 8 -> 0 <= d -> Rabs (B2R c - C) <= r ->
  8 * B + 8 * e + B * d + Rabs C + r + bpow radix2 (k - 54) < bpow radix2 k ->
  exists v : bf, fadd (B2SF c) (fmul (B2SF q) (B2SF t)) = B2SF v /\ is_finite v = true /\ Rabs (B2R v - (C + Q * T)) <= 8 * e + B * d + r + 2 * bpow radix2 (k - 54) /\ Rabs (C + Q * T) <= 8 * B + Rabs C.
Proof.
  intros Fq Ft Fc Hk HQ HB HT H8 T8 D HC S. pose proof (product_close q t Q T e B d HQ HB HT H8 D) as P. pose proof top_ge as TT. assert (K : bpow radix2 k <= bpow radix2 30) by (apply bpow_le; lia). change (bpow radix2 30) with 1073741824 in K. pose proof (bpow_gt_0 radix2 (k - 54)) as U0.
  assert (QT : Rabs (Q * T) <= 8 * B). { rewrite Rabs_mult. assert (Rabs Q * Rabs T <= B * 8) by (apply Rmult_le_compat; (apply Rabs_pos || assumption)). lra. }
  assert (R0 : 0 <= r) by (pose proof (Rabs_pos (B2R c - C)); lra). pose proof (Rabs_pos C) as C0.
  assert (M : Rabs (B2R q * B2R t) < bpow radix2 k). { apply Rabs_le_inv in P, QT. apply Rabs_lt. lra. }
  destruct (fmul_val q t Fq Ft) as (p & -> & Fp & Vp & _); [lra|]. pose proof (rnd_small (B2R q * B2R t) k ltac:(lia) M) as R. rewrite <- Vp in R. apply Rabs_le_inv in P, QT, HC. assert (CC : - Rabs C <= C <= Rabs C) by (apply Rabs_le_inv, Rle_refl).
  assert (M2 : Rabs (B2R c + B2R p) < bpow radix2 k) by (apply Rabs_lt; lra). destruct (fadd_val c p Fc Fp) as (v & -> & Fv & Vv); [lra|]. pose proof (rnd_small _ k ltac:(lia) M2) as R2. rewrite <- Vv in R2. exists v. split; [reflexivity|]. split; [exact Fv|]. split; apply Rabs_le; lra.
Qed.
Lemma g_close (t : bf) (T : R) : is_finite t = true -> Rabs (B2R t - T) <= / 281474976710656 -> Rabs T <= 75 / 10 ->
  exists g : bf, g_1982 (B2SF t) = B2SF g /\ is_finite g = true /\ Rabs (B2R g - (gmst_1982 T - 876600 * 3600 * T)) <= 7 / 10 ^ 8 /\ Rabs (gmst_1982 T - 876600 * 3600 * T) <= 75000000.
Proof.
  intros Ft HT BT. set (d := / 281474976710656) in *. assert (Dv : d = / 281474976710656) by reflexivity. clearbody d. assert (B8 : Rabs (B2R t) <= 8) by (apply Rabs_le_inv in HT, BT; apply Rabs_le; lra). assert (T8 : Rabs T <= 8) by lra.
  unfold g_1982. cbv zeta.
  destruct (const_bf (-7319668048447950) (-70) 70 ltac:(unfold small; lia) eq_refl) as (c3 & -> & F3 & V3). change (IZR (Z.pow_pos 2 70)) with 1180591620717411303424 in V3.
  destruct (const_bf 6708850235307243 (-56) 56 ltac:(unfold small; lia) eq_refl) as (c2 & -> & F2 & V2). change (IZR (Z.pow_pos 2 56)) with 72057594037927936 in V2.
  destruct (const_bf 4638663900331919 (-29) 29 ltac:(unfold small; lia) eq_refl) as (c1 & -> & F1 & V1). change (IZR (Z.pow_pos 2 29)) with 536870912 in V1.
  destruct (const_bf 4625545665548397 (-36) 36 ltac:(unfold small; lia) eq_refl) as (c0 & -> & F0 & V0). change (IZR (Z.pow_pos 2 36)) with 68719476736 in V0.
  destruct (step_close_r (-3) c3 t c2 (- (62 / 10 ^ 7)) T (93104 / 10 ^ 6) (/ 10 ^ 21) (62 / 10 ^ 7) d (/ 10 ^ 17) F3 Ft F2 ltac:(lia)) as (q1 & -> & G1 & Q1 & M1); [rewrite V3; apply Rabs_le; lra|apply Rabs_le; lra|exact HT|exact B8|exact T8|lra|rewrite V2; apply Rabs_le; lra|change (bpow radix2 (-3 - 54)) with (/ 144115188075855872); change (bpow radix2 (-3)) with (/ 8); rewrite (Rabs_pos_eq (93104 / 10 ^ 6)) by lra; lra|].
  set (W1 := 93104 / 10 ^ 6 + - (62 / 10 ^ 7) * T) in *. change (bpow radix2 (-3 - 54)) with (/ 144115188075855872) in Q1. rewrite (Rabs_pos_eq (93104 / 10 ^ 6)) in M1 by lra.
  destruct (step_close_r 24 q1 t c1 W1 T (8640184812866 / 10 ^ 6) (3 / 10 ^ 17) (94 / 10 ^ 3) d (/ 10 ^ 9) G1 Ft F1 ltac:(lia)) as (q2 & -> & G2 & Q2 & M2); [lra|lra|exact HT|exact B8|exact T8|lra|rewrite V1; apply Rabs_le; lra|change (bpow radix2 (24 - 54)) with (/ 1073741824); change (bpow radix2 24) with 16777216; rewrite (Rabs_pos_eq (8640184812866 / 10 ^ 6)) by lra; lra|].
  set (W2 := 8640184812866 / 10 ^ 6 + W1 * T) in *. change (bpow radix2 (24 - 54)) with (/ 1073741824) in Q2. rewrite (Rabs_pos_eq (8640184812866 / 10 ^ 6)) in M2 by lra.
  destruct (step_close_r 27 q2 t c0 W2 T (6731054841 / 10 ^ 5) (29 / 10 ^ 10) 8640186 d (/ 10 ^ 11) G2 Ft F0 ltac:(lia)) as (q3 & -> & G3 & Q3 & M3); [lra|lra|exact HT|exact B8|exact T8|lra|rewrite V0; apply Rabs_le; lra|change (bpow radix2 (27 - 54)) with (/ 134217728); change (bpow radix2 27) with 134217728; rewrite (Rabs_pos_eq (6731054841 / 10 ^ 5)) by lra; lra|].
  change (bpow radix2 (27 - 54)) with (/ 134217728) in Q3. rewrite (Rabs_pos_eq (6731054841 / 10 ^ 5)) in M3 by lra. exists q3. replace (gmst_1982 T - 876600 * 3600 * T) with (6731054841 / 10 ^ 5 + W2 * T) by (unfold W2, W1, gmst_1982; field). split; [reflexivity|]. split; [exact G3|]. split; lra.
Qed.
Lemma days_close (w f : bf) : is_finite w = true -> within (-1) 1 f -> Rabs (B2R w - 2451545) <= 262000 ->
  exists t : bf, fdiv (fadd (fsub (B2SF w) T0_64) (B2SF f)) (of_Z 36525) = B2SF t /\ is_finite t = true /\ Rabs (B2R t - centuries (B2R w + B2R f)) <= / 281474976710656 /\ Rabs (centuries (B2R w + B2R f)) <= 75 / 10.
Proof.
  intros Fw (Ft & Bt) B. pose proof top_ge as T. apply Rabs_le_inv in B.
  destruct (of_Z_bf 2451545 ltac:(unfold fits; lia)) as (o & Eo & Fo & Vo). unfold T0_64. rewrite Eo. destruct (fsub_val w o Fw Fo) as (d & -> & Fd & Vd); [rewrite Vo; apply Rabs_lt; lra|]. rewrite Vo in Vd.
  assert (R1 : B2R w - 2451545 - bpow radix2 (18 - 54) <= B2R d <= B2R w - 2451545 + bpow radix2 (18 - 54)) by (rewrite Vd; apply rnd_small; [lia|change (bpow radix2 18) with 262144; apply Rabs_lt; lra]). change (bpow radix2 (18 - 54)) with (/ 68719476736) in R1.
  destruct (fadd_val d f Fd Ft) as (g & -> & Fg & Vg); [apply Rabs_lt; lra|].
  assert (R2 : B2R d + B2R f - bpow radix2 (18 - 54) <= B2R g <= B2R d + B2R f + bpow radix2 (18 - 54)) by (rewrite Vg; apply rnd_small; [lia|change (bpow radix2 18) with 262144; apply Rabs_lt; lra]). change (bpow radix2 (18 - 54)) with (/ 68719476736) in R2.
  destruct (of_Z_bf 36525 ltac:(unfold fits; lia)) as (y & Ey & Fy & Vy). rewrite Ey.
  destruct (fdiv_val g y Fg) as (t & -> & Fq & Vq); [rewrite Vy; lra|rewrite Vy; apply Rabs_lt; lra|]. rewrite Vy in Vq.
  assert (R3 : B2R g / 36525 - bpow radix2 (3 - 54) <= B2R t <= B2R g / 36525 + bpow radix2 (3 - 54)) by (rewrite Vq; apply rnd_small; [lia|change (bpow radix2 3) with 8; apply Rabs_lt; lra]). change (bpow radix2 (3 - 54)) with (/ 2251799813685248) in R3.
  exists t. split; [reflexivity|]. split; [exact Fq|]. unfold centuries. split; apply Rabs_le; lra.
Qed.
Lemma theta_close (w f : bf) : is_finite w = true -> within (-1) 1 f -> Rabs (B2R w - 2451545) <= 262000 ->
  folded 0 tau_float (6 / 10 ^ 12) (tau_float * (gmst_1982 (centuries (B2R w + B2R f)) / 86400)) (fst (theta_GMST1982_64 (B2SF w) (B2SF f))).
Proof.
  intros Fw Hf B. pose proof top_ge as TT. pose proof tau_range as TR. destruct (days_close w f Fw Hf B) as (t & Et & Ft & Vt & BT). destruct Hf as (Ff & Bf). unfold theta_GMST1982_64. rewrite Et. cbv zeta. cbn [fst].
  assert (HC : 36525 * centuries (B2R w + B2R f) = B2R w + B2R f - 2451545) by (unfold centuries; field). set (T := centuries (B2R w + B2R f)) in *.
  destruct (g_close t T Ft Vt BT) as (g & -> & Fg & Vg & Bg). set (G := gmst_1982 T) in *. apply Rabs_le_inv in Vg, Bg.
  destruct (of_Z_bf 86400 ltac:(unfold fits; lia)) as (y & Ey & Fy & Vy). rewrite Ey. destruct (fdiv_val g y Fg) as (h & -> & Fh & Vh); [rewrite Vy; lra|rewrite Vy; apply Rabs_lt; lra|]. rewrite Vy in Vh.
  assert (R1 : B2R g / 86400 - bpow radix2 (10 - 54) <= B2R h <= B2R g / 86400 + bpow radix2 (10 - 54)) by (rewrite Vh; apply rnd_small; [lia|change (bpow radix2 10) with 1024; apply Rabs_lt; lra]). change (bpow radix2 (10 - 54)) with (/ 17592186044416) in R1.
  destruct (rem_1 w Fw) as (a & k & -> & Fa & Ba & Va). destruct (rem_1 h Fh) as (b & n & -> & Fb & Bb & Vb). apply Rabs_le_inv in Va, Vb.
  destruct (fadd_val a f Fa Ff) as (s & -> & Fs & Vs); [apply Rabs_lt; lra|]. pose proof (rnd_err (B2R a + B2R f) 2 ltac:(lia) ltac:(change (bpow radix2 2) with 4; lra)) as R2. change (bpow radix2 (2 - 54)) with (/ 4503599627370496) in R2. rewrite <- Vs in R2.
  destruct (fadd_val s b Fs Fb) as (q & -> & Fq & Vq); [apply Rabs_lt; lra|]. pose proof (rnd_err (B2R s + B2R b) 2 ltac:(lia) ltac:(change (bpow radix2 2) with 4; lra)) as R3. change (bpow radix2 (2 - 54)) with (/ 4503599627370496) in R3. rewrite <- Vq in R3.
  destruct (rem_1 q Fq) as (z & l & -> & Fz & Bz & Vz). apply Rabs_le_inv in Vz.
  destruct tau_bf as (u & -> & Fu & Vu). assert (Z1 : 0 <= B2R z * tau_float <= tau_float). { split; [apply Rmult_le_pos; lra|]. rewrite <- (Rmult_1_l tau_float) at 2. apply Rmult_le_compat_r; lra. }
  destruct (fmul_val z u Fz Fu) as (v & -> & Fv & Vv & _); [rewrite Vu; apply Rabs_lt; lra|]. rewrite Vu in Vv.
  pose proof (rnd_err (B2R z * tau_float) 3 ltac:(lia) ltac:(change (bpow radix2 3) with 8; lra)) as R4. change (bpow radix2 (3 - 54)) with (/ 2251799813685248) in R4. rewrite <- Vv in R4.
  assert (R5 : 0 <= B2R v <= tau_float) by (rewrite Vv, <- Vu; apply rnd_between; rewrite Vu; exact Z1).
  exists v, (k + n + l + -2451545)%Z. split; [reflexivity|]. split; [exact Fv|]. split; [lra|]. rewrite !plus_IZR.
  assert (D : Rabs (B2R z - (G / 86400 - (IZR k + IZR n + IZR l + -2451545))) <= 95 / 10 ^ 14) by (apply Rabs_le; lra).
  set (N := IZR k + IZR n + IZR l + -2451545) in *. replace (B2R v - (tau_float * (G / 86400) - tau_float * N)) with (B2R v - B2R z * tau_float + tau_float * (B2R z - (G / 86400 - N))) by ring.
  pose proof (Rabs_triang (B2R v - B2R z * tau_float) (tau_float * (B2R z - (G / 86400 - N)))) as TRI. rewrite (Rabs_mult tau_float), (Rabs_pos_eq tau_float) in TRI by lra.
  assert (tau_float * Rabs (B2R z - (G / 86400 - N)) <= 6.2831854 * (95 / 10 ^ 14)) by (apply Rmult_le_compat; [lra|apply Rabs_pos|lra|exact D]). assert (Rabs (B2R v - B2R z * tau_float) <= / 2251799813685248) by (apply Rabs_le; lra). lra.
Qed.
Definition rate_1982 (T : R) : R := 8640184812866 / 10 ^ 6 + (186208 / 10 ^ 6 + - (186 / 10 ^ 7) * T) * T.
Lemma cubic_derivative (a b c d x : R) : derivable_pt_lim (fun y => a + b * y + c * y ^ 2 - d * y ^ 3) x (b + (2 * c - 3 * d * x) * x).
Proof. apply is_derive_Reals. auto_derive; [exact I|]. ring. Qed.
Lemma rate_derivative T : derivable_pt_lim gmst_1982 T (876600 * 3600 + rate_1982 T).
Proof. replace (876600 * 3600 + rate_1982 T) with ((876600 * 3600 + 8640184812866 / 10 ^ 6) + (2 * (93104 / 10 ^ 6) - 3 * (62 / 10 ^ 7) * T) * T) by (unfold rate_1982; field). exact (cubic_derivative _ _ _ _ T). Qed.
Lemma dg_close (t : bf) (T : R) : is_finite t = true -> Rabs (B2R t - T) <= / 281474976710656 -> Rabs T <= 75 / 10 ->
  exists g : bf, dg_1982 (B2SF t) = B2SF g /\ is_finite g = true /\ Rabs (B2R g - rate_1982 T) <= 3 / 10 ^ 9 /\ Rabs (rate_1982 T) <= 8640187.
Proof.
  intros Ft HT BT. pose proof top_ge as TT. set (d := / 281474976710656) in *. assert (Dv : d = / 281474976710656) by reflexivity. clearbody d. assert (B8 : Rabs (B2R t) <= 8) by (apply Rabs_le_inv in HT, BT; apply Rabs_le; lra). assert (T8 : Rabs T <= 8) by lra.
  unfold dg_1982. cbv zeta.
  destruct (const_bf (-7319668048447950) (-70) 70 ltac:(unfold small; lia) eq_refl) as (c3 & -> & F3 & V3). change (IZR (Z.pow_pos 2 70)) with 1180591620717411303424 in V3.
  destruct (const_bf 6708850235307243 (-56) 56 ltac:(unfold small; lia) eq_refl) as (c2 & -> & F2 & V2). change (IZR (Z.pow_pos 2 56)) with 72057594037927936 in V2.
  destruct (const_bf 4638663900331919 (-29) 29 ltac:(unfold small; lia) eq_refl) as (c1 & -> & F1 & V1). change (IZR (Z.pow_pos 2 29)) with 536870912 in V1.
  destruct (of_Z_bf 2 ltac:(unfold fits; lia)) as (o2 & -> & Fo2 & Vo2). destruct (of_Z_bf 3 ltac:(unfold fits; lia)) as (o3 & -> & Fo3 & Vo3).
  destruct (fmul_val c2 o2 F2 Fo2) as (a & -> & Fa & Va & _); [rewrite Vo2, V2; apply Rabs_lt; lra|]. pose proof (rnd_err (B2R c2 * B2R o2) (-2) ltac:(lia) ltac:(change (bpow radix2 (-2)) with (/ 4); rewrite Vo2, V2; lra)) as R1. change (bpow radix2 (-2 - 54)) with (/ 72057594037927936) in R1. rewrite <- Va, Vo2, V2 in R1.
  destruct (fmul_val c3 o3 F3 Fo3) as (b & -> & Fb & Vb & _); [rewrite Vo3, V3; apply Rabs_lt; lra|]. pose proof (rnd_err (B2R c3 * B2R o3) (-15) ltac:(lia) ltac:(change (bpow radix2 (-15)) with (/ 32768); rewrite Vo3, V3; lra)) as R2. change (bpow radix2 (-15 - 54)) with (/ 590295810358705651712) in R2. rewrite <- Vb, Vo3, V3 in R2.
  destruct (step_close_r (-2) b t a (- (186 / 10 ^ 7)) T (186208 / 10 ^ 6) (/ 10 ^ 20) (186 / 10 ^ 7) d (5 / 10 ^ 17) Fb Ft Fa ltac:(lia)) as (q1 & -> & G1 & Q1 & M1); [apply Rabs_le; lra|apply Rabs_le; lra|exact HT|exact B8|exact T8|lra|apply Rabs_le; lra|change (bpow radix2 (-2 - 54)) with (/ 72057594037927936); change (bpow radix2 (-2)) with (/ 4); rewrite (Rabs_pos_eq (186208 / 10 ^ 6)) by lra; lra|].
  set (W1 := 186208 / 10 ^ 6 + - (186 / 10 ^ 7) * T) in *. change (bpow radix2 (-2 - 54)) with (/ 72057594037927936) in Q1. rewrite (Rabs_pos_eq (186208 / 10 ^ 6)) in M1 by lra.
  destruct (step_close_r 24 q1 t c1 W1 T (8640184812866 / 10 ^ 6) (3 / 10 ^ 16) (187 / 10 ^ 3) d (/ 10 ^ 9) G1 Ft F1 ltac:(lia)) as (q2 & -> & G2 & Q2 & M2); [lra|lra|exact HT|exact B8|exact T8|lra|rewrite V1; apply Rabs_le; lra|change (bpow radix2 (24 - 54)) with (/ 1073741824); change (bpow radix2 24) with 16777216; rewrite (Rabs_pos_eq (8640184812866 / 10 ^ 6)) by lra; lra|].
  change (bpow radix2 (24 - 54)) with (/ 1073741824) in Q2. rewrite (Rabs_pos_eq (8640184812866 / 10 ^ 6)) in M2 by lra. exists q2. change (rate_1982 T) with (8640184812866 / 10 ^ 6 + W1 * T). split; [reflexivity|]. split; [exact G2|]. split; lra.
Qed.
Lemma theta_dot_close (w f : bf) : is_finite w = true -> within (-1) 1 f -> Rabs (B2R w - 2451545) <= 262000 ->
  exists (b : bf) (v : R), snd (theta_GMST1982_64 (B2SF w) (B2SF f)) = B2SF b /\ is_finite b = true /\ derivable_pt_lim gmst_1982 (centuries (B2R w + B2R f)) v /\ Rabs (B2R b - tau_float * (v / 36525 / 86400)) <= 2 / 10 ^ 15.
Proof.
  intros Fw Hf B. pose proof top_ge as TT. pose proof tau_range as TR. destruct (days_close w f Fw Hf B) as (t & Et & Ft & Vt & BT). unfold theta_GMST1982_64. rewrite Et. cbv zeta. cbn [snd].
  set (T := centuries (B2R w + B2R f)) in *. destruct (dg_close t T Ft Vt BT) as (g & -> & Fg & Vg & Bg). pose proof (rate_derivative T) as D. set (G := rate_1982 T) in *. apply Rabs_le_inv in Vg, Bg.
  destruct (of_Z_bf 86400 ltac:(unfold fits; lia)) as (y & -> & Fy & Vy). destruct (of_Z_bf 36525 ltac:(unfold fits; lia)) as (x & -> & Fx & Vx). destruct (of_Z_bf 1 ltac:(unfold fits; lia)) as (o & -> & Fo & Vo). destruct tau_bf as (u & -> & Fu & Vu).
  assert (XY : B2R y * B2R x = 3155760000) by (rewrite Vy, Vx; ring). destruct (of_Z_bf 3155760000 ltac:(unfold fits; lia)) as (c & _ & _ & Vc).
  destruct (fmul_val y x Fy Fx) as (p & -> & Fp & Vp & _); [rewrite XY; apply Rabs_lt; lra|]. rewrite XY in Vp. change 3155760000 with (IZR 3155760000) in Vp. rewrite <- Vc, rnd_id, Vc in Vp.
  destruct (fdiv_val g p Fg) as (h & -> & Fh & Vh); [rewrite Vp; lra|rewrite Vp; apply Rabs_lt; lra|]. rewrite Vp in Vh. pose proof (rnd_err (B2R g / 3155760000) (-8) ltac:(lia) ltac:(change (bpow radix2 (-8)) with (/ 256); lra)) as R1. change (bpow radix2 (-8 - 54)) with (/ 4611686018427387904) in R1. rewrite <- Vh in R1.
  destruct (fadd_val o h Fo Fh) as (s & -> & Fs & Vs); [rewrite Vo; apply Rabs_lt; lra|]. rewrite Vo in Vs. pose proof (rnd_err (1 + B2R h) 1 ltac:(lia) ltac:(change (bpow radix2 1) with 2; lra)) as R2. change (bpow radix2 (1 - 54)) with (/ 9007199254740992) in R2. rewrite <- Vs in R2.
  assert (SB : 6.2 <= B2R s * tau_float <= 7.9). { assert (0.99 * 6.28 <= B2R s * tau_float) by (apply Rmult_le_compat; lra). assert (B2R s * tau_float <= 1.01 * 6.2831854) by (apply Rmult_le_compat; lra). lra. }
  destruct (fmul_val s u Fs Fu) as (v & -> & Fv & Vv & _); [rewrite Vu; apply Rabs_lt; lra|]. rewrite Vu in Vv. pose proof (rnd_err (B2R s * tau_float) 3 ltac:(lia) ltac:(change (bpow radix2 3) with 8; lra)) as R3. change (bpow radix2 (3 - 54)) with (/ 2251799813685248) in R3. rewrite <- Vv in R3.
  exists v, (876600 * 3600 + G). split; [reflexivity|]. split; [exact Fv|]. split; [exact D|].
  set (Y := (876600 * 3600 + G) / 36525 / 86400). assert (DY : Rabs (B2R s - Y) <= / 9007199254740992 + / 10 ^ 17) by (unfold Y; apply Rabs_le; lra).
  replace (B2R v - tau_float * Y) with (B2R v - B2R s * tau_float + tau_float * (B2R s - Y)) by ring.
  pose proof (Rabs_triang (B2R v - B2R s * tau_float) (tau_float * (B2R s - Y))) as TRI. rewrite (Rabs_mult tau_float), (Rabs_pos_eq tau_float) in TRI by lra.
  assert (tau_float * Rabs (B2R s - Y) <= 6.2831854 * (/ 9007199254740992 + / 10 ^ 17)) by (apply Rmult_le_compat; [lra|apply Rabs_pos|lra|exact DY]). assert (Rabs (B2R v - B2R s * tau_float) <= / 2251799813685248) by (apply Rabs_le; lra). lra.
Qed.
