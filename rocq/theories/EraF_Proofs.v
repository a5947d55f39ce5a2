(** Proofs about the rotation angle of the Earth and sidereal time in binary64. *)
From Coq Require Import ZArith Reals Lia Lra.
From Flocq Require Import Core BinarySingleNaN.
From Verif Require Import Float64 Float64_Proofs Float_Time_Model Float_Time_Proofs Float_Time_Proofs4 SexaF_Proofs2 CalF_Proofs CalF_Proofs2 Spin_Spec Wrap_Model Wrap_Spec Wrap_Proofs Wrap_Proofs2 EraF_Model.
Open Scope R_scope.

Lemma top_ge : 1099511627776 <= bpow radix2 1007.
Proof. change 1099511627776 with (bpow radix2 40). apply bpow_le. lia. Qed.
Lemma const_bf m e p : small m (Zneg p) -> e = Zneg p -> exists b : bf, fl m e = B2SF b /\ is_finite b = true /\ B2R b = IZR m / IZR (Z.pow_pos 2 p).
Proof. intros S ->. destruct (fl_bf m (Zneg p) S) as (b & E & F & V). exists b. split; [exact E|]. split; [exact F|]. rewrite V. apply F2R_neg. Qed.
Lemma scale_at k j (c : R) : bpow radix2 j = c -> bpow radix2 (k + j) = bpow radix2 k * c.
Proof. intros <-. apply bpow_plus. Qed.
Lemma era_close k (jd fr : bf) : (10 <= k <= 22)%Z -> is_finite jd = true -> within (-1) 1 fr -> Rabs (B2R jd - 2451545) <= bpow radix2 k - 2 ->
  folded 0 1 (5 * bpow radix2 (k - 62) + / 2 ^ 50) (era_iau (B2R jd + B2R fr - 2451545)) (earth_rotation_angle64 (B2SF jd) (B2SF fr)).
Proof.
  intros Hk Fj Hf B. pose proof Hf as (Ff & Bf). pose proof top_ge as T. assert (K1 : bpow radix2 10 <= bpow radix2 k) by (apply bpow_le; lia). assert (K2 : bpow radix2 k <= bpow radix2 22) by (apply bpow_le; lia). change (bpow radix2 10) with 1024 in K1. change (bpow radix2 22) with 4194304 in K2.
  assert (E54 : bpow radix2 (k - 54) = bpow radix2 k * / 18014398509481984) by (apply (scale_at k (-54)); reflexivity). assert (E62 : bpow radix2 (k - 62) = bpow radix2 k * / 4611686018427387904) by (apply (scale_at k (-62)); reflexivity). assert (E8 : bpow radix2 (k - 8) = bpow radix2 k * / 256) by (apply (scale_at k (-8)); reflexivity).
  set (K := bpow radix2 k) in *. apply Rabs_le_inv in B. unfold earth_rotation_angle64. cbv zeta.
  destruct (of_Z_bf 2451545 ltac:(unfold fits; lia)) as (o & Eo & Fo & Vo). unfold T0_64. rewrite Eo. destruct (fsub_val jd o Fj Fo) as (d & -> & Fd & Vd); [rewrite Vo; apply Rabs_lt; lra|]. rewrite Vo in Vd.
  assert (R1 : B2R jd - 2451545 - bpow radix2 (k - 54) <= B2R d <= B2R jd - 2451545 + bpow radix2 (k - 54)) by (rewrite Vd; apply rnd_small; [lia|fold K; apply Rabs_lt; lra]). rewrite E54 in R1.
  destruct (fadd_val d fr Fd Ff) as (g & -> & Fg & Vg); [apply Rabs_lt; lra|].
  assert (R2 : B2R d + B2R fr - bpow radix2 (k - 54) <= B2R g <= B2R d + B2R fr + bpow radix2 (k - 54)) by (rewrite Vg; apply rnd_small; [lia|fold K; apply Rabs_lt; lra]). rewrite E54 in R2.
  destruct (const_bf 6312964456338709 (-61) 61 ltac:(unfold small; lia) eq_refl) as (c & Ec & Fc & Vc). unfold era_gain. rewrite Ec. change (IZR (Z.pow_pos 2 61)) with 2305843009213693952 in Vc.
  assert (PB : Rabs (B2R c * B2R g) < bpow radix2 (k - 8)) by (rewrite Vc, E8; apply Rabs_lt; lra). destruct (fmul_val c g Fc Fg) as (p & -> & Fp & Vp & _); [rewrite E8 in PB; lra|].
  assert (R3 : B2R c * B2R g - bpow radix2 (k - 8 - 54) <= B2R p <= B2R c * B2R g + bpow radix2 (k - 8 - 54)) by (rewrite Vp; apply rnd_small; [lia|exact PB]). replace (k - 8 - 54)%Z with (k - 62)%Z in R3 by lia. rewrite E62, Vc in R3.
  destruct (const_bf 7017124091144050 (-53) 53 ltac:(unfold small; lia) eq_refl) as (a & Ea & Fa & Va). unfold era_at_epoch. rewrite Ea. change (IZR (Z.pow_pos 2 53)) with 9007199254740992 in Va.
  assert (SB : Rabs (B2R a + B2R p) < bpow radix2 (k - 8)) by (rewrite Va, E8; apply Rabs_lt; lra). destruct (fadd_val a p Fa Fp) as (th & -> & Ft & Vt); [rewrite E8 in SB; lra|].
  assert (R4 : B2R a + B2R p - bpow radix2 (k - 8 - 54) <= B2R th <= B2R a + B2R p + bpow radix2 (k - 8 - 54)) by (rewrite Vt; apply rnd_small; [lia|exact SB]). replace (k - 8 - 54)%Z with (k - 62)%Z in R4 by lia. rewrite E62, Va in R4.
  destruct (proj1 sidereal_folded th jd fr Ft Fj Hf) as (b & n & Eb & Fb & Bb & Vb). exists b, (n - 2451545)%Z. split; [exact Eb|]. split; [exact Fb|]. split; [exact Bb|]. rewrite minus_IZR. rewrite E62. unfold era_iau. apply Rabs_le_inv in Vb. apply Rabs_le. lra.
Qed.
(** ** Sidereal time *)
Lemma product_close (q t : bf) (Q T e B d : R) : Rabs (B2R q - Q) <= e -> Rabs Q <= B -> Rabs (B2R t - T) <= d -> Rabs (B2R t) <= 8 -> 0 <= d -> Rabs (B2R q * B2R t - Q * T) <= 8 * e + B * d.
Proof.
  intros HQ HB HT H8 D. replace (B2R q * B2R t - Q * T) with ((B2R q - Q) * B2R t + Q * (B2R t - T)) by ring. pose proof (Rabs_triang ((B2R q - Q) * B2R t) (Q * (B2R t - T))) as TR. rewrite !Rabs_mult in TR.
  assert (Rabs (B2R q - Q) * Rabs (B2R t) <= e * 8) by (apply Rmult_le_compat; (apply Rabs_pos || assumption)). assert (Rabs Q * Rabs (B2R t - T) <= B * d) by (apply Rmult_le_compat; (apply Rabs_pos || assumption)). lra.
Qed.
Lemma step_close (sub : bool) k (q t c : bf) (Q T C e B d r : R) : is_finite q = true -> is_finite t = true -> is_finite c = true -> (-1000 <= k <= 20)%Z ->
  Rabs (B2R q - Q) <= e -> Rabs Q <= B -> Rabs (B2R t - T) <= d -> Rabs (B2R t) <= 8 -> Rabs T <= 8 -> 0 <= d -> Rabs (B2R c - C) <= r ->
  8 * B + 8 * e + B * d + Rabs C + r + bpow radix2 (k - 54) < bpow radix2 k ->
  exists v : bf, (if sub then fsub else fadd) (fmul (B2SF q) (B2SF t)) (B2SF c) = B2SF v /\ is_finite v = true /\ Rabs (B2R v - (if sub then Q * T - C else Q * T + C)) <= 8 * e + B * d + r + 2 * bpow radix2 (k - 54) /\ Rabs (if sub then Q * T - C else Q * T + C) <= 8 * B + Rabs C.
Proof.
  intros Fq Ft Fc Hk HQ HB HT H8 T8 D HC S. pose proof (product_close q t Q T e B d HQ HB HT H8 D) as P. pose proof top_ge as TT. assert (K : bpow radix2 k <= bpow radix2 20) by (apply bpow_le; lia). change (bpow radix2 20) with 1048576 in K. pose proof (bpow_gt_0 radix2 (k - 54)) as U0.
  assert (QT : Rabs (Q * T) <= 8 * B). { rewrite Rabs_mult. assert (Rabs Q * Rabs T <= B * 8) by (apply Rmult_le_compat; (apply Rabs_pos || assumption)). lra. }
  assert (R0 : 0 <= r) by (pose proof (Rabs_pos (B2R c - C)); lra). pose proof (Rabs_pos C) as C0.
  assert (M : Rabs (B2R q * B2R t) < bpow radix2 k). { apply Rabs_le_inv in P, QT. apply Rabs_lt. lra. }
  destruct (fmul_val q t Fq Ft) as (p & -> & Fp & Vp & _); [lra|]. pose proof (rnd_small (B2R q * B2R t) k ltac:(lia) M) as R. rewrite <- Vp in R. apply Rabs_le_inv in P, QT, HC. assert (CC : - Rabs C <= C <= Rabs C) by (apply Rabs_le_inv, Rle_refl).
  destruct sub.
  - assert (M2 : Rabs (B2R p - B2R c) < bpow radix2 k) by (apply Rabs_lt; lra). destruct (fsub_val p c Fp Fc) as (v & -> & Fv & Vv); [lra|]. pose proof (rnd_small _ k ltac:(lia) M2) as R2. rewrite <- Vv in R2. exists v. split; [reflexivity|]. split; [exact Fv|]. split; apply Rabs_le; lra.
  - assert (M2 : Rabs (B2R p + B2R c) < bpow radix2 k) by (apply Rabs_lt; lra). destruct (fadd_val p c Fp Fc) as (v & -> & Fv & Vv); [lra|]. pose proof (rnd_small _ k ltac:(lia) M2) as R2. rewrite <- Vv in R2. exists v. split; [reflexivity|]. split; [exact Fv|]. split; apply Rabs_le; lra.
Qed.
Definition st_real (T : R) : R := 14506 / 10 ^ 6 + ((((- (368 / 10 ^ 10) * T - 29956 / 10 ^ 9) * T - 44 / 10 ^ 8) * T + 13915817 / 10 ^ 7) * T + 4612156534 / 10 ^ 6) * T.
Lemma st_close (t : bf) (T : R) : is_finite t = true -> Rabs (B2R t - T) <= / 2 ^ 48 -> Rabs T <= 75 / 10 ->
  exists s : bf, precession_in_ra64 (B2SF t) = B2SF s /\ within (-54000) 54000 s /\ Rabs (B2R s - st_real T) <= 4 / 10 ^ 11.
Proof.
  intros Ft HT BT. pose proof top_ge as TT. set (d := / 2 ^ 48) in *. assert (Dv : d = / 281474976710656) by (unfold d; f_equal; ring). clearbody d. assert (B8 : Rabs (B2R t) <= 8) by (apply Rabs_le_inv in HT, BT; apply Rabs_le; lra). assert (T8 : Rabs T <= 8) by lra.
  unfold precession_in_ra64. cbv zeta.
  destruct (const_bf (-5561058770227294) (-77) 77 ltac:(unfold small; lia) eq_refl) as (c5 & -> & F5 & V5). change (IZR (Z.pow_pos 2 77)) with 151115727451828646838272 in V5.
  destruct (const_bf 8841450647552693 (-68) 68 ltac:(unfold small; lia) eq_refl) as (c4 & -> & F4 & V4). change (IZR (Z.pow_pos 2 68)) with 295147905179352825856 in V4.
  destruct (const_bf 8311365009850576 (-74) 74 ltac:(unfold small; lia) eq_refl) as (c3 & -> & F3 & V3). change (IZR (Z.pow_pos 2 74)) with 18889465931478580854784 in V3.
  destruct (const_bf 6267126825575601 (-52) 52 ltac:(unfold small; lia) eq_refl) as (c2 & -> & F2 & V2). change (IZR (Z.pow_pos 2 52)) with 4503599627370496 in V2.
  destruct (const_bf 5071119738256054 (-40) 40 ltac:(unfold small; lia) eq_refl) as (c1 & -> & F1 & V1). change (IZR (Z.pow_pos 2 40)) with 1099511627776 in V1.
  destruct (const_bf 8362139672913461 (-59) 59 ltac:(unfold small; lia) eq_refl) as (c0 & -> & F0 & V0). change (IZR (Z.pow_pos 2 59)) with 576460752303423488 in V0.
  destruct (step_close true (-14) c5 t c4 (- (368 / 10 ^ 10)) T (29956 / 10 ^ 9) (/ 10 ^ 21) (4 / 10 ^ 8) d (/ 10 ^ 19) F5 Ft F4 ltac:(lia)) as (q1 & E1 & G1 & Q1 & M1); [rewrite V5; apply Rabs_le; lra|apply Rabs_le; lra|exact HT|exact B8|exact T8|lra|rewrite V4; apply Rabs_le; lra|change (bpow radix2 (-14 - 54)) with (/ 295147905179352825856); change (bpow radix2 (-14)) with (/ 16384); rewrite (Rabs_pos_eq (29956 / 10 ^ 9)) by lra; lra|].
  cbv iota in E1, Q1, M1. rewrite E1. set (W1 := - (368 / 10 ^ 10) * T - 29956 / 10 ^ 9) in *. change (bpow radix2 (-14 - 54)) with (/ 295147905179352825856) in Q1. rewrite (Rabs_pos_eq (29956 / 10 ^ 9)) in M1 by lra.
  destruct (step_close true (-11) q1 t c3 W1 T (44 / 10 ^ 8) (/ 10 ^ 18) (31 / 10 ^ 6) d (/ 10 ^ 22) G1 Ft F3 ltac:(lia)) as (q2 & E2 & G2 & Q2 & M2); [lra|lra|exact HT|exact B8|exact T8|lra|rewrite V3; apply Rabs_le; lra|change (bpow radix2 (-11 - 54)) with (/ 36893488147419103232); change (bpow radix2 (-11)) with (/ 2048); rewrite (Rabs_pos_eq (44 / 10 ^ 8)) by lra; lra|].
  cbv iota in E2, Q2, M2. rewrite E2. set (W2 := W1 * T - 44 / 10 ^ 8) in *. change (bpow radix2 (-11 - 54)) with (/ 36893488147419103232) in Q2. rewrite (Rabs_pos_eq (44 / 10 ^ 8)) in M2 by lra.
  destruct (step_close false 1 q2 t c2 W2 T (13915817 / 10 ^ 7) (/ 10 ^ 17) (26 / 10 ^ 5) d (/ 10 ^ 15) G2 Ft F2 ltac:(lia)) as (q3 & E3 & G3 & Q3 & M3); [lra|lra|exact HT|exact B8|exact T8|lra|rewrite V2; apply Rabs_le; lra|change (bpow radix2 (1 - 54)) with (/ 9007199254740992); change (bpow radix2 1) with 2; rewrite (Rabs_pos_eq (13915817 / 10 ^ 7)) by lra; lra|].
  cbv iota in E3, Q3, M3. rewrite E3. set (W3 := W2 * T + 13915817 / 10 ^ 7) in *. change (bpow radix2 (1 - 54)) with (/ 9007199254740992) in Q3. rewrite (Rabs_pos_eq (13915817 / 10 ^ 7)) in M3 by lra.
  destruct (step_close false 13 q3 t c1 W3 T (4612156534 / 10 ^ 6) (15 / 10 ^ 16) (14 / 10) d (5 / 10 ^ 13) G3 Ft F1 ltac:(lia)) as (q4 & E4 & G4 & Q4 & M4); [lra|lra|exact HT|exact B8|exact T8|lra|rewrite V1; apply Rabs_le; lra|change (bpow radix2 (13 - 54)) with (/ 2199023255552); change (bpow radix2 13) with 8192; rewrite (Rabs_pos_eq (4612156534 / 10 ^ 6)) by lra; lra|].
  cbv iota in E4, Q4, M4. rewrite E4. set (W4 := W3 * T + 4612156534 / 10 ^ 6) in *. change (bpow radix2 (13 - 54)) with (/ 2199023255552) in Q4. rewrite (Rabs_pos_eq (4612156534 / 10 ^ 6)) in M4 by lra.
  assert (M4' : Rabs W4 <= 4624) by lra. assert (Q4' : Rabs (B2R q4 - W4) <= 15 / 10 ^ 13) by lra. pose proof (product_close q4 t W4 T _ _ d Q4' M4' HT B8 ltac:(lra)) as P.
  assert (M5 : Rabs (W4 * T) <= 4624 * (75 / 10)) by (rewrite Rabs_mult; apply Rmult_le_compat; (apply Rabs_pos || assumption)). apply Rabs_le_inv in P, M5.
  destruct (fmul_val q4 t G4 Ft) as (p & -> & Fp & Vp & _); [apply Rabs_lt; lra|].
  assert (R5 : B2R q4 * B2R t - bpow radix2 (16 - 54) <= B2R p <= B2R q4 * B2R t + bpow radix2 (16 - 54)) by (rewrite Vp; apply rnd_small; [lia|change (bpow radix2 16) with 65536; apply Rabs_lt; lra]). change (bpow radix2 (16 - 54)) with (/ 274877906944) in R5.
  destruct (fadd_val c0 p F0 Fp) as (s & -> & Fs & Vs); [rewrite V0; apply Rabs_lt; lra|].
  assert (R6 : B2R c0 + B2R p - bpow radix2 (16 - 54) <= B2R s <= B2R c0 + B2R p + bpow radix2 (16 - 54)) by (rewrite Vs; apply rnd_small; [lia|change (bpow radix2 16) with 65536; rewrite V0; apply Rabs_lt; lra]). change (bpow radix2 (16 - 54)) with (/ 274877906944) in R6. rewrite V0 in R6.
  exists s. split; [reflexivity|]. change (st_real T) with (14506 / 10 ^ 6 + W4 * T). split; [split; [exact Fs|lra]|]. apply Rabs_le. lra.
Qed.
Lemma gmst_close (w fu ft : bf) : is_finite w = true -> within (-1) 1 fu -> within (-1) 1 ft -> Rabs (B2R w - 2451545) <= 262000 ->
  folded 0 24 (7 / 10 ^ 12) (gmst_circular_179 (era_iau (B2R w + B2R fu - 2451545)) (centuries (B2R w + B2R ft)) / 3600) (sidereal_time64 (B2SF w) (B2SF fu) (B2SF ft)).
Proof.
  intros Fw Hu Ht B. pose proof Ht as (Ft & Bt). pose proof top_ge as T.
  destruct (era_close 18 w fu ltac:(lia) Fw Hu ltac:(change (bpow radix2 18) with 262144; lra)) as (th & n & Eth & Fth & Bth & Vth). change (bpow radix2 (18 - 62)) with (/ 17592186044416) in Vth.
  apply Rabs_le_inv in B. unfold sidereal_time64. rewrite Eth. unfold centuries64.
  destruct (of_Z_bf 2451545 ltac:(unfold fits; lia)) as (o & Eo & Fo & Vo). unfold T0_64. rewrite Eo. destruct (fsub_val w o Fw Fo) as (d & -> & Fd & Vd); [rewrite Vo; apply Rabs_lt; lra|]. rewrite Vo in Vd.
  assert (R1 : B2R w - 2451545 - bpow radix2 (18 - 54) <= B2R d <= B2R w - 2451545 + bpow radix2 (18 - 54)) by (rewrite Vd; apply rnd_small; [lia|change (bpow radix2 18) with 262144; apply Rabs_lt; lra]). change (bpow radix2 (18 - 54)) with (/ 68719476736) in R1.
  destruct (fadd_val d ft Fd Ft) as (g & -> & Fg & Vg); [apply Rabs_lt; lra|].
  assert (R2 : B2R d + B2R ft - bpow radix2 (18 - 54) <= B2R g <= B2R d + B2R ft + bpow radix2 (18 - 54)) by (rewrite Vg; apply rnd_small; [lia|change (bpow radix2 18) with 262144; apply Rabs_lt; lra]). change (bpow radix2 (18 - 54)) with (/ 68719476736) in R2.
  destruct (of_Z_bf 36525 ltac:(unfold fits; lia)) as (y & Ey & Fy & Vy). rewrite Ey.
  destruct (fdiv_val g y Fg) as (t & -> & Fq & Vq); [rewrite Vy; lra|rewrite Vy; apply Rabs_lt; lra|]. rewrite Vy in Vq.
  assert (R3 : B2R g / 36525 - bpow radix2 (3 - 54) <= B2R t <= B2R g / 36525 + bpow radix2 (3 - 54)) by (rewrite Vq; apply rnd_small; [lia|change (bpow radix2 3) with 8; apply Rabs_lt; lra]). change (bpow radix2 (3 - 54)) with (/ 2251799813685248) in R3.
  assert (HC : centuries (B2R w + B2R ft) = (B2R w + B2R ft - 2451545) / 36525) by reflexivity. set (X := centuries (B2R w + B2R ft)) in *.
  destruct (st_close t X Fq) as (s & -> & Hs & Vs); [replace (2 ^ 48) with 281474976710656 by ring; apply Rabs_le; lra|apply Rabs_le; lra|].
  destruct (proj1 (proj2 sidereal_folded) s th Hs) as (b & m & Eb & Fb & Bb & Vb); [split; [exact Fth|lra]|]. exists b, (m + n)%Z. split; [exact Eb|]. split; [exact Fb|]. split; [exact Bb|]. rewrite plus_IZR.
  replace (gmst_circular_179 (era_iau (B2R w + B2R fu - 2451545)) X / 3600) with (24 * era_iau (B2R w + B2R fu - 2451545) + st_real X / 54000) by (unfold gmst_circular_179, st_real; field).
  apply Rabs_le_inv in Vb, Vs, Vth. apply Rabs_le. lra.
Qed.
Lemma lst_close (w fu ft eq lon sprime : bf) : is_finite w = true -> within (-1) 1 fu -> within (-1) 1 ft -> Rabs (B2R w - 2451545) <= 262000 -> within (-1) 1 eq -> within (-24) 24 lon -> within (-54000) 54000 sprime ->
  folded 0 24 (71 / 10 ^ 13) (gmst_circular_179 (era_iau (B2R w + B2R fu - 2451545)) (centuries (B2R w + B2R ft)) / 3600 + B2R eq / tau_float * 24 + B2R lon + B2R sprime / 54000)
    (lst64 (gast64 (sidereal_time64 (B2SF w) (B2SF fu) (B2SF ft)) (B2SF eq)) (B2SF lon) (B2SF sprime)).
Proof.
  intros Fw Hu Ht B He Hl Hs. destruct (gmst_close w fu ft Fw Hu Ht B) as (g & n & -> & Fg & Bg & Vg).
  destruct (proj1 (proj2 (proj2 sidereal_folded)) g eq ltac:(split; [exact Fg|lra]) He) as (a & m & -> & Fa & Ba & Va).
  destruct (proj2 (proj2 (proj2 sidereal_folded)) a lon sprime ltac:(split; [exact Fa|lra]) Hl Hs) as (l & k & -> & Fl & Bl & Vl).
  exists l, (k + m + n)%Z. split; [reflexivity|]. split; [exact Fl|]. split; [exact Bl|]. rewrite !plus_IZR. set (G := gmst_circular_179 _ _ / 3600) in *. set (Q := B2R eq / tau_float * 24) in *. apply Rabs_le_inv in Vg, Va, Vl. apply Rabs_le. lra.
Qed.
(** ** An example *)
Lemma era_example : exists w f : bf, is_finite w = true /\ within (-1) 1 f /\ B2R w = 2460000 /\ B2R f = 1 / 4 /\ Rabs (B2R w - 2451545) <= 262000 /\ Rabs (B2R w - 2451545) <= bpow radix2 18 - 2.
Proof.
  destruct (of_Z_bf 2460000 ltac:(unfold fits; lia)) as (w & _ & Fw & Vw). destruct (const_bf 1 (-2) 2 ltac:(unfold small; lia) eq_refl) as (f & _ & Ff & Vf). change (IZR (Z.pow_pos 2 2)) with 4 in Vf.
  exists w, f. rewrite Vw. change (bpow radix2 18) with 262144. split; [exact Fw|]. split; [split; [exact Ff|rewrite Vf; lra]|]. split; [reflexivity|]. split; [exact Vf|]. split; apply Rabs_le; lra.
Qed.
