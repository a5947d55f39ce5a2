(** Lengths of vectors of floats. *)
From Coq Require Import ZArith Reals Lia Lra Psatz Bool.
From Coq.Floats Require Import SpecFloat.
From Flocq Require Import Core BinarySingleNaN.
From Verif Require Import Float64 Float64_Proofs Float_Time_Proofs4 CalF_Proofs2 SexaF_Proofs2 Real_Math Real_Math_Proofs Vector_Model Vector_Proofs Vector_Proofs2 Geo_Model Geo_Proofs SepF_Model SepF_Spec.
Open Scope R_scope.

Lemma sqrt_equiv (x : bf) : fsqrt (B2SF x) = B2SF (Bsqrt mode_NE x).
Proof.
  unfold fsqrt. destruct x as [s|[|]| |[|] m e B]; try reflexivity. simpl. rewrite B2SF_SF2B. set (t := SFsqrt_core_binary _ _ _ _). case t as [[mz ez] lz]. apply round_aux_equiv.
Qed.
Lemma fsqrt_val (x : bf) : is_finite x = true -> 0 <= B2R x -> exists z : bf, fsqrt (B2SF x) = B2SF z /\ is_finite z = true /\ B2R z = rnd (sqrt (B2R x)).
Proof.
  intros F P. exists (Bsqrt mode_NE x). split; [apply sqrt_equiv|]. destruct (Bsqrt_correct 53 1024 Hprec Hmax mode_NE x) as (V & G & _). split; [|exact V]. rewrite G.
  destruct x as [s|s| |[|] m e B]; try reflexivity; try discriminate. exfalso. cbn in P. apply (Rlt_not_le 0 (F2R (Float radix2 (Zneg m) e))); [|exact P]. apply F2R_lt_0. reflexivity.
Qed.
Lemma eps_small : 0 < eps < / 1000000000000000. Proof. unfold eps. lra. Qed.
(** The square root of a perturbed square. *)
Lemma root_of_near k s t : 0 <= k -> 0 <= s -> 0 <= t -> k * k * (1 - 3.01 * eps) - t * t <= s <= k * k * (1 + 3.01 * eps) + t * t ->
  k * (1 - 1.51 * eps) - t <= sqrt s <= k * (1 + 1.51 * eps) + t.
Proof.
  intros K S T [L U]. pose proof eps_small as E. set (e := eps) in *. clearbody e. assert (0 <= k * k) by nra. split.
  - destruct (Rle_dec (k * (1 - 1.51 * e)) t) as [N|N]; [pose proof (sqrt_pos s); lra|]. apply Rnot_le_lt in N.
    rewrite <- (sqrt_square (k * (1 - 1.51 * e) - t)) by lra. apply sqrt_le_1_alt. apply Rle_trans with (2 := L). set (c := k * (1 - 1.51 * e)) in *.
    assert (Ec : c * c <= k * k * (1 - 3.01 * e)). { unfold c. replace (k * (1 - 1.51 * e) * (k * (1 - 1.51 * e))) with (k * k * ((1 - 1.51 * e) * (1 - 1.51 * e))) by ring. apply Rmult_le_compat_l; [assumption|]. nra. }
    assert (t * t <= c * t) by (apply Rmult_le_compat_r; lra). nra.
  - rewrite <- (sqrt_square (k * (1 + 1.51 * e) + t)) by nra. apply sqrt_le_1_alt. apply Rle_trans with (1 := U). set (c := k * (1 + 1.51 * e)).
    assert (Ec : k * k * (1 + 3.01 * e) <= c * c). { unfold c. replace (k * (1 + 1.51 * e) * (k * (1 + 1.51 * e))) with (k * k * ((1 + 1.51 * e) * (1 + 1.51 * e))) by ring. apply Rmult_le_compat_l; [assumption|]. nra. }
    assert (0 <= c) by (unfold c; nra). nra.
Qed.
(** What an underflow adds. *)
Definition speck : R := bpow radix2 (-536).
Lemma speck_sq : speck * speck = 8 * eta.
Proof. unfold speck, eta. rewrite <- bpow_plus. change 8 with (bpow radix2 3). rewrite <- bpow_plus. reflexivity. Qed.
Lemma speck_pos : 0 < speck. Proof. apply bpow_gt_0. Qed.
Lemma eta_speck : eta <= speck * / 1000. Proof. unfold speck, eta. apply Rle_trans with (bpow radix2 (-536) * bpow radix2 (-10)); [rewrite <- bpow_plus; apply bpow_le; lia|]. apply Rmult_le_compat_l; [apply bpow_ge_0|]. change (bpow radix2 (-10)) with (/ 1024). lra. Qed.
Lemma comp_le w : Rabs (vx w) <= vlength w /\ Rabs (vy w) <= vlength w /\ Rabs (vz w) <= vlength w.
Proof.
  pose proof (vlength_sq w) as Q. pose proof (vlength_pos w) as P. assert (H : forall a, a * a <= vlength w * vlength w -> Rabs a <= vlength w).
  { intros a Ha. apply Rsqr_incr_0; [|apply Rabs_pos|exact P]. unfold Rsqr. rewrite <- Rabs_mult, Rabs_pos_eq by nra. exact Ha. }
  repeat split; apply H; nra.
Qed.
Lemma length64_near p w : stands_for p w -> vlength w <= bpow radix2 450 ->
  exists b : bf, length64 p = B2SF b /\ is_finite b = true /\ 0 <= B2R b /\ Rabs (B2R b - vlength w) <= 2.53 * eps * vlength w + 2 * speck.
Proof.
  intros (x & y & z & -> & Fx & Fy & Fz & ->) Big. unfold length64. cbn [fx fy fz]. set (w := V3 (B2R x) (B2R y) (B2R z)) in *. pose proof (comp_le w) as (Cx & Cy & Cz). cbn in Cx, Cy, Cz. fold w in Cx, Cy, Cz.
  pose proof (vlength_sq w) as Q. cbn in Q. pose proof (vlength_pos w) as P. pose proof eta_pos as HE. assert (B9 : bpow radix2 450 * bpow radix2 450 = bpow radix2 900) by (rewrite <- bpow_plus; reflexivity). assert (Huge : 1024 * bpow radix2 900 <= bpow radix2 1007) by (change 1024 with (bpow radix2 10); rewrite <- bpow_plus; apply bpow_le; lia).
  assert (One : 1 <= bpow radix2 900) by (change 1 with (bpow radix2 0); apply bpow_le; lia). assert (E1 : eta <= 1) by (change 1 with (bpow radix2 0); apply bpow_le; lia).
  assert (KK : vlength w * vlength w <= bpow radix2 900) by (rewrite <- B9; apply Rmult_le_compat; assumption).
  assert (Nx : 0 <= B2R x * B2R x) by nra. assert (Ny : 0 <= B2R y * B2R y) by nra. assert (Nz : 0 <= B2R z * B2R z) by nra.
  destruct (fmul_val x x Fx Fx) as (qx & -> & Gx & Vx & _); [rewrite Rabs_pos_eq by assumption; lra|]. destruct (fmul_val y y Fy Fy) as (qy & -> & Gy & Vy & _); [rewrite Rabs_pos_eq by assumption; lra|]. destruct (fmul_val z z Fz Fz) as (qz & -> & Gz & Vz & _); [rewrite Rabs_pos_eq by assumption; lra|].
  set (X := B2R x * B2R x) in *. set (Y := B2R y * B2R y) in *. set (Z := B2R z * B2R z) in *.
  pose proof (rnd_pos_err X Nx) as Rx. pose proof (rnd_nonneg X Nx) as Px. rewrite <- Vx in Rx, Px. pose proof (rnd_pos_err Y Ny) as Ry. pose proof (rnd_nonneg Y Ny) as Py. rewrite <- Vy in Ry, Py. pose proof (rnd_pos_err Z Nz) as Rz. pose proof (rnd_nonneg Z Nz) as Pz. rewrite <- Vz in Rz, Pz.
  set (a := B2R qx) in *. set (b := B2R qy) in *. set (c := B2R qz) in *. pose proof eps_small as Es. assert (Hs : forall t, 0 <= t -> 0 <= eps * t <= t * / 1000000000000000) by (intros; nra).
  pose proof (Hs X Nx) as Hx. pose proof (Hs Y Ny) as Hy. pose proof (Hs Z Nz) as Hz.
  destruct (fadd_val qx qy Gx Gy) as (s & -> & Gs & Vs). { fold a b. rewrite Rabs_pos_eq by lra. lra. } fold a b in Vs. pose proof (rnd_pos_err (a + b) ltac:(lra)) as Rs. pose proof (rnd_nonneg (a + b) ltac:(lra)) as Ps. rewrite <- Vs in Rs, Ps. pose proof (Hs (a + b) ltac:(lra)) as Hab.
  destruct (fadd_val s qz Gs Gz) as (t & -> & Gt & Vt). { fold c. rewrite Rabs_pos_eq by lra. lra. } fold c in Vt. pose proof (rnd_pos_err (B2R s + c) ltac:(lra)) as Rt. pose proof (rnd_nonneg (B2R s + c) ltac:(lra)) as Pt. rewrite <- Vt in Rt, Pt.
  destruct (fsqrt_val t Gt Pt) as (r & -> & Gr & Vr). exists r. split; [reflexivity|]. split; [exact Gr|]. split; [rewrite Vr; apply rnd_nonneg, sqrt_pos|].
  assert (Root : vlength w * (1 - 1.51 * eps) - speck <= sqrt (B2R t) <= vlength w * (1 + 1.51 * eps) + speck).
  { apply root_of_near; [exact P|exact Pt|apply Rlt_le, speck_pos|]. rewrite speck_sq, Q. unfold eps in *. lra. }
  pose proof (rnd_pos_err (sqrt (B2R t)) (sqrt_pos _)) as Rr. rewrite <- Vr in Rr. pose proof speck_pos. pose proof eta_speck. set (k := vlength w) in *. set (q := sqrt (B2R t)) in *. clearbody k q. apply Rabs_le. unfold eps in *. lra.
Qed.
Lemma eps_val : eps = / 2 ^ 53. Proof. unfold eps. lra. Qed.
Lemma pow_bpow n : 2 ^ n = bpow radix2 (Z.of_nat n).
Proof. rewrite <- IZR_Zpower by lia. rewrite pow_IZR. reflexivity. Qed.
Lemma length64_rel p w : stands_for p w -> / 2 ^ 400 <= vlength w <= 2 ^ 400 ->
  exists b : bf, length64 p = B2SF b /\ is_finite b = true /\ 0 <= B2R b /\ Rabs (B2R b - vlength w) <= 2.54 * eps * vlength w.
Proof.
  intros S [L U]. rewrite pow_bpow in L, U. destruct (length64_near p w S) as (b & E & F & P & V); [apply Rle_trans with (1 := U); apply bpow_le; lia|]. exists b. repeat (split; [assumption|]). apply Rle_trans with (1 := V).
  assert (H : 2 * speck <= bpow radix2 (-60) * vlength w).
  { apply Rle_trans with (bpow radix2 (-60) * / bpow radix2 (Z.of_nat 400)); [|apply Rmult_le_compat_l; [apply bpow_ge_0|exact L]]. rewrite <- bpow_opp, <- bpow_plus. unfold speck. change 2 with (bpow radix2 1). rewrite <- bpow_plus. apply bpow_le. lia. }
  change (bpow radix2 (-60)) with (/ 1152921504606846976) in H. unfold eps. pose proof (vlength_pos w). lra.
Qed.
