(** From latitude, longitude and elevation to a vector in floats. *)
From Coq Require Import ZArith Reals Lia Lra Psatz Bool.
From Flocq Require Import Core BinarySingleNaN.
From Verif Require Import Float64 Float64_Proofs Float_Time_Proofs Float_Time_Proofs4 CalF_Proofs2 SexaF_Proofs2 Real_Math Vector_Model Geo_Model SepF_Model SepF_Spec SepF_Proofs SepF_Proofs2 SphF_Spec SphF_Proofs RotF_Proofs4 FrameF_Model FrameF_Spec FrameF_Proofs FrameF_Proofs2 GeodF_Model GeodF_Spec GeodF_Proofs.
Open Scope R_scope.

Lemma of_nu x k a : nu x k a -> at_scale 1 x 1 k a.
Proof. intros (N & X & K). apply known; [|lra|lra|lra|exact scale_1]. rewrite Rmult_1_r. exact N. Qed.
Lemma one_at : at_scale 1 1 1 0 (of_Z 1).
Proof. destruct (of_Z_bf 1 ltac:(unfold fits; lia)) as (b & E & F & V). rewrite E. rewrite <- V at 2. apply exactly; [exact F|rewrite V, Rabs_R1; lra|lra|exact scale_1]. Qed.
Lemma two_at : at_scale 1 2 2 0 (of_Z 2).
Proof. destruct (of_Z_bf 2 ltac:(unfold fits; lia)) as (b & E & F & V). rewrite E. rewrite <- V at 1. apply exactly; [exact F|rewrite V, Rabs_pos_eq; lra|lra|exact scale_1]. Qed.

Section Geoid.
Variables (g : geoid64) (a finv : R).
Hypothesis G : ellipsoid g a finv.
Lemma finv_range : 290 <= finv <= 310. Proof. destruct G as (r & f & _ & _ & _ & _ & _ & _ & H). exact H. Qed.
Lemma inv_range : / 310 <= / finv <= / 290.
Proof. pose proof finv_range. split; apply Rinv_le; lra. Qed.
Lemma omf_range : 9965 / 10000 <= (finv - 1) / finv <= 9968 / 10000.
Proof. pose proof finv_range. pose proof inv_range. replace ((finv - 1) / finv) with (1 - / finv) by (field; lra). lra. Qed.
Lemma omf2_range : 993 / 1000 <= omf2 finv <= 994 / 1000.
Proof. unfold omf2. pose proof omf_range. split; nra. Qed.
Lemma e2_range : 64 / 10000 <= e2 finv <= 69 / 10000.
Proof. unfold e2. pose proof inv_range. replace (1 / finv) with (/ finv) by (unfold Rdiv; ring). split; nra. Qed.
Lemma e2_omf2 : e2 finv = 1 - omf2 finv.
Proof. unfold e2, omf2. pose proof finv_range. field. lra. Qed.
Lemma omf2_at : at_scale 1 (omf2 finv) 1 5.06 (omf2_64 g).
Proof.
  pose proof omf_range as OR. pose proof omf2_range as O2. pose proof inv_range as I. destruct G as (r & f & -> & Fr & Ff & _ & Vf & _ & H). unfold omf2_64. cbn [g_finv]. pose proof eps_small as E. pose proof eta_small as T. pose proof big16 as B16.
  assert (Big : 512 < bpow radix2 1007) by (change 512 with (bpow radix2 9); apply bpow_lt; lia).
  destruct (of_Z_bf 1 ltac:(unfold fits; lia)) as (o & -> & Fo & Vo). destruct (fsub_val f o Ff Fo) as (z & -> & Fz & Vz). { rewrite Vo, <- Vf, Rabs_pos_eq by (change (IZR 1) with 1; lra). change (IZR 1) with 1. lra. }
  pose proof (SexaF_Proofs2.rnd_err (B2R f - B2R o)) as R1. rewrite <- Vz, Vo, <- Vf in R1. change (IZR 1) with 1 in R1. rewrite (Rabs_pos_eq (finv - 1)) in R1 by lra.
  assert (D : Rabs (B2R z / B2R f - (finv - 1) / finv) <= 1.001 * eps). { rewrite <- Vf. replace (B2R z / finv - (finv - 1) / finv) with ((B2R z - (finv - 1)) * / finv) by (field; lra). rewrite Rabs_mult, (Rabs_pos_eq (/ finv)) by lra. apply Rle_trans with ((eps * (finv - 1) + eta) * / finv); [apply Rmult_le_compat_r; lra|]. replace ((eps * (finv - 1) + eta) * / finv) with (eps * ((finv - 1) / finv) + eta * / finv) by (field; lra). assert (eps * ((finv - 1) / finv) <= eps * 1) by (apply Rmult_le_compat_l; lra). assert (eta * / finv <= eta * 1) by (apply Rmult_le_compat_l; lra). lra. }
  assert (S : Rabs (B2R z / B2R f) <= 1). { replace (B2R z / B2R f) with ((finv - 1) / finv + (B2R z / B2R f - (finv - 1) / finv)) by ring. apply Rle_trans with (1 := Rabs_triang _ _). rewrite (Rabs_pos_eq ((finv - 1) / finv)) by lra. lra. }
  destruct (fdiv_val z f Fz) as (w & -> & Fw & Vw); [rewrite <- Vf; lra|lra|]. pose proof (SexaF_Proofs2.rnd_err (B2R z / B2R f)) as R2. rewrite <- Vw in R2.
  assert (W : at_scale 1 ((finv - 1) / finv) 1 2.02 (B2SF w)). { apply known; [|rewrite Rabs_pos_eq; lra|lra|lra|exact scale_1]. exists w. split; [reflexivity|]. split; [exact Fw|]. replace (B2R w - (finv - 1) / finv) with ((B2R w - B2R z / B2R f) + (B2R z / B2R f - (finv - 1) / finv)) by ring. apply Rle_trans with (1 := Rabs_triang _ _). assert (eps * Rabs (B2R z / B2R f) <= eps * 1) by (apply Rmult_le_compat_l; lra). lra. }
  eapply looser; [apply (mul_at _ _ _ _ _ _ _ _ _ W W); lra|lra| |lra]. fold (omf2 finv). change ((finv - 1) / finv * ((finv - 1) / finv)) with (omf2 finv). rewrite Rabs_pos_eq; lra.
Qed.
Lemma e2_at : at_scale 1 (e2 finv) 0.007 0.06 (e2_64 g).
Proof.
  pose proof inv_range as I. pose proof e2_range as ER. destruct G as (r & f & -> & Fr & Ff & _ & Vf & _ & H). unfold e2_64. cbn [g_finv]. pose proof eps_small as E. pose proof eta_small as T. pose proof big16 as B16.
  destruct (of_Z_bf 1 ltac:(unfold fits; lia)) as (o & -> & Fo & Vo). assert (Eq : B2R o / B2R f = / finv) by (rewrite Vo, <- Vf; change (IZR 1) with 1; unfold Rdiv; ring).
  destruct (fdiv_val o f Fo) as (w & -> & Fw & Vw); [rewrite <- Vf; lra|rewrite Eq, Rabs_pos_eq; lra|]. pose proof (SexaF_Proofs2.rnd_err (B2R o / B2R f)) as R2. rewrite <- Vw, Eq, (Rabs_pos_eq (/ finv)) in R2 by lra.
  assert (W : at_scale 1 (/ finv) 0.0035 0.0045 (B2SF w)). { apply known; [|rewrite Rabs_pos_eq; lra|lra|lra|exact scale_1]. exists w. split; [reflexivity|]. split; [exact Fw|]. assert (eps * / finv <= eps * / 290) by (apply Rmult_le_compat_l; lra). lra. }
  pose proof (mul_at _ _ _ _ _ _ _ _ _ two_at W ltac:(lra) ltac:(lra)) as W2. pose proof (mul_at _ _ _ _ _ _ _ _ _ W W ltac:(lra) ltac:(lra)) as WW.
  assert (X : e2 finv = 2 * / finv - / finv * / finv) by (unfold e2, Rdiv; ring). rewrite X. rewrite X in ER.
  eapply looser; [apply (sub_at _ _ _ _ _ 0.007 _ _ _ _ W2 WW); [rewrite Rabs_pos_eq; lra|lra|lra]|lra|rewrite Rabs_pos_eq; lra|lra].
Qed.
Lemma radius_facts : exists r : bf, g_radius g = B2SF r /\ is_finite r = true /\ a = B2R r /\ 0 < a /\ / 2 ^ 90 <= a <= 2 ^ 90.
Proof. destruct G as (r & f & -> & Fr & _ & Va & _ & H & _). exists r. repeat split; try assumption; try apply H. apply Rlt_le_trans with (2 := proj1 H). apply Rinv_0_lt_compat, pow_lt. lra. Qed.
End Geoid.

Lemma sq_sum t w : 993 / 1000 <= w <= 994 / 1000 -> 993 / 1000 <= cos t * cos t + sin t * sin t * w <= 1.
Proof. intros W. pose proof (sin2_cos2 t) as H. unfold Rsqr in H. assert (P : 0 <= sin t * sin t <= 1) by (split; [apply Rle_0_sqr|]; pose proof (Rle_0_sqr (cos t)) as C; unfold Rsqr in C; lra). split; nra. Qed.
Lemma place_ok g a finv fsin fcos lat lon (h : bf) : ellipsoid g a finv -> good_function fsin sin -> good_function fcos cos -> usual lat -> usual lon -> is_finite h = true -> Rabs (B2R h) <= 2 ^ 90 ->
  let v := latlon a finv (val lat) (val lon) (B2R h) in let p := latlon64 fsin fcos g lat lon (B2SF h) in let s := a + Rabs (B2R h) in
  at_scale s (vx v) 1.01 20 (fx p) /\ at_scale s (vy v) 1.01 20 (fy p) /\ at_scale s (vz v) 1.01 23 (fz p).
Proof.
  intros G Gs Gc Ua Uo Fh Bh v p s. destruct (radius_facts g a finv G) as (r & Er & Fr & Va & Pa & Ba).
  assert (Ss : scale s). { unfold s. pose proof (Rabs_pos (B2R h)). split. - apply Rle_trans with (/ 2 ^ 90); [|lra]. rewrite pow_bpow, <- bpow_opp. apply bpow_le. lia. - apply Rle_trans with (2 ^ 91); [simpl; simpl in Bh, Ba; lra|]. rewrite pow_bpow. apply bpow_le. lia. }
  assert (Hh : at_scale s (B2R h) 1 0 (B2SF h)) by (apply exactly; [exact Fh|unfold s; lra|lra|exact Ss]). assert (Ha : at_scale s a 1 0 (g_radius g)). { rewrite Er, Va. apply exactly; [exact Fr|rewrite <- Va, Rabs_pos_eq by lra; unfold s; pose proof (Rabs_pos (B2R h)); lra|lra|exact Ss]. }
  pose proof (of_nu _ _ _ (function_near _ _ _ Gs sin_1 Ua)) as S1. pose proof (of_nu _ _ _ (function_near _ _ _ Gc cos_1 Ua)) as C1. pose proof (of_nu _ _ _ (function_near _ _ _ Gs sin_1 Uo)) as S2. pose proof (of_nu _ _ _ (function_near _ _ _ Gc cos_1 Uo)) as C2.
  pose proof (omf2_at g a finv G) as W. pose proof (omf2_range g a finv G) as WR. pose proof (sq_sum (val lat) _ WR) as Q.
  pose proof (mul_at _ _ _ _ _ _ _ _ _ C1 C1 ltac:(lra) ltac:(lra)) as CC. pose proof (mul_at _ _ _ _ _ _ _ _ _ S1 S1 ltac:(lra) ltac:(lra)) as SS. pose proof (mul_at _ _ _ _ _ _ _ _ _ SS W ltac:(lra) ltac:(lra)) as SW.
  pose proof (add_at _ _ _ _ _ 1 _ _ _ _ CC SW ltac:(rewrite Rabs_pos_eq; lra) ltac:(lra) ltac:(lra)) as QQ. pose proof (sqrt_at _ _ _ _ QQ ltac:(lra)) as RQ.
  set (q := cos (val lat) * cos (val lat) + sin (val lat) * sin (val lat) * omf2 finv) in *. assert (RQ1 : 996 / 1000 <= sqrt q <= 1). { pose proof (sqrt_pos q). assert (sqrt q * sqrt q = q) by (apply sqrt_sqrt; lra). split; nra. }
  assert (I : 1 <= 1 / sqrt q <= 1.005). { split; [apply Rmult_le_reg_r with (sqrt q); [lra|]; unfold Rdiv; rewrite Rmult_assoc, Rinv_l by lra; lra|]. apply Rmult_le_reg_r with (sqrt q); [lra|]; unfold Rdiv; rewrite Rmult_assoc, Rinv_l by lra; lra. }
  pose proof (div_at _ _ _ _ _ _ _ _ one_at RQ ltac:(lra) ltac:(lra) ltac:(lra)) as D0. assert (D : at_scale 1 (1 / sqrt q) 1.005 11.5 (fdiv (of_Z 1) (fsqrt (fadd (fmul (fcos lat) (fcos lat)) (fmul (fmul (fsin lat) (fsin lat)) (omf2_64 g)))))) by (apply (looser _ _ _ _ _ _ _ D0); [lra|rewrite Rabs_pos_eq; lra|lra]). clear D0.
  pose proof (mul_at _ _ _ _ _ _ _ _ _ Ha D ltac:(lra) ltac:(lra)) as AC.
  assert (B1 : Rabs (a * (1 / sqrt q) + B2R h) <= 1.005 * s). { apply Rle_trans with (1 := Rabs_triang _ _). rewrite Rabs_mult, !Rabs_pos_eq by lra. unfold s. pose proof (Rabs_pos (B2R h)). assert (a * (1 / sqrt q) <= a * 1.005) by (apply Rmult_le_compat_l; lra). lra. }
  pose proof (add_at _ _ _ _ _ 1.005 _ _ _ _ AC Hh B1 ltac:(lra) ltac:(lra)) as XY. pose proof (mul_at _ _ _ _ _ _ _ _ _ XY C1 ltac:(lra) ltac:(lra)) as XYC. pose proof (mul_at _ _ _ _ _ _ _ _ _ XYC C2 ltac:(lra) ltac:(lra)) as X. pose proof (mul_at _ _ _ _ _ _ _ _ _ XYC S2 ltac:(lra) ltac:(lra)) as Y.
  assert (I2 : 0 <= omf2 finv * (1 / sqrt q) <= 1) by nra.
  pose proof (mul_at _ _ _ _ _ _ _ _ _ W D ltac:(lra) ltac:(lra)) as WC. pose proof (mul_at _ _ _ _ _ _ _ _ _ Ha WC ltac:(lra) ltac:(lra)) as AS.
  assert (B2 : Rabs (a * (omf2 finv * (1 / sqrt q)) + B2R h) <= 1.005 * s). { apply Rle_trans with (1 := Rabs_triang _ _). rewrite Rabs_mult, !Rabs_pos_eq by lra. unfold s. pose proof (Rabs_pos (B2R h)). assert (a * (omf2 finv * (1 / sqrt q)) <= a * 1) by (apply Rmult_le_compat_l; lra). lra. }
  pose proof (add_at _ _ _ _ _ 1.005 _ _ _ _ AS Hh B2 ltac:(lra) ltac:(lra)) as ZZ. pose proof (mul_at _ _ _ _ _ _ _ _ _ ZZ S1 ltac:(lra) ltac:(lra)) as Z.
  assert (Sp : 0 < s) by (unfold s; pose proof (Rabs_pos (B2R h)); lra).
  assert (Le : forall x B, Rabs x <= B * s -> B <= 1.01 -> Rabs x <= 1.01 * s) by (intros x B H HB; apply Rle_trans with (1 := H); apply Rmult_le_compat_r; lra).
  split; [|split].
  - apply (looser _ _ _ _ _ _ _ X); [lra|apply (Le _ _ (proj1 (proj2 X))); lra|lra].
  - apply (looser _ _ _ _ _ _ _ Y); [lra|apply (Le _ _ (proj1 (proj2 Y))); lra|lra].
  - apply (looser _ _ _ _ _ _ _ Z); [lra|apply (Le _ _ (proj1 (proj2 Z))); lra|lra].
Qed.
