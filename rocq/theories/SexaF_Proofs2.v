(** Printing and reading sexagesimal angles in binary64. *)
From Coq Require Import ZArith Reals Lia Lra List Bool QArith Qround Qabs.
From Coq.Floats Require Import SpecFloat.
From Flocq Require Import Core BinarySingleNaN Relative.
From Verif Require Import Float64 Float64_Proofs Float_Time_Model Float_Time_Spec Cal_Model Cal_Spec PyNum
  Time_Model Time_Spec Time_Proofs Time_Proofs2 Float_Time_Proofs Float_Time_Proofs4 Units_Model SexaF_Model SexaF_Spec SexaF_Proofs.
Import ListNotations.
Open Scope Z_scope.

(** ** Rounding errors *)
Definition eta : R := bpow radix2 (-1075).
Definition eps : R := (/ 9007199254740992)%R.
Lemma eta_pos : (0 < eta)%R. Proof. apply bpow_gt_0. Qed.
Lemma eta_le_eps : (eta <= eps)%R.
Proof. unfold eta. change eps with (bpow radix2 (-53)). apply bpow_le. lia. Qed.
Lemma rnd_err x : (Rabs (rnd x - x) <= eps * Rabs x + eta)%R.
Proof.
  destruct (error_N_FLT radix2 (-1074) 53 eq_refl (fun t => negb (Z.even t)) x) as (e & h & E & H & _ & R).
  change (FLT_exp (-1074) 53) with (SpecFloat.fexp 53 1024) in R. rewrite R. replace (x * (1 + e) + h - x)%R with (e * x + h)%R by ring.
  apply Rle_trans with (1 := Rabs_triang _ _). rewrite Rabs_mult. apply Rplus_le_compat.
  - apply Rmult_le_compat_r; [apply Rabs_pos|]. apply Rle_trans with (1 := E). cbn. unfold eps. lra.
  - apply Rle_trans with (1 := H). unfold eta. replace (/ 2)%R with (bpow radix2 (-1)) by reflexivity. rewrite <- bpow_plus. apply bpow_le. lia.
Qed.
Lemma rnd_opp x : rnd (- x) = (- rnd x)%R. Proof. apply round_NE_opp. Qed.
Lemma rnd_nonneg x : (0 <= x)%R -> (0 <= rnd x)%R.
Proof. intros H. rewrite <- (rnd_Z 0) by (unfold fits; lia). apply rnd_le. exact H. Qed.
Lemma rnd_pos_err x : (0 <= x)%R -> (x - (eps * x + eta) <= rnd x <= x + (eps * x + eta))%R.
Proof. intros H. pose proof (rnd_err x) as E. rewrite (Rabs_pos_eq x) in E by assumption. apply Rabs_le_inv in E. lra. Qed.

(** ** Operations on floats given by sign bit and magnitude *)
Lemma fmul_val (x y : bf) : is_finite x = true -> is_finite y = true -> (Rabs (B2R x * B2R y) < bpow radix2 1007)%R ->
  exists z : bf, fmul (B2SF x) (B2SF y) = B2SF z /\ is_finite z = true /\ B2R z = rnd (B2R x * B2R y) /\ Bsign z = xorb (Bsign x) (Bsign y).
Proof.
  intros Fx Fy B. exists (Bmult mode_NE x y). split; [apply mul_equiv|]. pose proof (Bmult_correct 53 1024 Hprec Hmax mode_NE x y) as C. cbn [round_mode] in C.
  rewrite round_lt in C by exact B. destruct C as (C1 & C2 & C3). rewrite Fx, Fy in C2. split; [exact C2|]. split; [exact C1|]. apply C3. destruct (Bmult mode_NE x y); try reflexivity; discriminate.
Qed.
Lemma of_Z_reads k : 0 <= k <= 2 ^ 53 -> reads false (IZR k) (of_Z k).
Proof.
  intros K. destruct (fl_bf_pos k 0) as (b & E & F & S & V); [split; lia|lia|]. exists b. split; [exact E|]. split; [exact F|]. split; [exact S|]. rewrite V. unfold F2R. cbn. ring.
Qed.
Lemma reads_nonneg s a x : reads s a x -> (0 <= a)%R.
Proof.
  intros (b & _ & F & S & V). destruct b as [t|t| |t m e H]; try discriminate F; cbn [Bsign] in S; subst t.
  - cbn [B2R] in V. destruct s; lra.
  - assert (0 < F2R (Float radix2 (Zpos m) e))%R by (apply F2R_gt_0; reflexivity). cbn [B2R] in V. destruct s; cbn [cond_Zopp] in V; [|lra].
    change (Z.neg m) with (- Zpos m) in V. rewrite F2R_Zopp in V. lra.
Qed.
Lemma reads_sign s a x : reads s a x -> sign_bit x = s.
Proof. intros (b & -> & F & <- & _). destruct b; try discriminate F; reflexivity. Qed.
Lemma reads_copysign s a x s' b y : reads s a x -> reads s' b y -> reads s' a (fcopysign x y).
Proof.
  intros Rx Ry. pose proof (reads_sign _ _ _ Ry) as Sy. destruct Rx as (u & -> & F & S & V). destruct u as [t|t| |t m e H]; try discriminate F; cbn [Bsign] in S; subst t; cbn [B2SF fcopysign]; rewrite Sy.
  - exists (B754_zero s'). repeat split. cbn [B2R] in *. destruct s, s'; lra.
  - exists (B754_finite s' m e H). repeat split. cbn [B2R] in *. destruct s, s'; cbn [cond_Zopp] in *; try exact V; change (Z.neg m) with (- Zpos m) in *; rewrite F2R_Zopp in *; lra.
Qed.
Lemma reads_mul s a x s' b y : reads s a x -> reads s' b y -> (a * b < bpow radix2 1007)%R -> reads (xorb s s') (rnd (a * b)) (fmul x y).
Proof.
  intros Rx Ry B. pose proof (reads_nonneg _ _ _ Rx) as Pa. pose proof (reads_nonneg _ _ _ Ry) as Pb. destruct Rx as (u & -> & Fu & Su & Vu). destruct Ry as (v & -> & Fv & Sv & Vv).
  assert (E : (B2R u * B2R v = if xorb s s' then - (a * b) else a * b)%R) by (rewrite Vu, Vv; destruct s, s'; cbn [xorb]; ring).
  assert (P : (0 <= a * b)%R) by (apply Rmult_le_pos; assumption).
  destruct (fmul_val u v Fu Fv) as (z & Ez & Fz & Vz & Sz). { rewrite E. destruct (xorb s s'); [rewrite Rabs_Ropp|]; rewrite Rabs_pos_eq by assumption; assumption. }
  exists z. split; [exact Ez|]. split; [exact Fz|]. split; [rewrite Sz, Su, Sv; reflexivity|]. rewrite Vz, E. destruct (xorb s s'); [apply rnd_opp|reflexivity].
Qed.
Lemma reads_div s a x k : reads s a x -> 0 < k <= 2 ^ 53 -> (a < bpow radix2 1007)%R -> reads s (rnd (a / IZR k)) (fdiv x (of_Z k)).
Proof.
  intros Rx K B. pose proof (reads_nonneg _ _ _ Rx) as Pa. destruct Rx as (u & -> & Fu & Su & Vu). destruct (of_Z_reads k ltac:(lia)) as (v & -> & Fv & Sv & Vv). cbn iota in Vv.
  assert (K1 : (1 <= IZR k)%R) by (apply IZR_le; lia). assert (I1 : (0 < / IZR k <= 1)%R). { split; [apply Rinv_0_lt_compat; lra|]. rewrite <- Rinv_1. apply Rinv_le; lra. }
  assert (Q : (0 <= a / IZR k <= a)%R) by (unfold Rdiv; nra).
  assert (E : (B2R u / B2R v = if s then - (a / IZR k) else a / IZR k)%R) by (rewrite Vu, Vv; destruct s; unfold Rdiv; ring).
  pose proof (Bdiv_correct 53 1024 Hprec Hmax mode_NE u v ltac:(rewrite Vv; lra)) as C. cbn [round_mode] in C. rewrite round_lt in C.
  2:{ rewrite E. destruct s; [rewrite Rabs_Ropp|]; rewrite Rabs_pos_eq by lra; lra. }
  destruct C as (C1 & C2 & C3). exists (Bdiv mode_NE u v). split; [apply div_equiv|]. rewrite Fu in C2. split; [exact C2|]. split.
  - rewrite C3 by (destruct (Bdiv mode_NE u v); try reflexivity; discriminate). rewrite Su, Sv. destruct s; reflexivity.
  - rewrite C1, E. destruct s; [apply rnd_opp|reflexivity].
Qed.
Lemma reads_add s a x b y : reads s a x -> reads s b y -> (a + b < bpow radix2 1007)%R -> reads s (rnd (a + b)) (fadd x y).
Proof.
  intros Rx Ry B. pose proof (reads_nonneg _ _ _ Rx) as Pa. pose proof (reads_nonneg _ _ _ Ry) as Pb. destruct Rx as (u & -> & Fu & Su & Vu). destruct Ry as (v & -> & Fv & Sv & Vv).
  assert (E : (B2R u + B2R v = if s then - (a + b) else a + b)%R) by (rewrite Vu, Vv; destruct s; ring).
  pose proof (Bplus_correct 53 1024 Hprec Hmax mode_NE u v Fu Fv) as C. cbn [round_mode] in C. rewrite round_lt in C.
  2:{ rewrite E. destruct s; [rewrite Rabs_Ropp|]; rewrite Rabs_pos_eq by lra; lra. }
  destruct C as (C1 & C2 & C3). exists (Bplus mode_NE u v). split; [apply add_equiv|]. split; [exact C2|]. split.
  - rewrite C3, E, Su, Sv. destruct s; destruct (Rcompare_spec (if true then - (a + b) else a + b) 0), (Rcompare_spec (if false then - (a + b) else a + b) 0); cbn iota in *; try reflexivity; lra.
  - rewrite C1, E. destruct s; [apply rnd_opp|reflexivity].
Qed.
Lemma reads_number s a x : reads s a x -> is_number x (if s then - a else a).
Proof. intros (b & E & F & _ & V). exists b. auto. Qed.
Lemma reads_eq s a x y : reads s a x -> reads s a y -> x = y.
Proof. intros (b & -> & Fb & Sb & Vb) (c & -> & Fc & Sc & Vc). f_equal. apply same; congruence. Qed.

(** ** Reading a tuple *)
Lemma unsex_three64 s a u s1 b m s2 c x : reads s a u -> reads s1 b m -> reads s2 c x -> (a + b + c < bpow radix2 500)%R ->
  reads s (rnd (rnd (a + rnd (b / 60)) + rnd (c / 3600))) (unsex64 [u; m; x]) /\ wms64 u m x = unsex64 [u; m; x].
Proof.
  intros Ru Rm Rx B. pose proof (reads_nonneg _ _ _ Ru) as Pa. pose proof (reads_nonneg _ _ _ Rm) as Pb. pose proof (reads_nonneg _ _ _ Rx) as Pc.
  assert (K1 : fmul (of_Z 1) (of_Z 60) = of_Z 60) by reflexivity. assert (K2 : fmul (of_Z 60) (of_Z 60) = of_Z 3600) by reflexivity.
  assert (Big : (bpow radix2 500 + bpow radix2 500 < bpow radix2 502)%R). { replace (bpow radix2 502) with (4 * bpow radix2 500)%R by (change 4%R with (bpow radix2 2); rewrite <- bpow_plus; reflexivity). pose proof (bpow_gt_0 radix2 500). lra. }
  assert (Big2 : (bpow radix2 502 < bpow radix2 1000)%R) by (apply bpow_lt; lia). assert (Big3 : (bpow radix2 1000 < bpow radix2 1007)%R) by (apply bpow_lt; lia).
  assert (One : (1 <= bpow radix2 500)%R) by (change 1%R with (bpow radix2 0); apply bpow_le; lia).
  assert (Rs : forall y, (0 <= y -> rnd y <= 2 * y + 1)%R). { intros y Py. pose proof (rnd_pos_err y Py) as H. pose proof eta_le_eps as H1. unfold eps in *. lra. }
  assert (B6 : (0 <= b / 60 <= b)%R) by lra. assert (C6 : (0 <= c / 3600 <= c)%R) by lra.
  pose proof (Rs (b / 60)%R ltac:(lra)) as T1. pose proof (rnd_nonneg (b / 60) ltac:(lra)) as T2. pose proof (Rs (c / 3600)%R ltac:(lra)) as T3. pose proof (rnd_nonneg (c / 3600) ltac:(lra)) as T4.
  pose proof (reads_div _ _ _ 60 (reads_copysign _ _ _ _ _ _ Rm Ru) ltac:(lia) ltac:(lra)) as D1.
  assert (A1 : reads s (rnd (a + rnd (b / 60))) (fadd u (fdiv (fcopysign m u) (of_Z 60)))) by (apply reads_add; [exact Ru|exact D1|lra]).
  pose proof (Rs (a + rnd (b / 60))%R ltac:(lra)) as T5. pose proof (rnd_nonneg (a + rnd (b / 60)) ltac:(lra)) as T6.
  pose proof (reads_div _ _ _ 3600 (reads_copysign _ _ _ _ _ _ Rx A1) ltac:(lia) ltac:(lra)) as D2.
  pose proof (reads_div _ _ _ 3600 (reads_copysign _ _ _ _ _ _ Rx Ru) ltac:(lia) ltac:(lra)) as D3.
  assert (Four : (bpow radix2 502 = 4 * bpow radix2 500)%R) by (change 4%R with (bpow radix2 2); rewrite <- bpow_plus; reflexivity).
  assert (Four' : (bpow radix2 504 = 16 * bpow radix2 500)%R) by (change 16%R with (bpow radix2 4); rewrite <- bpow_plus; reflexivity).
  assert (Big4 : (bpow radix2 504 < bpow radix2 1000)%R) by (apply bpow_lt; lia).
  unfold unsex64, unsex_loop64, wms64. cbv zeta. rewrite K1, K2. split; [apply reads_add; [exact A1|exact D2|lra]|]. f_equal. apply (reads_eq _ _ _ _ D3 D2).
Qed.
(** Its rounding error. *)
Lemma unsex_error a b c : (0 <= a)%R -> (0 <= b)%R -> (0 <= c)%R ->
  (Rabs (rnd (rnd (a + rnd (b / 60)) + rnd (c / 3600)) - (a + b / 60 + c / 3600)) <= 4 * eps * (a + b / 60 + c / 3600) + 5 * eta)%R.
Proof.
  intros Pa Pb Pc. set (b' := (b / 60)%R). set (c' := (c / 3600)%R). assert (0 <= b')%R by (unfold b'; lra). assert (0 <= c')%R by (unfold c'; lra). clearbody b' c'. clear Pb Pc b c.
  pose proof eta_pos as He. pose proof (rnd_pos_err b' ltac:(lra)) as E1. pose proof (rnd_nonneg b' ltac:(lra)) as N1. set (b1 := rnd b') in *. clearbody b1.
  pose proof (rnd_pos_err c' ltac:(lra)) as E2. pose proof (rnd_nonneg c' ltac:(lra)) as N2. set (c1 := rnd c') in *. clearbody c1.
  pose proof (rnd_pos_err (a + b1) ltac:(lra)) as E3. pose proof (rnd_nonneg (a + b1) ltac:(lra)) as N3. set (d := rnd (a + b1)) in *. clearbody d.
  pose proof (rnd_pos_err (d + c1) ltac:(lra)) as E4. set (r := rnd (d + c1)) in *. clearbody r. unfold eps in *. apply Rabs_le. lra.
Qed.
