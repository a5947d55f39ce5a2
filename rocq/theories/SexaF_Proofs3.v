(** Printing and reading sexagesimal angles in binary64: the properties. *)
From Coq Require Import ZArith Reals Lia Lra List Bool QArith Qround Qabs Ascii String.
From Coq.Floats Require Import SpecFloat.
From Flocq Require Import Core BinarySingleNaN Relative.
From Verif Require Import Float64 Float64_Proofs Float_Time_Model Float_Time_Spec Cal_Model Cal_Spec PyNum
  Time_Model Time_Spec Time_Proofs Time_Proofs2 Float_Time_Proofs Float_Time_Proofs4 Units_Model SexaF_Model SexaF_Spec SexaF_Proofs SexaF_Proofs2.
Import ListNotations.
Open Scope Z_scope.

(** ** The whole number of units of the last place *)
Definition units64 (value : b64) (places : nat) : Z :=
  ftruncZ (fst (fdivmod (fadd (fmul (of_Z (per_unit places)) value) (fl 1 (-1))) (of_Z 1))).
Lemma split_number n places : let P := 10 ^ Z.of_nat places in
  let t := (Z.sgn n, Z.abs n / P / 60 / 60, Z.abs n / P / 60 mod 60, Z.abs n / P mod 60, Z.abs n mod P) in
  printed t places = n /\ well_formed t places.
Proof.
  intros P t. assert (Pp : 0 < P) by (apply Z.pow_pos_nonneg; lia). unfold printed, well_formed, t. fold P.
  pose proof (Z.div_mod (Z.abs n) P ltac:(lia)) as D1. pose proof (Z.mod_pos_bound (Z.abs n) P Pp) as B1. pose proof (Z.div_pos (Z.abs n) P ltac:(lia) Pp) as N1. set (q := Z.abs n / P) in *. set (f := Z.abs n mod P) in *. clearbody q f.
  pose proof (Z.div_mod q 60 ltac:(lia)) as D2. pose proof (Z.mod_pos_bound q 60 ltac:(lia)) as B2. pose proof (Z.div_pos q 60 ltac:(lia) ltac:(lia)) as N2. set (m := q / 60) in *. set (s := q mod 60) in *. clearbody m s.
  pose proof (Z.div_mod m 60 ltac:(lia)) as D3. pose proof (Z.mod_pos_bound m 60 ltac:(lia)) as B3. pose proof (Z.div_pos m 60 ltac:(lia) ltac:(lia)) as N3. set (u := m / 60) in *. set (mi := m mod 60) in *. clearbody u mi.
  assert (E : ((u * 60 + mi) * 60 + s) * P + f = Z.abs n) by nia. rewrite E. split; [rewrite <- Z.abs_sgn; nia|]. split; [lia|]. destruct n; cbn [Z.sgn]; [right; right|left; reflexivity|right; left; reflexivity].
  cbn [Z.abs] in *. assert (f = 0) by nia. assert (q = 0) by nia. lia.
Qed.
Lemma sex_int64_fields v places : printed (sex_int64 v places) places = units64 v places /\ well_formed (sex_int64 v places) places.
Proof. exact (split_number (units64 v places) places). Qed.
Lemma per_unit_bounds places : (places <= 12)%nat -> 3600 <= per_unit places <= 2 ^ 52.
Proof.
  intros H. unfold per_unit. assert (A : 10 ^ 0 <= 10 ^ Z.of_nat places <= 10 ^ 12) by (split; apply Z.pow_le_mono_r; lia). change (10 ^ 0) with 1 in A. change (10 ^ 12) with 1000000000000 in A. lia.
Qed.
Lemma half_bf : exists h : bf, fl 1 (-1) = B2SF h /\ is_finite h = true /\ B2R h = (1 / 2)%R.
Proof. destruct (fl_bf 1 (-1)) as (h & E & F & V); [split; cbn; lia|]. exists h. split; [exact E|]. split; [exact F|]. rewrite V. unfold F2R. cbn. lra. Qed.
(** The float before it is floored. *)
Lemma units64_floor (v : bf) places : is_finite v = true -> (places <= 12)%nat -> (Rabs (IZR (per_unit places) * B2R v) < bpow radix2 50)%R ->
  let x := (IZR (per_unit places) * B2R v)%R in
  units64 (B2SF v) places = Zfloor (rnd (rnd x + 1 / 2)) /\ (Rabs (rnd (rnd x + 1 / 2) - (x + 1 / 2)) <= bpow radix2 (-52) * (Rabs x + 1))%R /\ (Rabs (rnd (rnd x + 1 / 2) - (x + 1 / 2)) <= 9 / 32)%R.
Proof.
  intros F Hp B x. pose proof (per_unit_bounds places Hp) as PB. destruct (of_Z_reads (per_unit places) ltac:(lia)) as (p & Ep & Fp & Sp & Vp). cbn iota in Vp.
  assert (Big : (bpow radix2 51 < bpow radix2 1007)%R) by (apply bpow_lt; lia). assert (E50 : bpow radix2 50 = 1125899906842624%R) by reflexivity. assert (E51 : bpow radix2 51 = 2251799813685248%R) by reflexivity.
  destruct (fmul_val p v Fp F) as (w & Ew & Fw & Vw & _); [rewrite Vp; lra|]. rewrite Vp in Vw. fold x in Vw.
  destruct half_bf as (h & Eh & Fh & Vh).
  pose proof (rnd_err x) as R1. pose proof eta_le_eps as H1. pose proof eta_pos as H2. fold x in B. pose proof (Rabs_pos x) as P0.
  assert (AW : (Rabs (rnd x) <= Rabs x + (eps * Rabs x + eta))%R). { apply Rabs_le_inv in R1. apply Rabs_le. pose proof (Rle_abs x). pose proof (Rle_abs (- x)) as RO. rewrite Rabs_Ropp in RO. lra. }
  assert (AH : (Rabs (rnd x + 1 / 2) <= Rabs (rnd x) + 1 / 2)%R). { apply Rle_trans with (1 := Rabs_triang _ _). rewrite (Rabs_pos_eq (1 / 2)) by lra. lra. }
  pose proof (rnd_err (rnd x + 1 / 2)) as R2.
  destruct (fadd_val w h Fw Fh) as (y & Ey & Fy & Vy). { rewrite Vw, Vh. apply Rle_lt_trans with (1 := AH). unfold eps in *. lra. }
  rewrite Vw, Vh in Vy.
  assert (AY : (Rabs (rnd (rnd x + 1 / 2)) <= bpow radix2 51)%R).
  { rewrite E51. apply Rle_trans with (Rabs (rnd x + 1 / 2) + Rabs (rnd (rnd x + 1 / 2) - (rnd x + 1 / 2)))%R. - replace (rnd (rnd x + 1 / 2)) with ((rnd x + 1 / 2) + (rnd (rnd x + 1 / 2) - (rnd x + 1 / 2)))%R at 1 by ring. apply Rabs_triang. - unfold eps in *. lra. }
  split; [|].
  - unfold units64. rewrite Ep, Ew, Eh, Ey. rewrite trunc_floor_one; [rewrite Vy; reflexivity|exact Fy|rewrite Vy; exact AY].
  - assert (Tot : (Rabs (rnd (rnd x + 1 / 2) - (x + 1 / 2)) <= Rabs (rnd (rnd x + 1 / 2) - (rnd x + 1 / 2)) + Rabs (rnd x - x))%R).
    { replace (rnd (rnd x + 1 / 2) - (x + 1 / 2))%R with ((rnd (rnd x + 1 / 2) - (rnd x + 1 / 2)) + (rnd x - x))%R by ring. apply Rabs_triang. }
    change (bpow radix2 (-52)) with (/ 4503599627370496)%R. unfold eps in *.
    assert (Sm : (eta <= / 9007199254740992 * / 9007199254740992)%R). { unfold eta. change (/ 9007199254740992 * / 9007199254740992)%R with (bpow radix2 (-53) * bpow radix2 (-53))%R. rewrite <- bpow_plus. apply bpow_le. lia. }
    split; [|lra]. lra.
Qed.
Lemma printed_within (v : bf) places : is_finite v = true -> (places <= 12)%nat -> (Rabs (IZR (per_unit places) * B2R v) < bpow radix2 50)%R ->
  well_formed (sex_int64 (B2SF v) places) places /\
  (Rabs (IZR (printed (sex_int64 (B2SF v) places) places) - IZR (per_unit places) * B2R v) <= 1 / 2 + bpow radix2 (-52) * (Rabs (IZR (per_unit places) * B2R v) + 1))%R.
Proof.
  intros F Hp B. destruct (sex_int64_fields (B2SF v) places) as (E & W). split; [exact W|]. rewrite E. destruct (units64_floor v places F Hp B) as (U & R & _). rewrite U.
  set (x := (IZR (per_unit places) * B2R v)%R) in *. set (y := rnd (rnd x + 1 / 2)) in *. pose proof (Zfloor_lb y) as L1. pose proof (Zfloor_ub y) as L2. apply Rabs_le_inv in R. apply Rabs_le. lra.
Qed.
Lemma units_close (v : bf) places k : is_finite v = true -> (places <= 12)%nat -> Z.abs k < 2 ^ 49 -> (Rabs (IZR (per_unit places) * B2R v - IZR k) <= 3 / 16)%R ->
  units64 (B2SF v) places = k.
Proof.
  intros F Hp K C. assert (KR : (Rabs (IZR k) <= 562949953421312)%R) by (rewrite <- abs_IZR; apply IZR_le; lia). set (x := (IZR (per_unit places) * B2R v)%R) in *.
  assert (AX : (Rabs x <= 562949953421313)%R). { replace x with (IZR k + (x - IZR k))%R by ring. apply Rle_trans with (1 := Rabs_triang _ _). lra. }
  destruct (units64_floor v places F Hp) as (U & _ & R); fold x; [change (bpow radix2 50) with 1125899906842624%R; lra|]. fold x in U, R. rewrite U. apply Zfloor_imp. rewrite plus_IZR. set (y := rnd (rnd x + 1 / 2)) in *. apply Rabs_le_inv in R. apply Rabs_le_inv in C. lra.
Qed.
Lemma sex_int_exact k places : sexagesimalize_to_int (inject_Z k / inject_Z (per_unit places)) places = let P := 10 ^ Z.of_nat places in
  (Z.sgn k, Z.abs k / P / 60 / 60, Z.abs k / P / 60 mod 60, Z.abs k / P mod 60, Z.abs k mod P).
Proof.
  unfold sexagesimalize_to_int. cbv zeta. fold (per_unit places).
  assert (N : 0 < per_unit places) by (unfold per_unit; assert (0 < 10 ^ Z.of_nat places) by (apply Z.pow_pos_nonneg; lia); lia).
  assert (E : Qfloor (inject_Z (per_unit places) * (inject_Z k / inject_Z (per_unit places)) + (1 # 2)) = k).
  { assert (X : (inject_Z (per_unit places) * (inject_Z k / inject_Z (per_unit places)) + (1 # 2) == inject_Z k + (1 # 2))%Q). { field. intros H. apply (Qeq_bool_iff _ 0) in H. unfold Qeq_bool, inject_Z in H. cbn in H. apply Zeq_bool_eq in H. lia. }
    rewrite X. unfold Qfloor, Qplus, inject_Z. cbn [Qnum Qden]. change (Z.pos (1 * 2)) with 2. replace (k * 2 + 1 * 1) with (1 + k * 2) by lia. rewrite Z.div_add by lia. reflexivity. }
  rewrite E. reflexivity.
Qed.
(** A float within three sixteenths of [k] units of the last place prints as [k] of them. *)
Lemma close_prints f (v : bf) places k : is_finite v = true -> (places <= 12)%nat -> Z.abs k < 2 ^ 49 -> (Rabs (IZR (per_unit places) * B2R v - IZR k) <= 3 / 16)%R ->
  printed (sex_int64 (B2SF v) places) places = k /\ sfmt64 f (B2SF v) places = sfmt f (inject_Z k / inject_Z (per_unit places)) places.
Proof.
  intros F Hp K C. pose proof (units_close v places k F Hp K C) as U. split; [rewrite (proj1 (sex_int64_fields _ _)); exact U|].
  unfold sfmt. rewrite sex_int_exact. cbv zeta. rewrite <- U. destruct v as [s|s| |s m e H]; try discriminate F; reflexivity.
Qed.
Lemma per_scale places (r y : R) k : (places <= 12)%nat -> Z.abs k < 2 ^ 49 -> y = (IZR k / IZR (per_unit places))%R -> (Rabs (r - y) <= eps * Rabs y + eta)%R ->
  (Rabs (IZR (per_unit places) * r - IZR k) <= 3 / 16)%R.
Proof.
  intros Hp K Y E. pose proof (per_unit_bounds places Hp) as PB. set (P := IZR (per_unit places)) in *. assert (PR : (3600 <= P <= 4503599627370496)%R) by (unfold P; split; apply IZR_le; lia).
  assert (KR : (Rabs (IZR k) <= 562949953421312)%R) by (rewrite <- abs_IZR; apply IZR_le; lia).
  assert (Z1 : (P * r - IZR k = P * (r - y))%R) by (rewrite Y; field; lra). rewrite Z1, Rabs_mult, (Rabs_pos_eq P) by lra.
  assert (Z2 : (P * Rabs y = Rabs (IZR k))%R). { rewrite Y. unfold Rdiv. rewrite Rabs_mult. rewrite (Rabs_pos_eq (/ P)) by (left; apply Rinv_0_lt_compat; lra). field. lra. }
  apply Rle_trans with (P * (eps * Rabs y + eta))%R; [apply Rmult_le_compat_l; lra|]. replace (P * (eps * Rabs y + eta))%R with (eps * Rabs (IZR k) + P * eta)%R by (rewrite <- Z2; ring).
  assert (P * eta <= / 1024)%R. { apply Rle_trans with (4503599627370496 * eta)%R; [apply Rmult_le_compat_r; [left; apply eta_pos|lra]|]. unfold eta. change 4503599627370496%R with (bpow radix2 52). rewrite <- bpow_plus. change (/ 1024)%R with (bpow radix2 (-10)). apply bpow_le. lia. }
  unfold eps. lra.
Qed.
(** An angle typed in decimal as so many units of the last place prints as typed. *)
Lemma decimal_prints f v places k : (places <= 12)%nat -> Z.abs k < 2 ^ 49 -> is_nearest v (IZR k / IZR (per_unit places)) ->
  printed (sex_int64 v places) places = k /\ sfmt64 f v places = sfmt f (inject_Z k / inject_Z (per_unit places)) places.
Proof.
  intros Hp K (b & -> & F & V). apply close_prints; try assumption. apply (per_scale places _ (IZR k / IZR (per_unit places))); try assumption; [reflexivity|]. rewrite V. apply rnd_err.
Qed.

(** ** The tuple of an angle *)
Lemma fsign_reads s a x : reads s a x -> (0 < a)%R -> fsign x = of_Z (if s then -1 else 1).
Proof.
  intros (b & -> & F & S & V) P. destruct b as [t|t| |t m e H]; try discriminate F; cbn [Bsign] in S; subst t; cbn [B2R] in V.
  - destruct s; lra.
  - destruct s; reflexivity.
Qed.
Lemma fabs_reads s a x : reads s a x -> reads false a (fabs x).
Proof.
  intros (b & -> & F & S & V). destruct b as [t|t| |t m e H]; try discriminate F; cbn [Bsign] in S; subst t; cbn [B2SF fabs SFabs].
  - exists (B754_zero false). repeat split. cbn [B2R] in *. destruct s; lra.
  - exists (B754_finite false m e H). repeat split. cbn [B2R] in *. destruct s; cbn [cond_Zopp] in *; [|exact V]. change (Z.neg m) with (- Zpos m) in V. rewrite F2R_Zopp in V. lra.
Qed.
Lemma sign_reads (s : bool) : exists c, reads s 1 (of_Z (if s then -1 else 1)) /\ c = s.
Proof.
  exists s. split; [|reflexivity]. destruct s; [|exact (of_Z_reads 1 ltac:(lia))]. destruct (of_Z_reads 1 ltac:(lia)) as (b & E & F & S & V). destruct (bnorm_spec (-1) 0) as (_ & G & Sg); [lia|lia|].
  exists (bnorm (-1) 0 false). split; [apply fl_bnorm|]. split; [exact G|]. split; [exact Sg|]. rewrite bnorm_small by (split; lia). unfold F2R. cbn. ring.
Qed.
Lemma reads_signed s a x : reads false a x -> (a < bpow radix2 1000)%R -> reads s a (fmul (of_Z (if s then -1 else 1)) x).
Proof.
  intros Rx B. destruct (sign_reads s) as (_ & Rs & _). assert (Bg : (bpow radix2 1000 < bpow radix2 1007)%R) by (apply bpow_lt; lia). pose proof (reads_mul _ _ _ _ _ _ Rs Rx ltac:(lra)) as M.
  rewrite xorb_false_r, Rmult_1_l in M. replace (rnd a) with a in M; [exact M|]. destruct Rx as (b & _ & _ & _ & V). cbn iota in V. rewrite <- V. symmetry. apply rnd_self.
Qed.
Lemma dms64_fields s a x : reads s a x -> (0 < a < bpow radix2 38)%R ->
  exists U M c, (0 <= U /\ 0 <= M < 60) /\ (0 <= c < 60)%R /\ (IZR ((U * 60 + M) * 60) + c = rnd (a * 3600))%R /\
    exists xu xm xs, dms64 x = [xu; xm; xs] /\ reads s (IZR U) xu /\ reads s (IZR M) xm /\ reads s c xs.
Proof.
  intros Rx [Pa Ba]. change (bpow radix2 38) with 274877906944%R in Ba.
  pose proof (reads_mul _ _ _ _ _ _ (fabs_reads _ _ _ Rx) (of_Z_reads 3600 ltac:(lia))) as Mu. cbn [xorb] in Mu.
  assert (B51 : bpow radix2 51 = 2251799813685248%R) by reflexivity. assert (Bg : (bpow radix2 51 < bpow radix2 1000)%R) by (apply bpow_lt; lia). assert (Bg2 : (bpow radix2 1000 < bpow radix2 1007)%R) by (apply bpow_lt; lia).
  specialize (Mu ltac:(lra)). pose proof (rnd_pos_err (a * 3600) ltac:(lra)) as RE. pose proof (rnd_nonneg (a * 3600) ltac:(lra)) as RN. pose proof eta_le_eps as HE. set (X := rnd (a * 3600)) in *.
  assert (BX : (X < 2251799813685248)%R) by (unfold eps in *; lra). destruct Mu as (w & Ew & Fw & Sw & Vw). cbn iota in Vw.
  destruct (fdivmod_k w 60 Fw Sw) as (r & Fr & Sr & Er & Vr); [rewrite Vw; lra|lia|]. rewrite Vw in Er, Vr. set (q := Zfloor (X / 60)) in *.
  assert (Q0 : 0 <= q). { apply Zfloor_lub. cbn. lra. } assert (QL : (IZR q <= X / 60)%R) by apply Zfloor_lb. assert (QU : (X / 60 < IZR q + 1)%R) by apply Zfloor_ub.
  assert (QB : q <= 2 ^ 46). { apply le_IZR. apply Rle_trans with (1 := QL). change (IZR (2 ^ 46)) with 70368744177664%R. lra. }
  pose proof (Z.div_mod q 60 ltac:(lia)) as D. pose proof (Z.mod_pos_bound q 60 ltac:(lia)) as MB. pose proof (Z.div_pos q 60 ltac:(lia) ltac:(lia)) as N1. assert (QD : q / 60 <= 2 ^ 46) by lia.
  exists (q / 60), (q mod 60), (X - 60 * IZR q)%R. split; [lia|]. split; [lra|]. split; [replace ((q / 60 * 60 + q mod 60) * 60) with (60 * q) by lia; rewrite mult_IZR; ring|].
  unfold dms64, sex_float64. rewrite (fsign_reads _ _ _ Rx Pa), Ew, Er. change (fdivmod (of_Z q) (of_Z 60)) with (fdivmod (fl q 0) (fl 60 0)). rewrite fdivmod_pos by lia.
  eexists _, _, _. split; [reflexivity|]. assert (B2 : forall k, k <= 2 ^ 46 -> (IZR k < bpow radix2 1000)%R). { intros k Hk. apply Rle_lt_trans with (IZR (2 ^ 46)); [apply IZR_le; exact Hk|]. rewrite IZR_pow by lia. apply bpow_lt. lia. }
  split; [apply reads_signed; [apply of_Z_reads; lia|apply B2; exact QD]|]. split; [apply reads_signed; [apply (of_Z_reads (q mod 60)); lia|apply B2; lia]|].
  apply reads_signed; [|lra]. exists r. auto.
Qed.
(** ** Reading back the tuple of an angle *)
Lemma reads_back64 s a x : reads s a x -> (0 < a < bpow radix2 38)%R ->
  exists b, reads s b (unsex64 (dms64 x)) /\ (Rabs (b - a) <= bpow radix2 (-50) * a + bpow radix2 (-1072))%R.
Proof.
  intros Rx Ba. destruct (dms64_fields s a x Rx Ba) as (U & M & c & (HU & HM) & Hc & E & xu & xm & xs & -> & Ru & Rm & Rs). destruct Ba as [Pa Ba]. change (bpow radix2 38) with 274877906944%R in Ba.
  assert (UR : (0 <= IZR U)%R) by (apply IZR_le; lia). assert (MR : (0 <= IZR M <= 60)%R) by (split; apply IZR_le; lia).
  assert (B51 : bpow radix2 51 = 2251799813685248%R) by reflexivity. assert (Bg : (bpow radix2 51 < bpow radix2 500)%R) by (apply bpow_lt; lia).
  pose proof (rnd_pos_err (a * 3600) ltac:(lra)) as RE. pose proof eta_le_eps as HE. pose proof eta_pos as HP.
  assert (E' : ((IZR U * 60 + IZR M) * 60 + c = rnd (a * 3600))%R) by (rewrite <- E; rewrite mult_IZR, plus_IZR, mult_IZR; reflexivity).
  assert (H8 : (bpow radix2 (-1072) = 8 * eta)%R) by (unfold eta; change 8%R with (bpow radix2 3); rewrite <- bpow_plus; reflexivity).
  destruct (unsex_three64 _ _ _ _ _ _ _ _ _ Ru Rm Rs) as (R & _); [unfold eps in *; lra|]. eexists. split; [exact R|].
  pose proof (unsex_error (IZR U) (IZR M) c UR ltac:(lra) ltac:(lra)) as UE. set (z := rnd (rnd (IZR U + rnd (IZR M / 60)) + rnd (c / 3600))) in *. clearbody z. rewrite H8. change (bpow radix2 (-50)) with (/ 1125899906842624)%R.
  assert (T : (IZR U + IZR M / 60 + c / 3600 = rnd (a * 3600) / 3600)%R) by (rewrite <- E'; field). rewrite T in UE. set (X := rnd (a * 3600)) in *. clearbody X. apply Rabs_le_inv in UE. apply Rabs_le. unfold eps in *. lra.
Qed.
Lemma dms64_zero s x : reads s 0 x -> dms64 x = [of_Z 0; of_Z 0; of_Z 0] /\ unsex64 (dms64 x) = of_Z 0.
Proof.
  intros (b & -> & F & S & V). destruct b as [t|t| |t m e H]; try discriminate F.
  - destruct t; split; reflexivity.
  - exfalso. assert (0 < F2R (Float radix2 (Zpos m) e))%R by (apply F2R_gt_0; reflexivity). cbn [B2R Bsign] in *. subst t. destruct s; cbn [cond_Zopp] in V; [change (Z.neg m) with (- Zpos m) in V; rewrite F2R_Zopp in V|]; lra.
Qed.
(** ** A tuple typed by hand prints as typed *)
Lemma tuple_prints f places s U M j xu s1 xm s2 c xs : (places <= 12)%nat -> 0 <= U -> 0 <= M -> 0 <= j ->
  let k := (U * 60 + M) * 60 * 10 ^ Z.of_nat places + j in k < 2 ^ 47 ->
  reads s (IZR U) xu -> reads s1 (IZR M) xm -> reads s2 c xs -> is_nearest (fabs xs) (IZR j / IZR (10 ^ Z.of_nat places)) ->
  printed (sex_int64 (unsex64 [xu; xm; xs]) places) places = (if s then - k else k) /\
  sfmt64 f (unsex64 [xu; xm; xs]) places = sfmt f (inject_Z (if s then - k else k) / inject_Z (per_unit places)) places.
Proof.
  intros Hp HU HM Hj k Hk Ru Rm Rs Rn. set (P := 10 ^ Z.of_nat places) in *. assert (Pp : 0 < P) by (apply Z.pow_pos_nonneg; lia).
  assert (Pu : per_unit places = P * 3600) by reflexivity. pose proof (per_unit_bounds places Hp) as PB.
  assert (K0 : 0 <= k) by (unfold k; nia). pose proof (reads_nonneg _ _ _ Rs) as Pc.
  assert (Vc : c = rnd (IZR j / IZR P)). { destruct Rn as (b & Eb & Fb & Vb). destruct (fabs_reads _ _ _ Rs) as (b' & Eb' & Fb' & Sb' & Vb'). cbn iota in Vb'. rewrite <- Vb, <- Vb'. rewrite Eb' in Eb. f_equal. apply B2SF_inj. exact Eb. }
  assert (UR : (0 <= IZR U)%R) by (apply IZR_le; lia). assert (MR : (0 <= IZR M)%R) by (apply IZR_le; lia). assert (JR : (0 <= IZR j)%R) by (apply IZR_le; lia). assert (PR : (1 <= IZR P)%R) by (apply IZR_le; lia).
  assert (PR' : (IZR P <= 4503599627370496)%R) by (apply IZR_le; lia).
  assert (I1 : (0 < / IZR P <= 1)%R). { split; [apply Rinv_0_lt_compat; lra|]. rewrite <- Rinv_1. apply Rinv_le; lra. }
  set (t := (IZR j / IZR P)%R) in *. assert (T0 : (0 <= t)%R) by (unfold t, Rdiv; nra). assert (TP : (t * IZR P = IZR j)%R) by (unfold t; field; lra).
  pose proof (rnd_pos_err t T0) as RE. rewrite <- Vc in RE. pose proof eta_le_eps as HE. pose proof eta_pos as HP.
  assert (KE : (IZR k = ((IZR U * 60 + IZR M) * 60 + t) * IZR P)%R). { unfold k. rewrite plus_IZR, !mult_IZR, plus_IZR, mult_IZR. rewrite <- TP. ring. }
  assert (KB : (0 <= IZR k <= 140737488355328)%R) by (split; apply IZR_le; lia).
  assert (SB : ((IZR U * 60 + IZR M) * 60 + t <= 140737488355328)%R) by nra.
  assert (B51 : bpow radix2 51 = 2251799813685248%R) by reflexivity. assert (Bg : (bpow radix2 51 < bpow radix2 500)%R) by (apply bpow_lt; lia).
  destruct (unsex_three64 _ _ _ _ _ _ _ _ _ Ru Rm Rs) as (R & _); [unfold eps in *; lra|]. pose proof (unsex_error (IZR U) (IZR M) c UR MR Pc) as UE.
  set (z := rnd (rnd (IZR U + rnd (IZR M / 60)) + rnd (c / 3600))) in *. clearbody z. destruct R as (v & Ev & Fv & Sv & Vv). rewrite Ev.
  assert (Err : (Rabs (IZR (per_unit places) * z - IZR k) <= 3 / 16)%R).
  { rewrite Pu, mult_IZR, KE. set (S := (IZR U + IZR M / 60 + t / 3600)%R). assert (S3 : ((IZR U * 60 + IZR M) * 60 + t = 3600 * S)%R) by (unfold S; field). rewrite S3 in *. replace (IZR P * 3600 * z - 3600 * S * IZR P)%R with (3600 * (IZR P * (z - S)))%R by ring.
    assert (SP : (IZR P * S * 3600 <= 140737488355328)%R) by (rewrite KE in KB; lra). assert (S0 : (0 <= S)%R) by (unfold S; lra).
    assert (ZS : (Rabs (z - S) <= 6 * eps * S + 8 * eta)%R). { apply Rabs_le_inv in UE. apply Rabs_le. unfold S in *. clearbody t. unfold eps in *. lra. }
    rewrite Rabs_mult, (Rabs_pos_eq 3600) by lra. rewrite Rabs_mult, (Rabs_pos_eq (IZR P)) by lra.
    assert (A : (IZR P * Rabs (z - S) <= 6 * eps * (IZR P * S) + 8 * (IZR P * eta))%R). { apply Rle_trans with (IZR P * (6 * eps * S + 8 * eta))%R; [apply Rmult_le_compat_l; lra|]. right. ring. }
    assert (PE : (IZR P * eta <= / 1048576)%R). { apply Rle_trans with (4503599627370496 * eta)%R; [apply Rmult_le_compat_r; lra|]. unfold eta. change 4503599627370496%R with (bpow radix2 52). rewrite <- bpow_plus. change (/ 1048576)%R with (bpow radix2 (-20)). apply bpow_le. lia. }
    set (w := (IZR P * S)%R) in *. unfold eps in *. lra. }
  apply close_prints; [exact Fv|exact Hp|destruct s; lia|]. rewrite Vv. destruct s; [|exact Err]. rewrite opp_IZR. replace (IZR (per_unit places) * - z - - IZR k)%R with (- (IZR (per_unit places) * z - IZR k))%R by ring. rewrite Rabs_Ropp. exact Err.
Qed.
(** ** The nearest unit of the last place *)
Lemma nearest64 (v : bf) places k : is_finite v = true -> (places <= 12)%nat -> let x := (IZR (per_unit places) * B2R v)%R in (Rabs x < bpow radix2 50)%R ->
  (Rabs (IZR k - x) + bpow radix2 (-52) * (Rabs x + 1) < 1 / 2)%R -> printed (sex_int64 (B2SF v) places) places = k.
Proof.
  intros F Hp x B H. destruct (printed_within v places F Hp B) as (_ & E). fold x in E. set (n := printed _ _) in *. set (d := (bpow radix2 (-52) * (Rabs x + 1))%R) in *.
  assert (L : (Rabs (IZR n - IZR k) < 1)%R). { replace (IZR n - IZR k)%R with ((IZR n - x) + - (IZR k - x))%R by ring. apply Rle_lt_trans with (1 := Rabs_triang _ _). rewrite Rabs_Ropp. lra. }
  rewrite <- minus_IZR, <- abs_IZR in L. apply lt_IZR in L. lia.
Qed.
Lemma not_nearest64 : exists v : bf, is_finite v = true /\ (0 < IZR (per_unit 0) * B2R v < 1 / 2)%R /\ printed (sex_int64 (B2SF v) 0) 0 = 1.
Proof.
  exists (@B754_finite 53 1024 false 5124095576030431 (-65) eq_refl). split; [reflexivity|]. split; [|reflexivity]. cbn [B2R cond_Zopp]. unfold F2R. cbn [Fnum Fexp]. change (IZR (per_unit 0)) with 3600%R. change (bpow radix2 (-65)) with (/ 36893488147419103232)%R. lra.
Qed.
Lemma only_first_sign s a u s1 b m s2 c x s1' m' s2' x' : reads s a u -> reads s1 b m -> reads s2 c x -> reads s1' b m' -> reads s2' c x' -> (a + b + c < bpow radix2 500)%R ->
  unsex64 [u; m; x] = unsex64 [u; m'; x'] /\ wms64 u m x = unsex64 [u; m; x] /\ sign_bit (unsex64 [u; m; x]) = s.
Proof.
  intros Ru Rm Rx Rm' Rx' B. destruct (unsex_three64 _ _ _ _ _ _ _ _ _ Ru Rm Rx B) as (R1 & W). destruct (unsex_three64 _ _ _ _ _ _ _ _ _ Ru Rm' Rx' B) as (R2 & _).
  split; [exact (reads_eq _ _ _ _ R1 R2)|]. split; [exact W|exact (reads_sign _ _ _ R1)].
Qed.
Lemma unsex_value64 s a u s1 b m s2 c x : reads s a u -> reads s1 b m -> reads s2 c x -> (a + b + c < bpow radix2 500)%R ->
  exists y, reads s y (unsex64 [u; m; x]) /\ (Rabs (y - (a + b / 60 + c / 3600)) <= bpow radix2 (-51) * (a + b / 60 + c / 3600) + bpow radix2 (-1072))%R.
Proof.
  intros Ru Rm Rx B. destruct (unsex_three64 _ _ _ _ _ _ _ _ _ Ru Rm Rx B) as (R1 & _). eexists. split; [exact R1|].
  pose proof (unsex_error a b c (reads_nonneg _ _ _ Ru) (reads_nonneg _ _ _ Rm) (reads_nonneg _ _ _ Rx)) as E. apply Rle_trans with (1 := E).
  assert (H8 : (bpow radix2 (-1072) = 8 * eta)%R) by (unfold eta; change 8%R with (bpow radix2 3); rewrite <- bpow_plus; reflexivity). rewrite H8. change (bpow radix2 (-51)) with (/ 2251799813685248)%R. pose proof eta_pos. unfold eps. lra.
Qed.
