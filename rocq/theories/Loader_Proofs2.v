(** The bundled arrays, in binary64. *)
From Coq Require Import List ZArith Reals Bool Lia Lra Psatz.
From Coq Require Import List.
From Coq.Floats Require Import SpecFloat.
From Flocq Require Import Core BinarySingleNaN.
From Verif Require Import Float64 Float64_Proofs Float_Time_Proofs SexaF_Spec SexaF_Proofs SexaF_Proofs2 Loader_Model Loader_Spec.
Import ListNotations.
Open Scope Z_scope.

Lemma nearest_int_near n d k : 0 < d -> 2 * Z.abs (n - k * d) < d -> nearest_int n d = k.
Proof.
  intros D H. unfold nearest_int. pose proof (Z.div_mod n d ltac:(lia)) as E. pose proof (Z.mod_pos_bound n d D) as B. set (q := n / d) in *. set (r := n mod d) in *. clearbody q r. subst n.
  destruct (Z.ltb_spec (2 * r) d).
  - assert (Z.abs (k - q) < 1); [|lia]. apply Z.nle_gt. intros C. assert (d <= Z.abs (d * (k - q))) by (rewrite Z.abs_mul; nia). nia.
  - assert (R : Z.abs ((q + 1 - k) * d) < d) by (replace ((q + 1 - k) * d) with (d * q + r - k * d + (d - r)) by ring; lia).
    assert (Q : q + 1 = k) by (rewrite Z.abs_mul in R; assert (Z.abs (q + 1 - k) < 1); [|lia]; apply Z.nle_gt; intros C; nia).
    destruct (Z.ltb_spec d (2 * r)); [exact Q|]. exfalso. subst k. replace (d * q + r - (q + 1) * d) with (r - d) in H by ring. lia.
Qed.
Lemma frint_near y x k : reads false y x -> 0 < k <= 2 ^ 53 -> (Rabs (y - IZR k) < 1 / 2)%R -> frint x = of_Z k.
Proof.
  intros (b & -> & F & Sg & V) K N. assert (K1 : (1 <= IZR k)%R) by (apply IZR_le; lia). apply Rabs_def2 in N. destruct b as [t|t| |t m e H]; try discriminate F; cbn [Bsign] in Sg; subst t.
  - cbn [B2R] in V. cbn iota in V. lra.
  - cbn [B2R cond_Zopp] in V. cbn iota in V. cbn [B2SF frint]. unfold F2R in V. cbn [Fnum Fexp] in V.
    assert (Z0 : (if 0 <=? e then Z.pos m * 2 ^ e else nearest_int (Z.pos m) (2 ^ (- e))) = k).
    { destruct (Z.leb_spec 0 e) as [E|E].
      - rewrite <- IZR_Zpower in V by exact E. rewrite <- mult_IZR in V. rewrite <- V in N. change (Zpower radix2 e) with (2 ^ e) in N. rewrite <- minus_IZR in N.
        assert (-1 < Z.pos m * 2 ^ e - k < 1) by (split; apply lt_IZR; lra). lia.
      - apply nearest_int_near; [apply Z.pow_pos_nonneg; lia|]. assert (D : (0 < IZR (2 ^ (- e)))%R) by (apply IZR_lt, Z.pow_pos_nonneg; lia).
        assert (Vm : (IZR (Z.pos m) = y * IZR (2 ^ (- e)))%R). { rewrite <- V. change 2 with (radix_val radix2). rewrite IZR_Zpower by lia. rewrite Rmult_assoc, <- bpow_plus. replace (e + - e) with 0 by lia. cbn. ring. }
        apply lt_IZR. rewrite mult_IZR, abs_IZR, minus_IZR, mult_IZR, Vm. replace (y * IZR (2 ^ - e) - IZR k * IZR (2 ^ - e))%R with ((y - IZR k) * IZR (2 ^ - e))%R by ring. rewrite Rabs_mult, (Rabs_pos_eq (IZR (2 ^ - e))) by lra.
        assert (Rabs (y - IZR k) < 1 / 2)%R by (apply Rabs_def1; lra). nra. }
    rewrite Z0. replace (k =? 0) with false by lia. reflexivity.
Qed.
Lemma scaled_back n a : 0 < n < 2 ^ 50 -> reads false (rnd (IZR n / 10000000)) a -> frint (fmul a e7) = of_Z n.
Proof.
  intros N Ra. assert (N1 : (1 <= IZR n)%R) by (apply IZR_le; lia). assert (N2 : (IZR n <= 1125899906842624)%R) by (apply IZR_le; lia).
  set (q := (IZR n / 10000000)%R) in *. assert (Q : (0 < q /\ q * 10000000 = IZR n)%R) by (unfold q; split; [lra|field]).
  pose proof (rnd_pos_err q ltac:(lra)) as E1. pose proof eta_pos as H0. pose proof eta_le_eps as H1. set (v := rnd q) in *.
  assert (V0 : (0 <= v)%R) by (apply rnd_nonneg; lra).
  assert (T : (eta <= / 10 ^ 30)%R). { unfold eta. apply Rle_trans with (bpow radix2 (-100)); [apply bpow_le; lia|]. cbn. lra. }
  assert (Vb : (v <= 200000000)%R) by (unfold eps in *; lra).
  pose proof (reads_mul false v a false (IZR 10000000) e7 Ra (of_Z_reads 10000000 ltac:(lia))) as M. cbn [xorb] in M.
  assert (Big : (10000000000000000 < bpow radix2 1007)%R) by (apply Rlt_le_trans with (bpow radix2 60); [cbn; lra|apply bpow_le; lia]).
  specialize (M ltac:(nra)). pose proof (rnd_pos_err (v * IZR 10000000) ltac:(nra)) as E2.
  eapply frint_near; [exact M|lia|]. apply Rabs_def1; unfold eps in *; lra.
Qed.
Lemma divided n : 0 < n < 2 ^ 50 -> reads false (rnd (IZR n / 10000000)) (fdiv (of_Z n) e7).
Proof.
  intros N. apply reads_div; [apply of_Z_reads; lia|lia|]. apply Rlt_le_trans with (bpow radix2 60); [|apply bpow_le; lia]. assert (IZR n <= 1125899906842624)%R by (apply IZR_le; lia). cbn. lra.
Qed.
Lemma delta_t_restored l : Forall seven_digits l -> bundled_delta_t (stored_delta_t l) = l.
Proof.
  induction 1 as [|a l (n & N & A) _ IH]; [reflexivity|]. unfold bundled_delta_t, stored_delta_t in *. cbn [map]. f_equal; [|exact IH].
  rewrite (scaled_back n a N A). unfold round7. rewrite (scaled_back n _ N (divided n N)). exact (reads_eq _ _ _ _ (divided n N) A).
Qed.
Lemma round7_seven n x a : 0 < n < 2 ^ 50 -> reads false x a -> (Rabs (x * 10000000 - IZR n) < 1 / 4)%R -> seven_digits (round7 a).
Proof.
  intros N A D. exists n. split; [exact N|]. unfold round7. assert (N2 : (IZR n <= 1125899906842624)%R) by (apply IZR_le; lia). assert (X0 := reads_nonneg _ _ _ A). apply Rabs_def2 in D.
  assert (F : frint (fmul a e7) = of_Z n).
  { pose proof (reads_mul false x a false (IZR 10000000) e7 A (of_Z_reads 10000000 ltac:(lia))) as M. cbn [xorb] in M.
    assert (Big : (10000000000000000 < bpow radix2 1007)%R) by (apply Rlt_le_trans with (bpow radix2 60); [cbn; lra|apply bpow_le; lia]).
    specialize (M ltac:(lra)). pose proof (rnd_pos_err (x * IZR 10000000) ltac:(lra)) as E2. pose proof eta_le_eps as H1.
    eapply frint_near; [exact M|lia|]. apply Rabs_def1; unfold eps in *; lra. }
  rewrite F. apply divided. exact N.
Qed.
Lemma modern_fl a : modern_date a -> exists m, 0 <= m <= 2 ^ 53 /\ a = fl m (-31).
Proof.
  intros (x & Ra & X). pose proof Ra as (b & E & F & Sg & V). cbn iota in V.
  assert (G : generic_format radix2 (SpecFloat.fexp 53 1024) x) by (rewrite <- V; apply generic_format_B2R).
  assert (M : mag radix2 x = 22 :> Z). { apply mag_unique. rewrite Rabs_pos_eq by lra. cbn. lra. }
  unfold generic_format, F2R, scaled_mantissa, cexp in G. rewrite M in G. change (SpecFloat.fexp 53 1024 22) with (-31) in G. cbn [Fnum Fexp] in G. set (m := Ztrunc _) in G.
  assert (B : (bpow radix2 (-31) * 2147483648 = 1)%R) by (cbn; lra). assert (Mx : (IZR m = x * 2147483648)%R) by (rewrite G; rewrite Rmult_assoc, B; ring).
  assert (R : 0 <= m <= 2 ^ 53) by (split; [apply le_IZR; lra|apply le_IZR; rewrite Mx; change (IZR (2 ^ 53)) with 9007199254740992%R; lra]).
  exists m. split; [exact R|]. destruct (fl_bf_pos m (-31)) as (c & Ec & Fc & Sc & Vc); [split; lia|lia|].
  apply (reads_eq false x); [exact Ra|]. exists c. split; [exact Ec|]. split; [exact Fc|]. split; [exact Sc|]. rewrite Vc. unfold F2R. cbn [Fnum Fexp]. symmetry. exact G.
Qed.
Lemma there_and_back a i : modern_date a -> 0 <= i <= 2 ^ 22 -> fadd (fsub a (of_Z i)) (of_Z i) = a.
Proof.
  intros M I. destruct (modern_fl a M) as (m & R & ->). assert (O : of_Z i = fl (i * 2 ^ 31) (-31)) by (symmetry; apply (fl_shift i (-31) 31); lia). rewrite O.
  rewrite fsub_fl by (split; lia). rewrite fadd_fl by (split; lia). f_equal. lia.
Qed.
Lemma tt_restored l : Forall modern_date l -> Z.of_nat (List.length l) <= 2 ^ 22 -> bundled_tt (stored_tt l) = l.
Proof.
  intros H. unfold bundled_tt, stored_tt. assert (G : forall i, 0 <= i -> i + Z.of_nat (List.length l) <= 2 ^ 22 -> add_arange i (minus_arange i l) = l).
  { induction H as [|a l M _ IH]; intros i I L; [reflexivity|]. cbn [minus_arange add_arange]. cbn [List.length] in L. rewrite there_and_back by (try exact M; lia). f_equal. apply IH; lia. }
  intros L. apply G; lia.
Qed.
(** ** Rounding to a whole number *)
Lemma nearest_int_even n d : 0 < d -> nearest_int n d = ZnearestE (IZR n / IZR d).
Proof.
  intros D. unfold nearest_int, Znearest. rewrite (Zfloor_div n d) by lia. pose proof (Z.div_mod n d ltac:(lia)) as E. pose proof (Z.mod_pos_bound n d D) as B. set (q := n / d) in *. set (r := n mod d) in *.
  assert (D0 : (0 < IZR d)%R) by (apply IZR_lt; exact D). assert (X : (IZR n / IZR d - IZR q = IZR r / IZR d)%R). { rewrite E, plus_IZR, mult_IZR. field. lra. } rewrite X.
  assert (C : r <> 0 -> Zceil (IZR n / IZR d) = q + 1). { intros R0. rewrite Zceil_floor_neq; [rewrite Zfloor_div by lia; reflexivity|]. rewrite Zfloor_div by lia. fold q. intros H. rewrite <- H in X. assert (IZR r / IZR d = 0)%R by lra. assert (IZR r = 0)%R by (replace (IZR r) with (IZR r / IZR d * IZR d)%R by (field; lra); rewrite H0; ring). apply eq_IZR in H1. lia. }
  assert (Y : (IZR r / IZR d * IZR d = IZR r)%R) by (field; lra). set (y := (IZR r / IZR d)%R) in *. clearbody y.
  destruct (Z.ltb_spec (2 * r) d) as [L|L].
  - rewrite Rcompare_Lt; [reflexivity|]. apply IZR_lt in L. rewrite mult_IZR in L. nra.
  - destruct (Z.ltb_spec d (2 * r)) as [G|G].
    + rewrite Rcompare_Gt; [symmetry; apply C; lia|]. apply IZR_lt in G. rewrite mult_IZR in G. nra.
    + assert (d = 2 * r) by lia. rewrite Rcompare_Eq by (assert (IZR d = 2 * IZR r)%R by (rewrite <- mult_IZR; f_equal; lia); nra). rewrite C by lia. destruct (Z.even q); reflexivity.
Qed.
Lemma frint_even (a : bf) : is_finite a = true -> (Rabs (B2R a) <= 2 ^ 47)%R -> exists b : bf, frint (B2SF a) = B2SF b /\ is_finite b = true /\ B2R b = IZR (ZnearestE (B2R a)).
Proof.
  intros F B. destruct a as [t|t| |t m e H]; try discriminate F.
  - exists (B754_zero t). cbn [B2SF frint B2R]. split; [reflexivity|]. split; [reflexivity|]. change 0%R with (IZR 0). rewrite Znearest_imp with (n := 0); [reflexivity|]. rewrite Rminus_0_r, Rabs_R0. lra.
  - set (a := B754_finite t m e H) in *. assert (V : B2R a = (IZR (if t then Zneg m else Zpos m) * bpow radix2 e)%R) by (destruct t; reflexivity). cbn [B2SF a frint]. set (n := if t then Z.neg m else Z.pos m) in *.
    assert (Z0 : (if 0 <=? e then n * 2 ^ e else nearest_int n (2 ^ (- e))) = ZnearestE (B2R a)).
    { rewrite V. destruct (Z.leb_spec 0 e) as [E|E].
      - rewrite <- IZR_Zpower by exact E. rewrite <- mult_IZR. symmetry. apply Znearest_imp. unfold Rminus. rewrite Rplus_opp_r, Rabs_R0. lra.
      - rewrite nearest_int_even by (apply Z.pow_pos_nonneg; lia). f_equal. change 2 with (radix_val radix2) at 1. rewrite IZR_Zpower by lia. unfold Rdiv. rewrite <- bpow_opp. f_equal. f_equal. lia. }
    rewrite Z0. destruct (Z.eqb_spec (ZnearestE (B2R a)) 0) as [Q|Q].
    + exists (B754_zero t). rewrite Q. repeat split.
    + destruct (Float_Time_Proofs4.of_Z_bf (ZnearestE (B2R a))) as (b & E & Fb & Vb); [|exists b; auto]. unfold fits. apply le_IZR. rewrite abs_IZR. pose proof (Znearest_half (fun x => negb (Z.even x)) (B2R a)) as Hf.
      replace (IZR (ZnearestE (B2R a))) with (B2R a - (B2R a - IZR (ZnearestE (B2R a))))%R by ring. unfold Rminus at 1. apply Rle_trans with (1 := Rabs_triang _ _). rewrite Rabs_Ropp. change (IZR (2 ^ 48)) with 281474976710656%R. lra.
Qed.
Lemma minus_half : exists a : bf, is_finite a = true /\ (Rabs (B2R a) <= 2 ^ 47)%R /\ B2R a = (-(1 / 2))%R.
Proof.
  set (a := @B754_finite 53 1024 true 4503599627370496 (-53) eq_refl). exists a. split; [reflexivity|]. assert (V : B2R a = (-(1 / 2))%R). { unfold a, B2R, F2R. cbn [Fnum Fexp cond_Zopp]. change (bpow radix2 (-53)) with (/ 9007199254740992)%R. change (IZR (- (4503599627370496))) with (-4503599627370496)%R. lra. }
  split; [|exact V]. rewrite V, Rabs_Ropp, Rabs_pos_eq; lra.
Qed.
