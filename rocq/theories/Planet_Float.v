(** The addition of the smallest normal number in [_to_spherical_and_rates], in
    binary64. *)
From Coq Require Import Reals ZArith Bool Lia Lra Psatz.
From Coq Require Import Floats.SpecFloat.
From Flocq Require Import Core BinarySingleNaN.
From Verif Require Import Float64 Float64_Proofs Planet_Model.
Open Scope R_scope.

(** functions.py 10, [finfo(float64).tiny]. *)
Definition tiny64 : bf := bnorm 1 (-1022) false.
Lemma tiny64_value : B2R tiny64 = bpow radix2 (-1022) /\ is_finite tiny64 = true.
Proof.
  destruct (bnorm_spec 1 (-1022)) as (_ & F & _); [reflexivity|lia|]. split; [|exact F]. unfold tiny64. rewrite bnorm_small by (split; lia). unfold F2R. cbn [Fnum Fexp]. apply Rmult_1_l.
Qed.
Lemma pos_sign (x : bf) : 0 < B2R x -> Bsign x = false.
Proof.
  destruct x as [s|s| |s m e H]; cbn [B2R Bsign]; intros P; try lra. destruct s; [|reflexivity]. exfalso. assert (F2R (Float radix2 (Z.neg m) e) < 0) by (apply F2R_lt_0; reflexivity). cbn [cond_Zopp Z.opp] in P. lra.
Qed.
Lemma adding_tiny (x : bf) : is_finite x = true -> bpow radix2 (-968) <= B2R x <= bpow radix2 1000 -> fadd (B2SF x) (fl 1 (-1022)) = B2SF x.
Proof.
  intros Fx Hx. destruct tiny64_value as [Vt Ft]. rewrite fl_bnorm. fold tiny64. rewrite add_equiv. f_equal.
  assert (V : Valid_exp (SpecFloat.fexp 53 1024)) by (apply (fexp_correct 53 1024); reflexivity).
  pose proof (bpow_gt_0 radix2 (-968)) as P968. pose proof (bpow_gt_0 radix2 (-1022)) as P1022.
  assert (RO : rnd (B2R x + B2R tiny64) = B2R x).
  { rewrite Vt. assert (G : generic_format radix2 (SpecFloat.fexp 53 1024) (B2R x)) by (apply generic_format_B2R).
    apply Rle_antisym.
    - apply (round_N_le_midp radix2 (SpecFloat.fexp 53 1024)); [exact G|]. rewrite succ_eq_pos by lra.
      assert (U : bpow radix2 (-1020) <= ulp radix2 (SpecFloat.fexp 53 1024) (B2R x)).
      { replace (bpow radix2 (-1020)) with (ulp radix2 (SpecFloat.fexp 53 1024) (bpow radix2 (-968))) by (rewrite ulp_bpow; reflexivity). apply ulp_le_pos; [exact V|apply (fexp_monotone 53 1024)|lra|apply Hx]. }
      assert (E : bpow radix2 (-1020) = bpow radix2 (-1022) * 4) by (change (-1020)%Z with (-1022 + 2)%Z; rewrite bpow_plus; reflexivity). lra.
    - apply (round_N_ge_midp radix2 (SpecFloat.fexp 53 1024)); [exact G|]. pose proof (pred_lt_id radix2 (SpecFloat.fexp 53 1024) (B2R x) ltac:(lra)). lra. }
  pose proof (Bplus_correct 53 1024 Hprec Hmax mode_NE x tiny64 Fx Ft) as C. cbn [round_mode] in C. rewrite RO in C.
  rewrite Rlt_bool_true in C. 2: { rewrite Rabs_pos_eq by lra. apply Rle_lt_trans with (bpow radix2 1000); [apply Hx|apply bpow_lt; reflexivity]. }
  destruct C as (C1 & C2 & C3). apply same; [exact C2|exact Fx|exact C1|]. rewrite C3, Rcompare_Gt by (rewrite Vt; lra).
  symmetry. apply pos_sign. lra.
Qed.
