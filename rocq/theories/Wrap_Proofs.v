(** The remainder of floats is the rounded remainder of real numbers. *)
From Coq Require Import ZArith Reals Lia Lra Bool.
From Coq.Floats Require Import SpecFloat.
From Flocq Require Import Core BinarySingleNaN.
From Verif Require Import Float64 Float64_Proofs Float_Time_Proofs4 CalF_Proofs CalF_Proofs2 SexaF_Proofs2 Measure_Model Wrap_Model Wrap_Spec.
Open Scope R_scope.

Lemma remainder_unique x m (n : Z) r : 0 < m -> 0 <= r < m -> x = m * IZR n + r -> remainder x m = r.
Proof.
  intros Hm Hr ->. unfold remainder. replace (Zfloor ((m * IZR n + r) / m)) with n; [ring|]. symmetry. apply Zfloor_imp. rewrite plus_IZR.
  replace ((m * IZR n + r) / m) with (IZR n + r / m) by (field; lra). assert (0 <= r / m) by (apply Rmult_le_pos; [lra|apply Rlt_le, Rinv_0_lt_compat; lra]). assert (r / m < 1) by (apply Rmult_lt_reg_r with m; [lra|]; unfold Rdiv; rewrite Rmult_assoc, Rinv_l by lra; lra). lra.
Qed.
Lemma remainder_bounds x m : 0 < m -> 0 <= remainder x m < m.
Proof.
  intros Hm. unfold remainder. pose proof (Zfloor_lb (x / m)) as L. pose proof (Zfloor_ub (x / m)) as U. assert (E : x = m * (x / m)) by (field; lra). set (q := x / m) in *. clearbody q. split; nra.
Qed.
Lemma rnd_id (b : bf) : rnd (B2R b) = B2R b.
Proof. apply round_generic; [apply valid_rnd_N|apply generic_format_B2R]. Qed.
Lemma rnd_between y (b : bf) : 0 <= y <= B2R b -> 0 <= rnd y <= B2R b.
Proof.
  intros [L U]. assert (V : Valid_exp (SpecFloat.fexp 53 1024)) by (apply (fexp_correct 53 1024); reflexivity). split.
  - rewrite <- (round_0 radix2 (SpecFloat.fexp 53 1024) ZnearestE). apply round_le; [exact V|apply valid_rnd_N|exact L].
  - rewrite <- (rnd_id b). apply round_le; [exact V|apply valid_rnd_N|exact U].
Qed.
Lemma is_neg_fl x e : small x e -> is_neg (fl x e) = (x <? 0)%Z.
Proof. intros Sx. unfold is_neg, of_Z. rewrite fl_zero, <- (fl_zero e). apply fltb_fl; [assumption|destruct Sx; split; lia]. Qed.
Lemma scaled (a : positive) ea k : (k <= ea)%Z -> F2R (Float radix2 (Zpos a) ea) = IZR (Zpos a * 2 ^ (ea - k)) * bpow radix2 k.
Proof. intros L. unfold F2R. cbn [Fnum Fexp]. rewrite mult_IZR. change 2%Z with (radix_val radix2). rewrite IZR_Zpower by lia. rewrite Rmult_assoc, <- bpow_plus. do 2 f_equal. lia. Qed.
Lemma mantissa_bound (s : bool) m e (H : bounded 53 1024 m e = true) : (Zpos m < 2 ^ 53)%Z /\ (-1074 <= e <= 971)%Z.
Proof.
  unfold bounded in H. apply andb_prop in H. destruct H as [C L]. apply Z.leb_le in L. unfold canonical_mantissa in C. apply Zeq_bool_eq in C. unfold SpecFloat.fexp, emin in C.
  assert (D : (Z.pos (digits2_pos m) <= 53)%Z) by lia. split; [|lia]. rewrite Digits.Zpos_digits2_pos in D. pose proof (Digits.Zdigits_correct radix2 (Zpos m)) as [_ U]. rewrite Z.abs_eq in U by lia. eapply Z.lt_le_trans; [exact U|]. apply (Z.pow_le_mono_r 2); lia.
Qed.

Lemma frem_correct (x m : bf) : is_finite x = true -> is_finite m = true -> 0 < B2R m <= bpow radix2 900 -> wrapped (B2R x) (B2R m) (frem (B2SF x) (B2SF m)).
Proof.
  intros Fx Fm [Pm Um]. pose proof (remainder_bounds (B2R x) (B2R m) Pm) as RB.
  destruct m as [| | |sm mm em Hm]; try discriminate; [cbn in Pm; lra|]. destruct sm; [exfalso; apply (Rlt_not_le _ _ Pm), Rlt_le; exact (F2R_lt_0 radix2 (Float radix2 (Zneg mm) em) eq_refl)|].
  destruct (mantissa_bound false mm em Hm) as [Bm Em].
  destruct x as [sx| | |sx mx ex Hx]; try discriminate.
  - (* zero *) exists (B754_zero false). unfold frem, fdivmod. cbn [B2SF ffmod is_zero].
    assert (Nb : is_neg (S754_finite false mm em) = false) by reflexivity. rewrite Nb. cbn [fabs SFabs].
    assert (Z : remainder (B2R (B754_zero sx : bf)) (B2R (B754_finite false mm em Hm : bf)) = 0) by (apply (remainder_unique _ _ 0%Z); [exact Pm|split; [lra|exact Pm]|cbn [B2R]; ring]).
    split. { destruct (is_zero _); reflexivity. } split; [reflexivity|]. cbn [B2R] in *. rewrite Z, round_0 by apply valid_rnd_N. split; [lra|]. split; [reflexivity|]. intros _. split; [reflexivity|exact Pm].
  - set (X := B754_finite sx mx ex Hx : bf) in *. set (Y := B754_finite false mm em Hm : bf) in *. destruct (mantissa_bound sx mx ex Hx) as [Bx Ex].
    set (k := Z.min ex em). assert (K1 : (k <= ex)%Z) by lia. assert (K2 : (k <= em)%Z) by lia.
    set (A := (Zpos mx * 2 ^ (ex - k))%Z). set (B := (Zpos mm * 2 ^ (em - k))%Z).
    assert (PA : (0 < A)%Z) by (unfold A; pose proof (Z.pow_pos_nonneg 2 (ex - k)); nia). assert (PB : (0 < B)%Z) by (unfold B; pose proof (Z.pow_pos_nonneg 2 (em - k)); nia).
    set (r := (A mod B)%Z). pose proof (Z.mod_pos_bound A B PB) as Rb. fold r in Rb. pose proof (Z.div_mod A B ltac:(lia)) as Dm. fold r in Dm.
    assert (Rs : (r < 2 ^ 53)%Z). { destruct (Z.le_gt_cases ex em) as [L|L].
      - assert (A = Zpos mx) by (unfold A; replace (ex - k)%Z with 0%Z by lia; rewrite Z.pow_0_r; lia). assert (r <= A)%Z by (apply Z.mod_le; lia). lia.
      - assert (B = Zpos mm) by (unfold B; replace (em - k)%Z with 0%Z by lia; rewrite Z.pow_0_r; lia). lia. }
    assert (Ek : (k <= 900)%Z). { destruct (Z.le_gt_cases em 900) as [L|L]; [lia|]. exfalso. assert (bpow radix2 901 <= B2R Y).
      { apply Rle_trans with (bpow radix2 em); [apply bpow_le; lia|]. unfold Y. cbn [B2R cond_Zopp]. unfold F2R. cbn [Fnum Fexp]. rewrite <- (Rmult_1_l (bpow radix2 em)) at 1. apply Rmult_le_compat_r; [apply bpow_ge_0|apply (IZR_le 1); lia]. }
      assert (bpow radix2 900 < bpow radix2 901) by (apply bpow_lt; lia). lra. }
    assert (Sr : small r k) by (split; lia). assert (Sn : small (- r) k) by (split; lia).
    assert (Vm : B2R Y = IZR B * bpow radix2 k) by (unfold Y, B; cbn [B2R cond_Zopp]; apply scaled; exact K2).
    assert (Va : F2R (Float radix2 (Zpos mx) ex) = IZR A * bpow radix2 k) by (apply scaled; exact K1).
    assert (Vx : B2R X = (if sx then - (IZR A * bpow radix2 k) else IZR A * bpow radix2 k)). { unfold X. cbn [B2R]. destruct sx; cbn [cond_Zopp Z.opp]; [|exact Va]. change (Zneg mx) with (- Zpos mx)%Z. rewrite F2R_Zopp, Va. reflexivity. }
    assert (ER : ffmod (B2SF X) (B2SF Y) = if (r =? 0)%Z then S754_zero sx else fl (if sx then - r else r) k).
    { unfold X, Y. cbn [B2SF ffmod]. fold k A B. rewrite Z.rem_mod_nonneg by lia. fold r. reflexivity. }
    assert (Nb : is_neg (B2SF Y) = false) by reflexivity. pose proof (bpow_gt_0 radix2 k) as Kp. set (u := bpow radix2 k) in *.
    assert (DR : IZR A = IZR B * IZR (A / B) + IZR r) by (rewrite <- mult_IZR, <- plus_IZR; f_equal; exact Dm).
    assert (LRr : 0 <= IZR r) by (apply (IZR_le 0); lia). assert (URr : IZR r < IZR B) by (apply IZR_lt; lia).
    unfold frem, fdivmod. rewrite ER, Nb. destruct (Z.eqb_spec r 0) as [Z|Z].
    + (* a multiple *) cbn [is_zero fabs SFabs snd]. exists (B754_zero false).
      assert (Zr : remainder (B2R X) (B2R Y) = 0).
      { apply (remainder_unique _ _ (if sx then - (A / B) else A / B)%Z); [exact Pm|lra|]. rewrite Vx, Vm. rewrite Z in DR. destruct sx; [rewrite opp_IZR|]; rewrite DR; ring. }
      split; [reflexivity|]. split; [reflexivity|]. cbn [B2R]. rewrite Zr, round_0 by apply valid_rnd_N. split; [lra|]. split; [reflexivity|]. intros _. split; [reflexivity|exact Pm].
    + assert (NZ : forall n, n = r \/ n = (- r)%Z -> is_zero (fl n k) = false). { intros n Hn. rewrite is_zero_fl by (destruct Hn as [-> | ->]; assumption). apply Z.eqb_neq. lia. }
      destruct sx.
      * (* negative *) rewrite (NZ (- r)%Z) by (right; reflexivity). rewrite is_neg_fl by assumption. replace (- r <? 0)%Z with true by (symmetry; apply Z.ltb_lt; lia). cbn [xorb snd].
        assert (LR : 0 < IZR r) by (apply (IZR_lt 0); lia).
        assert (Zr : remainder (B2R X) (B2R Y) = (IZR B - IZR r) * u).
        { apply (remainder_unique _ _ (- (A / B) - 1)%Z); [exact Pm|rewrite Vm; split; nra|]. rewrite Vx, Vm, minus_IZR, opp_IZR, DR. ring. }
        destruct (fl_bf (- r) k Sn) as (f & Ef & Ff & Vf). rewrite Ef.
        assert (Vf' : B2R f = - IZR r * u) by (rewrite Vf; unfold F2R; cbn [Fnum Fexp]; rewrite opp_IZR; reflexivity).
        destruct (fadd_val f Y Ff Fm) as (z & Ez & Fz & Vz).
        { assert (bpow radix2 900 < bpow radix2 1007) by (apply bpow_lt; lia). rewrite Vf', Vm in *. rewrite Rabs_right; nra. }
        exists z. split; [exact Ez|]. split; [exact Fz|]. rewrite Vz, Vf', Vm. replace (- IZR r * u + IZR B * u) with ((IZR B - IZR r) * u) by ring. rewrite Vm in Zr. rewrite Zr. split.
        { rewrite <- Vm. apply rnd_between. rewrite Vm. split; nra. }
        split; [reflexivity|]. intros Pos. exfalso. rewrite Vx in Pos. assert (0 < IZR A) by (apply (IZR_lt 0); lia). nra.
      * rewrite (NZ r) by (left; reflexivity). rewrite is_neg_fl by assumption. replace (r <? 0)%Z with false by (symmetry; apply Z.ltb_ge; lia). cbn [xorb snd].
        assert (Zr : remainder (B2R X) (B2R Y) = IZR r * u).
        { apply (remainder_unique _ _ (A / B)%Z); [exact Pm|rewrite Vm; split; nra|]. rewrite Vx, Vm, DR. ring. }
        destruct (fl_bf r k Sr) as (f & Ef & Ff & Vf). assert (Vf' : B2R f = IZR r * u) by (rewrite Vf; reflexivity).
        exists f. split; [exact Ef|]. split; [exact Ff|]. split; [rewrite Vf', Vm; split; nra|]. split; [rewrite Zr, <- Vf', rnd_id; reflexivity|]. intros _. rewrite Zr. split; [exact Vf'|]. rewrite Vf', Vm. nra.
Qed.
