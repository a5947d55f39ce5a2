(** Sexagesimal angles in binary64. *)
From Coq Require Import ZArith Reals Lia Lra List Bool QArith Qround Qreals.
From Coq.Floats Require Import SpecFloat.
From Flocq Require Import Core BinarySingleNaN Relative.
From Verif Require Import Float64 Float64_Proofs Float_Time_Model Float_Time_Spec Cal_Model Cal_Spec PyNum
  Time_Model Time_Spec Time_Proofs Time_Proofs2 Float_Time_Proofs Float_Time_Proofs4 Units_Model SexaF_Model.
Import ListNotations.
Open Scope Z_scope.

(** ** [divmod] by a small whole number *)
Lemma fdivmod_gen m m' e : Z.abs m <= 2 ^ 53 -> 0 < m' <= 2 ^ 53 -> Z.abs (Z.quot m m') <= 2 ^ 51 -> -1000 <= e <= 0 ->
  fdivmod (fl m e) (fl m' e) = (of_Z (m / m'), fl (m mod m') e).
Proof.
  intros B B' Kb He. assert (S : small m e) by (split; lia). assert (S' : small m' e) by (split; lia).
  pose proof (Z.quot_rem m m' ltac:(lia)) as E. pose proof (Z.rem_bound_abs m m' ltac:(lia)) as Rb.
  assert (QB : Z.abs (Z.quot m m' * m') <= Z.abs m).
  { destruct (Z_le_gt_dec 0 m) as [P|P]; [pose proof (Z.rem_nonneg m m' ltac:(lia) P) as RN; pose proof (Z.quot_pos m m' P ltac:(lia)); nia|].
    pose proof (Z.rem_nonpos m m' ltac:(lia) ltac:(lia)) as RN. assert (Z.quot m m' <= 0) by (rewrite <- (Z.opp_involutive m), Z.quot_opp_l by lia; pose proof (Z.quot_pos (- m) m' ltac:(lia) ltac:(lia)); lia). nia. }
  assert (Neg : forall x, small x e -> is_neg (fl x e) = (x <? 0)). { intros x Sx. unfold is_neg, of_Z. rewrite fl_zero, <- (fl_zero e). apply fltb_fl; [assumption|split; lia]. }
  unfold fdivmod. rewrite ffmod_fl by (assumption || lia). rewrite (Neg m' S'). assert (Nb : (m' <? 0) = false) by lia. rewrite Nb.
  destruct (Z.eqb_spec (Z.rem m m') 0) as [Z0|N0].
  - destruct (quot_floor m m') as (D & M); [lia|left; assumption|]. cbn [is_zero fabs SFabs].
    assert (Q : fdiv (fsub (fl m e) (S754_zero (m <? 0))) (fl m' e) = fl (Z.quot m m') 0).
    { replace (fsub (fl m e) (S754_zero (m <? 0))) with (fl (Z.quot m m' * m') e).
      - rewrite fdiv_fl; [f_equal; lia|split; lia|assumption|lia|lia].
      - destruct (Z.eq_dec m 0) as [->|Nm]; [rewrite Z.quot_0_l by lia; reflexivity|]. rewrite fsub_zero by assumption. f_equal. lia. }
    cbv zeta. rewrite Q. change (if is_zero ?d then ?d else _) with (floordiv d). rewrite floordiv_int by lia. rewrite D, M, Z0. reflexivity.
  - assert (Sr : small (Z.rem m m') e) by (split; lia).
    assert (Q : fdiv (fsub (fl m e) (fl (Z.rem m m') e)) (fl m' e) = fl (Z.quot m m') 0).
    { rewrite fsub_fl by assumption. replace (m - Z.rem m m') with (Z.quot m m' * m') by lia. rewrite fdiv_fl; [f_equal; lia|split; lia|assumption|lia|lia]. }
    cbv zeta. rewrite is_zero_fl by assumption. destruct (Z.eqb_spec (Z.rem m m') 0) as [|_]; [contradiction|]. rewrite Q, (Neg _ Sr). cbn [xorb]. destruct (Z.ltb_spec (Z.rem m m') 0) as [L|L].
    + destruct (quot_floor_neg m m') as (D & M); [lia|assumption|]. rewrite fadd_fl by assumption. change (of_Z 1) with (fl 1 0). rewrite fsub_fl by (split; lia).
      change (if is_zero ?d then ?d else _) with (floordiv d). rewrite floordiv_int by lia. rewrite D, M. reflexivity.
    + destruct (quot_floor m m') as (D & M); [lia|right; lia|]. change (if is_zero ?d then ?d else _) with (floordiv d). rewrite floordiv_int by lia. rewrite D, M. reflexivity.
Qed.
(** A dividend smaller than the divisor is its own remainder. *)
Lemma ffmod_less s m e k : bounded 53 1024 m e = true -> 0 < k <= 2 ^ 53 -> (F2R (Float radix2 (Zpos m) e) < IZR k)%R ->
  ffmod (S754_finite s m e) (of_Z k) = S754_finite s m e.
Proof.
  intros H K L. destruct (fl_struct k 0) as (p & q & E & V); [split; lia|lia|]. unfold of_Z. rewrite E. destruct (finite_bounds m e H) as [Bm Be]. unfold ffmod.
  set (c := Z.min e q). assert (C1 : c <= e) by (unfold c; lia). assert (C2 : c <= q) by (unfold c; lia).
  assert (P1 : 0 < 2 ^ (e - c)) by (apply Z.pow_pos_nonneg; lia). assert (P2 : 0 < 2 ^ (q - c)) by (apply Z.pow_pos_nonneg; lia).
  assert (SH : forall n x, c <= x -> F2R (Float radix2 n x) = F2R (Float radix2 (n * 2 ^ (x - c)) c)). { intros n x Hx. rewrite F2R_shift by lia. f_equal. f_equal. lia. }
  assert (Lt : Zpos m * 2 ^ (e - c) < Zpos p * 2 ^ (q - c)).
  { apply (lt_F2R radix2 c). rewrite <- (SH (Zpos m) e C1), <- (SH (Zpos p) q C2), V. rewrite Z.abs_eq by lia. unfold F2R at 2. cbn [Fnum Fexp bpow]. lra. }
  rewrite Z.rem_small by nia. destruct (Z.eqb_spec (Zpos m * 2 ^ (e - c)) 0); [nia|].
  set (b := B754_finite s m e H : bf). pose proof (finite_fl b s m e H eq_refl) as FF. cbn [B2SF b] in FF. rewrite FF.
  assert (XX : (if s then - (Z.pos m * 2 ^ (e - c)) else Z.pos m * 2 ^ (e - c)) = cond_Zopp s (Zpos m) * 2 ^ (e - c)) by (destruct s; cbn [cond_Zopp]; lia).
  rewrite XX. symmetry. apply fl_same; [|rewrite F2R_shift by lia; f_equal; f_equal; lia].
  rewrite <- F2R_Zabs, abs_cond_Zopp. cbn [Z.abs].
  apply Rlt_le_trans with (1 := L). apply Rle_trans with (bpow radix2 53); [change (bpow radix2 53) with (IZR (2 ^ 53)); apply IZR_le; lia|apply bpow_le; lia].
Qed.
Lemma IZR_pow e : 0 <= e -> IZR (2 ^ e) = bpow radix2 e.
Proof. intros H. rewrite <- IZR_Zpower by assumption. reflexivity. Qed.
Lemma floor_quot m e k : 0 < k -> e <= 0 -> Zfloor (F2R (Float radix2 m e) / IZR k) = m / (k * 2 ^ (- e)) /\
  (F2R (Float radix2 m e) - IZR k * IZR (m / (k * 2 ^ (- e))))%R = F2R (Float radix2 (m mod (k * 2 ^ (- e))) e).
Proof.
  intros K He. pose proof (Z.pow_pos_nonneg 2 (- e) ltac:(lia) ltac:(lia)) as P. set (g := k * 2 ^ (- e)). assert (G : 0 < g) by (unfold g; nia).
  pose proof (Z.div_mod m g ltac:(lia)) as D. pose proof (Z.mod_pos_bound m g G) as B.
  assert (X : (IZR g * bpow radix2 e = IZR k)%R). { unfold g. rewrite mult_IZR, IZR_pow by lia. rewrite Rmult_assoc, <- bpow_plus. replace (- e + e) with 0 by lia. cbn [bpow]. ring. }
  set (q := m / g) in *. set (r := m mod g) in *. clearbody q r. unfold F2R. cbn [Fnum Fexp].
  assert (Pk : (0 < IZR k)%R) by (apply IZR_lt; lia). pose proof (bpow_gt_0 radix2 e) as Pb.
  assert (Y : (IZR m * bpow radix2 e = IZR k * IZR q + IZR r * bpow radix2 e)%R) by (rewrite D, plus_IZR, mult_IZR; rewrite <- X; ring).
  assert (R0 : (0 <= IZR r)%R) by (apply IZR_le; lia). assert (R1 : (IZR r < IZR g)%R) by (apply IZR_lt; lia).
  assert (R2 : (IZR r * bpow radix2 e < IZR k)%R) by (rewrite <- X; apply Rmult_lt_compat_r; assumption).
  assert (R3 : (0 <= IZR r * bpow radix2 e)%R) by (apply Rmult_le_pos; lra).
  split; [|rewrite Y; ring]. apply Zfloor_imp. rewrite Y, plus_IZR. set (t := (IZR r * bpow radix2 e)%R) in *. clearbody t.
  assert (E : ((IZR k * IZR q + t) / IZR k = IZR q + t / IZR k)%R) by (field; lra). rewrite E.
  assert (0 <= t / IZR k)%R by (apply Rmult_le_pos; [lra|left; apply Rinv_0_lt_compat; lra]).
  assert (t / IZR k < 1)%R by (apply (Rmult_lt_reg_r (IZR k)); [lra|]; unfold Rdiv; rewrite Rmult_assoc, Rinv_l by lra; lra). lra.
Qed.
Lemma of_Z_shift k e : Z.abs k < 2 ^ 107 -> e <= 0 -> of_Z k = fl (k * 2 ^ (- e)) e.
Proof. intros K He. rewrite fl_shift by lia. unfold of_Z. f_equal. lia. Qed.
Lemma F2R_pos_int m e : 0 <= e -> F2R (Float radix2 m e) = IZR (m * 2 ^ e).
Proof. intros He. unfold F2R. cbn [Fnum Fexp]. rewrite mult_IZR, IZR_pow by lia. reflexivity. Qed.
Lemma F2R_lt_scale m e k : e <= 0 -> m < k * 2 ^ (- e) -> (F2R (Float radix2 m e) < IZR k)%R.
Proof.
  intros He L. assert (X : IZR k = F2R (Float radix2 (k * 2 ^ (- e)) e)). { rewrite F2R_shift by lia. unfold F2R. cbn [Fnum Fexp]. replace (e + - e) with 0 by lia. cbn [bpow]. ring. }
  rewrite X. apply F2R_lt. exact L.
Qed.
Lemma fl_bf_pos m e : small m e -> 0 <= m -> exists b : bf, fl m e = B2SF b /\ is_finite b = true /\ Bsign b = false /\ B2R b = F2R (Float radix2 m e).
Proof.
  intros S P. exists (bnorm m e false). destruct (bnorm_spec m e) as (_ & G & Sg); [destruct S; lia|apply S|]. split; [apply fl_bnorm|]. split; [exact G|]. split; [|apply bnorm_small; exact S].
  rewrite Sg. lia.
Qed.
(** [divmod] by a whole number of a float that is not negative: whole quotient and
    exact remainder. *)
Lemma fdivmod_k (x : bf) k : is_finite x = true -> Bsign x = false -> (B2R x < bpow radix2 51)%R -> 0 < k <= 2 ^ 10 ->
  exists r : bf, is_finite r = true /\ Bsign r = false /\
    fdivmod (B2SF x) (of_Z k) = (of_Z (Zfloor (B2R x / IZR k)), B2SF r) /\ B2R r = (B2R x - IZR k * IZR (Zfloor (B2R x / IZR k)))%R.
Proof.
  intros F Sg U K. destruct x as [s|s| |s m e H] eqn:E; try discriminate F.
  - cbn [Bsign] in Sg. subst s. exists (B754_zero false). split; [reflexivity|]. split; [reflexivity|]. cbn [B2R B2SF]. unfold Rdiv. rewrite Rmult_0_l, (Zfloor_IZR 0). split; [|ring].
    destruct (fl_struct k 0) as (p & q & V & _); [split; lia|lia|]. unfold fdivmod, of_Z. rewrite V. unfold ffmod. cbn [is_zero fabs SFabs]. rewrite <- V.
    assert (Ng : is_neg (fl k 0) = false). { unfold is_neg, of_Z. rewrite fltb_fl by (split; lia). lia. }
    rewrite Ng. replace (fdiv _ _) with (S754_zero false) by (rewrite V; replace (k <? 0) with false by lia; reflexivity). reflexivity.
  - cbn [Bsign] in Sg. subst s. destruct (finite_bounds m e H) as [Bm Be]. cbn [B2R cond_Zopp] in U |- *.
    assert (Pos : (0 < F2R (Float radix2 (Zpos m) e))%R) by (apply F2R_gt_0; reflexivity).
    destruct (Z_le_gt_dec 0 e) as [G|G].
    + rewrite F2R_pos_int in U, Pos |- * by lia. set (N := Zpos m * 2 ^ e) in *. change (bpow radix2 51) with (IZR (2 ^ 51)) in U. apply lt_IZR in U. apply (lt_IZR 0) in Pos.
      assert (SE : B2SF (B754_finite false m e H : bf) = fl N 0). { rewrite (finite_fl _ false m e H eq_refl). cbn [cond_Zopp]. unfold N. rewrite fl_shift; [f_equal; lia|lia| |lia].
        destruct (Z_lt_le_dec e 51) as [|Y]; [lia|]. pose proof (Z.pow_le_mono_r 2 51 e ltac:(lia) Y). unfold N in U. nia. }
      destruct (floor_quot N 0 k) as (F1 & F2); [lia|lia|]. assert (EN : F2R (Float radix2 N 0) = IZR N) by (unfold F2R; cbn; ring). rewrite EN in F1, F2. rewrite F1.
      cbn [Z.opp] in F1, F2 |- *. rewrite Z.pow_0_r, Z.mul_1_r in *. pose proof (Z.mod_pos_bound N k ltac:(lia)) as MB. destruct (fl_bf_pos (N mod k) 0) as (r & R1 & R2 & R3 & R4); [split; lia|lia|].
      exists r. split; [exact R2|]. split; [exact R3|]. split; [|rewrite R4; symmetry; exact F2]. rewrite SE. unfold of_Z. rewrite fdivmod_pos; [rewrite R1; reflexivity|lia|lia| |lia].
      apply Z.div_le_upper_bound; nia.
    + pose proof (Z.pow_pos_nonneg 2 (- e) ltac:(lia) ltac:(lia)) as PP. destruct (floor_quot (Zpos m) e k) as (F1 & F2); [lia|lia|].
      destruct (Z_le_gt_dec (k * 2 ^ (- e)) (2 ^ 53)) as [L|L].
      * rewrite F1. set (g := k * 2 ^ (- e)) in *. assert (Gp : 0 < g) by (unfold g; nia). pose proof (Z.mod_pos_bound (Zpos m) g Gp) as MB.
        assert (He : -1000 <= e). { destruct (Z_le_gt_dec (-53) e) as [|Y]; [lia|]. pose proof (Z.pow_lt_mono_r 2 53 (- e) ltac:(lia) ltac:(lia) ltac:(lia)). nia. }
        destruct (fl_bf_pos (Zpos m mod g) e) as (r & R1 & R2 & R3 & R4); [split; lia|lia|]. exists r. split; [exact R2|]. split; [exact R3|]. split; [|rewrite R4; symmetry; exact F2].
        rewrite (finite_fl _ false m e H eq_refl). cbn [cond_Zopp]. rewrite (of_Z_shift k e) by lia. fold g. rewrite fdivmod_pos; [rewrite R1; reflexivity|lia|lia| |lia].
        rewrite <- F1. apply le_IZR. apply Rle_trans with (1 := Zfloor_lb _). apply Rle_trans with (F2R (Float radix2 (Zpos m) e)); [|left; exact U].
        assert (1 <= IZR k)%R by (apply IZR_le; lia). unfold Rdiv. rewrite <- Rmult_1_r. apply Rmult_le_compat_l; [lra|]. rewrite <- Rinv_1. apply Rinv_le; lra.
      * assert (Lt : (F2R (Float radix2 (Zpos m) e) < IZR k)%R) by (apply F2R_lt_scale; lia).
        assert (Fl : Zfloor (F2R (Float radix2 (Z.pos m) e) / IZR k) = 0). { rewrite F1. apply Z.div_small. lia. } rewrite Fl.
        exists (B754_finite false m e H). split; [reflexivity|]. split; [reflexivity|]. split; [|cbn [B2R cond_Zopp]; ring]. cbn [B2SF]. unfold fdivmod. rewrite ffmod_less by (assumption || lia).
        cbn [is_zero]. assert (Nk : is_neg (of_Z k) = false). { unfold is_neg, of_Z. rewrite fltb_fl by (split; lia). lia. } rewrite Nk.
        pose proof (finite_fl _ false m e H eq_refl) as FF. cbn [cond_Zopp B2SF] in FF. rewrite FF.
        assert (NG : is_neg (fl (Zpos m) e) = false) by (rewrite <- FF; reflexivity). rewrite NG. cbn [xorb].
        assert (Z0 : fsub (fl (Zpos m) e) (fl (Zpos m) e) = S754_zero false).
        { destruct (Z_le_gt_dec e 900) as [|Y]; [rewrite fsub_fl by (split; lia); rewrite Z.sub_diag; reflexivity|lia]. }
        rewrite Z0. destruct (fl_struct k 0) as (p & q & V & _); [split; lia|lia|]. unfold of_Z at 1 2 3 4. rewrite V. replace (k <? 0) with false by lia. reflexivity.
Qed.
(** [//1.0], of either sign, is the floor. *)
Lemma floor_one (x : bf) : is_finite x = true -> (Rabs (B2R x) <= bpow radix2 51)%R ->
  fst (fdivmod (B2SF x) (of_Z 1)) = of_Z (Zfloor (B2R x)).
Proof.
  intros F U. destruct x as [s|s| |s m e H] eqn:E; try discriminate F.
  - cbn [B2R]. rewrite (Zfloor_IZR 0). destruct s; reflexivity.
  - destruct (finite_bounds m e H) as [Bm Be]. rewrite (finite_fl _ s m e H eq_refl). cbn [B2R] in U |- *. set (n := cond_Zopp s (Zpos m)) in *.
    assert (An : Z.abs n = Zpos m) by (unfold n; rewrite abs_cond_Zopp; reflexivity). rewrite <- F2R_Zabs, An in U.
    destruct (Z_le_gt_dec 0 e) as [G|G].
    + rewrite F2R_pos_int in U |- * by lia. change (bpow radix2 51) with (IZR (2 ^ 51)) in U. apply le_IZR in U. rewrite Zfloor_IZR.
      assert (Pe : 0 < 2 ^ e) by (apply Z.pow_pos_nonneg; lia).
      assert (e <= 51). { destruct (Z_le_gt_dec e 51) as [|Y]; [lia|]. pose proof (Z.pow_lt_mono_r 2 51 e ltac:(lia) ltac:(lia) ltac:(lia)). nia. }
      replace (fl n e) with (fl (n * 2 ^ e) 0) by (rewrite fl_shift by lia; f_equal; lia). unfold of_Z at 1. rewrite fdivmod_gen; [cbn [fst]; rewrite Z.div_1_r; reflexivity|nia|lia|rewrite Z.quot_1_r; nia|lia].
    + pose proof (Z.pow_pos_nonneg 2 (- e) ltac:(lia) ltac:(lia)) as PP. destruct (floor_quot n e 1) as (F1 & _); [lia|lia|]. replace (F2R (Float radix2 n e) / 1)%R with (F2R (Float radix2 n e)) in F1 by field. rewrite Z.mul_1_l in F1.
      destruct (Z_le_gt_dec (-53) e) as [L|L].
      * rewrite (of_Z_shift 1 e) by lia. rewrite Z.mul_1_l. pose proof (Z.pow_le_mono_r 2 (- e) 53 ltac:(lia) ltac:(lia)) as PL. rewrite fdivmod_gen; [cbn [fst]; rewrite F1; reflexivity|lia|lia| |lia].
        rewrite <- Z.quot_abs by lia. rewrite An, (Z.abs_eq (2 ^ (- e))) by lia. destruct (floor_quot (Zpos m) e 1) as (F2 & _); [lia|lia|]. rewrite Z.quot_div_nonneg by lia. rewrite Z.mul_1_l in F2. rewrite <- F2.
        apply le_IZR. apply Rle_trans with (1 := Zfloor_lb _). unfold Rdiv. rewrite Rinv_1, Rmult_1_r. exact U.
      * assert (Big : 2 ^ 54 <= 2 ^ (- e)) by (apply Z.pow_le_mono_r; lia).
        assert (Lt : (F2R (Float radix2 (Zpos m) e) < IZR 1)%R) by (apply F2R_lt_scale; lia).
        assert (FF : fl n e = S754_finite s m e) by (symmetry; exact (finite_fl _ s m e H eq_refl)). rewrite FF. unfold fdivmod. rewrite ffmod_less by (assumption || lia). rewrite <- FF.
        rewrite fsub_fl by (split; lia). rewrite Z.sub_diag. cbn [fl]. rewrite FF at 1. cbn [is_zero].
        assert (NG : is_neg (fl n e) = s) by (rewrite FF; destruct s; reflexivity). rewrite NG, F1. destruct s.
        { assert (Q : n / 2 ^ (- e) = -1) by (unfold n; cbn [cond_Zopp]; symmetry; apply (Z.div_unique_pos _ _ _ (- Zpos m + 2 ^ (- e))); lia). rewrite Q. reflexivity. }
        { assert (Q : n / 2 ^ (- e) = 0) by (unfold n; cbn [cond_Zopp]; apply Z.div_small; lia). rewrite Q. reflexivity. }
Qed.
Lemma trunc_floor_one (x : bf) : is_finite x = true -> (Rabs (B2R x) <= bpow radix2 51)%R -> ftruncZ (fst (fdivmod (B2SF x) (of_Z 1))) = Zfloor (B2R x).
Proof.
  intros F U. rewrite (floor_one x F U).
  assert (B : Z.abs (Zfloor (B2R x)) <= 2 ^ 52). { pose proof (Zfloor_lb (B2R x)) as L1. pose proof (Zfloor_ub (B2R x)) as L2. apply Rabs_le_inv in U. change (bpow radix2 51) with (IZR (2 ^ 51)) in U.
      apply Z.abs_le. split; [apply le_IZR; rewrite opp_IZR; apply Rlt_le; apply Rlt_le_trans with (B2R x - 1)%R; [|lra]|apply le_IZR; apply Rle_trans with (1 := L1); apply Rle_trans with (1 := proj2 U); apply IZR_le; lia].
      destruct U as [U _]. apply Rlt_le_trans with (- IZR (2 ^ 51) - 1)%R; [|lra]. change (2 ^ 52) with (2 ^ 51 + 2 ^ 51). rewrite plus_IZR. assert (2 <= IZR (2 ^ 51))%R by (apply IZR_le; lia). lra. }
  unfold of_Z. rewrite ftruncZ_fl by (try split; lia). cbn [Z.opp]. rewrite Z.pow_0_r, Z.quot_1_r. reflexivity.
Qed.
