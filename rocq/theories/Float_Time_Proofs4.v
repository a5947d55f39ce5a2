(** Seconds with a fraction, in binary64. *)
From Coq Require Import ZArith Reals Lia Lra List Bool QArith.
From Coq.Floats Require Import SpecFloat.
From Flocq Require Import Core BinarySingleNaN.
From Verif Require Import Float64 Float64_Proofs Float_Time_Model Float_Time_Spec Cal_Model Cal_Spec PyNum
  Time_Model Time_Spec Time_Proofs Time_Proofs2 Float_Time_Proofs.
Import ListNotations.
Open Scope Z_scope.

(** ** [divmod] by one of a float that is not negative *)
Lemma fdivmod_pos m m' e : 0 <= m <= 2 ^ 53 -> 0 < m' <= 2 ^ 53 -> m / m' <= 2 ^ 51 -> -1000 <= e <= 0 ->
  fdivmod (fl m e) (fl m' e) = (of_Z (m / m'), fl (m mod m') e).
Proof.
  intros B B' K He. assert (S : small m e) by (split; lia). assert (S' : small m' e) by (split; lia).
  assert (Neg : forall x, small x e -> is_neg (fl x e) = (x <? 0)). { intros x Sx. unfold is_neg, of_Z. rewrite fl_zero, <- (fl_zero e). apply fltb_fl; [assumption|split; lia]. }
  pose proof (Z.div_pos m m' ltac:(lia) ltac:(lia)) as D0. pose proof (Z.mod_pos_bound m m' ltac:(lia)) as MB. pose proof (Z.div_mod m m' ltac:(lia)) as DM.
  assert (QE : Z.quot m m' = m / m') by (apply Z.quot_div_nonneg; lia). assert (RE : Z.rem m m' = m mod m') by (apply Z.rem_mod_nonneg; lia).
  unfold fdivmod. rewrite ffmod_fl by (assumption || lia). rewrite (Neg m' S'), RE. assert (Nb : (m' <? 0) = false) by lia. rewrite Nb.
  destruct (Z.eqb_spec (m mod m') 0) as [Z0|N0].
  - assert (Q : fdiv (fsub (fl m e) (S754_zero (m <? 0))) (fl m' e) = fl (m / m') 0).
    { replace (fsub (fl m e) (S754_zero (m <? 0))) with (fl (m / m' * m') e).
      - rewrite fdiv_fl; [f_equal; lia|split; nia|assumption|lia|lia].
      - destruct (Z.eq_dec m 0) as [->|Nm]; [rewrite Z.div_0_l by lia; reflexivity|]. rewrite fsub_zero by assumption. f_equal. lia. }
    cbn [is_zero fabs SFabs]. cbv zeta. rewrite Q. change (if is_zero ?d then ?d else _) with (floordiv d). rewrite floordiv_int by lia. rewrite Z0. reflexivity.
  - assert (Sr : small (m mod m') e) by (split; lia).
    assert (Q : fdiv (fsub (fl m e) (fl (m mod m') e)) (fl m' e) = fl (m / m') 0).
    { rewrite fsub_fl by assumption. replace (m - m mod m') with (m / m' * m') by lia. rewrite fdiv_fl; [f_equal; lia|split; nia|assumption|lia|lia]. }
    cbv zeta. rewrite is_zero_fl by assumption. destruct (Z.eqb_spec (m mod m') 0) as [|_]; [contradiction|]. rewrite Q, (Neg _ Sr). cbn [xorb].
    destruct (Z.ltb_spec (m mod m') 0) as [L|L]; [lia|]. change (if is_zero ?d then ?d else _) with (floordiv d). rewrite floordiv_int by lia. reflexivity.
Qed.
Lemma finite_fl (x : bf) s m e H : x = B754_finite s m e H -> B2SF x = fl (cond_Zopp s (Zpos m)) e.
Proof.
  intros ->. cbn [B2SF]. rewrite fl_bnorm.
  assert (Bd : bounded 53 1024 m e = true) by exact H.
  set (y := B754_finite s m e H : bf). change (S754_finite s m e) with (B2SF y). f_equal.
  assert (G : rnd (F2R (Float radix2 (cond_Zopp s (Zpos m)) e)) = F2R (Float radix2 (cond_Zopp s (Zpos m)) e)).
  { apply round_generic; [apply valid_rnd_N|]. change (F2R (Float radix2 (cond_Zopp s (Z.pos m)) e)) with (B2R y). apply generic_format_B2R. }
  pose proof (binary_normalize_correct 53 1024 Hprec Hmax mode_NE (cond_Zopp s (Zpos m)) e false) as C. cbv zeta in C. cbn [round_mode] in C. rewrite G in C.
  rewrite Rlt_bool_true in C by (exact (abs_B2R_lt_emax 53 1024 y)). destruct C as (C1 & C2 & C3).
  symmetry. apply same; [exact C2|reflexivity|exact C1|]. rewrite C3. cbn [Bsign y]. destruct s; cbn [cond_Zopp].
  - rewrite Rcompare_Lt; [reflexivity|apply F2R_lt_0; reflexivity].
  - rewrite Rcompare_Gt; [reflexivity|apply F2R_gt_0; reflexivity].
Qed.
Lemma of_Z_bf k : fits k -> exists b : bf, of_Z k = B2SF b /\ is_finite b = true /\ B2R b = IZR k.
Proof.
  intros F. exists (bnorm k 0 false). destruct (bnorm_spec k 0) as (_ & G & _); [unfold fits in F; lia|lia|]. split; [apply fl_bnorm|]. split; [exact G|].
  rewrite bnorm_small by (apply fits_small; assumption). unfold F2R. cbn [Fnum Fexp]. cbn [bpow]. ring.
Qed.
Lemma fl_bf m e : small m e -> exists b : bf, fl m e = B2SF b /\ is_finite b = true /\ B2R b = F2R (Float radix2 m e).
Proof. intros S. exists (bnorm m e false). destruct (bnorm_spec m e) as (_ & G & _); [destruct S; lia|apply S|]. split; [apply fl_bnorm|]. split; [exact G|]. apply bnorm_small. exact S. Qed.
Lemma floor_frac m e : -53 <= e <= 0 -> Zfloor (F2R (Float radix2 m e)) = m / 2 ^ (- e).
Proof.
  intros He. apply Zfloor_imp. pose proof (Z.pow_pos_nonneg 2 (- e) ltac:(lia) ltac:(lia)) as P. pose proof (Z.div_mod m (2 ^ (- e)) ltac:(lia)) as D. pose proof (Z.mod_pos_bound m (2 ^ (- e)) P) as B.
  set (q := m / 2 ^ (- e)) in *. set (r := m mod 2 ^ (- e)) in *. clearbody q r. unfold F2R. cbn [Fnum Fexp].
  assert (E : bpow radix2 e = (/ IZR (2 ^ (- e)))%R). { rewrite <- (Z.opp_involutive e) at 1. rewrite bpow_opp. f_equal. rewrite <- IZR_Zpower by lia. reflexivity. }
  rewrite E. set (k := 2 ^ (- e)) in *. clearbody k. assert (Pk : (0 < IZR k)%R) by (apply IZR_lt; lia).
  rewrite D, plus_IZR, mult_IZR. assert (X : ((IZR k * IZR q + IZR r) * / IZR k = IZR q + IZR r / IZR k)%R) by (field; lra). rewrite X, plus_IZR.
  assert (0 <= IZR r)%R by (apply IZR_le; lia). assert (IZR r < IZR k)%R by (apply IZR_lt; lia).
  split; [assert (0 <= IZR r / IZR k)%R by (apply Rmult_le_pos; [lra|left; apply Rinv_0_lt_compat; lra]); lra|].
  assert (IZR r / IZR k < 1)%R by (apply (Rmult_lt_reg_r (IZR k)); [lra|]; unfold Rdiv; rewrite Rmult_assoc, Rinv_l by lra; lra). lra.
Qed.
Lemma finite_bounds m e : bounded 53 1024 m e = true -> 0 < Zpos m < 2 ^ 53 /\ -1074 <= e <= 971.
Proof.
  intros H. unfold bounded in H. apply andb_prop in H as [C E]. apply Zle_bool_imp_le in E. unfold canonical_mantissa in C. apply Zeq_bool_eq in C. unfold SpecFloat.fexp, emin in C.
  pose proof (Zpos_digits2_pos m) as D. assert (B : Z.pos (digits2_pos m) <= 53 /\ -1074 <= e) by lia. split; [|lia]. split; [lia|].
  rewrite D in B. apply (Zpower_gt_Zdigits radix2 53 (Zpos m)). apply B.
Qed.
(** [divmod(x, 1)]: whole part and exact remainder. *)
Lemma fdivmod_one (x : bf) : is_finite x = true -> (0 <= B2R x < bpow radix2 20)%R ->
  exists fr : bf, is_finite fr = true /\ fdivmod (B2SF x) (of_Z 1) = (of_Z (Zfloor (B2R x)), B2SF fr) /\ B2R fr = (B2R x - IZR (Zfloor (B2R x)))%R.
Proof.
  intros F [P U]. destruct x as [s|s| |s m e H] eqn:E; try discriminate F.
  - exists (B754_zero false). split; [reflexivity|]. cbn [B2R]. rewrite (Zfloor_IZR 0). split; [destruct s; reflexivity|cbn; ring].
  - destruct s. { exfalso. assert (N : (B2R (B754_finite true m e H : bf) < 0)%R) by (apply F2R_lt_0; reflexivity). lra. }
    rewrite (finite_fl _ false m e H eq_refl). cbn [cond_Zopp] in *. destruct (finite_bounds m e H) as [Bm Be].
    cbn [B2R cond_Zopp] in P, U |- *.
    destruct (Z_le_gt_dec 0 e) as [G|G].
    + assert (I : F2R (Float radix2 (Zpos m) e) = IZR (Zpos m * 2 ^ e)) by (unfold F2R; cbn [Fnum Fexp]; rewrite mult_IZR; f_equal; rewrite <- IZR_Zpower by lia; reflexivity).
      rewrite I in U |- *. assert (U' : Zpos m * 2 ^ e < 2 ^ 20) by (apply lt_IZR; exact U). rewrite Zfloor_IZR.
      assert (Pe : 0 < 2 ^ e) by (apply Z.pow_pos_nonneg; lia).
      assert (e < 20) by (destruct (Z_lt_le_dec e 20) as [|X]; [assumption|]; pose proof (Z.pow_le_mono_r 2 20 e ltac:(lia) X); nia).
      assert (SE : fl (Zpos m) e = fl (Zpos m * 2 ^ e) 0) by (rewrite (fl_shift (Zpos m) 0 e); [f_equal; lia|lia|lia|lia]).
      rewrite SE. change (of_Z 1) with (fl 1 0). rewrite fdivmod_pos; [|nia|lia|rewrite Z.div_1_r; lia|lia]. rewrite Z.div_1_r, Z.mod_1_r.
      exists (B754_zero false). split; [reflexivity|]. split; [reflexivity|cbn; ring].
    + destruct (Z_le_gt_dec (-53) e) as [L|L].
      * assert (S1 : of_Z 1 = fl (2 ^ (- e)) e). { unfold of_Z. rewrite <- (Z.mul_1_l (2 ^ (- e))). rewrite fl_shift by lia. f_equal. lia. }
        pose proof (Z.pow_le_mono_r 2 (- e) 53 ltac:(lia) ltac:(lia)) as PL. pose proof (Z.pow_pos_nonneg 2 (- e) ltac:(lia) ltac:(lia)) as PP.
        assert (Fl : Zfloor (F2R (Float radix2 (Zpos m) e)) = Zpos m / 2 ^ (- e)) by (apply floor_frac; lia).
        assert (Q : Zpos m / 2 ^ (- e) <= 2 ^ 51).
        { rewrite <- Fl. apply le_IZR. apply Rle_trans with (1 := Zfloor_lb _). apply Rle_trans with (bpow radix2 20); [lra|]. change (bpow radix2 20 <= bpow radix2 51)%R. apply bpow_le. lia. }
        assert (BM : 0 <= Zpos m mod 2 ^ (- e) < 2 ^ (- e)) by (apply Z.mod_pos_bound; lia).
        destruct (fl_bf (Zpos m mod 2 ^ (- e)) e) as (fr & F1 & F2 & F3); [split; lia|]. exists fr. split; [exact F2|]. split.
        { rewrite S1, fdivmod_pos by lia. rewrite Fl, F1. reflexivity. }
        rewrite F3, Fl. pose proof (Z.div_mod (Zpos m) (2 ^ (- e)) ltac:(lia)) as D. unfold F2R. cbn [Fnum Fexp]. rewrite D at 2. rewrite plus_IZR, mult_IZR.
        assert (X : (IZR (2 ^ (- e)) * bpow radix2 e = 1)%R). { replace (IZR (2 ^ (- e))) with (bpow radix2 (- e)) by (rewrite <- IZR_Zpower by lia; reflexivity). rewrite <- bpow_plus. replace (- e + e) with 0 by lia. reflexivity. }
        set (k := IZR (2 ^ (- e))) in *. set (q := IZR (Zpos m / 2 ^ (- e))). set (r := IZR _). transitivity (r * bpow radix2 e + q * (k * bpow radix2 e) - q)%R; [rewrite X|]; ring.
      * assert (Lt1 : (F2R (Float radix2 (Zpos m) e) < 1)%R).
        { apply Rlt_le_trans with (bpow radix2 (53 + e)); [apply Rle_lt_trans with (1 := Rle_abs _); apply F2R_lt_bpow; cbn [Fnum Fexp]; replace (53 + e - e) with 53 by lia; rewrite Z.abs_eq by lia; apply Bm|]. change 1%R with (bpow radix2 0). apply bpow_le. lia. }
        assert (Fl : Zfloor (F2R (Float radix2 (Zpos m) e)) = 0) by (apply Zfloor_imp; split; [exact P|exact Lt1]). rewrite Fl.
        destruct (fl_bf (Zpos m) e) as (fr & F1 & F2 & F3); [split; lia|]. exists fr. split; [exact F2|]. split; [|rewrite F3; ring]. rewrite <- F1.
        assert (Md : ffmod (fl (Zpos m) e) (of_Z 1) = fl (Zpos m) e).
        { pose proof (finite_fl _ false m e H eq_refl) as FF. cbn [cond_Zopp B2SF] in FF. rewrite <- FF at 1. change (of_Z 1) with (S754_finite false (2 ^ 52)%positive (-52)). unfold ffmod.
          replace (Z.min e (-52)) with e by lia. rewrite Z.sub_diag, Z.pow_0_r, Z.mul_1_r.
          assert (X : Z.pos (2 ^ 52) * 2 ^ (-52 - e) = 2 ^ (- e)) by (change (Z.pos (2 ^ 52)) with (2 ^ 52); rewrite <- Z.pow_add_r by lia; f_equal; lia). rewrite X.
          assert (Big : 2 ^ 53 <= 2 ^ (- e)) by (apply Z.pow_le_mono_r; lia).
          rewrite Z.rem_small by lia. destruct (Z.eqb_spec (Zpos m) 0); [discriminate|]. reflexivity. }
        unfold fdivmod. rewrite Md. rewrite is_zero_fl by (split; lia). destruct (Z.eqb_spec (Zpos m) 0); [discriminate|].
        rewrite fsub_fl by (split; lia). rewrite Z.sub_diag, fl_zero.
        assert (NG : is_neg (fl (Zpos m) e) = false). { unfold is_neg, of_Z. rewrite fl_zero, <- (fl_zero e). rewrite fltb_fl by (split; lia). reflexivity. }
        rewrite NG. reflexivity.
Qed.

(** ** Sizes of rounding errors *)
Lemma half_error y k : (-1021 <= k)%Z -> (Rabs y < bpow radix2 k)%R -> (Rabs (rnd y - y) <= bpow radix2 (k - 54))%R.
Proof.
  intros K B. assert (HU : (Rabs (rnd y - y) <= / 2 * ulp radix2 (SpecFloat.fexp 53 1024) y)%R) by (apply (error_le_half_ulp radix2 (SpecFloat.fexp 53 1024)); apply (fexp_correct 53 1024); reflexivity).
  destruct (Req_dec y 0) as [->|N].
  - rewrite round_0 by apply valid_rnd_N. rewrite Rminus_0_r, Rabs_R0. apply bpow_ge_0.
  - apply Rle_trans with (1 := HU). rewrite ulp_neq_0 by assumption. change (/ 2)%R with (bpow radix2 (-1)). rewrite <- bpow_plus. apply bpow_le. unfold cexp, SpecFloat.fexp, emin.
    pose proof (mag_le_bpow radix2 y k N B). lia.
Qed.
Lemma fadd_val (x y : bf) : is_finite x = true -> is_finite y = true -> (Rabs (B2R x + B2R y) < bpow radix2 1007)%R ->
  exists z : bf, fadd (B2SF x) (B2SF y) = B2SF z /\ is_finite z = true /\ B2R z = rnd (B2R x + B2R y).
Proof.
  intros Fx Fy B. exists (Bplus mode_NE x y). split; [apply add_equiv|]. pose proof (Bplus_correct 53 1024 Hprec Hmax mode_NE x y Fx Fy) as C. cbn [round_mode] in C.
  rewrite round_lt in C by exact B. destruct C as (C1 & C2 & _). split; assumption.
Qed.
Lemma fdiv_val (x y : bf) : is_finite x = true -> B2R y <> 0%R -> (Rabs (B2R x / B2R y) < bpow radix2 1007)%R ->
  exists z : bf, fdiv (B2SF x) (B2SF y) = B2SF z /\ is_finite z = true /\ B2R z = rnd (B2R x / B2R y).
Proof.
  intros Fx Ny B. exists (Bdiv mode_NE x y). split; [apply div_equiv|]. pose proof (Bdiv_correct 53 1024 Hprec Hmax mode_NE x y Ny) as C. cbn [round_mode] in C.
  rewrite round_lt in C by exact B. destruct C as (C1 & C2 & _). split; [rewrite C2; exact Fx|exact C1].
Qed.
Lemma rnd_le x y : (x <= y)%R -> (rnd x <= rnd y)%R.
Proof. apply round_le; [apply (fexp_correct 53 1024); reflexivity|apply valid_rnd_N]. Qed.
Lemma rnd_Z k : fits k -> rnd (IZR k) = IZR k.
Proof. intros F. destruct (of_Z_bf k F) as (b & _ & _ & E). rewrite <- E. apply round_generic; [apply valid_rnd_N|apply generic_format_B2R]. Qed.
Lemma rnd_F2R m e : small m e -> rnd (F2R (Float radix2 m e)) = F2R (Float radix2 m e).
Proof. intros S. apply round_generic; [apply valid_rnd_N|apply small_format; assumption]. Qed.
Lemma rnd_self (x : bf) : rnd (B2R x) = B2R x.
Proof. apply round_generic; [apply valid_rnd_N|apply generic_format_B2R]. Qed.

(** ** The clock time of day, rounded *)
Lemma bpow_small k : bpow radix2 (- Zpos k) = (/ 2 ^ Pos.to_nat k)%R.
Proof. rewrite bpow_opp. f_equal. rewrite <- IZR_Zpower by lia. cbn [radix_val radix2]. rewrite <- (positive_nat_Z k). rewrite pow_IZR. reflexivity. Qed.
Lemma day_clock h mi (s : bf) : 0 <= h <= 23 -> 0 <= mi <= 59 -> is_finite s = true -> (0 <= B2R s < 61)%R ->
  exists more : bf, fadd (of_Z 0) (fadd (fadd (fmul (of_Z h) (of_Z 3600)) (fmul (of_Z mi) (of_Z 60))) (B2SF s)) = B2SF more /\ is_finite more = true /\
    B2R more = rnd (IZR (h * 3600 + mi * 60) + B2R s) /\ (0 <= B2R more <= 86401)%R /\ (Rabs (B2R more - (IZR (h * 3600 + mi * 60) + B2R s)) <= bpow radix2 (-37))%R.
Proof.
  intros Hh Hm Fs Hs. rewrite !mul_Z by fit. rewrite add_Z by fit. set (N := h * 3600 + mi * 60) in *. assert (BN : 0 <= N <= 86340) by (unfold N; lia). clearbody N.
  assert (BR : (0 <= IZR N <= 86340)%R) by (split; apply IZR_le; lia). destruct (of_Z_bf N ltac:(fit)) as (b & -> & Fb & Eb).
  assert (Big : (131072 <= bpow radix2 1007)%R) by (change 131072%R with (bpow radix2 17); apply bpow_le; lia).
  destruct (fadd_val b s Fb Fs) as (z & -> & Fz & Ez); [rewrite Eb, Rabs_pos_eq by lra; lra|].
  assert (Bz : (0 <= B2R z <= 86401)%R). { rewrite Ez, Eb. split; [rewrite <- (rnd_Z 0) by fit; apply rnd_le; lra|rewrite <- (rnd_Z 86401) by fit; apply rnd_le; lra]. }
  destruct (of_Z_bf 0 ltac:(fit)) as (o & -> & Fo & Eo). destruct (fadd_val o z Fo Fz) as (w & -> & Fw & Ew); [rewrite Eo, Rabs_pos_eq by lra; lra|].
  rewrite Eo, Rplus_0_l, rnd_self in Ew. exists w. split; [reflexivity|]. split; [exact Fw|]. rewrite Ew. split; [rewrite Ez, Eb; reflexivity|]. split; [exact Bz|].
  rewrite Ez, Eb. apply (half_error _ 17); [lia|]. rewrite Rabs_pos_eq by lra. change (bpow radix2 17) with 131072%R. lra.
Qed.

(** ** The moment built *)
Lemma utc64_parts ns base cut ts y m d h mi (s : bf) : timescale64_for ns base cut ts -> Z.abs (julian_day y m d cut) < 10 ^ 9 ->
  0 <= h <= 23 -> 0 <= mi <= 59 -> is_finite s = true -> (0 <= B2R s < 61)%R ->
  exists F (more fr : bf), let n := tai_second ns base (julian_day y m d cut) F in let t := utc64 ts y m d (of_Z h) (of_Z mi) (B2SF s) in
    is_finite more = true /\ B2R more = rnd (IZR (h * 3600 + mi * 60) + B2R s) /\ (0 <= B2R more <= 86401)%R /\
    (Rabs (B2R more - (IZR (h * 3600 + mi * 60) + B2R s)) <= bpow radix2 (-37))%R /\
    F = Zfloor (B2R more) /\ is_finite fr = true /\ B2R fr = (B2R more - IZR F)%R /\
    c_tai_seconds64 t = Some (of_Z n, B2SF fr) /\
    whole64 t = of_Z (n / 86400) /\ c_tai_fraction64 t = Some (fdiv (fadd (of_Z (n mod 86400)) (B2SF fr)) DAY_S64) /\
    fraction64 t = fadd (fdiv (fadd (of_Z (n mod 86400)) (B2SF fr)) DAY_S64) tt_minus_tai64.
Proof.
  intros Hts HJ Hh Hm Fs Hs. destruct (day_clock h mi s Hh Hm Fs Hs) as (more & E1 & E2 & E3 & E4 & E5).
  assert (Bm : (0 <= B2R more < bpow radix2 20)%R) by (change (bpow radix2 20) with 1048576%R; lra).
  destruct (fdivmod_one more E2 Bm) as (fr & G1 & G2 & G3).
  exists (Zfloor (B2R more)), more, fr. cbv zeta.
  assert (BF : 0 <= Zfloor (B2R more) <= 86401). { split; [apply Zfloor_lub; lra|]. apply le_IZR. apply Rle_trans with (1 := Zfloor_lb _). lra. }
  set (F := Zfloor (B2R more)) in *. clearbody F.
  destruct (timescale64_tables _ _ _ _ Hts) as (Hne & Hcut & HT & _). destruct Hts as (Hi & Hn & Hb & _). pose proof (days_length ns Hi Hn) as HL.
  unfold utc64. rewrite Hcut, HT. set (J := julian_day y m d cut) in *. clearbody J.
  rewrite <- (half_Z J) by fit. rewrite fsub_fl by (split; lia). rewrite half_day by fit. rewrite divmod_Z by fit. rewrite Z.div_1_r, Z.mod_1_r. cbv zeta beta iota.
  rewrite interp64_utc by (assumption || nr). assert (CD : count_utc ns (86400 * J - 43200) = leaps_before ns J) by (rewrite <- (count_utc_day ns J 0) by lia; f_equal; lia). rewrite CD. pose proof (leaps_range ns J) as HR.
  rewrite (add_Z (86400 * J - 43200)) by fit. rewrite E1, G2. cbv beta iota. rewrite add_Z by fit.
  replace (86400 * J - 43200 + (base + leaps_before ns J) + F) with (tai_second ns base J F) by (unfold tai_second; lia).
  assert (Ft : fits (tai_second ns base J F)) by (unfold tai_second; fit).
  change (fdivmod (of_Z (tai_second ns base J F)) DAY_S64) with (fdivmod (of_Z (tai_second ns base J F)) (of_Z 86400)). rewrite divmod_Z by fit. cbv beta iota.
  cbn [c_tai_seconds64 whole64 c_tai_fraction64 fraction64]. repeat split; try assumption; try reflexivity; try apply E4.
Qed.
Lemma tt_minus_tai_bf : exists b : bf, tt_minus_tai64 = B2SF b /\ is_finite b = true /\ (Rabs (86400 * B2R b - 32184 / 1000) <= bpow radix2 (-46))%R /\ (0 <= B2R b <= / 1000)%R.
Proof.
  assert (E : exists m e, tt_minus_tai64 = S754_finite false m e /\ bounded 53 1024 m e = true /\ e = -64 /\ (Z.abs (86400 * Zpos m * 1000 - 32184 * 2 ^ 64) <= 1000 * 2 ^ 18 /\ Zpos m * 1000 <= 2 ^ 64)).
  { eexists _, _. split; [vm_compute; reflexivity|]. split; [vm_compute; reflexivity|]. split; [reflexivity|]. split; vm_compute; discriminate. }
  destruct E as (m & e & E & B & -> & H1 & H2). exists (B754_finite false m (-64) B). split; [exact E|]. split; [reflexivity|]. cbn [B2R cond_Zopp]. unfold F2R. cbn [Fnum Fexp].
  assert (P64 : (bpow radix2 (-64) = / IZR (2 ^ 64))%R) by reflexivity. rewrite P64. assert (P46 : (bpow radix2 (-46) = IZR (2 ^ 18) * / IZR (2 ^ 64))%R) by (cbn; field). rewrite P46.
  assert (K : (0 < IZR (2 ^ 64))%R) by (apply IZR_lt; reflexivity). apply IZR_le in H1. apply IZR_le in H2. rewrite abs_IZR, minus_IZR, !mult_IZR in H1. rewrite !mult_IZR in H2.
  set (M := IZR (Zpos m)) in *. assert (0 < M)%R by (apply IZR_lt; reflexivity). set (T := IZR (2 ^ 64)) in *. set (U := IZR (2 ^ 18)) in *. clearbody M T U. apply Rabs_le_inv in H1.
  assert (X : (86400 * (M * / T) - 32184 / 1000 = (86400 * M * 1000 - 32184 * T) / 1000 * / T)%R) by (field; lra). rewrite X.
  assert (IT : (0 < / T)%R) by (apply Rinv_0_lt_compat; assumption).
  split; [apply Rabs_le; split; nra|]. split; [nra|]. apply (Rmult_le_reg_r T); [assumption|]. rewrite Rmult_assoc, Rinv_l by lra. lra.
Qed.
Lemma day_fraction r (fr : bf) : 0 <= r < 86400 -> is_finite fr = true -> (0 <= B2R fr < 1)%R ->
  exists f : bf, fdiv (fadd (of_Z r) (B2SF fr)) DAY_S64 = B2SF f /\ is_finite f = true /\ (0 <= B2R f <= 1)%R /\
    (Rabs (86400 * B2R f - (IZR r + B2R fr)) <= bpow radix2 (-37) + 86400 * bpow radix2 (-53))%R.
Proof.
  intros Hr Ff Hf. assert (BR : (0 <= IZR r <= 86399)%R) by (split; apply IZR_le; lia). destruct (of_Z_bf r ltac:(fit)) as (b & -> & Fb & Eb).
  assert (Big : (131072 <= bpow radix2 1007)%R) by (change 131072%R with (bpow radix2 17); apply bpow_le; lia).
  destruct (fadd_val b fr Fb Ff) as (z & -> & Fz & Ez); [rewrite Eb, Rabs_pos_eq by lra; lra|].
  assert (Bz : (0 <= B2R z <= 86400)%R). { rewrite Ez, Eb. split; [rewrite <- (rnd_Z 0) by fit; apply rnd_le; lra|rewrite <- (rnd_Z 86400) by fit; apply rnd_le; lra]. }
  assert (H1 : (Rabs (B2R z - (IZR r + B2R fr)) <= bpow radix2 (-37))%R). { rewrite Ez, Eb. apply (half_error _ 17); [lia|]. rewrite Rabs_pos_eq by lra. change (bpow radix2 17) with 131072%R. lra. }
  destruct (of_Z_bf 86400 ltac:(fit)) as (c & Ec & Fc & Vc). unfold DAY_S64. rewrite Ec.
  assert (Bq : (0 <= B2R z / B2R c <= 1)%R). { rewrite Vc. split; [apply Rmult_le_pos; lra|]. lra. }
  destruct (fdiv_val z c Fz) as (f & Ef & Fn & Vf); [rewrite Vc; lra|rewrite Rabs_pos_eq by apply Bq; lra|]. exists f. split; [exact Ef|]. split; [exact Fn|].
  split. { rewrite Vf. split; [rewrite <- (rnd_Z 0) by fit; apply rnd_le; lra|rewrite <- (rnd_Z 1) by fit; apply rnd_le; lra]. }
  assert (H2 : (Rabs (B2R f - B2R z / B2R c) <= bpow radix2 (-53))%R). { rewrite Vf. apply (half_error _ 1); [lia|]. rewrite Rabs_pos_eq by apply Bq. change (bpow radix2 1) with 2%R. lra. }
  rewrite Vc in H2. apply Rabs_le_inv in H1, H2. apply Rabs_le. lra.
Qed.
Lemma utc64_instant ns base cut ts y m d h mi (s : bf) : timescale64_for ns base cut ts -> Z.abs (julian_day y m d cut) < 10 ^ 9 ->
  0 <= h <= 23 -> 0 <= mi <= 59 -> is_finite s = true -> (0 <= B2R s < 61)%R ->
  let t := utc64 ts y m d (of_Z h) (of_Z mi) (B2SF s) in
  let exact := (IZR (tai_second ns base (julian_day y m d cut) (h * 3600 + mi * 60)) + B2R s)%R in
  exists w f g : bf, whole64 t = B2SF w /\ tai_fraction64 t = B2SF f /\ fraction64 t = B2SF g /\
    is_finite w = true /\ is_finite f = true /\ is_finite g = true /\ (0 <= B2R f <= 1)%R /\
    (Rabs (86400 * (B2R w + B2R f) - exact) <= / 2 ^ 35)%R /\
    (Rabs (86400 * (B2R w + B2R g) - (exact + 32184 / 1000)) <= / 2 ^ 34)%R.
Proof.
  intros Hts HJ Hh Hm Fs Hs t exact. destruct (utc64_parts ns base cut ts y m d h mi s Hts HJ Hh Hm Fs Hs) as (F & more & fr & P). cbv zeta in P. fold t in P.
  destruct P as (_ & _ & PB & P1 & PF & P2 & P3 & _ & P4 & P5 & P6). set (J := julian_day y m d cut) in *. set (n := tai_second ns base J F) in *.
  assert (BF : 0 <= F <= 86401). { rewrite PF. split; [apply Zfloor_lub; lra|]. apply le_IZR. apply Rle_trans with (1 := Zfloor_lb _). lra. }
  assert (Bfr : (0 <= B2R fr < 1)%R). { rewrite P3, PF. pose proof (Zfloor_lb (B2R more)). pose proof (Zfloor_ub (B2R more)). lra. }
  assert (Bn : Z.abs n <= 10 ^ 14). { destruct Hts as (Hi & Hn & Hb & _). pose proof (days_length ns Hi Hn). pose proof (leaps_range ns J). unfold n, tai_second. lia. }
  destruct (day_fraction (n mod 86400) fr) as (f & E1 & E2 & E3 & E4); [lia|assumption|assumption|]. rewrite E1 in P5, P6.
  destruct (of_Z_bf (n / 86400) ltac:(fit)) as (w & W1 & W2 & W3). destruct tt_minus_tai_bf as (c & C1 & C2 & C3 & C4). rewrite C1 in P6.
  assert (Big : (2 <= bpow radix2 1007)%R) by (change 2%R with (bpow radix2 1); apply bpow_le; lia).
  destruct (fadd_val f c E2 C2) as (g & G1 & G2 & G3); [rewrite Rabs_pos_eq by lra; lra|]. rewrite G1 in P6.
  exists w, f, g. split; [rewrite P4; exact W1|]. split; [unfold tai_fraction64; rewrite P5; reflexivity|]. split; [exact P6|]. do 3 (split; [assumption|]). split; [assumption|].
  assert (V : (86400 * B2R w + IZR (n mod 86400) = IZR n)%R). { rewrite W3, <- mult_IZR, <- plus_IZR. f_equal. pose proof (Z.div_mod n 86400 ltac:(lia)). lia. }
  assert (Vn : (IZR n = IZR (tai_second ns base J (h * 3600 + mi * 60)) + IZR F - IZR (h * 3600 + mi * 60))%R). { rewrite <- plus_IZR, <- minus_IZR. f_equal. unfold n, tai_second. lia. }
  assert (Hg : (Rabs (B2R g - (B2R f + B2R c)) <= bpow radix2 (-53))%R). { rewrite G3. apply (half_error _ 1); [lia|]. rewrite Rabs_pos_eq by lra. change (bpow radix2 1) with 2%R. lra. }
  change (bpow radix2 (-37)) with (/ 137438953472)%R in *. change (bpow radix2 (-53)) with (/ 9007199254740992)%R in *. change (bpow radix2 (-46)) with (/ 70368744177664)%R in *.
  unfold exact. apply Rabs_le_inv in P1, E4, Hg, C3. split; apply Rabs_le; lra.
Qed.

(** ** Read back *)
Lemma utc_tuple64_frac ns base cut ts t n (fr : bf) : timescale64_for ns base cut ts -> Z.abs n <= 10 ^ 14 -> tai_seconds64 t = (of_Z n, B2SF fr) ->
  is_finite fr = true -> (0 <= B2R fr < 1)%R ->
  let p := tai_lookup ns base n in
  let x := n - fst p - b2z (snd p) + 43200 in
  exists fr' : bf, is_finite fr' = true /\ B2R fr' = B2R fr /\
  time_utc64 ts t = let '(y, m, d) := compute_calendar_date (x / 86400) cut in
    {| g_year := y; g_month := m; g_day := d; g_hour := (x mod 86400) / 60 / 60; g_minute := (x mod 86400) / 60 mod 60;
       g_second := fadd (of_Z ((x mod 86400) mod 60 + b2z (snd p))) (B2SF fr') |}.
Proof.
  intros Hts Hn Ht Ff Hf. destruct (timescale64_tables _ _ _ _ Hts) as (Hne & Hcut & _ & HT). destruct Hts as (Hi & Hb' & Hb & _). pose proof (days_length ns Hi Hb') as HL.
  pose proof (lookup_range ns base n) as HR.
  assert (Big : (2 <= bpow radix2 1007)%R) by (change 2%R with (bpow radix2 1); apply bpow_le; lia).
  destruct (of_Z_bf 0 ltac:(fit)) as (o & O1 & O2 & O3). destruct (fadd_val fr o Ff O2) as (z & Z1 & Z2 & Z3); [rewrite O3, Rabs_pos_eq by lra; lra|]. rewrite O3, Rplus_0_r, rnd_self in Z3.
  destruct (fdivmod_one z Z2) as (fr' & Q1 & Q2 & Q3); [rewrite Z3; change (bpow radix2 20) with 1048576%R; lra|].
  assert (Fz : Zfloor (B2R z) = 0) by (apply Zfloor_imp; rewrite Z3; cbn; lra). rewrite Fz in Q2, Q3. rewrite Z3, Rminus_0_r in Q3.
  exists fr'. split; [exact Q1|]. split; [exact Q3|].
  unfold time_utc64, utc_tuple64, utc_seconds64. rewrite Ht. cbv zeta beta iota. rewrite <- O1 in Z1. rewrite Z1, Q2. cbv beta iota.
  rewrite add_Z by fit. rewrite Z.add_0_r, HT, interp64_tai by (assumption || nr). rewrite lookup_divmod by lia. cbv beta iota. rewrite sub_Z by fit. rewrite trunc_Z by fit. rewrite Hcut.
  assert (Q : fltb (of_Z 0) (fl (b2z (snd (tai_lookup ns base n))) (-1)) = snd (tai_lookup ns base n)) by (destruct (snd _); reflexivity). rewrite Q.
  destruct (tai_lookup ns base n) as [ol l]. cbn [fst snd]. set (x := n - ol - b2z l + 43200). destruct (compute_calendar_date (x / 86400) cut) as [[y m] d]. reflexivity.
Qed.
Lemma rnd_below N (s : R) k : 0 <= N -> N + k <= 131071 -> 0 < k -> (s <= IZR k - bpow radix2 (-36))%R -> (rnd (IZR N + s) <= IZR (N + k) - bpow radix2 (-36))%R.
Proof.
  intros HN HK Hk H. assert (E : F2R (Float radix2 ((N + k) * 2 ^ 36 - 1) (-36)) = (IZR (N + k) - bpow radix2 (-36))%R).
  { unfold F2R. cbn [Fnum Fexp]. rewrite minus_IZR, mult_IZR. change (bpow radix2 (-36)) with (/ IZR (2 ^ 36))%R. assert (0 < IZR (2 ^ 36))%R by (apply IZR_lt; reflexivity). set (T := IZR (2 ^ 36)) in *. clearbody T. field. lra. }
  rewrite <- E, <- rnd_F2R by (split; lia). apply rnd_le. rewrite E, plus_IZR. lra.
Qed.
Lemma utc64_fraction_roundtrip ns base cut ts y m d h mi (s : bf) :
  timescale64_for ns base cut ts -> good_cutoff cut -> exists_under cut (y, m, d) -> Z.abs (civil_day_number cut (y, m, d)) < 10 ^ 9 ->
  0 <= h <= 23 -> 0 <= mi <= 59 -> is_finite s = true -> (0 <= B2R s)%R ->
  (B2R s <= 60 - / 2 ^ 36)%R \/ (ends_in_leap ns (civil_day_number cut (y, m, d)) = true /\ h = 23 /\ mi = 59 /\ (B2R s <= 61 - / 2 ^ 36)%R) ->
  exists q : bf, time_utc64 ts (utc64 ts y m d (of_Z h) (of_Z mi) (B2SF s)) = {| g_year := y; g_month := m; g_day := d; g_hour := h; g_minute := mi; g_second := B2SF q |} /\
    is_finite q = true /\ (Rabs (B2R q - B2R s) <= / 2 ^ 36)%R /\ (0 <= B2R q)%R /\ ((B2R s <= 60 - / 2 ^ 36)%R -> (B2R q <= 60 - / 2 ^ 36)%R).
Proof.
  intros Hts Hc Hex HJ Hh Hm Fs Ps Us. pose proof (civil_is_julian_day cut y m d Hc Hex) as EJ.
  assert (P36 : (bpow radix2 (-36) = / 2 ^ 36)%R) by (cbn; lra). assert (IP : (0 < / 2 ^ 36 < 1)%R) by lra.
  assert (Bs : (0 <= B2R s < 61)%R) by (destruct Us as [U|(_ & _ & _ & U)]; lra).
  destruct (utc64_parts ns base cut ts y m d h mi s Hts ltac:(rewrite EJ; exact HJ) Hh Hm Fs Bs) as (F & more & fr & P). cbv zeta in P. rewrite EJ in P. set (J := civil_day_number cut (y, m, d)) in *.
  destruct P as (_ & PV & PB & P1 & PF & P2 & P3 & P4 & _). set (t := utc64 _ _ _ _ _ _ _) in *. clearbody t. set (N := h * 3600 + mi * 60) in *.
  assert (BN : 0 <= N <= 86340) by (unfold N; lia).
  assert (LF : N <= F). { rewrite PF. apply Zfloor_lub. rewrite PV. apply Rle_trans with (rnd (IZR N)); [rewrite rnd_Z by fit; lra|apply rnd_le; lra]. }
  assert (UF : F < N + 60 \/ (ends_in_leap ns J = true /\ h = 23 /\ mi = 59 /\ F < N + 61)).
  { assert (X : forall k, 0 < k <= 61 -> (B2R s <= IZR k - / 2 ^ 36)%R -> F < N + k).
    { intros k Hk Hb. rewrite PF. apply lt_IZR. apply Rle_lt_trans with (1 := Zfloor_lb _). rewrite PV. apply Rle_lt_trans with (IZR (N + k) - / 2 ^ 36)%R; [rewrite <- P36; apply rnd_below; [lia|lia|lia|rewrite P36; exact Hb]|lra]. }
    destruct Us as [U|(U1 & U2 & U3 & U)]; [left; apply X; [lia|exact U]|right; repeat split; try assumption; apply X; [lia|exact U]]. }
  assert (Bfr : (0 <= B2R fr < 1)%R). { rewrite P3, PF. pose proof (Zfloor_lb (B2R more)). pose proof (Zfloor_ub (B2R more)). lra. }
  set (K := F - N) in *. assert (Hcl : valid_clock (ends_in_leap ns J) h mi (inject_Z K)).
  { split; [lia|]. split; [lia|]. change 0%Q with (inject_Z 0). change 60%Q with (inject_Z 60). change 61%Q with (inject_Z 61). rewrite <- Zle_Qle, <- !Zlt_Qlt. unfold K. split; [lia|]. destruct UF as [U|(U1 & U2 & U3 & U4)]; [left; lia|right; repeat split; try assumption; lia]. }
  destruct (valid_clock_sod ns J h mi _ Hcl) as [Hsod Hck]. rewrite Qround.Qfloor_Z in Hsod, Hck. fold N in Hsod, Hck. replace (N + K) with F in Hsod, Hck by (unfold K; lia).
  destruct Hts as (Hi & Hn & Hb & Hini) eqn:Ets. clear Ets. pose proof (leaps_range ns J) as HR. pose proof (days_length ns Hi Hn) as HL.
  set (n := tai_second ns base J F) in *. assert (Bn : Z.abs n <= 10 ^ 14) by (unfold n, tai_second; lia).
  pose proof (utc_tuple64_frac ns base cut ts t n fr Hts Bn) as W. unfold tai_seconds64 in W. rewrite P4 in W. destruct (W eq_refl P2 Bfr) as (fr' & W1 & W2 & W3). clear W. rewrite W3. clear W3.
  pose proof (label_of_spec ns base n Hi) as LS. unfold label_of in LS. pose proof (label_leap ns base n Hi) as LL.
  destruct (tai_lookup ns base n) as [o l]. cbn [fst snd] in *. set (x := n - o - b2z l + 43200) in *. destruct LS as [S1 S2]. unfold n in S2. apply tai_second_inj in S2 as [X1 X2]; try assumption.
  pose proof (civil_of_jd cut (x / 86400) Hc) as CD. rewrite X1 in CD |- *. destruct (compute_calendar_date J cut) as [[y' m'] d']. destruct CD as [C1 C2].
  assert (D : (y', m', d') = (y, m, d)) by (apply (civil_inj cut); assumption). injection D as -> -> ->.
  pose proof (clock_split (x mod 86400) l (Z.mod_pos_bound x 86400 ltac:(lia))) as CS. rewrite X2, Hck in CS. specialize (CS ltac:(intros ->; unfold x; cbn [b2z]; apply LL; reflexivity)). injection CS as -> -> ->.
  assert (BK : 0 <= K <= 60) by (unfold K; lia). assert (BKR : (0 <= IZR K <= 60)%R) by (split; apply IZR_le; lia). destruct (of_Z_bf K ltac:(fit)) as (b & -> & Fb & Eb).
  assert (Big : (64 <= bpow radix2 1007)%R) by (change 64%R with (bpow radix2 6); apply bpow_le; lia).
  destruct (fadd_val b fr' Fb W1) as (q & -> & Fq & Vq); [rewrite Eb, W2, Rabs_pos_eq by lra; lra|]. exists q. split; [reflexivity|]. split; [exact Fq|].
  rewrite Eb, W2 in Vq. assert (Hq : (Rabs (B2R q - (IZR K + B2R fr)) <= bpow radix2 (-48))%R). { rewrite Vq. apply (half_error _ 6); [lia|]. rewrite Rabs_pos_eq by lra. change (bpow radix2 6) with 64%R. lra. }
  assert (EK : (IZR K = IZR F - IZR N)%R) by (unfold K; apply minus_IZR).
  change (bpow radix2 (-37)) with (/ 137438953472)%R in *. change (bpow radix2 (-48)) with (/ 281474976710656)%R in *. apply Rabs_le_inv in P1, Hq. split; [apply Rabs_le; lra|]. split; [rewrite Vq; apply Rle_trans with (rnd (IZR 0)); [rewrite rnd_Z by fit; lra|apply rnd_le; lra]|]. intros U.
  pose proof (rnd_below N (B2R s) 60 ltac:(lia) ltac:(lia) ltac:(lia) ltac:(rewrite P36; exact U)) as RB. rewrite <- PV, plus_IZR, P36 in RB.
  pose proof (rnd_below 0 (IZR K + B2R fr) 60 ltac:(lia) ltac:(lia) ltac:(lia) ltac:(rewrite P36; lra)) as RC. rewrite Rplus_0_l, <- Vq, P36 in RC. exact RC.
Qed.
Lemma utc64_any_second ns base cut ts y m d h mi (s : bf) :
  timescale64_for ns base cut ts -> good_cutoff cut -> exists_under cut (y, m, d) -> Z.abs (civil_day_number cut (y, m, d)) < 10 ^ 9 ->
  0 <= h <= 23 -> 0 <= mi <= 59 -> is_finite s = true -> (0 <= B2R s)%R ->
  (B2R s <= 60 - / 2 ^ 36)%R \/ (ends_in_leap ns (civil_day_number cut (y, m, d)) = true /\ h = 23 /\ mi = 59 /\ (B2R s <= 61 - / 2 ^ 36)%R) ->
  exists q : bf, time_utc64 ts (utc64 ts y m d (of_Z h) (of_Z mi) (B2SF s)) = {| g_year := y; g_month := m; g_day := d; g_hour := h; g_minute := mi; g_second := B2SF q |} /\
    is_finite q = true /\ (Rabs (B2R q - B2R s) <= / 2 ^ 36)%R.
Proof. intros. edestruct utc64_fraction_roundtrip as (q & A & B & C & _); try eassumption. exists q. repeat split; assumption. Qed.
Lemma fraction_below_60 ns base cut ts y m d h mi (s : bf) :
  timescale64_for ns base cut ts -> good_cutoff cut -> exists_under cut (y, m, d) -> Z.abs (civil_day_number cut (y, m, d)) < 10 ^ 9 ->
  0 <= h <= 23 -> 0 <= mi <= 59 -> is_finite s = true -> (0 <= B2R s <= 60 - / 2 ^ 36)%R ->
  exists q : bf, g_second (time_utc64 ts (utc64 ts y m d (of_Z h) (of_Z mi) (B2SF s))) = B2SF q /\ is_finite q = true /\ (0 <= B2R q < 60)%R.
Proof.
  intros H1 H2 H3 H4 H5 H6 H7 [H8 H9]. destruct (utc64_fraction_roundtrip ns base cut ts y m d h mi s H1 H2 H3 H4 H5 H6 H7 H8 (or_introl H9)) as (q & A & B & _ & C & D).
  exists q. rewrite A. split; [reflexivity|]. split; [exact B|]. specialize (D H9). assert (0 < / 2 ^ 36)%R by lra. lra.
Qed.
(** ** An element of an array *)
Lemma getitem64_scales t : tai64 (drop_cache64 t) = tai64 t /\ tt64 (drop_cache64 t) = tt64 t /\ tai_fraction64 (drop_cache64 t) = tai_fraction64 t /\
  hash64 (drop_cache64 t) = hash64 t /\ forall u, sub64 (drop_cache64 t) u = sub64 t u.
Proof. destruct t as [w f c s]. repeat split. Qed.
Lemma half_past_60 : exists s : bf, is_finite s = true /\ B2R s = (60 + / 2)%R.
Proof. exists (bnorm 121 (-1) false). destruct (bnorm_spec 121 (-1)) as (_ & G & _); [lia|lia|]. split; [exact G|]. rewrite bnorm_small by (split; lia). unfold F2R. cbn [Fnum Fexp]. change (bpow radix2 (-1)) with (/ 2)%R. lra. Qed.
