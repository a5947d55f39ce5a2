(** Comparing and hashing finite times in binary64. *)
From Coq Require Import ZArith Lia Bool Reals Lra.
From Coq.Floats Require Import SpecFloat.
From Flocq Require Import Core BinarySingleNaN Plus_error.
From Verif Require Import Float64 Float64_Proofs Float_Time_Model Float_Time_Spec Float_Time_Proofs2.
Open Scope Z_scope.

(** Finite times whose fractions are below 2^1000 have a difference. *)
Lemma finite_b2sf x : finite64 x -> exists b : bf, x = B2SF b /\ is_finite b = true.
Proof.
  intros [V F]. exists (SF2B x V). split; [symmetry; apply B2SF_SF2B|]. rewrite is_finite_SF2B. destruct x; (reflexivity || contradiction).
Qed.
Lemma small_fraction (b : bf) : is_finite b = true -> fltb (fabs (B2SF b)) (fl 1 1000) = true -> (Rabs (B2R b) < bpow radix2 1000)%R.
Proof.
  intros F L. assert (E : fabs (B2SF b) = B2SF (Babs b)) by (destruct b; reflexivity). assert (FA : is_finite (Babs b) = true) by (destruct b; assumption). rewrite E, fl_bnorm in L. unfold fltb in L. change (SFltb (B2SF ?x) (B2SF ?y)) with (Bltb x y) in L.
  destruct (bnorm_gen 1 1000) as (R & F1 & _). { unfold F2R. cbn [Fnum Fexp]. rewrite Rmult_1_l, Rabs_pos_eq by apply bpow_ge_0. apply bpow_lt. reflexivity. }
  rewrite Bltb_correct in L by assumption. rewrite R in L. rewrite round_generic in L; [|apply valid_rnd_N|].
  - rewrite B2R_Babs in L. unfold F2R in L. cbn [Fnum Fexp] in L. rewrite Rmult_1_l in L. destruct (Rlt_bool_spec (Rabs (B2R b)) (bpow radix2 1000)); [assumption|discriminate].
  - unfold F2R. cbn [Fnum Fexp]. rewrite Rmult_1_l. apply (generic_format_bpow radix2 (SpecFloat.fexp 53 1024)). unfold SpecFloat.fexp, emin. lia.
Qed.
Lemma fraction_difference (f g : bf) : is_finite f = true -> is_finite g = true -> (Rabs (B2R f) < bpow radix2 1000)%R -> (Rabs (B2R g) < bpow radix2 1000)%R -> is_finite (Bminus mode_NE f g) = true.
Proof.
  intros F G Lf Lg. pose proof (Bminus_correct 53 1024 Hprec Hmax mode_NE f g F G) as C. cbn [round_mode] in C. rewrite round_lt in C; [apply C|].
  apply Rle_lt_trans with (Rabs (B2R f) + Rabs (B2R g))%R; [replace (B2R f - B2R g)%R with (B2R f + - B2R g)%R by ring; rewrite <- (Rabs_Ropp (B2R g)); apply Rabs_triang|].
  apply Rlt_le_trans with (bpow radix2 1000 * 2)%R; [lra|]. change 2%R with (bpow radix2 1). rewrite <- bpow_plus. apply bpow_le. lia.
Qed.
Lemma whole_difference (f g : bf) : is_finite f = true -> is_finite g = true -> is_nan (Bminus mode_NE f g) = false.
Proof.
  intros F G. pose proof (Bminus_correct 53 1024 Hprec Hmax mode_NE f g F G) as C. destruct (Rlt_bool _ _).
  - destruct C as (_ & C & _). destruct (Bminus _ _ _); (reflexivity || discriminate C).
  - destruct C as (C & _). destruct (Bminus mode_NE f g); (reflexivity || discriminate C).
Qed.
Lemma finite_difference a b : finite_time a -> finite_time b -> isnan (sub64 a b) = false.
Proof.
  intros (Wa & Fa & La) (Wb & Fb & Lb). apply finite_b2sf in Wa as (wa & Ewa & Hwa). apply finite_b2sf in Fa as (fa & Efa & Hfa). apply finite_b2sf in Wb as (wb & Ewb & Hwb). apply finite_b2sf in Fb as (fb & Efb & Hfb).
  unfold sub64. rewrite Ewa, Efa, Ewb, Efb in *. apply small_fraction in La; [|assumption]. apply small_fraction in Lb; [|assumption].
  rewrite !sub_equiv, add_equiv. pose proof (fraction_difference fa fb Hfa Hfb La Lb) as D. pose proof (whole_difference wa wb Hwa Hwb) as W.
  destruct (Bminus mode_NE wa wb) as [s|s| |s m e B] eqn:E1; try discriminate W.
  - assert (F1 : is_finite (B754_zero s : bf) = true) by reflexivity. pose proof (Bplus_correct 53 1024 Hprec Hmax mode_NE _ _ F1 D) as C. destruct (Rlt_bool _ _); [destruct C as (_ & C & _)|destruct C as (C & _)]; destruct (Bplus _ _ _); (reflexivity || discriminate C).
  - destruct (Bminus mode_NE fa fb); (reflexivity || discriminate D).
  - assert (F1 : is_finite (B754_finite s m e B : bf) = true) by reflexivity. pose proof (Bplus_correct 53 1024 Hprec Hmax mode_NE _ _ F1 D) as C. destruct (Rlt_bool _ _); [destruct C as (_ & C & _)|destruct C as (C & _)]; destruct (Bplus _ _ _); (reflexivity || discriminate C).
Qed.
Lemma finite_trichotomy a b : finite_time a -> finite_time b ->
  (lt64 a b = true /\ eq64 a b = false /\ lt64 b a = false) \/
  (lt64 a b = false /\ eq64 a b = true /\ lt64 b a = false) \/
  (lt64 a b = false /\ eq64 a b = false /\ lt64 b a = true).
Proof. intros. apply trichotomy_not_nan, finite_difference; assumption. Qed.

(** * Hashing *)
Lemma fsub_self_zero x : finite64 x -> fsub x x = S754_zero false.
Proof.
  intros [_ F]. unfold fsub. destruct x as [s|s| |s m e]; try contradiction; cbn [SFsub]; [destruct s; reflexivity|]. rewrite Z.sub_diag. reflexivity.
Qed.
Lemma equal_fractions f g : finite64 f -> finite64 g -> is_zero (fsub f g) = true -> f = g \/ (is_zero f = true /\ is_zero g = true).
Proof.
  intros Ff Fg Hz. apply finite_b2sf in Ff as (bf1 & -> & F). apply finite_b2sf in Fg as (bg & -> & G). rewrite sub_equiv in Hz.
  pose proof (Bminus_correct 53 1024 Hprec Hmax mode_NE bf1 bg F G) as C. cbn [round_mode] in C.
  assert (E : B2R bf1 = B2R bg).
  { destruct (Rlt_bool _ _); [|destruct C as (C & _); rewrite C in Hz; discriminate Hz]. destruct C as (C & _ & _). assert (Z0 : B2R (Bminus mode_NE bf1 bg) = 0%R) by (destruct (Bminus mode_NE bf1 bg); try discriminate Hz; reflexivity).
    rewrite Z0 in C. destruct (Req_dec (B2R bf1 - B2R bg) 0) as [Q|Q]; [lra|exfalso].
    apply (round_plus_neq_0 radix2 (SpecFloat.fexp 53 1024) ZnearestE (B2R bf1) (- B2R bg)); [apply generic_format_B2R|apply generic_format_opp, generic_format_B2R|exact Q|symmetry; exact C]. }
  destruct (Req_dec (B2R bf1) 0) as [Q|Q].
  - right. rewrite Q in E. split.
    + destruct bf1; try reflexivity; try discriminate F. cbn in Q. apply eq_0_F2R in Q. destruct s; discriminate Q.
    + destruct bg; try reflexivity; try discriminate G. cbn in E. symmetry in E. apply eq_0_F2R in E. destruct s; discriminate E.
  - left. f_equal. apply B2R_inj; [| |assumption].
    + destruct bf1; try reflexivity; try discriminate F. cbn in Q. lra.
    + rewrite E in Q. destruct bg; try reflexivity; try discriminate G. cbn in Q. lra.
Qed.
Lemma hash_plus_zero w f g : is_zero f = true -> is_zero g = true -> hash_float (fadd w f) = hash_float (fadd w g).
Proof.
  intros Hf Hg. destruct f; try discriminate Hf. destruct g; try discriminate Hg. destruct w; cbn [fadd SFadd]; try reflexivity. unfold fadd. cbn [SFadd]. destruct (Bool.eqb s1 s), (Bool.eqb s1 s0); reflexivity.
Qed.
Lemma same_day_hash a b : finite_time a -> finite_time b -> whole64 a = whole64 b -> eq64 a b = true -> hash64 a = hash64 b.
Proof.
  intros (Wa & Fa & _) (_ & Fb & _) W E. unfold eq64, sub64 in E. rewrite <- W, fsub_self_zero in E by assumption. unfold hash64, tt64. rewrite <- W.
  destruct (equal_fractions _ _ Fa Fb) as [Q|[Q1 Q2]]; [|rewrite Q; reflexivity|apply hash_plus_zero; assumption].
  destruct (fsub (fraction64 a) (fraction64 b)) as [s|s| |s m e]; try reflexivity; try (destruct s; discriminate E). discriminate E.
Qed.

(** * Times sharing their whole part are ordered by their fractions *)
Lemma sign_le (x : bf) : if Bsign x then (B2R x <= 0)%R else (0 <= B2R x)%R.
Proof.
  destruct x as [s|s| |s p e Bd]; cbn [Bsign B2R]; try (destruct s; lra); try lra. destruct s; [apply F2R_le_0|apply F2R_ge_0]; cbn; lia.
Qed.
Lemma fsub_sign f g : finite64 f -> finite64 g -> fltb (fsub f g) (of_Z 0) = fltb f g /\ is_zero (fsub f g) = feqb f g.
Proof.
  intros Ff Fg. apply finite_b2sf in Ff as (x & -> & F). apply finite_b2sf in Fg as (y & -> & G). rewrite sub_equiv.
  pose proof (Bminus_correct 53 1024 Hprec Hmax mode_NE x y F G) as C. cbn [round_mode] in C.
  unfold fltb, feqb. change (SFltb (B2SF x) (B2SF y)) with (Bltb x y). change (SFeqb (B2SF x) (B2SF y)) with (Beqb x y). rewrite Bltb_correct, Beqb_correct by assumption.
  assert (FX : generic_format radix2 (SpecFloat.fexp 53 1024) (B2R x)) by apply generic_format_B2R. assert (FY : generic_format radix2 (SpecFloat.fexp 53 1024) (- B2R y)) by apply generic_format_opp, generic_format_B2R.
  assert (NZ : (B2R x - B2R y <> 0)%R -> rnd (B2R x - B2R y) <> 0%R) by (intros Q; apply (round_plus_neq_0 radix2 (SpecFloat.fexp 53 1024) ZnearestE (B2R x) (- B2R y)); assumption).
  assert (VE : Valid_exp (SpecFloat.fexp 53 1024)) by (apply (fexp_correct 53 1024); reflexivity).
  assert (LE : (B2R x - B2R y <= 0)%R -> (rnd (B2R x - B2R y) <= 0)%R) by (intros Q; rewrite <- (round_0 radix2 (SpecFloat.fexp 53 1024) ZnearestE); apply round_le; [assumption|apply valid_rnd_N|assumption]).
  assert (GE : (0 <= B2R x - B2R y)%R -> (0 <= rnd (B2R x - B2R y))%R) by (intros Q; rewrite <- (round_0 radix2 (SpecFloat.fexp 53 1024) ZnearestE); apply round_le; [assumption|apply valid_rnd_N|assumption]).
  destruct (Rlt_bool_spec (Rabs (rnd (B2R x - B2R y))) (bpow radix2 1024)) as [B|B].
  - destruct C as (C1 & C2 & _). change (of_Z 0) with (B2SF (B754_zero false : bf)). change (SFltb (B2SF ?a) (B2SF ?b)) with (Bltb a b). rewrite Bltb_correct by (assumption || reflexivity). rewrite C1. cbn [B2R].
    assert (Z0 : is_zero (B2SF (Bminus mode_NE x y)) = Req_bool (rnd (B2R x - B2R y)) 0).
    { rewrite <- C1. destruct (Bminus mode_NE x y) as [s|s| |s p e Bd]; try discriminate C2; cbn [B2SF is_zero]; symmetry; [apply Req_bool_true; reflexivity|apply Req_bool_false]. cbn. intros Q. apply eq_0_F2R in Q. destruct s; discriminate Q. }
    rewrite Z0. clear C1 C2 Z0 B. destruct (Rtotal_order (B2R x) (B2R y)) as [L|[L|L]].
    + specialize (NZ ltac:(lra)). specialize (LE ltac:(lra)). rewrite !Rlt_bool_true, !Req_bool_false by lra. split; reflexivity.
    + replace (B2R x - B2R y)%R with 0%R by lra. rewrite round_0 by apply valid_rnd_N. rewrite !Rlt_bool_false, !Req_bool_true by lra. split; reflexivity.
    + specialize (NZ ltac:(lra)). specialize (GE ltac:(lra)). rewrite !Rlt_bool_false, !Req_bool_false by lra. split; reflexivity.
  - destruct C as (C1 & C2). assert (NE : B2R x <> B2R y). { intros Q. replace (B2R x - B2R y)%R with 0%R in B by lra. rewrite round_0, Rabs_R0 in B by apply valid_rnd_N. pose proof (bpow_gt_0 radix2 1024). lra. }
    rewrite Req_bool_false by assumption. rewrite C1. cbn [binary_overflow overflow_to_inf]. split; [|reflexivity].
    assert (SG : Bsign x = Rlt_bool (B2R x) (B2R y)).
    { pose proof (sign_le x) as Sx. pose proof (sign_le y) as Sy. clear - C2 NE Sx Sy. destruct (Rlt_bool_spec (B2R x) (B2R y)) as [L|L]; destruct (Bsign x), (Bsign y); try discriminate C2; try reflexivity; exfalso; lra. }
    rewrite <- SG. destruct (Bsign x); reflexivity.
Qed.
Lemma fsub_not_nan f g : finite64 f -> finite64 g -> isnan (fsub f g) = false.
Proof.
  intros Ff Fg. apply finite_b2sf in Ff as (x & -> & F). apply finite_b2sf in Fg as (y & -> & G). rewrite sub_equiv. pose proof (whole_difference x y F G) as W. destruct (Bminus mode_NE x y); (reflexivity || discriminate W).
Qed.
Lemma same_day_order a b : finite_time a -> finite_time b -> whole64 a = whole64 b ->
  lt64 a b = fltb (fraction64 a) (fraction64 b) /\ eq64 a b = feqb (fraction64 a) (fraction64 b).
Proof.
  intros (Wa & Fa & _) (_ & Fb & _) W. rewrite lt64_sub. unfold eq64, sub64. rewrite <- W, fsub_self_zero by assumption.
  destruct (fsub_sign _ _ Fa Fb) as [<- <-]. pose proof (fsub_not_nan _ _ Fa Fb) as N. destruct (fsub (fraction64 a) (fraction64 b)) as [s|s| |s m e]; try discriminate N; destruct s; split; reflexivity.
Qed.
Lemma fltb_trans x y z : finite64 x -> finite64 y -> finite64 z -> fltb x y = true -> fltb y z = true -> fltb x z = true.
Proof.
  intros Fx Fy Fz. apply finite_b2sf in Fx as (a & -> & A). apply finite_b2sf in Fy as (b & -> & B). apply finite_b2sf in Fz as (c & -> & C). unfold fltb. change (SFltb (B2SF ?a) (B2SF ?b)) with (Bltb a b). rewrite !Bltb_correct by assumption.
  intros L1 L2. destruct (Rlt_bool_spec (B2R a) (B2R b)) as [H1|]; [|discriminate]. destruct (Rlt_bool_spec (B2R b) (B2R c)) as [H2|]; [|discriminate]. apply Rlt_bool_true. lra.
Qed.
Lemma feqb_trans x y z : finite64 x -> finite64 y -> finite64 z -> feqb x y = true -> feqb y z = true -> feqb x z = true.
Proof.
  intros Fx Fy Fz. apply finite_b2sf in Fx as (a & -> & A). apply finite_b2sf in Fy as (b & -> & B). apply finite_b2sf in Fz as (c & -> & C). unfold feqb. change (SFeqb (B2SF ?a) (B2SF ?b)) with (Beqb a b). rewrite !Beqb_correct by assumption.
  intros L1 L2. destruct (Req_bool_spec (B2R a) (B2R b)) as [H1|]; [|discriminate]. destruct (Req_bool_spec (B2R b) (B2R c)) as [H2|]; [|discriminate]. apply Req_bool_true. lra.
Qed.
Lemma same_day_transitive a b c : finite_time a -> finite_time b -> finite_time c -> whole64 a = whole64 b -> whole64 b = whole64 c ->
  (lt64 a b = true -> lt64 b c = true -> lt64 a c = true) /\ (eq64 a b = true -> eq64 b c = true -> eq64 a c = true).
Proof.
  intros Ta Tb Tc W1 W2. destruct (same_day_order a b Ta Tb W1) as [-> ->]. destruct (same_day_order b c Tb Tc W2) as [-> ->]. destruct (same_day_order a c Ta Tc ltac:(congruence)) as [-> ->].
  destruct Ta as (_ & Fa & _), Tb as (_ & Fb & _), Tc as (_ & Fc & _). split; [apply fltb_trans|apply feqb_trans]; assumption.
Qed.
