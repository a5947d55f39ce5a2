(** The specification floats of [Float64.v] and real numbers, through Flocq. *)
From Coq Require Import ZArith Reals Lia Lra Bool.
From Coq.Floats Require Import SpecFloat.
From Flocq Require Import Core BinarySingleNaN Plus_error.
From Verif Require Import Float64 Time_Proofs.
Open Scope Z_scope.

Global Instance Hprec : FLX.Prec_gt_0 53 := eq_refl.
Global Instance Hmax : Prec_lt_emax 53 1024 := eq_refl.
Notation bf := (binary_float 53 1024).
Notation rnd := (round radix2 (SpecFloat.fexp 53 1024) ZnearestE).
Notation bnorm := (BinarySingleNaN.binary_normalize 53 1024 Hprec Hmax mode_NE).

(** * The operations are those of Flocq *)
Lemma nearest_even_equiv s m l : round_nearest_even m l = choice_mode mode_NE s m l.
Proof. case l; [reflexivity|intro c]. case c; [ | reflexivity..]. now simpl; unfold Round.cond_incr; case Z.even. Qed.
Lemma round_aux_equiv sx mx ex lx : SpecFloat.binary_round_aux 53 1024 sx mx ex lx = BinarySingleNaN.binary_round_aux 53 1024 mode_NE sx mx ex lx.
Proof.
  unfold SpecFloat.binary_round_aux, BinarySingleNaN.binary_round_aux. set (mrse' := shr_fexp _ _ _). case mrse'; intros mrs' e'; simpl. now rewrite (nearest_even_equiv sx).
Qed.
Lemma round_equiv s m e : SpecFloat.binary_round 53 1024 s m e = BinarySingleNaN.binary_round 53 1024 mode_NE s m e.
Proof. unfold SpecFloat.binary_round, BinarySingleNaN.binary_round, shl_align_fexp. set (mez := shl_align _ _ _); case mez as [mz ez]. apply round_aux_equiv. Qed.
Lemma normalize_equiv m e z : SpecFloat.binary_normalize 53 1024 m e z = B2SF (bnorm m e z).
Proof. case m as [ | p | p]; [reflexivity| |]; simpl; rewrite B2SF_SF2B; apply round_equiv. Qed.
Lemma add_equiv (x y : bf) : fadd (B2SF x) (B2SF y) = B2SF (Bplus mode_NE x y).
Proof.
  unfold fadd. destruct x as [sx|sx| |sx mx ex Bx], y as [sy|sy| |sy my ey By]; [now (trivial || simpl; case Bool.eqb).. | ]. apply normalize_equiv.
Qed.
Lemma sub_equiv (x y : bf) : fsub (B2SF x) (B2SF y) = B2SF (Bminus mode_NE x y).
Proof.
  unfold fsub. destruct x as [sx|sx| |sx mx ex Bx], y as [sy|sy| |sy my ey By]; [now (trivial || simpl; case Bool.eqb).. | ]. simpl. unfold Zminus. rewrite <- cond_Zopp_negb. apply normalize_equiv.
Qed.
Lemma mul_equiv (x y : bf) : fmul (B2SF x) (B2SF y) = B2SF (Bmult mode_NE x y).
Proof.
  unfold fmul. destruct x as [sx|sx| |sx mx ex Bx], y as [sy|sy| |sy my ey By]; [now trivial..|]. simpl. rewrite B2SF_SF2B. apply round_aux_equiv.
Qed.
Lemma div_equiv (x y : bf) : fdiv (B2SF x) (B2SF y) = B2SF (Bdiv mode_NE x y).
Proof.
  unfold fdiv. destruct x as [sx|sx| |sx mx ex Bx], y as [sy|sy| |sy my ey By]; [now (trivial || simpl; case Bool.eqb)..|]. simpl. rewrite B2SF_SF2B. set (m := SFdiv_core_binary _ _ _ _ _ _). case m as [[mz ez] lz]. apply round_aux_equiv.
Qed.

(** * Numbers with at most 53 bits *)
Definition small (m e : Z) : Prop := Z.abs m <= 2 ^ 53 /\ -1074 <= e <= 900.
Lemma small_format m e : small m e -> generic_format radix2 (SpecFloat.fexp 53 1024) (F2R (Float radix2 m e)).
Proof.
  intros [Hm He]. destruct (Z.eq_dec (Z.abs m) (2 ^ 53)) as [E|N].
  - assert (X : F2R (Float radix2 m e) = F2R (Float radix2 (m / 2) (e + 1))).
    { unfold F2R. cbn [Fnum Fexp]. rewrite bpow_plus. assert (m = 2 * (m / 2)) by (destruct (Z.abs_eq_or_opp m) as [Q|Q]; rewrite Q in E; [subst m|replace m with (- 2 ^ 53) by lia]; reflexivity). rewrite H at 1. rewrite mult_IZR. cbn. ring. }
    rewrite X. apply generic_format_FLT. exists (Float radix2 (m / 2) (e + 1)); [reflexivity| |]; cbn [Fnum Fexp]; [|unfold emin; lia].
    change (Zpower radix2 53) with (2 ^ 53). destruct (Z.abs_eq_or_opp m) as [Q|Q]; rewrite Q in E; [subst m|replace m with (- 2 ^ 53) by lia]; reflexivity.
  - apply generic_format_FLT. exists (Float radix2 m e); [reflexivity| |]; cbn [Fnum Fexp]; [|unfold emin; lia]. change (Zpower radix2 53) with (2 ^ 53). lia.
Qed.
Notation modest x := (Rabs x < bpow radix2 1007)%R.
Lemma F2R_modest m e : Z.abs m < 2 ^ 107 -> e <= 900 -> modest (F2R (Float radix2 m e)).
Proof.
  intros Hm He. apply Rlt_le_trans with (bpow radix2 (107 + e)); [apply F2R_lt_bpow; cbn [Fnum Fexp]; replace (107 + e - e) with 107 by lia; exact Hm|apply bpow_le; lia].
Qed.
Lemma round_lt x : modest x -> Rlt_bool (Rabs (rnd x)) (bpow radix2 1024) = true.
Proof.
  intros H. apply Rlt_bool_true. apply Rle_lt_trans with (bpow radix2 1007); [|apply bpow_lt; reflexivity].
  apply abs_round_le_generic; [apply (fexp_correct 53 1024); reflexivity|apply valid_rnd_N|apply (generic_format_bpow radix2 (SpecFloat.fexp 53 1024)); unfold SpecFloat.fexp, emin; lia|lra].
Qed.
Lemma sign_F2R m e : match Rcompare (F2R (Float radix2 m e)) 0 with Lt => true | _ => false end = (m <? 0).
Proof.
  destruct (Z.ltb_spec m 0) as [L|L].
  - rewrite Rcompare_Lt; [reflexivity|]. apply F2R_lt_0. assumption.
  - destruct (Z.eq_dec m 0) as [->|N]; [rewrite F2R_0, Rcompare_Eq; reflexivity|]. rewrite Rcompare_Gt; [reflexivity|]. apply F2R_gt_0. cbn. lia.
Qed.
Lemma bnorm_gen m e : modest (F2R (Float radix2 m e)) ->
  B2R (bnorm m e false) = rnd (F2R (Float radix2 m e)) /\ is_finite (bnorm m e false) = true /\ Bsign (bnorm m e false) = (m <? 0).
Proof.
  intros Hm. pose proof (binary_normalize_correct 53 1024 Hprec Hmax mode_NE m e false) as C. cbv zeta in C. cbn [round_mode] in C. rewrite round_lt in C by assumption. destruct C as (C1 & C2 & C3). repeat split; try assumption.
  rewrite C3, <- (sign_F2R m e). destruct (Rcompare _ _); reflexivity.
Qed.
Lemma bnorm_spec m e : Z.abs m < 2 ^ 107 -> e <= 900 ->
  B2R (bnorm m e false) = rnd (F2R (Float radix2 m e)) /\ is_finite (bnorm m e false) = true /\ Bsign (bnorm m e false) = (m <? 0).
Proof. intros Hm He. apply bnorm_gen, F2R_modest; assumption. Qed.
Lemma bnorm_small m e : small m e -> B2R (bnorm m e false) = F2R (Float radix2 m e).
Proof. intros S. destruct (bnorm_spec m e) as (-> & _); [destruct S; lia|apply S|]. apply round_generic; [apply valid_rnd_N|]. apply small_format. assumption. Qed.
Lemma fl_bnorm m e : fl m e = B2SF (bnorm m e false). Proof. apply normalize_equiv. Qed.
Lemma same (x y : bf) : is_finite x = true -> is_finite y = true -> B2R x = B2R y -> Bsign x = Bsign y -> x = y.
Proof. intros. apply B2R_Bsign_inj; assumption. Qed.
Lemma F2R_plus_same m m' e : (F2R (Float radix2 m e) + F2R (Float radix2 m' e))%R = F2R (Float radix2 (m + m') e).
Proof. unfold F2R. cbn. rewrite plus_IZR. ring. Qed.
Lemma F2R_minus_same m m' e : (F2R (Float radix2 m e) - F2R (Float radix2 m' e))%R = F2R (Float radix2 (m - m') e).
Proof. unfold F2R. cbn. rewrite minus_IZR. ring. Qed.
Lemma F2R_mult_same m m' e e' : (F2R (Float radix2 m e) * F2R (Float radix2 m' e'))%R = F2R (Float radix2 (m * m') (e + e')).
Proof. unfold F2R. cbn. rewrite mult_IZR, bpow_plus. ring. Qed.
Lemma fadd_fl m m' e : small m e -> small m' e -> fadd (fl m e) (fl m' e) = fl (m + m') e.
Proof.
  intros S S'. rewrite !fl_bnorm, add_equiv. f_equal. pose proof (bnorm_small _ _ S) as R1. pose proof (bnorm_small _ _ S') as R2.
  destruct (bnorm_spec m e) as (_ & F1 & G1); [destruct S; lia|apply S|]. destruct (bnorm_spec m' e) as (_ & F2 & G2); [destruct S'; lia|apply S|]. destruct (bnorm_spec (m + m') e) as (R3 & F3 & G3); [destruct S, S'; lia|apply S|].
  pose proof (Bplus_correct 53 1024 Hprec Hmax mode_NE _ _ F1 F2) as C. cbn [round_mode] in C. rewrite R1, R2, F2R_plus_same in C. rewrite round_lt in C by (apply F2R_modest; [destruct S, S'; lia|apply S]). destruct C as (C1 & C2 & C3).
  apply same; [assumption|assumption|congruence|]. rewrite C3, G1, G2, G3, <- (sign_F2R (m + m') e). destruct (Rcompare _ _) eqn:Q; try reflexivity. apply Rcompare_Eq_inv in Q. apply eq_0_F2R in Q.
  destruct (Z.ltb_spec m 0), (Z.ltb_spec m' 0), (Z.ltb_spec (m + m') 0); try reflexivity; lia.
Qed.
Lemma fsub_fl m m' e : small m e -> small m' e -> fsub (fl m e) (fl m' e) = fl (m - m') e.
Proof.
  intros S S'. rewrite !fl_bnorm, sub_equiv. f_equal. pose proof (bnorm_small _ _ S) as R1. pose proof (bnorm_small _ _ S') as R2.
  destruct (bnorm_spec m e) as (_ & F1 & G1); [destruct S; lia|apply S|]. destruct (bnorm_spec m' e) as (_ & F2 & G2); [destruct S'; lia|apply S|]. destruct (bnorm_spec (m - m') e) as (R3 & F3 & G3); [destruct S, S'; lia|apply S|].
  pose proof (Bminus_correct 53 1024 Hprec Hmax mode_NE _ _ F1 F2) as C. cbn [round_mode] in C. rewrite R1, R2, F2R_minus_same in C. rewrite round_lt in C by (apply F2R_modest; [destruct S, S'; lia|apply S]). destruct C as (C1 & C2 & C3).
  apply same; [assumption|assumption|congruence|]. rewrite C3, G1, G2, G3, <- (sign_F2R (m - m') e). destruct (Rcompare _ _) eqn:Q; try reflexivity. apply Rcompare_Eq_inv in Q. apply eq_0_F2R in Q.
  destruct (Z.ltb_spec m 0), (Z.ltb_spec m' 0), (Z.ltb_spec (m - m') 0); try reflexivity; lia.
Qed.
Lemma fmul_fl m m' e e' : small m e -> small m' e' -> -1074 <= e + e' <= 900 -> (m * m' = 0 -> 0 <= m /\ 0 <= m') -> fmul (fl m e) (fl m' e') = fl (m * m') (e + e').
Proof.
  intros S S' He Hz. rewrite !fl_bnorm, mul_equiv. f_equal. pose proof (bnorm_small _ _ S) as R1. pose proof (bnorm_small _ _ S') as R2.
  assert (Pm : Z.abs (m * m') < 2 ^ 107) by (rewrite Z.abs_mul; destruct S, S'; nia).
  destruct (bnorm_spec m e) as (_ & F1 & G1); [destruct S; lia|apply S|]. destruct (bnorm_spec m' e') as (_ & F2 & G2); [destruct S'; lia|apply S'|]. destruct (bnorm_spec (m * m') (e + e')) as (R3 & F3 & G3); [assumption|lia|].
  pose proof (Bmult_correct 53 1024 Hprec Hmax mode_NE (bnorm m e false) (bnorm m' e' false)) as C. cbn [round_mode] in C. rewrite R1, R2, F2R_mult_same in C. rewrite round_lt in C by (apply F2R_modest; [assumption|lia]). destruct C as (C1 & C2 & C3). rewrite F1, F2 in C2.
  apply same; [assumption|assumption|congruence|]. rewrite C3, G1, G2, G3.
  - destruct (Z.ltb_spec m 0), (Z.ltb_spec m' 0), (Z.ltb_spec (m * m') 0); try reflexivity; exfalso; nia.
  - destruct (Bmult _ _ _); try reflexivity; discriminate C2.
Qed.

Lemma F2R_div k e m' e' : m' <> 0 -> F2R (Float radix2 k (e - e')) = (F2R (Float radix2 (k * m') e) / F2R (Float radix2 m' e'))%R.
Proof. intros H. unfold F2R. cbn [Fnum Fexp]. rewrite mult_IZR. replace (bpow radix2 e) with (bpow radix2 (e - e') * bpow radix2 e')%R by (rewrite <- bpow_plus; f_equal; lia). field. split; [apply Rgt_not_eq, bpow_gt_0|apply IZR_neq; assumption]. Qed.
(** Exact division by a positive number. *)
Lemma fdiv_fl k m' e e' : small (k * m') e -> small m' e' -> 0 < m' -> -1074 <= e - e' <= 900 -> fdiv (fl (k * m') e) (fl m' e') = fl k (e - e').
Proof.
  intros S S' P He. rewrite !fl_bnorm, div_equiv. f_equal. pose proof (bnorm_small _ _ S) as R1. pose proof (bnorm_small _ _ S') as R2.
  assert (Pk : Z.abs k < 2 ^ 107) by (destruct S as [S _]; rewrite Z.abs_mul in S; nia).
  destruct (bnorm_spec (k * m') e) as (_ & F1 & G1); [destruct S; lia|apply S|]. destruct (bnorm_spec m' e') as (_ & F2 & G2); [destruct S'; lia|apply S'|]. destruct (bnorm_spec k (e - e')) as (R3 & F3 & G3); [assumption|lia|].
  pose proof (Bdiv_correct 53 1024 Hprec Hmax mode_NE (bnorm (k * m') e false) (bnorm m' e' false)) as C. cbn [round_mode] in C. rewrite R1, R2, <- F2R_div in C by lia. rewrite round_lt in C by (apply F2R_modest; [assumption|lia]).
  destruct C as (C1 & C2 & C3); [apply Rgt_not_eq, F2R_gt_0; assumption|]. rewrite F1 in C2.
  apply same; [assumption|assumption|congruence|]. rewrite C3, G1, G2, G3.
  - destruct (Z.ltb_spec (k * m') 0), (Z.ltb_spec m' 0), (Z.ltb_spec k 0); try reflexivity; exfalso; nia.
  - destruct (Bdiv _ _ _); try reflexivity; discriminate C2.
Qed.
(** The same number written twice. *)
Lemma fl_same m e m' e' : modest (F2R (Float radix2 m e)) -> F2R (Float radix2 m e) = F2R (Float radix2 m' e') -> fl m e = fl m' e'.
Proof.
  intros H E. rewrite !fl_bnorm. f_equal. destruct (bnorm_gen m e H) as (A & B & C). destruct (bnorm_gen m' e') as (A' & B' & C'); [rewrite <- E; assumption|].
  apply same; [assumption|assumption|congruence|]. rewrite C, C', <- (sign_F2R m e), <- (sign_F2R m' e'), E. reflexivity.
Qed.
Lemma F2R_shift m e k : 0 <= k -> F2R (Float radix2 (m * 2 ^ k) e) = F2R (Float radix2 m (e + k)).
Proof. intros H. unfold F2R. cbn [Fnum Fexp]. rewrite mult_IZR, bpow_plus. change 2 with (radix_val radix2). rewrite IZR_Zpower by assumption. ring. Qed.
Lemma fl_shift m e k : Z.abs m < 2 ^ 107 -> e + k <= 900 -> 0 <= k -> fl (m * 2 ^ k) e = fl m (e + k).
Proof. intros H1 H2 H3. symmetry. apply fl_same; [apply F2R_modest; assumption|]. symmetry. apply F2R_shift. assumption. Qed.

(** The structure of a non-zero number of at most 53 bits. *)
Lemma fl_struct m e : small m e -> m <> 0 -> exists p q, fl m e = S754_finite (m <? 0) p q /\ F2R (Float radix2 (Zpos p) q) = F2R (Float radix2 (Z.abs m) e).
Proof.
  intros S N. pose proof (bnorm_small _ _ S) as R. destruct (bnorm_spec m e) as (_ & F & G); [destruct S; lia|apply S|]. rewrite fl_bnorm. destruct (bnorm m e false) as [s|s| |s p q B]; try discriminate F.
  - exfalso. cbn in R. symmetry in R. apply eq_0_F2R in R. contradiction.
  - cbn in G. subst s. exists p, q. split; [reflexivity|]. cbn [B2R] in R. destruct (Z.ltb_spec m 0); cbn [cond_Zopp] in R.
    + rewrite (Z.abs_neq m) by lia. rewrite !(F2R_Zopp radix2) in *. lra.
    + rewrite (Z.abs_eq m) by lia. exact R.
Qed.
Lemma F2R_common m e m' e' : F2R (Float radix2 m e) = F2R (Float radix2 m' e') -> forall k, k <= e -> k <= e' -> m * 2 ^ (e - k) = m' * 2 ^ (e' - k).
Proof.
  intros E k H H'. replace e with (k + (e - k)) in E by lia. replace e' with (k + (e' - k)) in E by lia. rewrite <- !F2R_shift in E by lia. apply eq_F2R in E. assumption.
Qed.
Lemma fl_zero e : fl 0 e = S754_zero false. Proof. reflexivity. Qed.
Lemma is_zero_fl m e : small m e -> is_zero (fl m e) = (m =? 0).
Proof. intros S. destruct (Z.eqb_spec m 0) as [->|N]; [reflexivity|]. destruct (fl_struct m e S N) as (p & q & -> & _). reflexivity. Qed.



Lemma fltb_fl m m' e : small m e -> small m' e -> fltb (fl m e) (fl m' e) = (m <? m').
Proof.
  intros S S'. pose proof (bnorm_small _ _ S) as R1. pose proof (bnorm_small _ _ S') as R2.
  destruct (bnorm_spec m e) as (_ & F1 & _); [destruct S; lia|apply S|]. destruct (bnorm_spec m' e) as (_ & F2 & _); [destruct S'; lia|apply S'|].
  rewrite !fl_bnorm. unfold fltb. change (SFltb (B2SF ?a) (B2SF ?b)) with (Bltb a b). rewrite Bltb_correct by assumption. rewrite R1, R2.
  destruct (Z.ltb_spec m m') as [L|L]; [apply Rlt_bool_true, Float_prop.F2R_lt; assumption|apply Rlt_bool_false, F2R_le; assumption].
Qed.
Lemma feqb_fl m m' e : small m e -> small m' e -> feqb (fl m e) (fl m' e) = (m =? m').
Proof.
  intros S S'. pose proof (bnorm_small _ _ S) as R1. pose proof (bnorm_small _ _ S') as R2.
  destruct (bnorm_spec m e) as (_ & F1 & _); [destruct S; lia|apply S|]. destruct (bnorm_spec m' e) as (_ & F2 & _); [destruct S'; lia|apply S'|].
  rewrite !fl_bnorm. unfold feqb. change (SFeqb (B2SF ?a) (B2SF ?b)) with (Beqb a b). rewrite Beqb_correct by assumption. rewrite R1, R2.
  destruct (Z.eqb_spec m m') as [->|L]; [apply Req_bool_true; reflexivity|apply Req_bool_false]. intros Q. apply eq_F2R in Q. contradiction.
Qed.
Lemma struct_cross m e p q : m <> 0 -> F2R (Float radix2 (Zpos p) q) = F2R (Float radix2 (Z.abs m) e) ->
  F2R (Float radix2 (if m <? 0 then Zneg p else Zpos p) q) = F2R (Float radix2 m e).
Proof.
  intros N E. destruct (Z.ltb_spec m 0).
  - rewrite (Z.abs_neq m) in E by lia. rewrite F2R_Zopp in E. change (Z.neg p) with (- Z.pos p). rewrite F2R_Zopp. lra.
  - rewrite (Z.abs_eq m) in E by lia. assumption.
Qed.
Lemma scaled (f : Z -> Z -> Z) m e z q : (forall a b c d, 0 < b -> 0 < d -> a * d = c * b -> f a b = f c d) -> (forall a, f a 1 = a) ->
  e <= 0 -> F2R (Float radix2 z q) = F2R (Float radix2 m e) ->
  (if 0 <=? q then z * 2 ^ q else f z (2 ^ (- q))) = f m (2 ^ (- e)).
Proof.
  intros Hf H1 He E. destruct (Z.leb_spec 0 q) as [L|L].
  - rewrite <- (H1 (z * 2 ^ q)). apply Hf; [lia|apply Z.pow_pos_nonneg; lia|]. pose proof (F2R_common _ _ _ _ E e ltac:(lia) ltac:(lia)) as C. rewrite Z.sub_diag, Z.pow_0_r in C. rewrite <- Z.mul_assoc, <- Z.pow_add_r by lia. replace (q + - e) with (q - e) by lia. lia.
  - apply Hf; [apply Z.pow_pos_nonneg; lia|apply Z.pow_pos_nonneg; lia|]. pose proof (F2R_common _ _ _ _ E (q + e) ltac:(lia) ltac:(lia)) as C. replace (q - (q + e)) with (- e) in C by lia. replace (e - (q + e)) with (- q) in C by lia. assumption.
Qed.
Lemma ffloorZ_fl m e : small m e -> e <= 0 -> ffloorZ (fl m e) = m / 2 ^ (- e).
Proof.
  intros S He. destruct (Z.eq_dec m 0) as [->|N]; [rewrite Z.div_0_l; [reflexivity|apply Z.pow_nonzero; lia]|]. destruct (fl_struct m e S N) as (p & q & -> & E). cbn [ffloorZ].
  apply (scaled Z.div); [apply div_cross|apply Z.div_1_r|assumption|apply struct_cross; assumption].
Qed.
Lemma ftruncZ_fl m e : small m e -> e <= 0 -> ftruncZ (fl m e) = Z.quot m (2 ^ (- e)).
Proof.
  intros S He. destruct (Z.eq_dec m 0) as [->|N]; [rewrite Z.quot_0_l; [reflexivity|apply Z.pow_nonzero; lia]|]. destruct (fl_struct m e S N) as (p & q & -> & E). cbn [ftruncZ].
  apply (scaled Z.quot); [apply quot_cross|apply Z.quot_1_r|assumption|apply struct_cross; assumption].
Qed.
Lemma ffmod_fl m m' e : small m e -> small m' e -> 0 < m' ->
  ffmod (fl m e) (fl m' e) = if Z.rem m m' =? 0 then S754_zero (m <? 0) else fl (Z.rem m m') e.
Proof.
  intros S S' P. destruct (fl_struct m' e S') as (p' & q' & E' & V'); [lia|]. destruct (Z.eq_dec m 0) as [->|N]; [rewrite E'; reflexivity|].
  destruct (fl_struct m e S N) as (p & q & E & V). rewrite E, E'. cbn [ffmod]. rewrite Z.abs_eq in V' by lia.
  set (k := Z.min q q'). set (K := Z.min k e). assert (HK : K <= k /\ K <= e /\ K <= q /\ K <= q') by lia. assert (Hk : k <= q /\ k <= q') by lia.
  set (r := Z.rem (Z.pos p * 2 ^ (q - k)) (Z.pos p' * 2 ^ (q' - k))).
  pose proof (F2R_common _ _ _ _ V K ltac:(lia) ltac:(lia)) as A. pose proof (F2R_common _ _ _ _ V' K ltac:(lia) ltac:(lia)) as A'.
  assert (Pk : forall x, 0 <= x -> 0 < 2 ^ x) by (intros; apply Z.pow_pos_nonneg; lia).
  assert (R : r * 2 ^ (k - K) = Z.rem (Z.abs m) m' * 2 ^ (e - K)).
  { pose proof (Pk (k - K) ltac:(lia)). pose proof (Pk (e - K) ltac:(lia)). pose proof (Pk (q' - k) ltac:(lia)). unfold r. rewrite <- !Z.mul_rem_distr_r by nia.
    rewrite <- !Z.mul_assoc, <- !Z.pow_add_r by lia. replace (q - k + (k - K)) with (q - K) by lia. replace (q' - k + (k - K)) with (q' - K) by lia. rewrite A, A'. reflexivity. }
  assert (Z0 : (r =? 0) = (Z.rem m m' =? 0)).
  { pose proof (Pk (k - K) ltac:(lia)). pose proof (Pk (e - K) ltac:(lia)). rewrite Z.rem_abs_l in R by lia. destruct (Z.eqb_spec r 0) as [Q|Q], (Z.eqb_spec (Z.rem m m') 0) as [Q'|Q']; try reflexivity; exfalso; [rewrite Q in R|rewrite Q' in R]; cbn in R; nia. }
  rewrite Z0. destruct (Z.rem m m' =? 0) eqn:Qz; [reflexivity|]. symmetry.
  assert (Hr : Z.abs (Z.rem m m') < m') by (pose proof (Z.rem_bound_abs m m' ltac:(lia)); lia).
  apply fl_same; [apply F2R_modest; [destruct S'; lia|apply S]|].
  assert (W : F2R (Float radix2 r k) = F2R (Float radix2 (Z.rem (Z.abs m) m') e)).
  { replace k with (K + (k - K)) by lia. replace e with (K + (e - K)) at 1 by lia. rewrite <- !F2R_shift by lia. rewrite R. reflexivity. }
  destruct (Z.ltb_spec m 0).
  - rewrite F2R_Zopp, W. rewrite (Z.abs_neq m) by lia. rewrite Z.rem_opp_l by lia. rewrite F2R_Zopp. ring.
  - rewrite W, (Z.abs_eq m) by lia. reflexivity.
Qed.

Lemma fsub_zero m e s : small m e -> m <> 0 -> fsub (fl m e) (S754_zero s) = fl m e.
Proof. intros S N. destruct (fl_struct m e S N) as (p & q & -> & _). reflexivity. Qed.
Lemma quot_floor m m' : 0 < m' -> Z.rem m m' = 0 \/ 0 < Z.rem m m' -> m / m' = Z.quot m m' /\ m mod m' = Z.rem m m'.
Proof.
  intros P H. pose proof (Z.quot_rem m m' ltac:(lia)) as E. pose proof (Z.rem_bound_abs m m' ltac:(lia)) as B.
  assert (m / m' = Z.quot m m') by (symmetry; apply (Z.div_unique_pos m m' _ (Z.rem m m')); lia). split; [assumption|]. rewrite Z.mod_eq by lia. lia.
Qed.
Lemma quot_floor_neg m m' : 0 < m' -> Z.rem m m' < 0 -> m / m' = Z.quot m m' - 1 /\ m mod m' = Z.rem m m' + m'.
Proof.
  intros P H. pose proof (Z.quot_rem m m' ltac:(lia)) as E. pose proof (Z.rem_bound_abs m m' ltac:(lia)) as B.
  assert (m / m' = Z.quot m m' - 1) by (symmetry; apply (Z.div_unique_pos m m' _ (Z.rem m m' + m')); lia). split; [assumption|]. rewrite Z.mod_eq by lia. lia.
Qed.
Definition floordiv (div : b64) : b64 :=
  if is_zero div then div
  else let f := ffloor div in if fltb (fl 1 (-1)) (fsub div f) then fadd f (of_Z 1) else f.
Lemma floordiv_int k : Z.abs k <= 2 ^ 52 -> floordiv (fl k 0) = fl k 0.
Proof.
  intros B. assert (S : small k 0) by (split; lia). unfold floordiv. rewrite is_zero_fl by assumption. destruct (Z.eqb_spec k 0) as [->|N]; [reflexivity|].
  assert (F : ffloor (fl k 0) = fl k 0). { unfold ffloor. destruct (fl_struct k 0 S N) as (p & q & E & _). rewrite E at 1. rewrite ffloorZ_fl by (assumption || lia). cbn [Z.opp]. rewrite Z.pow_0_r, Z.div_1_r. reflexivity. }
  cbv zeta. rewrite F, fsub_fl by assumption. rewrite Z.sub_diag. reflexivity.
Qed.
(** [divmod] is exact on multiples of one power of two, for a positive divisor. *)
Lemma fdivmod_fl m m' e : Z.abs m <= 2 ^ 51 -> 0 < m' <= 2 ^ 51 -> -1000 <= e <= 0 ->
  fdivmod (fl m e) (fl m' e) = (of_Z (m / m'), fl (m mod m') e).
Proof.
  intros B B' He. assert (S : small m e) by (split; lia). assert (S' : small m' e) by (split; lia).
  pose proof (Z.quot_rem m m' ltac:(lia)) as E. pose proof (Z.rem_bound_abs m m' ltac:(lia)) as Rb.
  assert (Kb : Z.abs (Z.quot m m') <= 2 ^ 51). { rewrite <- Z.quot_abs by lia. rewrite (Z.abs_eq m') by lia. apply Z.le_trans with (Z.abs m); [apply Z.quot_le_upper_bound; nia|lia]. }
  assert (Neg : forall x, small x e -> is_neg (fl x e) = (x <? 0)). { intros x Sx. unfold is_neg, of_Z. rewrite fl_zero, <- (fl_zero e). apply fltb_fl; [assumption|split; lia]. }
  unfold fdivmod. rewrite ffmod_fl by (assumption || lia). rewrite (Neg m' S'). assert (Nb : (m' <? 0) = false) by lia. rewrite Nb.
  change (fun div : b64 => if is_zero div then div else let f := ffloor div in if fltb (fl 1 (-1)) (fsub div f) then fadd f (of_Z 1) else f) with floordiv.
  destruct (Z.eqb_spec (Z.rem m m') 0) as [Z0|N0].
  - destruct (quot_floor m m') as (D & M); [lia|left; assumption|]. cbn [is_zero fabs SFabs].
    assert (Q : fdiv (fsub (fl m e) (S754_zero (m <? 0))) (fl m' e) = fl (Z.quot m m') 0).
    { replace (fsub (fl m e) (S754_zero (m <? 0))) with (fl (Z.quot m m' * m') e).
      - rewrite fdiv_fl; [f_equal; lia|split; lia|assumption|lia|lia].
      - destruct (Z.eq_dec m 0) as [->|Nm]; [rewrite Z.quot_0_l by lia; reflexivity|]. rewrite fsub_zero by assumption. f_equal. lia. }
    cbv zeta. rewrite Q. fold (floordiv (fl (Z.quot m m') 0)). change (if is_zero ?d then ?d else _) with (floordiv d). rewrite floordiv_int by lia. rewrite D, M, Z0. reflexivity.
  - assert (Sr : small (Z.rem m m') e) by (split; lia).
    assert (Q : fdiv (fsub (fl m e) (fl (Z.rem m m') e)) (fl m' e) = fl (Z.quot m m') 0).
    { rewrite fsub_fl by assumption. replace (m - Z.rem m m') with (Z.quot m m' * m') by lia. rewrite fdiv_fl; [f_equal; lia|split; lia|assumption|lia|lia]. }
    cbv zeta. rewrite is_zero_fl by assumption. destruct (Z.eqb_spec (Z.rem m m') 0) as [|_]; [contradiction|]. rewrite Q, (Neg _ Sr). cbn [xorb]. destruct (Z.ltb_spec (Z.rem m m') 0) as [L|L].
    + destruct (quot_floor_neg m m') as (D & M); [lia|assumption|]. rewrite fadd_fl by assumption. change (of_Z 1) with (fl 1 0). rewrite fsub_fl by (split; lia).
      change (if is_zero ?d then ?d else _) with (floordiv d). rewrite floordiv_int by lia. rewrite D, M. reflexivity.
    + destruct (quot_floor m m') as (D & M); [lia|right; lia|]. change (if is_zero ?d then ?d else _) with (floordiv d). rewrite floordiv_int by lia. rewrite D, M. reflexivity.
Qed.
