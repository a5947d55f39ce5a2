(** Identities of the angle between two vectors that hold bit by bit. *)
From Coq Require Import ZArith Reals Lia Lra Psatz Bool.
From Coq.Floats Require Import SpecFloat.
From Flocq Require Import Core BinarySingleNaN.
From Verif Require Import Float64 Float64_Proofs Float_Time_Proofs4 Real_Math Vector_Model Vector_Proofs2 Geo_Model Geo_Proofs Wrap_Model Measure_Model Wrap_Proofs2 SepF_Model SepF_Spec SepF_Proofs SepF_Proofs2.
Open Scope Z_scope.

Lemma square_abs z : fmul z z = fmul (SFabs z) (SFabs z).
Proof. destruct z as [s|s| |s m e]; try reflexivity; unfold fmul, SFmul, SFabs; cbn; rewrite ?xorb_nilpotent; reflexivity. Qed.
Lemma round_aux_abs s s' m e l : SFabs (SpecFloat.binary_round_aux 53 1024 s m e l) = SFabs (SpecFloat.binary_round_aux 53 1024 s' m e l).
Proof.
  unfold SpecFloat.binary_round_aux. destruct (SpecFloat.shr_fexp _ _ _ _ _) as [r k]. destruct (SpecFloat.shr_fexp _ _ _ _ _) as [r' k']. destruct (shr_m r'); try reflexivity. destruct (Zle_bool k' _); reflexivity.
Qed.
Lemma round_abs s s' m e : SFabs (SpecFloat.binary_round 53 1024 s m e) = SFabs (SpecFloat.binary_round 53 1024 s' m e).
Proof. unfold SpecFloat.binary_round. destruct (SpecFloat.shl_align _ _ _). apply round_aux_abs. Qed.
Lemma normalize_abs m e z z' : SFabs (SpecFloat.binary_normalize 53 1024 m e z) = SFabs (SpecFloat.binary_normalize 53 1024 (- m) e z').
Proof. destruct m; cbn [Z.opp SpecFloat.binary_normalize]; [reflexivity| |]; apply round_abs. Qed.
Lemma sub_abs x y : SFabs (fsub x y) = SFabs (fsub y x).
Proof.
  destruct x as [s|s| |s m e], y as [s'|s'| |s' m' e']; try reflexivity; try (destruct s, s'; reflexivity). unfold fsub, SFsub. rewrite (Z.min_comm e' e). rewrite (normalize_abs _ _ false false). do 2 f_equal. ring.
Qed.
Lemma add_sym x y : fadd x y = fadd y x.
Proof.
  destruct x as [s|s| |s m e], y as [s'|s'| |s' m' e']; try reflexivity; try (destruct s, s'; reflexivity). unfold fadd, SFadd. rewrite (Z.min_comm e' e). f_equal. ring.
Qed.
Lemma length_abs p : length64 p = length64 (F3 (SFabs (fx p)) (SFabs (fy p)) (SFabs (fz p))).
Proof. unfold length64. cbn [fx fy fz]. rewrite (square_abs (fx p)), (square_abs (fy p)), (square_abs (fz p)). reflexivity. Qed.
Lemma minus_sym a b : length64 (fminus a b) = length64 (fminus b a).
Proof. rewrite (length_abs (fminus a b)), (length_abs (fminus b a)). unfold fminus. cbn [fx fy fz]. rewrite (sub_abs (fx a)), (sub_abs (fy a)), (sub_abs (fz a)). reflexivity. Qed.
Lemma plus_sym a b : fplus a b = fplus b a.
Proof. unfold fplus. rewrite (add_sym (fx a)), (add_sym (fy a)), (add_sym (fz a)). reflexivity. Qed.
Lemma angle64_sym f p q : angle_between64 f p q = angle_between64 f q p.
Proof. unfold angle_between64. cbv zeta. rewrite (minus_sym (fscale p _)), (plus_sym (fscale p _)). reflexivity. Qed.

(** ** A vector and itself, and its opposite *)
Lemma sub_self (x : bf) : is_finite x = true -> fsub (B2SF x) (B2SF x) = S754_zero false.
Proof. intros F. destruct x as [s|s| |s m e B]; try discriminate; [destruct s; reflexivity|]. unfold fsub, SFsub, B2SF. rewrite Z.sub_diag. reflexivity. Qed.
Lemma add_opp (x : bf) : is_finite x = true -> fadd (B2SF x) (fneg (B2SF x)) = S754_zero false.
Proof.
  intros F. destruct x as [s|s| |s m e B]; try discriminate; [destruct s; reflexivity|]. unfold fadd, SFadd, fneg, SFopp, B2SF. rewrite Z.min_id. replace (SpecFloat.cond_Zopp s _ + SpecFloat.cond_Zopp (negb s) _) with 0; [reflexivity|]. destruct s; cbn [negb SpecFloat.cond_Zopp]; ring.
Qed.
Lemma abs_neg x : SFabs (fneg x) = SFabs x. Proof. destruct x; reflexivity. Qed.
Lemma length_opp p : length64 (fopp p) = length64 p.
Proof. rewrite (length_abs (fopp p)), (length_abs p). unfold fopp. cbn [fx fy fz]. rewrite !abs_neg. reflexivity. Qed.
Lemma round_opp s m e l : SpecFloat.binary_round_aux 53 1024 (negb s) m e l = fneg (SpecFloat.binary_round_aux 53 1024 s m e l).
Proof.
  unfold SpecFloat.binary_round_aux. destruct (SpecFloat.shr_fexp _ _ _ _ _) as [r k]. destruct (SpecFloat.shr_fexp _ _ _ _ _) as [r' k']. destruct (shr_m r'); try reflexivity. destruct (Zle_bool k' _); reflexivity.
Qed.
Lemma mul_opp x y : fmul (fneg x) y = fneg (fmul x y).
Proof.
  destruct x as [s|s| |s m e], y as [s'|s'| |s' m' e']; try reflexivity; try (destruct s, s'; reflexivity). unfold fmul, SFmul, fneg, SFopp. rewrite <- negb_xorb_l. apply round_opp.
Qed.
Lemma scale_opp p k : fscale (fopp p) k = fopp (fscale p k).
Proof. unfold fscale, fopp. cbn [fx fy fz]. rewrite !mul_opp. reflexivity. Qed.
Lemma zero_length : length64 (F3 (S754_zero false) (S754_zero false) (S754_zero false)) = S754_zero false. Proof. reflexivity. Qed.
Open Scope R_scope.
(** The float of twice a vector's own product is not zero. *)
Lemma own_product p w : stands_for p w -> ordinary w -> exists a, stands_for (fscale p (length64 p)) a /\ bpow radix2 (-401) <= vlength a <= bpow radix2 401.
Proof.
  intros S O. destruct (crosswise p w p w S S O O) as (a & Sa & Va). exists a. split; [exact Sa|]. pose proof (by_difference a (smul (vlength w) w)) as T1. pose proof (by_difference (smul (vlength w) w) a) as T2. rewrite (sub_sym (smul _ _) a) in T2.
  pose proof (vlength_pos w) as P. rewrite smul_length, (Rabs_pos_eq _ P) in T1, T2. destruct O as [L U]. rewrite pow_bpow in L, U. pose proof eps_small as E. set (k := vlength w) in *.
  assert (K1 : bpow radix2 (-400) <= k * k). { replace (-400)%Z with (- Z.of_nat 200 + - Z.of_nat 200)%Z by reflexivity. rewrite bpow_plus, !bpow_opp. apply Rmult_le_compat; try assumption; apply Rlt_le, Rinv_0_lt_compat, bpow_gt_0. }
  assert (K2 : k * k <= bpow radix2 400). { change 400%Z with (Z.of_nat 200 + Z.of_nat 200)%Z. rewrite bpow_plus. apply Rmult_le_compat; assumption. }
  assert (Ks : 0 <= SexaF_Proofs2.eps * (k * k) <= / 1000000000000000 * (k * k)) by (split; [apply Rmult_le_pos; [lra|nra]|apply Rmult_le_compat_r; [nra|lra]]).
  replace (bpow radix2 (-401)) with (bpow radix2 (-400) * / 2) by (replace (-401)%Z with (-400 + -1)%Z by reflexivity; rewrite bpow_plus; reflexivity). replace (bpow radix2 401) with (bpow radix2 400 * 2) by (replace 401%Z with (400 + 1)%Z by reflexivity; rewrite bpow_plus; reflexivity). set (z := vlength (vsub a _)) in *. clearbody z. lra.
Qed.
Lemma double_length a p : stands_for p a -> bpow radix2 (-401) <= vlength a <= bpow radix2 401 -> exists b : bf, length64 (fplus p p) = B2SF b /\ is_finite b = true /\ 0 < B2R b.
Proof.
  intros S [L U]. pose proof eps_small as E. assert (D : vlength (vadd a a) = 2 * vlength a). { replace (vadd a a) with (smul 2 a) by (apply vec_eq; cbn; ring). rewrite smul_length, Rabs_pos_eq by lra. reflexivity. }
  assert (U9 : 4 * bpow radix2 401 <= bpow radix2 450) by (change 4 with (bpow radix2 2); rewrite <- bpow_plus; apply bpow_le; lia). assert (U8 : bpow radix2 450 <= bpow radix2 1000) by (apply bpow_le; lia).
  pose proof (bpow_gt_0 radix2 401) as G4. pose proof (bpow_gt_0 radix2 (-401)) as G5.
  destruct (sum_vector p p a a S S) as (s & Ss & Vs); [lra|]. rewrite D in Vs. pose proof (by_difference s (vadd a a)) as T1. pose proof (by_difference (vadd a a) s) as T2. rewrite (sub_sym (vadd a a) s) in T2. rewrite D in T1, T2. set (k := vlength a) in *. assert (K0 : 0 < k) by (apply Rlt_le_trans with (2 := L); apply bpow_gt_0).
  assert (Ks : 0 <= SexaF_Proofs2.eps * k <= / 1000000000000000 * k) by (split; [apply Rmult_le_pos; lra|apply Rmult_le_compat_r; lra]).
  assert (H : 2 * SexaF_Proofs2.eta <= k * / 1024). { apply Rle_trans with (bpow radix2 (-401) * bpow radix2 (-10)); [unfold SexaF_Proofs2.eta; change 2 with (bpow radix2 1); rewrite <- !bpow_plus; apply bpow_le; lia|]. change (bpow radix2 (-10)) with (/ 1024). lra. }
  destruct (length64_near _ s Ss) as (b & Eb & Fb & Nb & Vb); [lra|]. exists b. split; [exact Eb|]. split; [exact Fb|].
  assert (H' : 2 * speck <= k * / 1024). { apply Rle_trans with (bpow radix2 (-401) * bpow radix2 (-10)); [unfold speck; change 2 with (bpow radix2 1); rewrite <- !bpow_plus; apply bpow_le; lia|]. change (bpow radix2 (-10)) with (/ 1024). lra. }
  apply Rabs_le_inv in Vb. set (l := vlength s) in *. clearbody l. assert (0 <= SexaF_Proofs2.eps * l <= / 1000000000000000 * l). { assert (0 <= l) by lra. split; [apply Rmult_le_pos; lra|apply Rmult_le_compat_r; lra]. } lra.
Qed.
Lemma angle64_self f p w : (forall x : bf, is_finite x = true -> 0 < B2R x -> f (S754_zero false) (B2SF x) = S754_zero false) -> stands_for p w -> ordinary w -> angle_between64 f p p = S754_zero false.
Proof.
  intros H S O. destruct (own_product p w S O) as (a & Sa & La). destruct (double_length a _ Sa La) as (b & Eb & Fb & Pb). unfold angle_between64. cbv zeta. rewrite Eb.
  destruct Sa as (x & y & z & -> & Fx & Fy & Fz & _). unfold fminus. cbn [fx fy fz]. rewrite !sub_self by assumption. rewrite zero_length, H by assumption. reflexivity.
Qed.
Lemma angle64_opposite f p w : (forall x : bf, is_finite x = true -> 0 < B2R x -> f (B2SF x) (S754_zero false) = fl 7074237752028440 (-52)) -> stands_for p w -> ordinary w -> angle_between64 f p (fopp p) = pi64.
Proof.
  intros H S O. destruct (own_product p w S O) as (a & Sa & La). destruct (double_length a _ Sa La) as (b & Eb & Fb & Pb). unfold angle_between64. cbv zeta. rewrite length_opp, scale_opp.
  assert (E : length64 (fminus (fscale p (length64 p)) (fopp (fscale p (length64 p)))) = B2SF b).
  { rewrite <- Eb. clear. set (q := fscale p (length64 p)). clearbody q. unfold fminus, fplus, fopp. cbn [fx fy fz]. assert (A : forall x, fsub x (fneg x) = fadd x x). { intros x. destruct x as [s|s| |s m e]; try reflexivity; try (destruct s; reflexivity). } rewrite !A. reflexivity. }
  rewrite E. destruct Sa as (x & y & z & -> & Fx & Fy & Fz & _). unfold fplus, fopp. cbn [fx fy fz]. rewrite !add_opp by assumption. rewrite zero_length, H by assumption. reflexivity.
Qed.

(** ** Statements *)
Lemma length64_ok p w : stands_for p w -> / 2 ^ 400 <= vlength w <= 2 ^ 400 -> near (vlength w) (3 / 2 ^ 53 * vlength w) (length64 p).
Proof.
  intros S B. destruct (length64_rel p w S B) as (b & E & F & _ & V). exists b. split; [exact E|]. split; [exact F|]. apply Rle_trans with (1 := V). apply Rmult_le_compat_r; [apply vlength_pos|]. unfold SexaF_Proofs2.eps. lra.
Qed.
Lemma angle64_ok f p q u v : good_arctan2 f -> stands_for p u -> stands_for q v -> ordinary u -> ordinary v -> exists theta, angle_of u v theta /\ near theta (3 / 2 ^ 50) (angle_between64 f p q).
Proof.
  intros G Sp Sq Ou Ov. exists (angle_between u v). split; [|apply angle64_near; assumption].
  assert (N : forall w, ordinary w -> w <> vzero). { intros w [L _] ->. assert (Z : vlength vzero = 0) by (unfold vlength, vzero; cbn; rewrite !Rmult_0_l, !Rplus_0_l; apply sqrt_0). rewrite Z in L. assert (0 < / 2 ^ 200) by (apply Rinv_0_lt_compat, pow_lt; lra). lra. }
  apply angle_ok; apply N; assumption.
Qed.
(** There is such an [arctan2]. *)
Lemma some_arctan2 : exists f, good_arctan2 f.
Proof.
  exists (fun y x => fl (ZnearestE (atan2 (SF2R radix2 y) (SF2R radix2 x) * 2251799813685248)) (-51)). intros y x Fy Fx Py Px. rewrite !SF2R_B2SF. pose proof (Real_Math_Proofs.atan2_nonneg (B2R y) (B2R x) Py) as B. pose proof PI_4 as P4. set (t := atan2 (B2R y) (B2R x)) in *.
  pose proof (Znearest_half (fun z => negb (Z.even z)) (t * 2251799813685248)) as H. set (n := ZnearestE (t * 2251799813685248)) in *. apply Rabs_le_inv in H. assert (U : (Z.abs n <= 2 ^ 53)%Z). { assert (-1 < n < 2 ^ 53 + 1)%Z; [|lia]. split; apply lt_IZR; [lra|]. change (IZR (2 ^ 53 + 1)) with 9007199254740993. lra. }
  destruct (fl_bf n (-51)) as (b & E & F & V); [split; lia|]. exists b. split; [exact E|]. split; [exact F|]. rewrite V, Wrap_Proofs2.F2R_neg. change (IZR (Z.pow_pos 2 51)) with 2251799813685248. apply Rabs_le. lra.
Qed.
Lemma nanoarcsecond : 3 / 2 ^ 50 < / 10 ^ 9 / 3600 * (PI / 180).
Proof. pose proof PI2_3_2. lra. Qed.
Lemma unit_vectors : exists p q u v, stands_for p u /\ stands_for q v /\ ordinary u /\ ordinary v /\ vlength (vsub u v) <> 0.
Proof.
  destruct (of_Z_bf 1) as (a & _ & Fa & Va); [unfold Float_Time_Proofs.fits; lia|]. destruct (of_Z_bf 0) as (z & _ & Fz & Vz); [unfold Float_Time_Proofs.fits; lia|].
  assert (L1 : vlength (V3 1 0 0) = 1) by (unfold vlength; cbn [vx vy vz]; replace (1 * 1 + 0 * 0 + 0 * 0) with 1 by ring; apply sqrt_1). assert (L2 : vlength (V3 0 1 0) = 1) by (unfold vlength; cbn [vx vy vz]; replace (0 * 0 + 1 * 1 + 0 * 0) with 1 by ring; apply sqrt_1).
  assert (O : / 2 ^ 200 <= 1 <= 2 ^ 200). { rewrite pow_bpow. split; [rewrite <- bpow_opp|]; change 1 with (bpow radix2 0); apply bpow_le; lia. }
  exists (F3 (B2SF a) (B2SF z) (B2SF z)), (F3 (B2SF z) (B2SF a) (B2SF z)), (V3 1 0 0), (V3 0 1 0). unfold ordinary. rewrite L1, L2. split; [exists a, z, z; rewrite Va, Vz; auto 10|]. split; [exists z, a, z; rewrite Va, Vz; auto 10|]. split; [exact O|]. split; [exact O|].
  pose proof (by_difference (V3 1 0 0) (V3 0 1 0)) as D. rewrite L1, L2 in D. intros E. apply Geo_Proofs.vlength_zero in E. injection E as E _ _. lra.
Qed.
