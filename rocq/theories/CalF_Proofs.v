(** Calendar dates in binary64. *)
From Coq Require Import ZArith Reals Lia Lra List Bool.
From Coq.Floats Require Import SpecFloat.
From Flocq Require Import Core BinarySingleNaN.
From Verif Require Import Float64 Float64_Proofs Float_Time_Model Float_Time_Spec Cal_Model Cal_Spec PyNum
  Time_Model Time_Spec Time_Proofs Time_Proofs2 Float_Time_Proofs Float_Time_Proofs3 Float_Time_Proofs4 SexaF_Model SexaF_Spec SexaF_Proofs SexaF_Proofs2 SexaF_Proofs3 CalF_Model CalF_Spec.
Open Scope Z_scope.

(** The parts of [divmod(w, 1.0)]. *)
Definition splits (w : bf) (N : Z) (g : bf) : Prop :=
  fdivmod (B2SF w) (of_Z 1) = (of_Z N, B2SF g) /\ is_finite g = true /\ (0 <= B2R g < 1)%R /\ B2R w = (IZR N + B2R g)%R /\ Z.abs N <= 2 ^ 40.
Lemma sign_of_pos (x : bf) : is_finite x = true -> (0 < B2R x)%R -> Bsign x = false.
Proof. intros F P. pose proof (sign_le x) as S. destruct (Bsign x); [lra|reflexivity]. Qed.
Lemma sign_of_neg (x : bf) : (B2R x < 0)%R -> Bsign x = true.
Proof. intros P. pose proof (sign_le x) as S. destruct (Bsign x); [reflexivity|lra]. Qed.
Lemma nonneg_of_sign (x : bf) : Bsign x = false -> (0 <= B2R x)%R.
Proof. intros E. pose proof (sign_le x) as S. rewrite E in S. exact S. Qed.
Lemma usual_splits w : usual_whole w -> exists N g, splits w N g.
Proof.
  intros (F & [(S & U)|(n & Hn & V)]).
  - change (bpow radix2 40) with 1099511627776%R in U. pose proof (nonneg_of_sign w S) as P. destruct (fdivmod_k w 1 F S) as (r & R1 & R2 & R3 & R4); [change (bpow radix2 51) with 2251799813685248%R; lra|lia|].
    replace (B2R w / 1)%R with (B2R w) in R3, R4 by field. rewrite Rmult_1_l in R4. exists (Zfloor (B2R w)), r. pose proof (Zfloor_lb (B2R w)) as L. pose proof (Zfloor_ub (B2R w)) as H.
    split; [exact R3|]. split; [exact R1|]. split; [lra|]. split; [lra|].
    assert (A : 0 <= Zfloor (B2R w)) by (apply Zfloor_lub; exact P). assert (B : (IZR (Zfloor (B2R w)) < IZR (2 ^ 40))%R) by (change (IZR (2 ^ 40)) with 1099511627776%R; lra). apply lt_IZR in B. lia.
  - assert (E : B2SF w = fl (2 * n - 1) (-1)).
    { destruct (fl_bf (2 * n - 1) (-1)) as (b & Eb & Fb & Vb); [split; lia|]. rewrite Eb. f_equal. apply B2R_Bsign_inj; try assumption.
      - rewrite V, Vb. unfold F2R. cbn [Fnum Fexp]. rewrite minus_IZR, mult_IZR. change (bpow radix2 (-1)) with (/ 2)%R. lra.
      - assert (X : B2R b = B2R w). { rewrite V, Vb. unfold F2R. cbn [Fnum Fexp]. rewrite minus_IZR, mult_IZR. change (bpow radix2 (-1)) with (/ 2)%R. lra. }
        destruct (Rtotal_order (B2R w) 0) as [T|[T|T]].
        + rewrite !sign_of_neg by lra. reflexivity.
        + exfalso. rewrite V in T. assert (C : (2 * IZR n = 1)%R) by lra. rewrite <- mult_IZR in C. apply eq_IZR in C. lia.
        + rewrite !sign_of_pos by (assumption || lra). reflexivity. }
    destruct (fl_bf_pos 1 (-1)) as (g & G1 & G2 & _ & G3); [split; lia|lia|]. assert (VG : B2R g = (1 / 2)%R) by (rewrite G3; unfold F2R; cbn [Fnum Fexp]; change (bpow radix2 (-1)) with (/ 2)%R; lra).
    exists (n - 1), g. split; [|rewrite V, VG, minus_IZR; repeat split; try assumption; try lra; lia].
    rewrite E. rewrite (of_Z_shift 1 (-1)) by lia. rewrite fdivmod_fl by lia. change (1 * 2 ^ (- -1)) with 2. replace ((2 * n - 1) / 2) with (n - 1) by lia. replace ((2 * n - 1) mod 2) with 1 by lia. rewrite G1. reflexivity.
Qed.

(** Sums with one half. *)
Lemma half_bf_pos : exists h : bf, fl 1 (-1) = B2SF h /\ is_finite h = true /\ Bsign h = false /\ B2R h = (1 / 2)%R.
Proof. destruct (fl_bf_pos 1 (-1)) as (g & G1 & G2 & G4 & G3); [split; lia|lia|]. exists g. split; [exact G1|]. split; [exact G2|]. split; [exact G4|]. rewrite G3. unfold F2R. cbn [Fnum Fexp]. change (bpow radix2 (-1)) with (/ 2)%R. lra. Qed.
Lemma fadd_half (x : bf) : is_finite x = true -> (- (1 / 2) <= B2R x < 1000)%R ->
  exists z : bf, fadd (B2SF x) (fl 1 (-1)) = B2SF z /\ is_finite z = true /\ Bsign z = false /\ B2R z = rnd (B2R x + 1 / 2).
Proof.
  intros F B. destruct half_bf_pos as (h & -> & Fh & Sh & Vh). assert (Big : (1024 <= bpow radix2 1007)%R) by (change 1024%R with (bpow radix2 10); apply bpow_le; lia).
  exists (Bplus mode_NE x h). split; [apply add_equiv|]. pose proof (Bplus_correct 53 1024 Hprec Hmax mode_NE x h F Fh) as C. cbn [round_mode] in C. rewrite Vh in C.
  rewrite round_lt in C by (apply Rabs_lt; lra). destruct C as (C1 & C2 & C3). split; [exact C2|]. split; [|exact C1]. rewrite C3, Sh. destruct (Rcompare_spec (B2R x + 1 / 2) 0); [lra|apply andb_false_r|reflexivity].
Qed.
Lemma rnd_small y k : (-1021 <= k)%Z -> (Rabs y < bpow radix2 k)%R -> (y - bpow radix2 (k - 54) <= rnd y <= y + bpow radix2 (k - 54))%R.
Proof. intros K B. pose proof (half_error y k K B) as E. apply Rabs_le_inv in E. lra. Qed.

Definition tuple_error : R := (86400 * bpow radix2 (-51) + bpow radix2 (-37))%R.
Lemma floor_fract x : (0 <= x - IZR (Zfloor x) < 1)%R.
Proof. pose proof (Zfloor_lb x). pose proof (Zfloor_ub x). lra. Qed.
(** A float below one, times 86400, is below 86400. *)
Lemma below_one (x : bf) : is_finite x = true -> (0 <= B2R x < 1)%R -> (B2R x <= 1 - bpow radix2 (-53))%R.
Proof.
  intros F B. assert (P : (pred radix2 (SpecFloat.fexp 53 1024) 1 = 1 - bpow radix2 (-53))%R).
  { change 1%R with (bpow radix2 0). rewrite pred_bpow by (apply (fexp_correct 53 1024); reflexivity). reflexivity. }
  rewrite <- P. apply pred_ge_gt; [apply (fexp_correct 53 1024); reflexivity|apply generic_format_B2R| |lra]. change 1%R with (bpow radix2 0). apply generic_format_bpow. cbn. lia.
Qed.
Lemma calendar64 (w f g : bf) N cut : splits w N g -> is_finite f = true -> (- (1 / 2) <= B2R f <= 5 / 2 - / 10000)%R ->
  exists D M (q : bf), calendar_tuple64 (B2SF w) (B2SF f) cut = (let '(y, m, d) := compute_calendar_date D cut in (y, m, d, M / 60, M mod 60, B2SF q)) /\
    0 <= M < 1440 /\ is_finite q = true /\ Bsign q = false /\ (0 <= B2R q < 60)%R /\
    (Rabs (86400 * IZR D + 60 * IZR M + B2R q - 86400 * (B2R w + B2R f + 1 / 2)) <= tuple_error)%R.
Proof.
  intros (E & Fg & Bg & Vw & BN) Ff Bf. unfold calendar_tuple64. rewrite E.
  assert (Big : (131072 <= bpow radix2 1007)%R) by (change 131072%R with (bpow radix2 17); apply bpow_le; lia).
  destruct (fadd_val g f Fg Ff) as (a & -> & Fa & Va); [apply Rabs_lt; lra|].
  assert (Ra : (B2R g + B2R f - bpow radix2 (-52) <= B2R a <= B2R g + B2R f + bpow radix2 (-52))%R).
  { rewrite Va. apply (rnd_small _ 2); [lia|]. change (bpow radix2 2) with 4%R. apply Rabs_lt. lra. }
  assert (La : (- (1 / 2) <= B2R a)%R).
  { rewrite Va. destruct half_bf_pos as (h & _ & _ & _ & Vh). rewrite <- Vh, <- (rnd_self h), <- rnd_opp. apply rnd_le. lra. }
  change (bpow radix2 (-52)) with (/ 4503599627370496)%R in *.
  destruct (fadd_half a Fa) as (b & -> & Fb & Sb & Vb); [lra|].
  assert (Rb : (B2R a + 1 / 2 - / 4503599627370496 <= B2R b <= B2R a + 1 / 2 + / 4503599627370496)%R).
  { rewrite Vb. pose proof (rnd_small (B2R a + 1 / 2) 2 ltac:(lia)) as X. change (bpow radix2 (2 - 54)) with (/ 4503599627370496)%R in X. change (bpow radix2 2) with 4%R in X. apply X. apply Rabs_lt. lra. }
  pose proof (nonneg_of_sign b Sb) as Pb. destruct (fdivmod_k b 1 Fb Sb) as (r & R1 & R2 & R3 & R4); [change (bpow radix2 51) with 2251799813685248%R; lra|lia|].
  replace (B2R b / 1)%R with (B2R b) in R3, R4 by field. rewrite Rmult_1_l in R4. rewrite R3. set (W := Zfloor (B2R b)) in *.
  assert (BW : 0 <= W <= 4). { split; [apply Zfloor_lub; exact Pb|]. apply le_IZR. apply Rle_trans with (1 := Zfloor_lb _). lra. }
  assert (Br : (0 <= B2R r < 1)%R) by (rewrite R4; apply floor_fract). rewrite add_Z, trunc_Z by (unfold fits; lia).
  destruct (of_Z_bf 86400) as (u & Eu & Fu & Vu); [unfold fits; lia|]. rewrite Eu. pose proof (sign_of_pos u Fu ltac:(lra)) as Su. pose proof (below_one r R1 Br) as Hr. change (bpow radix2 (-53)) with (/ 9007199254740992)%R in Hr.
  destruct (fmul_val r u R1 Fu) as (s & -> & Fs & Vs & Ss); [rewrite Vu; apply Rabs_lt; lra|]. rewrite R2, Su in Ss. cbn [xorb] in Ss. rewrite Vu in Vs.
  assert (Rs : (B2R r * 86400 - / 137438953472 <= B2R s <= B2R r * 86400 + / 137438953472)%R).
  { rewrite Vs. pose proof (rnd_small (B2R r * 86400) 17 ltac:(lia)) as X. change (bpow radix2 (17 - 54)) with (/ 137438953472)%R in X. change (bpow radix2 17) with 131072%R in X. apply X. apply Rabs_lt. lra. }
  pose proof (nonneg_of_sign s Ss) as Ps. destruct (fdivmod_k s 60 Fs Ss) as (q & Q1 & Q2 & Q3 & Q4); [change (bpow radix2 51) with 2251799813685248%R; lra|lia|].
  rewrite Q3. set (M := Zfloor (B2R s / 60)) in *. pose proof (floor_fract (B2R s / 60)) as FM. fold M in FM.
  assert (BM : 0 <= M < 1440). { split; [apply Zfloor_lub; lra|]. apply lt_IZR. lra. }
  rewrite trunc_Z by (unfold fits; lia). exists (N + W), M, q. split; [destruct (compute_calendar_date (N + W) cut) as [[y m] d]; reflexivity|]. split; [exact BM|]. split; [exact Q1|]. split; [exact Q2|].
  split; [lra|]. unfold tuple_error. change (bpow radix2 (-51)) with (/ 2251799813685248)%R. change (bpow radix2 (-37)) with (/ 137438953472)%R. rewrite plus_IZR. apply Rabs_le. lra.
Qed.
