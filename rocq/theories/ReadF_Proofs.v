(** Proofs about UT1, Julian years and the pole in binary64. *)
From Coq Require Import ZArith Reals List Bool Lia Lra.
From Coq.Floats Require Import SpecFloat.
From Flocq Require Import Core BinarySingleNaN.
From Verif Require Import Float64 Float64_Proofs Float_Time_Model Float_Time_Proofs Float_Time_Proofs4 SexaF_Proofs2 CalF_Proofs CalF_Proofs2 Curve_Model Curve_Spec SplF_Model SplF_Spec SplF_Proofs SplF_Proofs2 Ut1F_Model Ut1F_Proofs DeltaF_Model DeltaF_Spec DeltaF_Proofs DeltaF_Proofs2 ReadF_Model ReadF_Spec.
Import ListNotations.
Open Scope R_scope.

Lemma big40 : 1099511627776 <= bpow radix2 1007.
Proof. pose proof big_bound as B. change (bpow radix2 40) with 1099511627776 in B. exact B. Qed.
Lemma tt_value t w f : parts t w f -> Rabs (B2R w + B2R f) < 4194304 -> exists a : bf, tt64 t = B2SF a /\ is_finite a = true /\ Rabs (B2R a - (B2R w + B2R f)) <= / 4294967296.
Proof.
  intros (Ew & Ef & Fw & Ff & _) B. pose proof big40. unfold tt64. rewrite Ew, Ef. destruct (fadd_val w f Fw Ff) as (a & -> & Fa & Va); [lra|]. exists a. split; [reflexivity|]. split; [exact Fa|].
  assert (R : B2R w + B2R f - bpow radix2 (-32) <= B2R a <= B2R w + B2R f + bpow radix2 (-32)) by (rewrite Va; apply (rnd_small _ 22); [lia|exact B]). change (bpow radix2 (-32)) with (/ 4294967296) in R. apply Rabs_le. lra.
Qed.
Lemma delta_value dt DT err lo hi t w f : tracks dt DT err lo hi -> parts t w f -> lo + 1 <= B2R w + B2R f <= hi - 1 ->
  exists v : bf, delta_t_of64 dt t = B2SF v /\ is_finite v = true /\ Rabs (B2R v - DT (B2R w + B2R f)) <= err + / 50 * / 4294967296 /\ Rabs (B2R v) <= 10001.
Proof.
  intros (Be & Bl & Bh & BD & LD & HD) HP B. destruct (tt_value t w f HP) as (a & Ea & Fa & Va); [apply Rabs_lt; lra|]. unfold delta_t_of64. rewrite Ea. pose proof Va as Va'. apply Rabs_le_inv in Va'.
  destruct (HD a Fa ltac:(lra)) as (v & -> & Fv & Vv). exists v. split; [reflexivity|]. split; [exact Fv|]. pose proof (LD (B2R a) (B2R w + B2R f) ltac:(lra) ltac:(lra)) as L. pose proof (BD (B2R a) ltac:(lra)) as M.
  assert (L' : Rabs (DT (B2R a) - DT (B2R w + B2R f)) <= / 50 * / 4294967296) by lra. apply Rabs_le_inv in L', Vv, M. split; apply Rabs_le; lra.
Qed.
Lemma fraction_value dt DT err lo hi t w f : tracks dt DT err lo hi -> parts t w f -> lo + 1 <= B2R w + B2R f <= hi - 1 ->
  exists u : bf, ut1_fraction_of64 dt t = B2SF u /\ is_finite u = true /\ Rabs (86400 * B2R u - (86400 * B2R f - DT (B2R w + B2R f))) <= err + 2 / 100000000000 /\ Rabs (B2R u - B2R f) <= / 8.
Proof.
  intros HT HP B. destruct (delta_value dt DT err lo hi t w f HT HP B) as (v & Ev & Fv & Vv & Mv). destruct HP as (Ew & Ef & Fw & Ff & Bf). unfold ut1_fraction_of64. rewrite Ev, Ef. destruct (over_day v Fv Mv) as (g & -> & Fg & Vg). change (bpow radix2 (-57)) with (/ 144115188075855872) in Vg.
  pose proof big40. apply Rabs_le_inv in Vv, Mv, Vg, Bf. destruct (fsub_val f g Ff Fg) as (u & -> & Fu & Vu); [apply Rabs_lt; lra|]. exists u. split; [reflexivity|]. split; [exact Fu|].
  assert (R : B2R f - B2R g - bpow radix2 (-53) <= B2R u <= B2R f - B2R g + bpow radix2 (-53)) by (rewrite Vu; apply (rnd_small _ 1); [lia|change (bpow radix2 1) with 2; apply Rabs_lt; lra]). change (bpow radix2 (-53)) with (/ 9007199254740992) in R.
  split; apply Rabs_le; lra.
Qed.
Lemma ut1_value dt DT err lo hi t w f : tracks dt DT err lo hi -> parts t w f -> lo + 1 <= B2R w + B2R f <= hi - 1 ->
  exists j : bf, ut1_of64 dt t = B2SF j /\ is_finite j = true /\ Rabs (86400 * B2R j - (86400 * (B2R w + B2R f) - DT (B2R w + B2R f))) <= err + 202 / 10000000 /\ Rabs (B2R j - (B2R w + B2R f)) <= / 4.
Proof.
  intros HT HP B. destruct (fraction_value dt DT err lo hi t w f HT HP B) as (u & Eu & Fu & Vu & Mu). pose proof HT as (Be & Bl & Bh & _). destruct HP as (Ew & Ef & Fw & Ff & Bf). unfold ut1_of64. rewrite Eu, Ew. pose proof big40. apply Rabs_le_inv in Vu, Mu, Bf.
  destruct (fadd_val w u Fw Fu) as (j & -> & Fj & Vj); [apply Rabs_lt; lra|]. exists j. split; [reflexivity|]. split; [exact Fj|].
  assert (R : B2R w + B2R u - bpow radix2 (-32) <= B2R j <= B2R w + B2R u + bpow radix2 (-32)) by (rewrite Vj; apply (rnd_small _ 22); [lia|change (bpow radix2 22) with 4194304; apply Rabs_lt; lra]). change (bpow radix2 (-32)) with (/ 4294967296) in R.
  split; apply Rabs_le; lra.
Qed.
Lemma ut1_round_trip dt DT err lo hi t w f : tracks dt DT err lo hi -> parts t w f -> lo + 2 <= B2R w + B2R f <= hi - 2 ->
  exists j f' : bf, ut1_whole (ut1_jd64 dt (ut1_of64 dt t)) = B2SF j /\ ut1_tt_fraction (ut1_jd64 dt (ut1_of64 dt t)) = B2SF f' /\ is_finite j = true /\ is_finite f' = true /\
    Rabs (86400 * (B2R j + B2R f') - 86400 * (B2R w + B2R f)) <= 21 / 10 * err + 203 / 10000000.
Proof.
  intros HT HP B. destruct (ut1_value dt DT err lo hi t w f HT HP ltac:(lra)) as (j & Ej & Fj & Vj & Mj). pose proof HT as (Be & Bl & Bh & BD & LD & HD). rewrite Ej. apply Rabs_le_inv in Mj.
  destruct (ut1_delta_t_full dt DT err lo hi j Fj Be Bl Bh BD LD HD ltac:(lra)) as (f' & z & E & Ff & _ & _ & Mf & V). exists j, f'. rewrite E. cbn [ut1_whole ut1_tt_fraction]. split; [reflexivity|]. split; [reflexivity|]. split; [exact Fj|]. split; [exact Ff|].
  apply Rabs_le_inv in Mf. set (T' := B2R j + B2R f') in *. set (T := B2R w + B2R f) in *. pose proof (LD T' T ltac:(unfold T'; lra) ltac:(lra)) as L. set (X := Rabs (T' - T)) in *.
  assert (Q : 86400 * X <= / 50 * X + (1000001 / 1000000 * err + / 1000000000) + (err + 202 / 10000000)).
  { unfold X at 1. rewrite <- (Rabs_pos_eq 86400) at 1 by lra. rewrite <- Rabs_mult. apply Rabs_le_inv in V, Vj, L. apply Rabs_le. unfold T' in *. lra. }
  replace (86400 * T' - 86400 * T) with (86400 * (T' - T)) by ring. rewrite Rabs_mult, (Rabs_pos_eq 86400) by lra. fold X. lra.
Qed.
Lemma dut1_value ts dt DT err lo hi t w f (n : Z) : tracks dt DT err lo hi -> parts t w f -> lo + 1 <= B2R w + B2R f <= hi - 1 -> leap_seconds64 ts t = of_Z n -> (-900 <= n <= 900)%Z ->
  exists d : bf, dut1_64 ts dt t = B2SF d /\ is_finite d = true /\ Rabs (B2R d - (32184 / 1000 + IZR n - DT (B2R w + B2R f))) <= err + / 100000000000.
Proof.
  intros HT HP B EL BN. destruct (delta_value dt DT err lo hi t w f HT HP B) as (v & Ev & Fv & Vv & Mv). unfold dut1_64. rewrite Ev, EL. assert (BR : -900 <= IZR n <= 900) by (split; apply IZR_le; lia). pose proof big40. apply Rabs_le_inv in Vv, Mv.
  destruct (of_Z_bf n ltac:(unfold fits; lia)) as (o & -> & Fo & Vo). unfold c_32_184. destruct (of_Z_bf 32184 ltac:(unfold fits; lia)) as (p & -> & Fp & Vp). destruct (of_Z_bf 1000 ltac:(unfold fits; lia)) as (q & -> & Fq & Vq).
  destruct (fdiv_val p q Fp) as (c & -> & Fc & Vc); [rewrite Vq; lra|rewrite Vp, Vq; apply Rabs_lt; lra|]. rewrite Vp, Vq in Vc.
  assert (R1 : 32184 / 1000 - bpow radix2 (-48) <= B2R c <= 32184 / 1000 + bpow radix2 (-48)) by (rewrite Vc; apply (rnd_small _ 6); [lia|change (bpow radix2 6) with 64; apply Rabs_lt; lra]). change (bpow radix2 (-48)) with (/ 281474976710656) in R1.
  destruct (fadd_val c o Fc Fo) as (s & -> & Fs & Vs); [rewrite Vo; apply Rabs_lt; lra|].
  assert (R2 : B2R c + B2R o - bpow radix2 (-44) <= B2R s <= B2R c + B2R o + bpow radix2 (-44)) by (rewrite Vs; apply (rnd_small _ 10); [lia|change (bpow radix2 10) with 1024; rewrite Vo; apply Rabs_lt; lra]). change (bpow radix2 (-44)) with (/ 17592186044416) in R2. rewrite Vo in R2.
  destruct (fsub_val s v Fs Fv) as (d & -> & Fd & Vd); [apply Rabs_lt; lra|]. exists d. split; [reflexivity|]. split; [exact Fd|].
  assert (R3 : B2R s - B2R v - bpow radix2 (-40) <= B2R d <= B2R s - B2R v + bpow radix2 (-40)) by (rewrite Vd; apply (rnd_small _ 14); [lia|change (bpow radix2 14) with 16384; apply Rabs_lt; lra]). change (bpow radix2 (-40)) with (/ 1099511627776) in R3.
  apply Rabs_le. lra.
Qed.
Lemma julian_year_value t w f : parts t w f -> Rabs (B2R w) <= 8388608 -> exists y : bf, julian_year64 t = B2SF y /\ is_finite y = true /\ Rabs (B2R y - (2000 + (B2R w + B2R f - 2451545) / (36525 / 100))) <= bpow radix2 (-37).
Proof.
  intros (Ew & Ef & Fw & Ff & Bf) B. apply Rabs_le_inv in B, Bf. unfold julian_year64. rewrite Ew, Ef. destruct (of_Z_bf 1721045 ltac:(unfold fits; lia)) as (o & -> & Fo & Vo). destruct (fl_bf 1461 (-2) ltac:(unfold small; lia)) as (c & -> & Fc & Vc). unfold F2R in Vc. cbn [Fnum Fexp] in Vc. change (bpow radix2 (-2)) with (/ 4) in Vc.
  pose proof big40. destruct (fsub_val w o Fw Fo) as (d & -> & Fd & Vd); [rewrite Vo; apply Rabs_lt; lra|].
  assert (R : B2R w - B2R o - bpow radix2 (-30) <= B2R d <= B2R w - B2R o + bpow radix2 (-30)) by (rewrite Vd; apply (rnd_small _ 24); [lia|]; change (bpow radix2 24) with 16777216; rewrite Vo; apply Rabs_lt; lra). change (bpow radix2 (-30)) with (/ 1073741824) in R. rewrite Vo in R.
  destruct (fadd_val d f Fd Ff) as (e & -> & Fe & Ve); [apply Rabs_lt; lra|].
  assert (R1 : B2R d + B2R f - bpow radix2 (-30) <= B2R e <= B2R d + B2R f + bpow radix2 (-30)) by (rewrite Ve; apply (rnd_small _ 24); [lia|]; change (bpow radix2 24) with 16777216; apply Rabs_lt; lra). change (bpow radix2 (-30)) with (/ 1073741824) in R1.
  destruct (fdiv_val e c Fe) as (y & -> & Fy & Vy); [rewrite Vc; lra|rewrite Vc; apply Rabs_lt; lra|]. exists y. split; [reflexivity|]. split; [exact Fy|].
  assert (R2 : B2R e / B2R c - bpow radix2 (-39) <= B2R y <= B2R e / B2R c + bpow radix2 (-39)) by (rewrite Vy; apply (rnd_small _ 15); [lia|]; change (bpow radix2 15) with 32768; rewrite Vc; apply Rabs_lt; lra). change (bpow radix2 (-39)) with (/ 549755813888) in R2. rewrite Vc in R2.
  change (bpow radix2 (-37)) with (/ 137438953472). apply Rabs_le. lra.
Qed.
Lemma pole_value Y (p : node) (rest : list node) t w f : daily_ok Y p rest -> parts t w f -> Rabs (B2R w + B2R f) < 4194304 ->
  exists v x : bf, pole64 (floats (dates (p :: rest))) (floats (values (p :: rest))) t = B2SF v /\ is_finite v = true /\ tt64 t = B2SF x /\ Rabs (B2R x - (B2R w + B2R f)) <= / 4294967296 /\
    Rabs (B2R v - interp (B2R x) (combine (reals (dates (p :: rest))) (reals (values (p :: rest))))) <= 13 * (eps * Y).
Proof.
  intros HD HP B. destruct (tt_value t w f HP B) as (x & Ex & Fx & Vx). assert (Hx : fair x). { split; [exact Fx|]. assert (Q : bpow radix2 40 <= bpow radix2 300) by (apply bpow_le; lia). change (bpow radix2 40) with 1099511627776 in Q. apply Rabs_le_inv in Vx. apply Rabs_lt_inv in B. apply Rabs_le. lra. }
  unfold pole64. rewrite Ex, fcombine, rcombine. pose proof HD as (HY & HF & _). inversion HF as [|? ? ((Fp & _) & Fp2 & _) _]; subst. pose proof eps_val. pose proof LO_pos. fold LO in HY. assert (0 < eps * Y) by (apply Rmult_lt_0_compat; lra).
  cbn [map]. unfold fnode at 1, rnode at 1. cbn [interp64 interp]. rewrite (fltb_val x (fst p)) by assumption. destruct (Rlt_dec (B2R x) (B2R (fst p))) as [C|C].
  - exists (snd p), x. split; [reflexivity|]. split; [exact Fp2|]. split; [reflexivity|]. split; [exact Vx|]. destruct (Rlt_dec (B2R x) (B2R (fst p))); [|lra]. rewrite Rminus_eq_0, Rabs_R0. lra.
  - destruct (table_from Y x Hx rest p HD ltac:(lra)) as (v & E & Fv & V). exists v, x. split; [exact E|]. split; [exact Fv|]. split; [reflexivity|]. split; [exact Vx|]. destruct (Rlt_dec (B2R x) (B2R (fst p))); [lra|exact V].
Qed.
Lemma daily_tracks curve (p : node) (rest : list node) : daily_ok 10000 p rest -> gentle (/ 50) (p :: rest) -> - 4194303 <= B2R (fst p) -> B2R (fst (last rest p)) <= 4194303 ->
  tracks (delta_t64 (map row64_of curve) (floats (dates (p :: rest))) (floats (values (p :: rest)))) (delta_t (map real_row curve) (reals (dates (p :: rest))) (reals (values (p :: rest)))) (/ 50000000000) (B2R (fst p)) (B2R (fst (last rest p))).
Proof.
  intros HD HG BL BH. pose proof eps_val as Ev. pose proof HD as (_ & HF & HA). split; [lra|]. split; [exact BL|]. split; [exact BH|]. split; [|split].
  - intros x Bx. rewrite delta_t_inside by exact Bx. apply interp_within; [exact HF|exact HA|lra].
  - intros x x' Bx Bx'. rewrite !delta_t_inside by assumption. destruct (Rle_lt_dec x x') as [C|C].
    + rewrite Rabs_minus_sym, (Rabs_minus_sym x). rewrite (Rabs_pos_eq (x' - x)) by lra. apply interp_steady; (assumption || lra).
    + rewrite (Rabs_pos_eq (x - x')) by lra. apply interp_steady; (assumption || lra).
  - intros x Fx Bx. destruct (table_value curve 10000 p rest x) as (v & E & Fv & V); [|exact HD|exact Bx|].
    + split; [exact Fx|]. assert (Q : bpow radix2 40 <= bpow radix2 300) by (apply bpow_le; lia). change (bpow radix2 40) with 1099511627776 in Q. apply Rabs_le. lra.
    + exists v. split; [exact E|]. split; [exact Fv|]. rewrite Ev in V. lra.
Qed.
(** ** A case *)
Lemma steady_tracks : tracks (fun _ => of_Z 64) (fun _ => 64) 0 2000000 3000000 /\ exists (w f : bf) (t : time64), t = tt_jd64 (of_Z 2451545) (fl 1 (-1)) /\ parts t w f /\ 2000002 <= B2R w + B2R f <= 2999998 /\ Rabs (B2R w) <= 8388608 /\
  leap_seconds64 (build_tables64 [of_Z 2441317] [of_Z 10] None) t = of_Z 10.
Proof.
  destruct steady_delta_t as (S1 & S2 & S3 & _). split.
  - split; [lra|]. split; [lra|]. split; [lra|]. split; [exact S1|]. split; [exact S2|exact S3].
  - destruct (of_Z_bf 2451545 ltac:(unfold fits; lia)) as (w & Ew & Fw & Vw). destruct (fl_bf 1 (-1) ltac:(unfold small; lia)) as (f & Ef & Ff & Vf). unfold F2R in Vf. cbn [Fnum Fexp] in Vf. change (bpow radix2 (-1)) with (/ 2) in Vf.
    exists w, f, (tt_jd64 (of_Z 2451545) (fl 1 (-1))). split; [reflexivity|]. split; [|split; [lra|split; [apply Rabs_le; lra|vm_compute; reflexivity]]]. split; [exact Ew|]. split; [exact Ef|]. split; [exact Fw|]. split; [exact Ff|apply Rabs_le; lra].
Qed.
