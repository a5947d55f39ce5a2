(** The correction for light travel time in floats. *)
From Coq Require Import ZArith Reals Lia Lra Psatz List Bool.
From Coq.Floats Require Import SpecFloat.
From Flocq Require Import Core BinarySingleNaN.
From Verif Require Import Float64 Float64_Proofs Float_Time_Proofs Float_Time_Proofs4 CalF_Proofs2 SexaF_Proofs2 Real_Math Real_Math_Proofs Vector_Model Vector_Spec Vector_Proofs Vector_Proofs2 Geo_Model Geo_Proofs Wrap_Proofs2 SepF_Model SepF_Spec SepF_Proofs SepF_Proofs2 LightF_Model LightF_Spec.
Import ListNotations.
Open Scope R_scope.

(** ** Constants *)
Lemma speed_range : 173.144 < light_speed < 173.145. Proof. unfold light_speed. lra. Qed.
Lemma speed_bf : exists c : bf, C_AUDAY64 = B2SF c /\ is_finite c = true /\ Rabs (B2R c - light_speed) <= 2 * eps * light_speed.
Proof.
  unfold C_AUDAY64. destruct (of_Z_bf 299792458) as (a & -> & Fa & Va); [unfold fits; lia|]. destruct (of_Z_bf 86400) as (b & -> & Fb & Vb); [unfold fits; lia|]. destruct (of_Z_bf 149597870700) as (d & -> & Fd & Vd); [unfold fits; lia|].
  assert (H : 1125899906842624 <= bpow radix2 1007) by (change 1125899906842624 with (bpow radix2 50); apply bpow_le; lia).
  destruct (fmul_val a b Fa Fb) as (m & -> & Fm & Vm & _); [rewrite Va, Vb; apply Rabs_lt; lra|]. rewrite Va, Vb, <- mult_IZR, rnd_Z in Vm by (unfold fits; lia).
  destruct (fdiv_val m d Fm) as (c & -> & Fc & Vc); [rewrite Vd; lra| |]. { rewrite Vm, Vd. apply Rabs_lt. change (299792458 * 86400)%Z with 25902068371200%Z. lra. }
  exists c. split; [reflexivity|]. split; [exact Fc|]. rewrite Vc, Vm, Vd, mult_IZR. fold light_speed. pose proof (SexaF_Proofs2.rnd_err light_speed) as E. pose proof speed_range as S. rewrite (Rabs_pos_eq light_speed) in E by lra. apply Rle_trans with (1 := E).
  assert (eta <= bpow radix2 (-53)) by (apply bpow_le; lia). change (bpow radix2 (-53)) with (/ 9007199254740992) in H0. unfold eps. lra.
Qed.
Lemma tolerance_bf : exists b : bf, TOLERANCE64 = B2SF b /\ is_finite b = true /\ / 10 ^ 12 * 0.9999 <= B2R b <= / 10 ^ 12 * 1.0001.
Proof.
  destruct (fl_bf 4951760157141521 (-92)) as (b & E & F & V); [split; lia|]. exists b. split; [exact E|]. split; [exact F|]. rewrite V, F2R_neg. change (IZR (Z.pow_pos 2 92)) with 4951760157141521099596496896. lra.
Qed.
Lemma small_test (l q : bf) : is_finite l = true -> is_finite q = true -> Rabs (B2R l - B2R q) <= 1000 ->
  (Rabs (B2R l - B2R q) <= 9 / 10 ^ 13 -> fltb (fabs (fsub (B2SF l) (B2SF q))) TOLERANCE64 = true) /\
  (fltb (fabs (fsub (B2SF l) (B2SF q))) TOLERANCE64 = true -> Rabs (B2R l - B2R q) <= / 10 ^ 12 * 1.001).
Proof.
  intros Fl Fq B. destruct (fsub_val l q Fl Fq) as (d & -> & Fd & Vd). { assert (1024 <= bpow radix2 1007) by (change 1024 with (bpow radix2 10); apply bpow_le; lia). lra. }
  destruct tolerance_bf as (c & -> & Fc & Vc). assert (E : fabs (B2SF d) = B2SF (Babs d)) by (destruct d; reflexivity). assert (Fa : is_finite (Babs d) = true) by (rewrite is_finite_Babs; exact Fd).
  assert (Lt : fltb (fabs (B2SF d)) (B2SF c) = Rlt_bool (Rabs (B2R d)) (B2R c)). { rewrite E. unfold fltb, SFltb. rewrite <- (B2R_Babs 53 1024 d). change (SFcompare (B2SF (Babs d)) (B2SF c)) with (Bcompare (Babs d) c). rewrite (Bcompare_correct 53 1024 (Babs d) c Fa Fc). unfold Rlt_bool. destruct (Rcompare (B2R (Babs d)) (B2R c)); reflexivity. }
  rewrite Lt. set (x := B2R l - B2R q) in *. rewrite Vd. pose proof (SexaF_Proofs2.rnd_err x) as R. pose proof eps_small as Es. assert (Eta : eta <= / 10 ^ 20). { apply Rle_trans with (bpow radix2 (-70)); [apply bpow_le; lia|]. change (bpow radix2 (-70)) with (/ 1180591620717411303424). lra. } pose proof (Rabs_pos x) as Px.
  assert (D1 : Rabs (rnd x) <= Rabs x + (eps * Rabs x + eta)). { replace (rnd x) with (x + (rnd x - x)) at 1 by ring. apply Rle_trans with (1 := Rabs_triang _ _). lra. }
  assert (D2 : Rabs x <= Rabs (rnd x) + (eps * Rabs x + eta)). { replace x with (rnd x - (rnd x - x)) at 1 by ring. unfold Rminus at 1. apply Rle_trans with (1 := Rabs_triang _ _). rewrite Rabs_Ropp. lra. }
  split.
  - intros H. apply Rlt_bool_true. assert (eps * Rabs x <= / 1000000000000000 * (9 / 10 ^ 13)) by (apply Rmult_le_compat; lra). lra.
  - intros H. destruct (Rlt_bool_spec (Rabs (rnd x)) (B2R c)) as [L|L]; [|discriminate]. assert (eps * Rabs x <= / 1000000000000000 * Rabs x) by (apply Rmult_le_compat_r; lra). lra.
Qed.

(** ** One sight *)
Section Sight.
Variables (x : sight64) (X : R -> vec) (o : vec) (tb : bf).
Let t := B2R tb.
Let c := light_speed.
Let G (s : R) := vlength (vsub (X s) o) / c.
Hypotheses (Slow : slower (/ 100 * light_speed) X) (Close : vlength (vsub (X t) o) <= 100 * light_speed) (Obs : stands_for (observer64 x) o) (Et : fraction64 x = B2SF tb) (Ft : is_finite tb = true) (Bt : Rabs t <= 2).
Hypothesis Track : forall s : bf, is_finite s = true -> t - 103 <= B2R s <= t -> exists w, stands_for (target64 x (B2SF s)) w /\ vlength (vsub w (X (B2R s))) <= / 10 ^ 11.

Lemma c_range : 173.144 < c < 173.145. Proof. exact speed_range. Qed.
Lemma G_eq s : vlength (vsub (X s) o) = c * G s. Proof. pose proof c_range. unfold G. field. lra. Qed.
Lemma G_pos s : 0 <= G s.
Proof. pose proof c_range. unfold G. apply Rmult_le_pos; [apply vlength_pos|]. apply Rlt_le, Rinv_0_lt_compat. lra. Qed.
Lemma G_lip a b : Rabs (G a - G b) <= / 100 * Rabs (a - b).
Proof.
  pose proof c_range as C. pose proof (Slow a b) as S. fold c in S. pose proof (G_eq a) as Ea. pose proof (G_eq b) as Eb. pose proof (by_difference (vsub (X a) o) (vsub (X b) o)) as D1. pose proof (by_difference (vsub (X b) o) (vsub (X a) o)) as D2.
  assert (E1 : vlength (vsub (vsub (X a) o) (vsub (X b) o)) = vlength (vsub (X a) (X b))) by (f_equal; apply vec_eq; cbn; ring). assert (E2 : vlength (vsub (vsub (X b) o) (vsub (X a) o)) = vlength (vsub (X a) (X b))) by (rewrite sub_sym; exact E1).
  rewrite E1, Ea, Eb in D1. rewrite E2, Ea, Eb in D2. set (d := Rabs (a - b)) in *. apply Rabs_le. split; nra.
Qed.
Lemma G_first : G t <= 100.
Proof. pose proof c_range. pose proof (G_eq t) as E. fold c in Close. rewrite E in Close. nra. Qed.
Lemma G_bound s : t - 103 <= s <= t -> 0 <= G s <= 101.03.
Proof.
  intros B. pose proof (G_lip s t) as L. pose proof G_first. pose proof (G_pos s). apply Rabs_le_inv in L. assert (Rabs (s - t) <= 103) by (apply Rabs_le; lra). lra.
Qed.
(** The float light time. *)
Definition e1 : R := 15 / 10 ^ 14.
Lemma time_near (s q : bf) : is_finite s = true -> t - 103 <= B2R s <= t ->
  exists (l : bf) (w : vec), lane_time (Lane x (B2SF s) (B2SF q)) = B2SF l /\ is_finite l = true /\ 0 <= B2R l /\ Rabs (B2R l - G (B2R s)) <= e1 /\
    stands_for (lane_vector (Lane x (B2SF s) (B2SF q))) w /\ vlength (vsub w (vsub (X (B2R s)) o)) <= 12 / 10 ^ 12.
Proof.
  intros Fs Bs. pose proof c_range as C. pose proof eps_small as Es. pose proof (G_bound _ Bs) as GB. pose proof (G_eq (B2R s)) as GE. set (g := G (B2R s)) in *. destruct (Track s Fs Bs) as (w0 & S0 & D0).
  assert (Big : 1048576 <= bpow radix2 1000) by (change 1048576 with (bpow radix2 20); apply bpow_le; lia).
  assert (Q : vlength (vsub (vsub w0 o) (vsub (X (B2R s)) o)) <= / 10 ^ 11). { replace (vsub (vsub w0 o) (vsub (X (B2R s)) o)) with (vsub w0 (X (B2R s))); [exact D0|apply vec_eq; cbn; ring]. }
  pose proof (by_difference (vsub w0 o) (vsub (X (B2R s)) o)) as B1. rewrite GE in B1. assert (CG : 0 <= c * g <= 17493) by (split; nra).
  destruct (difference_vector _ _ w0 o S0 Obs) as (w & Sw & Dw); [lra|]. set (L0 := vlength (vsub w0 o)) in *. assert (P0 : 0 <= L0) by apply vlength_pos.
  assert (Eta : eta <= / 10 ^ 20). { apply Rle_trans with (bpow radix2 (-70)); [apply bpow_le; lia|]. change (bpow radix2 (-70)) with (/ 1180591620717411303424). lra. } assert (Spk : speck <= / 10 ^ 20). { apply Rle_trans with (bpow radix2 (-70)); [apply bpow_le; lia|]. change (bpow radix2 (-70)) with (/ 1180591620717411303424). lra. }
  assert (EL : eps * L0 <= 195 / 10 ^ 14). { apply Rle_trans with (eps * 17493.1); [apply Rmult_le_compat_l; lra|]. unfold eps. lra. }
  pose proof (via w (vsub w0 o) (vsub (X (B2R s)) o)) as V1. assert (Vw : vlength (vsub w (vsub (X (B2R s)) o)) <= 12 / 10 ^ 12) by lra.
  pose proof (by_difference w (vsub (X (B2R s)) o)) as B2. pose proof (by_difference (vsub (X (B2R s)) o) w) as B3. rewrite (sub_sym (vsub (X (B2R s)) o) w) in B3. rewrite GE in B2, B3.
  assert (Lw : vlength w <= 17493.1) by lra. pose proof (vlength_pos w) as Pw. assert (Big2 : 1048576 <= bpow radix2 450) by (change 1048576 with (bpow radix2 20); apply bpow_le; lia).
  destruct (length64_near _ w Sw ltac:(lra)) as (d & Ed & Fd & Pd & Vd). destruct speed_bf as (cb & Ec & Fc & Vc). fold c in Vc. apply Rabs_le_inv in Vc. assert (Ce : 0 < eps * c <= 193 / 10 ^ 16) by (unfold eps; lra).
  assert (Ew : eps * vlength w <= 195 / 10 ^ 14). { apply Rle_trans with (eps * 17493.1); [apply Rmult_le_compat_l; lra|]. unfold eps. lra. }
  apply Rabs_le_inv in Vd. assert (Cb : 173.143 < B2R cb < 173.146) by lra. set (D := B2R d) in *. assert (HD : Rabs (D - c * g) <= 175 / 10 ^ 13) by (apply Rabs_le; lra). apply Rabs_le_inv in HD.
  assert (Quot : D = B2R cb * (D / B2R cb)) by (field; lra). set (u := D / B2R cb) in *.
  assert (Cg : Rabs ((B2R cb - c) * g) <= 391 / 10 ^ 14). { rewrite Rabs_mult, (Rabs_pos_eq g) by lra. apply Rle_trans with (386 / 10 ^ 16 * 101.03); [|lra]. apply Rmult_le_compat; [apply Rabs_pos|lra|apply Rabs_le; lra|lra]. } apply Rabs_le_inv in Cg.
  assert (Hv : - (2142 / 10 ^ 14) <= B2R cb * (u - g) <= 2142 / 10 ^ 14). { replace (B2R cb * (u - g)) with (B2R cb * u - c * g - (B2R cb - c) * g) by ring. rewrite <- Quot. lra. }
  assert (Hu : Rabs (u - g) <= 1255 / 10 ^ 16). { apply Rabs_le. split; (apply Rmult_le_reg_l with (B2R cb); [lra|]); lra. } assert (Pu : 0 <= u). { apply Rmult_le_reg_l with (B2R cb); lra. } apply Rabs_le_inv in Hu.
  unfold lane_time, lane_vector. cbn [sight placed64 before64]. rewrite Ed, Ec. destruct (fdiv_val d cb Fd) as (l & -> & Fl & Vl); [lra| |]. { fold D. fold u. assert (1024 <= bpow radix2 1007) by (change 1024 with (bpow radix2 10); apply bpow_le; lia). apply Rabs_lt. lra. }
  fold D in Vl. fold u in Vl. exists l, w. split; [reflexivity|]. split; [exact Fl|]. rewrite Vl. split; [apply rnd_nonneg; exact Pu|]. split; [|split; [exact Sw|exact Vw]].
  pose proof (rnd_pos_err u Pu) as R. assert (eps * u <= 113 / 10 ^ 16). { apply Rle_trans with (eps * 101.04); [apply Rmult_le_compat_l; lra|]. unfold eps. lra. } apply Rabs_le. unfold e1. lra.
Qed.

(** ** The loop *)
Record good_lane (B : R) (l : lane64) : Prop := {
  gl_sight : sight l = x;
  gl_ok : exists s q lt : bf, placed64 l = B2SF s /\ before64 l = B2SF q /\ lane_time l = B2SF lt /\ is_finite s = true /\ is_finite q = true /\ is_finite lt = true /\
    t - 103 <= B2R s <= t /\ 0 <= B2R q <= 102 /\ 0 <= B2R lt /\ Rabs (B2R lt - G (B2R s)) <= e1 /\ Rabs (B2R s - (t - B2R q)) <= / 10 ^ 14 /\ Rabs (B2R lt - B2R q) <= B }.
Lemma first_good : good_lane 102 (lane_first x).
Proof.
  split; [reflexivity|]. unfold lane_first. destruct (of_Z_bf 0) as (z & Ez & Fz & Vz); [unfold fits; lia|]. rewrite Ez, Et. assert (Bs : t - 103 <= B2R tb <= t) by (fold t; lra). destruct (time_near tb z Ft Bs) as (l & w & El & Fl & Pl & Vl & _). pose proof (G_bound _ Bs) as GB. exists tb, z, l. rewrite Vz. pose proof Vl as Vl'. apply Rabs_le_inv in Vl'. unfold e1 in Vl'. pose proof (eq_refl : B2R tb = t) as Etb.
  repeat (split; [first [reflexivity|assumption|lra]|]). split; apply Rabs_le; lra.
Qed.
Lemma step_good B l : good_lane B l -> good_lane (/ 100 * B + 302 / 10 ^ 15) (lane_step l).
Proof.
  intros [E (s & q & lt & Es & Eq & El & Fs & Fq & Fl & Bs & Bq & Pl & Vl & Vs & Vd)]. split; [exact E|]. destruct l as [sg s0 q0]. cbn [sight placed64 before64] in *. subst sg s0 q0. unfold lane_step. cbn [sight placed64 before64]. rewrite El, Et.
  pose proof (G_bound _ Bs) as GB. pose proof Vl as Vl'. apply Rabs_le_inv in Vl'. unfold e1 in Vl'. apply Rabs_le_inv in Bt. assert (Bl : B2R lt <= 101.04) by lra.
  destruct (fsub_val tb lt Ft Fl) as (p & Ep & Fp & Vp). { fold t. assert (1024 <= bpow radix2 1007) by (change 1024 with (bpow radix2 10); apply bpow_le; lia). apply Rabs_lt. lra. } fold t in Vp. rewrite Ep.
  pose proof (Wrap_Proofs2.rnd_err (t - B2R lt) 7 ltac:(lia) ltac:(change (bpow radix2 7) with 128; lra)) as R. change (bpow radix2 (7 - 54)) with (/ 140737488355328) in R. rewrite <- Vp in R.
  assert (Up : B2R p <= t). { rewrite Vp. apply Rle_trans with (rnd t); [apply rnd_le; lra|]. apply Req_le, round_generic; [apply valid_rnd_N|apply (generic_format_B2R 53 1024)]. } assert (Bp : t - 103 <= B2R p <= t) by lra.
  destruct (time_near p lt Fp Bp) as (l' & w & El' & Fl' & Pl' & Vl2 & _). exists p, lt, l'. pose proof (G_lip (B2R p) (B2R s)) as Lip. assert (Dp : Rabs (B2R p - B2R s) <= B + 18 / 10 ^ 15). { apply Rabs_le_inv in Vs. apply Rabs_le_inv in Vd. apply Rabs_le. lra. }
  repeat (split; [first [reflexivity|assumption|lra]|]). split; [apply Rabs_le; lra|]. apply Rabs_le_inv in Lip. pose proof Vl2 as V2. apply Rabs_le_inv in V2. unfold e1 in V2. apply Rabs_le. lra.
Qed.
Lemma small_good B l : B <= 9 / 10 ^ 13 -> good_lane B l -> lane_small64 l = true.
Proof.
  intros HB [E (s & q & lt & Es & Eq & El & Fs & Fq & Fl & Bs & Bq & Pl & Vl & Vs & Vd)]. unfold lane_small64. rewrite El, Eq. apply small_test; [assumption|assumption|lra|lra].
Qed.
Lemma G_continuous : continuity (fun u => u - G (t - u)).
Proof.
  intros u. apply continuity_pt_minus; [apply derivable_continuous_pt, derivable_pt_id|]. intros eps0 He. exists (eps0 * 50). split; [lra|]. intros v [_ Hv]. unfold dist, R_met, R_dist in *. pose proof (G_lip (t - v) (t - u)) as L. replace (t - v - (t - u)) with (- (v - u)) in L by ring. rewrite Rabs_Ropp in L. cbn in Hv. unfold R_dist in Hv. cbn. unfold R_dist. lra.
Qed.
Lemma exact_time : exists tau, 0 <= tau <= 102 /\ tau = G (t - tau).
Proof.
  destruct (IVT_cor (fun u => u - G (t - u)) 0 102 G_continuous ltac:(lra)) as (z & Bz & Ez); [|exists z; split; [exact Bz|lra]]. pose proof (G_pos (t - 0)). pose proof (G_bound (t - 102) ltac:(lra)). nra.
Qed.
Lemma final_good B l : B <= 1000 -> good_lane B l -> lane_small64 l = true -> seen_right (X, o, t) (lane_vector l, lane_time l).
Proof.
  intros HB [E (s & q & lt & Es & Eq & El & Fs & Fq & Fl & Bs & Bq & Pl & Vl & Vs & Vd)] Sm. unfold lane_small64 in Sm. rewrite El, Eq in Sm. apply small_test in Sm; [|assumption|assumption|lra]. destruct l as [sg s0 q0]. cbn [sight placed64 before64] in *. subst sg s0 q0.
  destruct (time_near s q Fs Bs) as (l' & w & El' & Fl' & Pl' & _ & Sw & Dw). destruct exact_time as (tau & Bt' & Etau). exists tau, w. split; [lra|]. split; [fold c; rewrite Etau at 2; apply G_eq|]. pose proof (G_lip (B2R s) (t - tau)) as Lip. rewrite <- Etau in Lip.
  assert (Ds : Rabs (B2R s - (t - tau)) <= Rabs (B2R lt - tau) + 1012 / 10 ^ 15). { replace (B2R s - (t - tau)) with ((B2R s - (t - B2R q)) + ((B2R lt - B2R q) + - (B2R lt - tau))) by ring. apply Rle_trans with (1 := Rabs_triang _ _). pose proof (Rabs_triang (B2R lt - B2R q) (- (B2R lt - tau))) as T. rewrite Rabs_Ropp in T. lra. }
  assert (Dl : Rabs (B2R lt - tau) <= e1 + / 100 * Rabs (B2R s - (t - tau))). { replace (B2R lt - tau) with ((B2R lt - G (B2R s)) + (G (B2R s) - tau)) by ring. apply Rle_trans with (1 := Rabs_triang _ _). lra. }
  unfold e1 in Dl. split; [exists lt; cbn [snd]; split; [exact El|]; split; [exact Fl|]; lra|]. split; [exact Sw|]. cbn [fst]. apply Rle_trans with (1 := via _ (vsub (X (B2R s)) o) _). assert (EX : vlength (vsub (vsub (X (B2R s)) o) (vsub (X (t - tau)) o)) = vlength (vsub (X (B2R s)) (X (t - tau)))) by (f_equal; apply vec_eq; cbn; ring). rewrite EX.
  pose proof (Slow (B2R s) (t - tau)) as S. fold c in S. pose proof c_range as C. set (m := Rabs (B2R s - (t - tau))) in *. assert (0 <= m) by apply Rabs_pos. assert (m <= 12 / 10 ^ 13) by lra. assert (/ 100 * c * m <= / 100 * 173.145 * (12 / 10 ^ 13)) by (apply Rmult_le_compat; lra). lra.
Qed.
End Sight.
