(** The wrapped angles of the API. *)
From Coq Require Import ZArith Reals Lia Lra Bool.
From Coq.Floats Require Import SpecFloat.
From Flocq Require Import Core BinarySingleNaN.
From Verif Require Import Float64 Float64_Proofs Float_Time_Proofs Float_Time_Proofs4 CalF_Proofs CalF_Proofs2 SexaF_Proofs2 Measure_Model Wrap_Model Wrap_Spec Wrap_Proofs.
Open Scope R_scope.

(** ** Constants *)
Lemma F2R_neg (n : Z) (e : positive) : F2R (Float radix2 n (Zneg e)) = IZR n / IZR (Z.pow_pos 2 e).
Proof. reflexivity. Qed.
Lemma tau_bf : exists b : bf, tau64 = B2SF b /\ is_finite b = true /\ B2R b = tau_float.
Proof.
  destruct (fl_bf 7074237752028440 (-50)) as (b & E & F & V); [split; lia|]. exists b. split; [exact E|]. split; [exact F|]. rewrite V, F2R_neg. unfold tau_float. f_equal. change (Z.pow_pos 2 50) with (2 ^ 50)%Z. rewrite pow_IZR. reflexivity.
Qed.
Lemma pi_bf : exists b : bf, pi64 = B2SF b /\ is_finite b = true /\ B2R b = pi_float.
Proof.
  destruct (fl_bf 7074237752028440 (-51)) as (b & E & F & V); [split; lia|]. exists b. split; [exact E|]. split; [exact F|]. rewrite V, F2R_neg. unfold pi_float, tau_float. change (IZR (Z.pow_pos 2 51)) with 2251799813685248. lra.
Qed.
Lemma tau_range : 6.2831853 < tau_float < 6.2831854. Proof. unfold tau_float. lra. Qed.
Lemma big_bpow k : (k <= 1007)%Z -> bpow radix2 k <= bpow radix2 1007. Proof. apply bpow_le. Qed.
Ltac size := match goal with |- Rabs _ < bpow radix2 1007 => let H := fresh in assert (H : 1024 <= bpow radix2 1007) by (change 1024 with (bpow radix2 10); apply bpow_le; lia); apply Rabs_lt; lra end.
(** Rounding of a number below [2^k]. *)
Lemma rnd_err y k : (-1021 <= k)%Z -> - bpow radix2 k < y < bpow radix2 k -> y - bpow radix2 (k - 54) <= rnd y <= y + bpow radix2 (k - 54).
Proof. intros K B. apply rnd_small; [exact K|apply Rabs_lt; lra]. Qed.

(** ** The remainder *)
Lemma frem_folded (x m : bf) k : is_finite x = true -> is_finite m = true -> 0 < B2R m < bpow radix2 k -> (-1021 <= k <= 900)%Z -> folded 0 (B2R m) (bpow radix2 (k - 54)) (B2R x) (frem (B2SF x) (B2SF m)).
Proof.
  intros Fx Fm [Pm Um] Hk. assert (bpow radix2 k <= bpow radix2 900) by (apply bpow_le; lia). destruct (frem_correct x m Fx Fm ltac:(lra)) as (b & E & F & B & V & _). exists b, (Zfloor (B2R x / B2R m)). split; [exact E|]. split; [exact F|]. split; [lra|].
  fold (remainder (B2R x) (B2R m)). rewrite V. pose proof (remainder_bounds (B2R x) (B2R m) Pm) as R. apply half_error; [lia|]. apply Rabs_lt. lra.
Qed.
Lemma rem_tau (x : bf) : is_finite x = true -> folded 0 tau_float (/ 2 ^ 51) (B2R x) (frem (B2SF x) tau64).
Proof.
  intros Fx. destruct tau_bf as (m & -> & Fm & Vm). rewrite <- Vm. pose proof tau_range. replace (/ 2 ^ 51) with (bpow radix2 (3 - 54)) by (change (bpow radix2 (3 - 54)) with (/ 2251799813685248); lra). apply frem_folded; [assumption|assumption| |lia]. change (bpow radix2 3) with 8. lra.
Qed.
Lemma rem_24 (x : bf) : is_finite x = true -> folded 0 24 (/ 2 ^ 49) (B2R x) (frem (B2SF x) (of_Z 24)).
Proof.
  intros Fx. destruct (of_Z_bf 24) as (m & -> & Fm & Vm); [unfold fits; lia|]. rewrite <- Vm. replace (/ 2 ^ 49) with (bpow radix2 (5 - 54)) by (change (bpow radix2 (5 - 54)) with (/ 562949953421312); lra). apply frem_folded; [assumption|assumption| |lia]. change (bpow radix2 5) with 32. lra.
Qed.
Lemma rem_1 (x : bf) : is_finite x = true -> folded 0 1 (/ 2 ^ 53) (B2R x) (frem (B2SF x) (of_Z 1)).
Proof.
  intros Fx. destruct (of_Z_bf 1) as (m & -> & Fm & Vm); [unfold fits; lia|]. rewrite <- Vm. replace (/ 2 ^ 53) with (bpow radix2 (1 - 54)) by (change (bpow radix2 (1 - 54)) with (/ 9007199254740992); lra). apply frem_folded; [assumption|assumption| |lia]. change (bpow radix2 1) with 2. lra.
Qed.

(** ** The functions *)
Ltac powers := change (2 ^ 53) with 9007199254740992 in *.
Lemma longitude_folded (a : bf) : is_finite a = true -> folded 0 tau_float (/ 2 ^ 51) (B2R a) (longitude64 (B2SF a)).
Proof. apply rem_tau. Qed.
Lemma fold_more lo m e x y r e' : folded lo m e x r -> Rabs (x - y) <= e' - e -> folded lo m e' y r.
Proof.
  intros (b & n & E & F & B & V) D. exists b, n. split; [exact E|]. split; [exact F|]. split; [exact B|]. apply Rabs_le_inv in V. apply Rabs_le_inv in D. apply Rabs_le. lra.
Qed.
Lemma moon_phase_folded (mlon slon : bf) : within (-7) 7 mlon -> within (-7) 7 slon -> folded 0 tau_float (/ 2 ^ 49) (B2R mlon - B2R slon) (moon_phase64 (B2SF mlon) (B2SF slon)).
Proof.
  intros [F1 B1] [F2 B2]. unfold moon_phase64. destruct (fsub_val mlon slon F1 F2) as (d & -> & Fd & Vd); [size|]. apply fold_more with (/ 2 ^ 51) (B2R d); [apply rem_tau; exact Fd|]. rewrite Vd.
  pose proof (rnd_err (B2R mlon - B2R slon) 4 ltac:(lia) ltac:(change (bpow radix2 4) with 16; lra)) as R. change (bpow radix2 (4 - 54)) with (/ 1125899906842624) in R. apply Rabs_le. lra.
Qed.
Lemma sum_folded (w v : bf) : within (-7) 7 w -> within (-7) 7 v -> folded 0 tau_float (/ 2 ^ 49) (B2R w + B2R v) (sum_of_angles64 (B2SF w) (B2SF v)).
Proof.
  intros [F1 B1] [F2 B2]. unfold sum_of_angles64. destruct (fadd_val w v F1 F2) as (d & -> & Fd & Vd); [size|]. apply fold_more with (/ 2 ^ 51) (B2R d); [apply rem_tau; exact Fd|]. rewrite Vd.
  pose proof (rnd_err (B2R w + B2R v) 4 ltac:(lia) ltac:(change (bpow radix2 4) with 16; lra)) as R. change (bpow radix2 (4 - 54)) with (/ 1125899906842624) in R. apply Rabs_le. lra.
Qed.
Lemma fneg_bf (a : bf) : is_finite a = true -> exists b : bf, fneg (B2SF a) = B2SF b /\ is_finite b = true /\ B2R b = - B2R a.
Proof. intros F. exists (Bopp a). split; [destruct a; reflexivity|]. split; [rewrite is_finite_Bopp; exact F|apply B2R_Bopp]. Qed.
Lemma other_side_folded (a : bf) : is_finite a = true -> folded 0 tau_float (/ 2 ^ 51) (- B2R a) (other_side64 (B2SF a)).
Proof. intros F. unfold other_side64. destruct (fneg_bf a F) as (b & -> & Fb & Vb). rewrite <- Vb. apply rem_tau. exact Fb. Qed.
Lemma gmst_folded (st theta : bf) : within (-54000) 54000 st -> within 0 1 theta -> folded 0 24 (/ 2 ^ 46) (B2R st / 54000 + B2R theta * 24) (gmst64 (B2SF st) (B2SF theta)).
Proof.
  intros [F1 B1] [F2 B2]. unfold gmst64. destruct (of_Z_bf 54000) as (c & -> & Fc & Vc); [unfold fits; lia|]. destruct (of_Z_bf 24) as (h & Eh & Fh & Vh); [unfold fits; lia|]. rewrite Eh at 1.
  assert (Q : -1 <= B2R st / 54000 <= 1) by lra.
  destruct (fdiv_val st c F1) as (q & -> & Fq & Vq); [lra|rewrite Vc; size|]. destruct (fmul_val theta h F2 Fh) as (p & -> & Fp & Vp & _); [rewrite Vh; size|].
  pose proof (rnd_err (B2R st / 54000) 1 ltac:(lia) ltac:(change (bpow radix2 1) with 2; lra)) as R1. rewrite Vc in Vq. rewrite <- Vq in R1. pose proof (rnd_err (B2R theta * 24) 5 ltac:(lia) ltac:(change (bpow radix2 5) with 32; lra)) as R2. rewrite Vh in Vp. rewrite <- Vp in R2.
  change (bpow radix2 (1 - 54)) with (/ 9007199254740992) in R1. change (bpow radix2 (5 - 54)) with (/ 562949953421312) in R2.
  destruct (fadd_val q p Fq Fp) as (s & -> & Fs & Vs); [size|]. pose proof (rnd_err (B2R q + B2R p) 5 ltac:(lia) ltac:(change (bpow radix2 5) with 32; lra)) as R3. change (bpow radix2 (5 - 54)) with (/ 562949953421312) in R3. rewrite <- Vs in R3.
  apply fold_more with (/ 2 ^ 49) (B2R s); [apply rem_24; exact Fs|]. apply Rabs_le. lra.
Qed.
Lemma gast_folded (gmst eq : bf) : within 0 24 gmst -> within (-1) 1 eq -> folded 0 24 (/ 2 ^ 46) (B2R gmst + B2R eq / tau_float * 24) (gast64 (B2SF gmst) (B2SF eq)).
Proof.
  intros [F1 B1] [F2 B2]. unfold gast64. destruct tau_bf as (c & -> & Fc & Vc). destruct (of_Z_bf 24) as (h & Eh & Fh & Vh); [unfold fits; lia|]. rewrite Eh at 1. pose proof tau_range as T.
  assert (Q : - / 5 <= B2R eq / tau_float <= / 5). { assert (E : B2R eq = B2R eq / tau_float * tau_float) by (field; lra). set (z := B2R eq / tau_float) in *. clearbody z. split; nra. }
  destruct (fdiv_val eq c F2) as (q & -> & Fq & Vq); [lra|rewrite Vc; size|]. rewrite Vc in Vq. pose proof (rnd_err (B2R eq / tau_float) 0 ltac:(lia) ltac:(change (bpow radix2 0) with 1; lra)) as R1. rewrite <- Vq in R1. change (bpow radix2 (0 - 54)) with (/ 18014398509481984) in R1.
  destruct (fmul_val q h Fq Fh) as (p & -> & Fp & Vp & _); [rewrite Vh; size|]. rewrite Vh in Vp. pose proof (rnd_err (B2R q * 24) 3 ltac:(lia) ltac:(change (bpow radix2 3) with 8; lra)) as R2. rewrite <- Vp in R2. change (bpow radix2 (3 - 54)) with (/ 2251799813685248) in R2.
  destruct (fadd_val gmst p F1 Fp) as (s & -> & Fs & Vs); [size|]. pose proof (rnd_err (B2R gmst + B2R p) 5 ltac:(lia) ltac:(change (bpow radix2 5) with 32; lra)) as R3. change (bpow radix2 (5 - 54)) with (/ 562949953421312) in R3. rewrite <- Vs in R3.
  apply fold_more with (/ 2 ^ 49) (B2R s); [apply rem_24; exact Fs|]. apply Rabs_le. lra.
Qed.
Lemma lst_folded (gast lon sprime : bf) : within 0 24 gast -> within (-24) 24 lon -> within (-54000) 54000 sprime -> folded 0 24 (/ 2 ^ 46) (B2R gast + B2R lon + B2R sprime / 54000) (lst64 (B2SF gast) (B2SF lon) (B2SF sprime)).
Proof.
  intros [F1 B1] [F2 B2] [F3 B3]. unfold lst64. destruct (of_Z_bf 54000) as (c & -> & Fc & Vc); [unfold fits; lia|].
  destruct (fadd_val gast lon F1 F2) as (a & -> & Fa & Va); [size|]. pose proof (rnd_err (B2R gast + B2R lon) 6 ltac:(lia) ltac:(change (bpow radix2 6) with 64; lra)) as R1. change (bpow radix2 (6 - 54)) with (/ 281474976710656) in R1. rewrite <- Va in R1.
  assert (Q : -1 <= B2R sprime / 54000 <= 1) by lra. destruct (fdiv_val sprime c F3) as (q & -> & Fq & Vq); [lra|rewrite Vc; size|]. rewrite Vc in Vq. pose proof (rnd_err (B2R sprime / 54000) 1 ltac:(lia) ltac:(change (bpow radix2 1) with 2; lra)) as R2. rewrite <- Vq in R2. change (bpow radix2 (1 - 54)) with (/ 9007199254740992) in R2.
  destruct (fadd_val a q Fa Fq) as (s & -> & Fs & Vs); [size|]. pose proof (rnd_err (B2R a + B2R q) 6 ltac:(lia) ltac:(change (bpow radix2 6) with 64; lra)) as R3. change (bpow radix2 (6 - 54)) with (/ 281474976710656) in R3. rewrite <- Vs in R3.
  apply fold_more with (/ 2 ^ 49) (B2R s); [apply rem_24; exact Fs|]. apply Rabs_le. lra.
Qed.
Lemma era_folded (th jd fr : bf) : is_finite th = true -> is_finite jd = true -> within (-1) 1 fr -> folded 0 1 (/ 2 ^ 50) (B2R th + B2R jd + B2R fr) (era64 (B2SF th) (B2SF jd) (B2SF fr)).
Proof.
  intros F1 F2 [F3 B3]. unfold era64. destruct (rem_1 th F1) as (a & n & -> & Fa & Ba & Va). destruct (rem_1 jd F2) as (b & k & -> & Fb & Bb & Vb). apply Rabs_le_inv in Va. apply Rabs_le_inv in Vb.
  destruct (fadd_val a b Fa Fb) as (s & -> & Fs & Vs); [size|]. pose proof (rnd_err (B2R a + B2R b) 2 ltac:(lia) ltac:(change (bpow radix2 2) with 4; lra)) as R1. change (bpow radix2 (2 - 54)) with (/ 4503599627370496) in R1. rewrite <- Vs in R1.
  destruct (fadd_val s fr Fs F3) as (q & -> & Fq & Vq); [size|]. pose proof (rnd_err (B2R s + B2R fr) 2 ltac:(lia) ltac:(change (bpow radix2 2) with 4; lra)) as R2. change (bpow radix2 (2 - 54)) with (/ 4503599627370496) in R2. rewrite <- Vq in R2.
  destruct (rem_1 q Fq) as (z & l & -> & Fz & Bz & Vz). apply Rabs_le_inv in Vz. exists z, (l + n + k)%Z. split; [reflexivity|]. split; [exact Fz|]. split; [exact Bz|]. rewrite !plus_IZR. apply Rabs_le. lra.
Qed.
(** A number between the floats [-pi] and [pi] is rounded between them. *)
Lemma rnd_turn y : - pi_float <= y <= pi_float -> - pi_float <= rnd y <= pi_float.
Proof.
  intros B. destruct pi_bf as (p & _ & _ & Vp). assert (V : Valid_exp (SpecFloat.fexp 53 1024)) by (apply (fexp_correct 53 1024); reflexivity). rewrite <- Vp in *. split.
  - rewrite <- (rnd_id p), <- rnd_opp. apply round_le; [exact V|apply valid_rnd_N|lra].
  - rewrite <- (rnd_id p). apply round_le; [exact V|apply valid_rnd_N|lra].
Qed.
Lemma back_half_turn x r e : folded 0 tau_float e x r -> folded (- pi_float) tau_float (e + / 2 ^ 52) (x - pi_float) (fsub r pi64).
Proof.
  intros (b & n & -> & F & B & V). destruct pi_bf as (p & -> & Fp & Vp). pose proof tau_range as T. apply Rabs_le_inv in V. assert (Ep : pi_float = tau_float / 2) by reflexivity.
  destruct (fsub_val b p F Fp) as (z & -> & Fz & Vz); [rewrite Vp; size|]. rewrite Vp in Vz. exists z, n. split; [reflexivity|]. split; [exact Fz|]. split. { rewrite Vz. pose proof (rnd_turn (B2R b - pi_float) ltac:(lra)). lra. }
  pose proof (rnd_err (B2R b - pi_float) 2 ltac:(lia) ltac:(change (bpow radix2 2) with 4; lra)) as R. change (bpow radix2 (2 - 54)) with (/ 4503599627370496) in R. rewrite Vz. apply Rabs_le. lra.
Qed.
Lemma geographic_folded (a : bf) : within (-4) 4 a -> folded (- pi_float) tau_float (/ 2 ^ 49) (B2R a) (geographic_longitude64 (B2SF a)).
Proof.
  intros [F B]. unfold geographic_longitude64. destruct pi_bf as (p & Ep & Fp & Vp). rewrite Ep at 1. pose proof tau_range as T. assert (Et : pi_float = tau_float / 2) by reflexivity.
  destruct (fsub_val a p F Fp) as (d & -> & Fd & Vd); [rewrite Vp; size|]. rewrite Vp in Vd. pose proof (rnd_err (B2R a - pi_float) 3 ltac:(lia) ltac:(change (bpow radix2 3) with 8; lra)) as R. change (bpow radix2 (3 - 54)) with (/ 2251799813685248) in R. rewrite <- Vd in R.
  pose proof (back_half_turn _ _ _ (rem_tau d Fd)) as (b & n & E & Fb & Bb & Vb). apply Rabs_le_inv in Vb. exists b, (n + 1)%Z. split; [exact E|]. split; [exact Fb|]. split; [exact Bb|]. rewrite plus_IZR. apply Rabs_le. lra.
Qed.
Lemma normpi_folded (a : bf) : within (-100) 100 a -> folded (- pi_float) tau_float (/ 2 ^ 46) (B2R a) (normpi64 (B2SF a)).
Proof.
  intros [F B]. unfold normpi64. destruct pi_bf as (p & Ep & Fp & Vp). rewrite Ep at 1. pose proof tau_range as T. assert (Et : pi_float = tau_float / 2) by reflexivity.
  destruct (fadd_val a p F Fp) as (d & -> & Fd & Vd); [rewrite Vp; size|]. rewrite Vp in Vd. pose proof (rnd_err (B2R a + pi_float) 7 ltac:(lia) ltac:(change (bpow radix2 7) with 128; lra)) as R. change (bpow radix2 (7 - 54)) with (/ 140737488355328) in R. rewrite <- Vd in R.
  pose proof (back_half_turn _ _ _ (rem_tau d Fd)) as (b & n & E & Fb & Bb & Vb). apply Rabs_le_inv in Vb. exists b, n. split; [exact E|]. split; [exact Fb|]. split; [exact Bb|]. apply Rabs_le. lra.
Qed.
Lemma hour_angle_folded (lon sub : bf) : within (-7) 7 lon -> within (-7) 7 sub -> folded (- pi_float) tau_float (/ 2 ^ 45) (B2R lon - B2R sub) (hour_angle64 (B2SF lon) (B2SF sub)).
Proof.
  intros [F1 B1] [F2 B2]. unfold hour_angle64. destruct (fsub_val lon sub F1 F2) as (d & -> & Fd & Vd); [size|]. pose proof (rnd_err (B2R lon - B2R sub) 4 ltac:(lia) ltac:(change (bpow radix2 4) with 16; lra)) as R. change (bpow radix2 (4 - 54)) with (/ 1125899906842624) in R. rewrite <- Vd in R.
  apply fold_more with (/ 2 ^ 46) (B2R d); [apply normpi_folded; split; [exact Fd|lra]|]. apply Rabs_le. lra.
Qed.

(** ** Where a whole turn is returned *)
Lemma rnd_up N e y : (2 ^ 52 < N <= 2 ^ 53)%Z -> (-1000 <= e <= 900)%Z -> (IZR N - 1 / 2) * bpow radix2 e < y < IZR N * bpow radix2 e -> rnd y = IZR N * bpow radix2 e.
Proof.
  intros HN He [L U]. pose proof (bpow_gt_0 radix2 e) as P. assert (LN : 4503599627370497 <= IZR N) by (apply IZR_le; lia). assert (UN : IZR N <= 9007199254740992) by (apply IZR_le; lia).
  assert (Py : 0 < y) by nra. assert (M : mag radix2 y = (53 + e)%Z :> Z).
  { apply mag_unique. rewrite Rabs_right by lra. replace (53 + e - 1)%Z with (52 + e)%Z by lia. rewrite !bpow_plus. change (bpow radix2 52) with 4503599627370496. change (bpow radix2 53) with 9007199254740992. split; nra. }
  assert (C : cexp radix2 (SpecFloat.fexp 53 1024) y = e) by (unfold cexp; rewrite M; unfold SpecFloat.fexp, emin; lia).
  unfold round, F2R, scaled_mantissa. rewrite C. cbn [Fnum Fexp]. f_equal. f_equal. apply Znearest_imp.
  assert (E : y * bpow radix2 (- e) = y / bpow radix2 e) by (rewrite bpow_opp; reflexivity). rewrite E. set (u := bpow radix2 e) in *. clearbody u.
  assert (Ey : y = y / u * u) by (field; lra). set (z := y / u) in *. clearbody z. rewrite Ey in L, U. assert (IZR N - 1 / 2 < z) by (apply Rmult_lt_reg_r with u; lra). assert (z < IZR N) by (apply Rmult_lt_reg_r with u; lra). apply Rabs_lt. lra.
Qed.
Lemma B2SF_val (a b : bf) : is_finite a = true -> is_finite b = true -> B2R a = B2R b -> B2R b <> 0 -> B2SF a = B2SF b.
Proof.
  intros Fa Fb E N. f_equal. apply B2R_inj; [| |exact E].
  - destruct a; try discriminate; [cbn in E; congruence|reflexivity].
  - destruct b; try discriminate; [cbn in N; congruence|reflexivity].
Qed.
Lemma whole_turn (x m : bf) N e : is_finite x = true -> is_finite m = true -> (2 ^ 52 < N <= 2 ^ 53)%Z -> (-1000 <= e <= 800)%Z -> B2R m = IZR N * bpow radix2 e -> - (bpow radix2 e / 2) < B2R x < 0 -> frem (B2SF x) (B2SF m) = B2SF m.
Proof.
  intros Fx Fm HN He Vm Hx. pose proof (bpow_gt_0 radix2 e) as P. assert (LN : 4503599627370497 <= IZR N) by (apply IZR_le; lia). assert (UN : IZR N <= 9007199254740992) by (apply IZR_le; lia).
  assert (Bm : 0 < B2R m <= bpow radix2 900). { rewrite Vm. split; [nra|]. apply Rle_trans with (bpow radix2 (53 + e)); [|apply bpow_le; lia]. rewrite bpow_plus. change (bpow radix2 53) with 9007199254740992. nra. }
  destruct (frem_correct x m Fx Fm Bm) as (b & -> & Fb & _ & Vb & _). apply B2SF_val; try assumption; [|lra]. rewrite Vb.
  rewrite (remainder_unique (B2R x) (B2R m) (-1) (B2R m + B2R x)); [|lra|split; [|lra]|cbn; ring].
  - rewrite Vm. apply rnd_up; [assumption|lia|]. nra.
  - rewrite Vm. nra.
Qed.
Lemma full_circle (a : bf) : is_finite a = true -> - / 2 ^ 51 < B2R a < 0 -> longitude64 (B2SF a) = tau64.
Proof.
  intros F B. unfold longitude64. destruct tau_bf as (m & -> & Fm & Vm). apply (whole_turn a m 7074237752028440 (-50)); try assumption; try lia.
  - rewrite Vm. unfold tau_float. change (bpow radix2 (-50)) with (/ 1125899906842624). lra.
  - change (bpow radix2 (-50)) with (/ 1125899906842624). lra.
Qed.
(** Otherwise it is less than a turn. *)
Lemma below_turn (a : bf) : is_finite a = true -> 0 <= B2R a \/ - tau_float < B2R a <= - / 2 ^ 50 -> exists b : bf, longitude64 (B2SF a) = B2SF b /\ 0 <= B2R b < tau_float.
Proof.
  intros F B. unfold longitude64. destruct tau_bf as (m & -> & Fm & Vm). pose proof tau_range as T. assert (Big : 8 <= bpow radix2 900) by (change 8 with (bpow radix2 3); apply bpow_le; lia).
  destruct (frem_correct a m F Fm ltac:(lra)) as (b & -> & Fb & Bb & Vb & Hp). exists b. split; [reflexivity|]. rewrite Vm in *. destruct B as [B|B]; [destruct (Hp B); lra|]. split; [lra|].
  rewrite (remainder_unique (B2R a) tau_float (-1) (tau_float + B2R a)) in Vb; [|lra|lra|cbn; ring].
  destruct (fl_bf 7074237752028439 (-50)) as (c & _ & _ & Vc); [split; lia|]. rewrite F2R_neg in Vc. change (IZR (Z.pow_pos 2 50)) with 1125899906842624 in Vc.
  assert (H : rnd (tau_float + B2R a) <= rnd (B2R c)). { apply round_le; [apply (fexp_correct 53 1024); reflexivity|apply valid_rnd_N|]. rewrite Vc. unfold tau_float in *. lra. }
  rewrite rnd_id in H. rewrite Vb. rewrite Vc in H. unfold tau_float in *. lra.
Qed.
(** Sidereal time, phase and hour angle reach the end of their range, too. *)
Lemma turns_reached : longitude64 (fl (-1) (-60)) = tau64 /\ fdiv (fmul tau64 (of_Z 24)) tau64 = of_Z 24 /\ fdiv (fmul tau64 (of_Z 360)) tau64 = of_Z 360 /\
  moon_phase64 (of_Z 1) (fl (2 ^ 52 + 1) (-52)) = tau64 /\ lst64 (of_Z 0) (fl (-1) (-60)) (of_Z 0) = of_Z 24 /\ gast64 (of_Z 0) (fl (-1) (-60)) = of_Z 24 /\ era64 (of_Z 0) (of_Z 0) (fl (-1) (-60)) = of_Z 1.
Proof. vm_compute. auto 10. Qed.
Lemma wrapped_refuted : ~ (forall a : bf, is_finite a = true -> exists b : bf, longitude64 (B2SF a) = B2SF b /\ 0 <= B2R b < tau_float).
Proof.
  intros H. destruct (fl_bf (-1) (-60)) as (a & E & F & V); [split; lia|]. destruct (H a F) as (b & Eb & _ & Ub). destruct tau_bf as (m & Em & Fm & Vm). rewrite full_circle, Em in Eb; [|exact F|].
  - assert (Q : B2R m = B2R b) by (rewrite <- !SF2R_B2SF, Eb; reflexivity). lra.
  - rewrite V, F2R_neg. change (IZR (Z.pow_pos 2 60)) with 1152921504606846976. lra.
Qed.
Lemma all_folded :
  (forall a : bf, is_finite a = true -> folded 0 tau_float (/ 2 ^ 51) (B2R a) (longitude64 (B2SF a))) /\
  (forall a : bf, is_finite a = true -> folded 0 tau_float (/ 2 ^ 51) (- B2R a) (other_side64 (B2SF a))) /\
  (forall mlon slon : bf, within (-7) 7 mlon -> within (-7) 7 slon -> folded 0 tau_float (/ 2 ^ 49) (B2R mlon - B2R slon) (moon_phase64 (B2SF mlon) (B2SF slon))) /\
  (forall w v : bf, within (-7) 7 w -> within (-7) 7 v -> folded 0 tau_float (/ 2 ^ 49) (B2R w + B2R v) (sum_of_angles64 (B2SF w) (B2SF v))).
Proof. repeat split; auto using longitude_folded, other_side_folded, moon_phase_folded, sum_folded. Qed.
Lemma sidereal_folded :
  (forall th jd fr : bf, is_finite th = true -> is_finite jd = true -> within (-1) 1 fr -> folded 0 1 (/ 2 ^ 50) (B2R th + B2R jd + B2R fr) (era64 (B2SF th) (B2SF jd) (B2SF fr))) /\
  (forall st theta : bf, within (-54000) 54000 st -> within 0 1 theta -> folded 0 24 (/ 2 ^ 46) (B2R st / 54000 + B2R theta * 24) (gmst64 (B2SF st) (B2SF theta))) /\
  (forall gmst eq : bf, within 0 24 gmst -> within (-1) 1 eq -> folded 0 24 (/ 2 ^ 46) (B2R gmst + B2R eq / tau_float * 24) (gast64 (B2SF gmst) (B2SF eq))) /\
  (forall gast lon sprime : bf, within 0 24 gast -> within (-24) 24 lon -> within (-54000) 54000 sprime -> folded 0 24 (/ 2 ^ 46) (B2R gast + B2R lon + B2R sprime / 54000) (lst64 (B2SF gast) (B2SF lon) (B2SF sprime))).
Proof. repeat split; auto using era_folded, gmst_folded, gast_folded, lst_folded. Qed.
Lemma signed_folded :
  (forall a : bf, within (-4) 4 a -> folded (- pi_float) tau_float (/ 2 ^ 49) (B2R a) (geographic_longitude64 (B2SF a))) /\
  (forall a : bf, within (-100) 100 a -> folded (- pi_float) tau_float (/ 2 ^ 46) (B2R a) (normpi64 (B2SF a))) /\
  (forall lon sub : bf, within (-7) 7 lon -> within (-7) 7 sub -> folded (- pi_float) tau_float (/ 2 ^ 45) (B2R lon - B2R sub) (hour_angle64 (B2SF lon) (B2SF sub))).
Proof. repeat split; auto using geographic_folded, normpi_folded, hour_angle_folded. Qed.
