(** Proofs about the way from TDB to TT and back. *)
From Coq Require Import ZArith Reals Lia Lra.
From Flocq Require Import Core BinarySingleNaN.
From Verif Require Import Float64 Float64_Proofs Float_Time_Model Float_Time_Proofs Float_Time_Proofs4 SexaF_Proofs2 CalF_Proofs CalF_Proofs2 Spin_Spec Wrap_Model Wrap_Spec Wrap_Proofs Wrap_Proofs2 EraF_Model EraF_Proofs ObliqF_Proofs TdbF_Model TdbF_Spec TdbF_Proofs TdbF_Model2.
From Verif Require Frames_Proofs.
Open Scope R_scope.

(** A term of constant amplitude moves slowly. *)
Lemma wave_lip A r p T U : 0 <= A -> 0 <= r -> Rabs (A * sin (r * T + p) - A * sin (r * U + p)) <= A * r * Rabs (T - U).
Proof.
  intros HA Hr. replace (A * sin (r * T + p) - A * sin (r * U + p)) with (A * (sin (r * T + p) - sin (r * U + p))) by ring. rewrite Rabs_mult, (Rabs_pos_eq A HA), Rmult_assoc. apply Rmult_le_compat_l; [exact HA|]. eapply Rle_trans; [apply Frames_Proofs.sin_lip1|]. replace (r * T + p - (r * U + p)) with (r * (T - U)) by ring. rewrite Rabs_mult, (Rabs_pos_eq r Hr). apply Rle_refl.
Qed.
Lemma secular_lip A r p T U : 0 <= A -> 0 <= r -> Rabs U <= 8 -> Rabs (A * T * sin (r * T + p) - A * U * sin (r * U + p)) <= (A + 8 * (A * r)) * Rabs (T - U).
Proof.
  intros HA Hr HU. replace (A * T * sin (r * T + p) - A * U * sin (r * U + p)) with (A * ((T - U) * sin (r * T + p)) + U * (A * sin (r * T + p) - A * sin (r * U + p))) by ring.
  eapply Rle_trans; [apply Rabs_triang|]. rewrite !Rabs_mult, (Rabs_pos_eq A HA). pose proof (wave_lip A r p T U HA Hr) as W. pose proof (SIN_bound (r * T + p)) as SB. assert (HS : Rabs (sin (r * T + p)) <= 1) by (apply Rabs_le; lra). pose proof (Rabs_pos (T - U)) as P.
  assert (Rabs (T - U) * Rabs (sin (r * T + p)) <= Rabs (T - U) * 1) by (apply Rmult_le_compat_l; assumption). assert (A * (Rabs (T - U) * Rabs (sin (r * T + p))) <= A * (Rabs (T - U) * 1)) by (apply Rmult_le_compat_l; assumption).
  assert (Rabs U * Rabs (A * sin (r * T + p) - A * sin (r * U + p)) <= 8 * (A * r * Rabs (T - U))) by (apply Rmult_le_compat; (apply Rabs_pos || assumption)). lra.
Qed.
(** The series moves by less than 1.2 seconds a century. *)
Lemma circular_lip T U : Rabs U <= 8 -> Rabs (tdb_circular_179 T - tdb_circular_179 U) <= 12 / 10 * Rabs (T - U).
Proof.
  intros HU. unfold tdb_circular_179.
  pose proof (wave_lip (1657 / 10 ^ 6) (6283076 / 10 ^ 4) (62401 / 10 ^ 4) T U ltac:(lra) ltac:(lra)) as L0.
  pose proof (wave_lip (22 / 10 ^ 6) (5753385 / 10 ^ 4) (4297 / 10 ^ 3) T U ltac:(lra) ltac:(lra)) as L1.
  pose proof (wave_lip (14 / 10 ^ 6) (12566152 / 10 ^ 4) (61969 / 10 ^ 4) T U ltac:(lra) ltac:(lra)) as L2.
  pose proof (wave_lip (5 / 10 ^ 6) (6069777 / 10 ^ 4) (40212 / 10 ^ 4) T U ltac:(lra) ltac:(lra)) as L3.
  pose proof (wave_lip (5 / 10 ^ 6) (529691 / 10 ^ 4) (4444 / 10 ^ 4) T U ltac:(lra) ltac:(lra)) as L4.
  pose proof (wave_lip (2 / 10 ^ 6) (213299 / 10 ^ 4) (55431 / 10 ^ 4) T U ltac:(lra) ltac:(lra)) as L5.
  pose proof (secular_lip (1 / 10 ^ 5) (6283076 / 10 ^ 4) (4249 / 10 ^ 3) T U ltac:(lra) ltac:(lra) HU) as L6.
  set (x0 := 1657 / 10 ^ 6 * sin (6283076 / 10 ^ 4 * T + _)) in *. set (y0 := 1657 / 10 ^ 6 * sin (6283076 / 10 ^ 4 * U + _)) in *.
  set (x1 := 22 / 10 ^ 6 * sin (_ * T + _)) in *. set (y1 := 22 / 10 ^ 6 * sin (_ * U + _)) in *.
  set (x2 := 14 / 10 ^ 6 * sin (_ * T + _)) in *. set (y2 := 14 / 10 ^ 6 * sin (_ * U + _)) in *.
  set (x3 := 5 / 10 ^ 6 * sin (6069777 / 10 ^ 4 * T + _)) in *. set (y3 := 5 / 10 ^ 6 * sin (6069777 / 10 ^ 4 * U + _)) in *.
  set (x4 := 5 / 10 ^ 6 * sin (529691 / 10 ^ 4 * T + _)) in *. set (y4 := 5 / 10 ^ 6 * sin (529691 / 10 ^ 4 * U + _)) in *.
  set (x5 := 2 / 10 ^ 6 * sin (_ * T + _)) in *. set (y5 := 2 / 10 ^ 6 * sin (_ * U + _)) in *.
  set (x6 := 1 / 10 ^ 5 * T * sin _) in *. set (y6 := 1 / 10 ^ 5 * U * sin _) in *.
  clearbody x0 x1 x2 x3 x4 x5 x6 y0 y1 y2 y3 y4 y5 y6. pose proof (Rabs_pos (T - U)) as P. set (D := Rabs (T - U)) in *. clearbody D.
  apply Rabs_le_inv in L0, L1, L2, L3, L4, L5, L6. apply Rabs_le. lra.
Qed.
Lemma tt_of_tdb_close s (w f : bf) : good_sine s -> is_finite w = true -> within (-1) 1 f -> Rabs (B2R w - 2451545) <= 262000 ->
  exists v : bf, tt_of_tdb64 s (B2SF w) (B2SF f) = B2SF v /\ is_finite v = true /\ Rabs (B2R v - (B2R f - tdb_circular_179 (centuries (B2R w + B2R f)) / 86400)) <= 12 / 10 ^ 17.
Proof.
  intros G Fw Hf B. pose proof top_ge as TT. unfold tt_of_tdb64. destruct (tdb_terms_close s w f G Fw Hf B) as (x & -> & Fx & Vx & Bx). set (X := tdb_circular_179 _) in *. clearbody X. destruct Hf as (Ff & Hf). apply Rabs_le_inv in Vx, Bx.
  unfold DAY_S64. destruct (of_Z_bf 86400 ltac:(unfold fits; lia)) as (c & -> & Fc & Vc).
  destruct (fdiv_val x c Fx) as (y & -> & Fy & Vy); [rewrite Vc; lra|rewrite Vc; apply Rabs_lt; lra|]. rewrite Vc in Vy.
  pose proof (rnd_err (B2R x / 86400) (-25) ltac:(lia) ltac:(change (bpow radix2 (-25)) with (/ 33554432); lra)) as R1. change (bpow radix2 (-25 - 54)) with (/ 604462909807314587353088) in R1. rewrite <- Vy in R1.
  destruct (fsub_val f y Ff Fy) as (v & -> & Fv & Vv); [apply Rabs_lt; lra|]. pose proof (rnd_err (B2R f - B2R y) 1 ltac:(lia) ltac:(change (bpow radix2 1) with 2; lra)) as R2. change (bpow radix2 (1 - 54)) with (/ 9007199254740992) in R2. rewrite <- Vv in R2.
  exists v. split; [reflexivity|]. split; [exact Fv|]. apply Rabs_le. lra.
Qed.
(** There and back. *)
Lemma tdb_round_trip s (t : time64) (w f : bf) : good_sine s -> is_finite w = true -> within (- (9 / 10)) (9 / 10) f -> Rabs (B2R w - 2451545) <= 262000 ->
  whole64 t = B2SF w -> fraction64 t = tt_of_tdb64 s (B2SF w) (B2SF f) ->
  exists v : bf, tdb_fraction64 s t = B2SF v /\ is_finite v = true /\ Rabs (B2R v - B2R f) <= 25 / 10 ^ 17.
Proof.
  intros G Fw (Ff & Hf) B Ew Et. assert (Hf1 : within (-1) 1 f) by (split; [exact Ff|lra]). destruct (tt_of_tdb_close s w f G Fw Hf1 B) as (g & Eg & Fg & Vg). rewrite Eg in Et.
  destruct (tdb_terms_close s w f G Fw Hf1 B) as (x & _ & _ & _ & Bx). set (U := centuries (B2R w + B2R f)) in *.
  apply Rabs_le_inv in Vg, Bx. assert (Hg1 : within (-1) 1 g) by (split; [exact Fg|lra]).
  destruct (tdb_fraction_of_time s t w g G Ew Et Fw Hg1 B) as (v & Ev & Fv & Vv). exists v. split; [exact Ev|]. split; [exact Fv|]. set (T := centuries (B2R w + B2R g)) in *.
  assert (TU : T - U = (B2R g - B2R f) / 36525) by (unfold T, U, centuries; lra).
  assert (HU : Rabs U <= 8) by (apply Rabs_le_inv in B; unfold U, centuries; apply Rabs_le; lra). pose proof (circular_lip T U HU) as L. assert (D : Rabs (T - U) <= 6 / 10 ^ 13) by (rewrite TU; apply Rabs_le; lra).
  set (SU := tdb_circular_179 U) in *. set (ST := tdb_circular_179 T) in *. clearbody SU ST. assert (L' : Rabs (ST - SU) <= 72 / 10 ^ 14) by lra. apply Rabs_le_inv in L', Vv. apply Rabs_le. lra.
Qed.
Lemma round_trip_example : exists (s : b64 -> b64) (t : time64) (w f : bf), good_sine s /\ is_finite w = true /\ within (- (9 / 10)) (9 / 10) f /\ B2R w = 2460000 /\ B2R f = 1 / 4 /\ Rabs (B2R w - 2451545) <= 262000 /\ whole64 t = B2SF w /\ fraction64 t = tt_of_tdb64 s (B2SF w) (B2SF f).
Proof.
  destruct tdb_example as (s & w & f & G & Fw & (Ff & _) & Vw & Vf & Bw). exists s, {| whole64 := B2SF w; fraction64 := tt_of_tdb64 s (B2SF w) (B2SF f); c_tai_fraction64 := None; c_tai_seconds64 := None |}, w, f. repeat split; try assumption; rewrite Vf; lra.
Qed.
