(** One round of refinement of the float search: the twelve samples between the two
    ends of a bracket. *)
From Coq Require Import ZArith Reals Lia Lra List Bool.
From Coq.Floats Require Import SpecFloat.
From Flocq Require Import Core BinarySingleNaN.
From Verif Require Import Float64 Float64_Proofs Float_Time_Proofs Float_Time_Proofs4 CalF_Proofs CalF_Proofs2 SexaF_Proofs2 Wrap_Proofs Wrap_Proofs2 Search_Model SearchF_Model SearchF_Spec.
Import ListNotations.
Open Scope R_scope.

Definition U : R := / 2147483648.
Definition D : R := 2883000.
Lemma val_b (b : bf) : val (B2SF b) = B2R b.
Proof. destruct b; reflexivity. Qed.

Lemma masks : linspace64 (of_Z 0) (of_Z 1) 12 = [fl 0 (0); fl 3275345183542179 (-55); fl 3275345183542179 (-54); fl 1228254443828317 (-52); fl 3275345183542179 (-53); fl 1023545369856931 (-51); fl 1228254443828317 (-51); fl 5731854071198813 (-53); fl 3275345183542179 (-52); fl 7369526662969903 (-53); fl 1023545369856931 (-50); fl 1 (0)].
Proof. vm_compute. reflexivity. Qed.

(** The sample has a value before its last rounding within [d] of the mix. *)
Definition mixed (A B s e d : R) (t : bf) : Prop :=
  is_finite t = true /\ exists q, B2R t = rnd q /\ A * s + B * e - d <= q <= A * s + B * e + d /\ q - U / 2 <= rnd q <= q + U / 2.
Lemma mix (a b s e : bf) ks ke d : is_finite a = true -> is_finite b = true -> is_finite s = true -> is_finite e = true -> (-900 <= ks <= 22)%Z -> (-900 <= ke <= 22)%Z ->
  - bpow radix2 ks < B2R a * B2R s < bpow radix2 ks -> - bpow radix2 ke < B2R b * B2R e < bpow radix2 ke -> bpow radix2 (ks - 54) + bpow radix2 (ke - 54) <= d -> d <= 1 ->
  -4194000 <= B2R a * B2R s + B2R b * B2R e <= 4194000 ->
  exists t : bf, fadd (fmul (B2SF a) (B2SF s)) (fmul (B2SF b) (B2SF e)) = B2SF t /\ mixed (B2R a) (B2R b) (B2R s) (B2R e) d t.
Proof.
  intros Fa Fb Fs Fe Ks Ke Ba Bb Hd Hd1 Bs. assert (bpow radix2 ks <= bpow radix2 22) by (apply bpow_le; lia). assert (bpow radix2 ke <= bpow radix2 22) by (apply bpow_le; lia).
  assert (bpow radix2 30 <= bpow radix2 1007) by (apply bpow_le; lia). assert (E22 : bpow radix2 22 = 4194304) by reflexivity. assert (E30 : bpow radix2 30 = 1073741824) by reflexivity.
  destruct (fmul_val a s Fa Fs) as (x & Ex & Fx & Vx & _); [apply Rabs_lt; lra|]. destruct (fmul_val b e Fb Fe) as (y & Ey & Fy & Vy & _); [apply Rabs_lt; lra|].
  pose proof (rnd_err _ ks ltac:(lia) Ba) as R1. pose proof (rnd_err _ ke ltac:(lia) Bb) as R2. rewrite <- Vx in R1. rewrite <- Vy in R2.
  destruct (fadd_val x y Fx Fy) as (t & Et & Ft & Vt); [apply Rabs_lt; lra|]. exists t. split; [rewrite Ex, Ey; exact Et|]. split; [exact Ft|]. exists (B2R x + B2R y). split; [exact Vt|]. split; [lra|].
  pose proof (rnd_err (B2R x + B2R y) 22 ltac:(lia)) as R3. assert (E32 : bpow radix2 (22 - 54) = U / 2) by (cbn; unfold U; lra). rewrite E32 in R3. apply R3. lra.
Qed.
Lemma mix_left (a b s e : bf) : is_finite a = true -> is_finite b = true -> is_finite s = true -> is_finite e = true -> Rabs (B2R a) <= D -> B2R s = 1 -> B2R e = 0 ->
  exists t : bf, fadd (fmul (B2SF a) (B2SF s)) (fmul (B2SF b) (B2SF e)) = B2SF t /\ mixed (B2R a) (B2R b) 1 0 0 t /\ B2R t = B2R a.
Proof.
  intros Fa Fb Fs Fe Ha Es Ee. unfold D in Ha. apply Rabs_le_inv in Ha. assert (bpow radix2 30 <= bpow radix2 1007) by (apply bpow_le; lia). assert (E30 : bpow radix2 30 = 1073741824) by reflexivity.
  destruct (fmul_val a s Fa Fs) as (x & Ex & Fx & Vx & _); [rewrite Es; apply Rabs_lt; lra|]. destruct (fmul_val b e Fb Fe) as (y & Ey & Fy & Vy & _); [rewrite Ee, Rmult_0_r, Rabs_R0; lra|].
  rewrite Es, Rmult_1_r, rnd_id in Vx. rewrite Ee, Rmult_0_r, round_0 in Vy by apply valid_rnd_N.
  destruct (fadd_val x y Fx Fy) as (t & Et & Ft & Vt); [apply Rabs_lt; lra|]. rewrite Vx, Vy, Rplus_0_r, rnd_id in Vt. exists t. split; [rewrite Ex, Ey; exact Et|]. split; [|exact Vt]. split; [exact Ft|].
  exists (B2R a). rewrite rnd_id. unfold U. repeat split; lra.
Qed.
Lemma mix_right (a b s e : bf) : is_finite a = true -> is_finite b = true -> is_finite s = true -> is_finite e = true -> Rabs (B2R b) <= D -> B2R s = 0 -> B2R e = 1 ->
  exists t : bf, fadd (fmul (B2SF a) (B2SF s)) (fmul (B2SF b) (B2SF e)) = B2SF t /\ mixed (B2R a) (B2R b) 0 1 0 t /\ B2R t = B2R b.
Proof.
  intros Fa Fb Fs Fe Ha Es Ee. unfold D in Ha. apply Rabs_le_inv in Ha. assert (bpow radix2 30 <= bpow radix2 1007) by (apply bpow_le; lia). assert (E30 : bpow radix2 30 = 1073741824) by reflexivity.
  destruct (fmul_val a s Fa Fs) as (x & Ex & Fx & Vx & _); [rewrite Es, Rmult_0_r, Rabs_R0; lra|]. destruct (fmul_val b e Fb Fe) as (y & Ey & Fy & Vy & _); [rewrite Ee; apply Rabs_lt; lra|].
  rewrite Ee, Rmult_1_r, rnd_id in Vy. rewrite Es, Rmult_0_r, round_0 in Vx by apply valid_rnd_N.
  destruct (fadd_val x y Fx Fy) as (t & Et & Ft & Vt); [apply Rabs_lt; lra|]. rewrite Vx, Vy, Rplus_0_l, rnd_id in Vt. exists t. split; [rewrite Ex, Ey; exact Et|]. split; [|exact Vt]. split; [exact Ft|].
  exists (B2R b). rewrite rnd_id. unfold U. repeat split; lra.
Qed.

(** Two neighbouring samples are in order, and a regular distance apart. *)
Definition regular (w : R) (x y : bf) : Prop := B2R x <= B2R y /\ w / 11 - 2.3 * U <= B2R y - B2R x <= w / 11 + 2.3 * U.
Lemma neighbours A B s1 e1 d1 s2 e2 d2 x y : Rabs A <= D -> 14.5 * U <= B - A <= 131072 -> mixed A B s1 e1 d1 x -> mixed A B s2 e2 d2 y ->
  let g := D * Rabs (s2 + e2 - s1 - e1) in
  g + d1 + d2 <= 14.5 * U * (e2 - e1) -> 131072 * Rabs (e2 - e1 - 1 / 11) + g + d1 + d2 <= 1.3 * U ->
  regular (B - A) x y.
Proof.
  intros HA Hw (Fx & q & Vx & Q & Rq) (Fy & r & Vy & P & Rr) g H1 H2.
  assert (G : Rabs (A * (s2 + e2 - s1 - e1)) <= g) by (unfold g; rewrite Rabs_mult; apply Rmult_le_compat_r; [apply Rabs_pos|exact HA]). apply Rabs_le_inv in G.
  assert (0 <= g) by (pose proof (Rabs_pos (A * (s2 + e2 - s1 - e1))); lra). assert (0 <= d1) by lra. assert (0 <= d2) by lra.
  assert (HU : 0 < U) by (unfold U; lra). assert (0 <= e2 - e1) by (apply Rmult_le_reg_l with (14.5 * U); lra).
  assert (E : A * s2 + B * e2 - (A * s1 + B * e1) = (B - A) * (e2 - e1) + A * (s2 + e2 - s1 - e1)) by ring.
  assert (M : 14.5 * U * (e2 - e1) <= (B - A) * (e2 - e1)) by (apply Rmult_le_compat_r; lra).
  assert (K : Rabs ((B - A) * (e2 - e1 - 1 / 11)) <= 131072 * Rabs (e2 - e1 - 1 / 11)) by (rewrite Rabs_mult; apply Rmult_le_compat_r; [apply Rabs_pos|apply Rabs_le; lra]). apply Rabs_le_inv in K.
  assert (E' : (B - A) * (e2 - e1) = (B - A) / 11 + (B - A) * (e2 - e1 - 1 / 11)) by (unfold Rdiv; ring).
  split.
  - rewrite Vx, Vy. apply rnd_le. lra.
  - rewrite Vx, Vy. lra.
Qed.
Definition E0 : R := (0).
Definition E1 : R := (3275345183542179 / 36028797018963968).
Definition E2 : R := (3275345183542179 / 18014398509481984).
Definition E3 : R := (1228254443828317 / 4503599627370496).
Definition E4 : R := (3275345183542179 / 9007199254740992).
Definition E5 : R := (1023545369856931 / 2251799813685248).
Definition E6 : R := (1228254443828317 / 2251799813685248).
Definition E7 : R := (5731854071198813 / 9007199254740992).
Definition E8 : R := (3275345183542179 / 4503599627370496).
Definition E9 : R := (7369526662969903 / 9007199254740992).
Definition E10 : R := (1023545369856931 / 1125899906842624).
Definition E11 : R := (1).
Lemma ends_ok A k E d : Rabs A <= D -> 0 <= E -> D * E < k -> D * E <= d -> - k < A * E < k /\ - d <= A * E <= d.
Proof.
  intros HA HE H Hd. assert (G : Rabs (A * E) <= D * E) by (rewrite Rabs_mult, (Rabs_right E) by lra; apply Rmult_le_compat_r; lra). apply Rabs_le_inv in G. lra.
Qed.
Lemma sample1 (a b : bf) : is_finite a = true -> is_finite b = true -> Rabs (B2R a) <= D -> Rabs (B2R b) <= D ->
  exists t : bf, fadd (fmul (B2SF a) (fl (1023545369856931) (-50))) (fmul (B2SF b) (fl (3275345183542179) (-55))) = B2SF t /\ mixed (B2R a) (B2R b) E10 E1 (/ 4294967296 + / 68719476736) t.
Proof.
  intros Fa Fb Ha Hb. destruct (fl_bf (1023545369856931) (-50)) as (s & -> & Fs & Vs); [split; lia|]. destruct (fl_bf (3275345183542179) (-55)) as (e & -> & Fe & Ve); [split; lia|].
  assert (Vs' : B2R s = E10) by (rewrite Vs; reflexivity). assert (Ve' : B2R e = E1) by (rewrite Ve; reflexivity). rewrite <- Vs', <- Ve'.
  destruct (ends_ok (B2R a) 4194304 (B2R s) 4194304 Ha) as [S1 S2]; try (rewrite Vs'; unfold D, E10; lra). destruct (ends_ok (B2R b) 262144 (B2R e) 262144 Hb) as [T1 T2]; try (rewrite Ve'; unfold D, E1; lra).
  destruct (ends_ok (B2R a) 4000000 (B2R s) (2883001 * 10 / 11) Ha) as [_ S3]; try (rewrite Vs'; unfold D, E10; lra). destruct (ends_ok (B2R b) 4000000 (B2R e) (2883001 * 1 / 11) Hb) as [_ T3]; try (rewrite Ve'; unfold D, E1; lra).
  apply mix with (ks := 22%Z) (ke := 18%Z); try assumption; try lia.
  - change (bpow radix2 (22 - 54)) with (/ 4294967296). change (bpow radix2 (18 - 54)) with (/ 68719476736). lra.
  - lra.
  - lra.
Qed.
Lemma sample2 (a b : bf) : is_finite a = true -> is_finite b = true -> Rabs (B2R a) <= D -> Rabs (B2R b) <= D ->
  exists t : bf, fadd (fmul (B2SF a) (fl (7369526662969903) (-53))) (fmul (B2SF b) (fl (3275345183542179) (-54))) = B2SF t /\ mixed (B2R a) (B2R b) E9 E2 (/ 4294967296 + / 34359738368) t.
Proof.
  intros Fa Fb Ha Hb. destruct (fl_bf (7369526662969903) (-53)) as (s & -> & Fs & Vs); [split; lia|]. destruct (fl_bf (3275345183542179) (-54)) as (e & -> & Fe & Ve); [split; lia|].
  assert (Vs' : B2R s = E9) by (rewrite Vs; reflexivity). assert (Ve' : B2R e = E2) by (rewrite Ve; reflexivity). rewrite <- Vs', <- Ve'.
  destruct (ends_ok (B2R a) 4194304 (B2R s) 4194304 Ha) as [S1 S2]; try (rewrite Vs'; unfold D, E9; lra). destruct (ends_ok (B2R b) 524288 (B2R e) 524288 Hb) as [T1 T2]; try (rewrite Ve'; unfold D, E2; lra).
  destruct (ends_ok (B2R a) 4000000 (B2R s) (2883001 * 9 / 11) Ha) as [_ S3]; try (rewrite Vs'; unfold D, E9; lra). destruct (ends_ok (B2R b) 4000000 (B2R e) (2883001 * 2 / 11) Hb) as [_ T3]; try (rewrite Ve'; unfold D, E2; lra).
  apply mix with (ks := 22%Z) (ke := 19%Z); try assumption; try lia.
  - change (bpow radix2 (22 - 54)) with (/ 4294967296). change (bpow radix2 (19 - 54)) with (/ 34359738368). lra.
  - lra.
  - lra.
Qed.
Lemma sample3 (a b : bf) : is_finite a = true -> is_finite b = true -> Rabs (B2R a) <= D -> Rabs (B2R b) <= D ->
  exists t : bf, fadd (fmul (B2SF a) (fl (3275345183542179) (-52))) (fmul (B2SF b) (fl (1228254443828317) (-52))) = B2SF t /\ mixed (B2R a) (B2R b) E8 E3 (/ 8589934592 + / 17179869184) t.
Proof.
  intros Fa Fb Ha Hb. destruct (fl_bf (3275345183542179) (-52)) as (s & -> & Fs & Vs); [split; lia|]. destruct (fl_bf (1228254443828317) (-52)) as (e & -> & Fe & Ve); [split; lia|].
  assert (Vs' : B2R s = E8) by (rewrite Vs; reflexivity). assert (Ve' : B2R e = E3) by (rewrite Ve; reflexivity). rewrite <- Vs', <- Ve'.
  destruct (ends_ok (B2R a) 2097152 (B2R s) 2097152 Ha) as [S1 S2]; try (rewrite Vs'; unfold D, E8; lra). destruct (ends_ok (B2R b) 1048576 (B2R e) 1048576 Hb) as [T1 T2]; try (rewrite Ve'; unfold D, E3; lra).
  destruct (ends_ok (B2R a) 4000000 (B2R s) (2883001 * 8 / 11) Ha) as [_ S3]; try (rewrite Vs'; unfold D, E8; lra). destruct (ends_ok (B2R b) 4000000 (B2R e) (2883001 * 3 / 11) Hb) as [_ T3]; try (rewrite Ve'; unfold D, E3; lra).
  apply mix with (ks := 21%Z) (ke := 20%Z); try assumption; try lia.
  - change (bpow radix2 (21 - 54)) with (/ 8589934592). change (bpow radix2 (20 - 54)) with (/ 17179869184). lra.
  - lra.
  - lra.
Qed.
Lemma sample4 (a b : bf) : is_finite a = true -> is_finite b = true -> Rabs (B2R a) <= D -> Rabs (B2R b) <= D ->
  exists t : bf, fadd (fmul (B2SF a) (fl (5731854071198813) (-53))) (fmul (B2SF b) (fl (3275345183542179) (-53))) = B2SF t /\ mixed (B2R a) (B2R b) E7 E4 (/ 8589934592 + / 17179869184) t.
Proof.
  intros Fa Fb Ha Hb. destruct (fl_bf (5731854071198813) (-53)) as (s & -> & Fs & Vs); [split; lia|]. destruct (fl_bf (3275345183542179) (-53)) as (e & -> & Fe & Ve); [split; lia|].
  assert (Vs' : B2R s = E7) by (rewrite Vs; reflexivity). assert (Ve' : B2R e = E4) by (rewrite Ve; reflexivity). rewrite <- Vs', <- Ve'.
  destruct (ends_ok (B2R a) 2097152 (B2R s) 2097152 Ha) as [S1 S2]; try (rewrite Vs'; unfold D, E7; lra). destruct (ends_ok (B2R b) 1048576 (B2R e) 1048576 Hb) as [T1 T2]; try (rewrite Ve'; unfold D, E4; lra).
  destruct (ends_ok (B2R a) 4000000 (B2R s) (2883001 * 7 / 11) Ha) as [_ S3]; try (rewrite Vs'; unfold D, E7; lra). destruct (ends_ok (B2R b) 4000000 (B2R e) (2883001 * 4 / 11) Hb) as [_ T3]; try (rewrite Ve'; unfold D, E4; lra).
  apply mix with (ks := 21%Z) (ke := 20%Z); try assumption; try lia.
  - change (bpow radix2 (21 - 54)) with (/ 8589934592). change (bpow radix2 (20 - 54)) with (/ 17179869184). lra.
  - lra.
  - lra.
Qed.
Lemma sample5 (a b : bf) : is_finite a = true -> is_finite b = true -> Rabs (B2R a) <= D -> Rabs (B2R b) <= D ->
  exists t : bf, fadd (fmul (B2SF a) (fl (1228254443828317) (-51))) (fmul (B2SF b) (fl (1023545369856931) (-51))) = B2SF t /\ mixed (B2R a) (B2R b) E6 E5 (/ 8589934592 + / 8589934592) t.
Proof.
  intros Fa Fb Ha Hb. destruct (fl_bf (1228254443828317) (-51)) as (s & -> & Fs & Vs); [split; lia|]. destruct (fl_bf (1023545369856931) (-51)) as (e & -> & Fe & Ve); [split; lia|].
  assert (Vs' : B2R s = E6) by (rewrite Vs; reflexivity). assert (Ve' : B2R e = E5) by (rewrite Ve; reflexivity). rewrite <- Vs', <- Ve'.
  destruct (ends_ok (B2R a) 2097152 (B2R s) 2097152 Ha) as [S1 S2]; try (rewrite Vs'; unfold D, E6; lra). destruct (ends_ok (B2R b) 2097152 (B2R e) 2097152 Hb) as [T1 T2]; try (rewrite Ve'; unfold D, E5; lra).
  destruct (ends_ok (B2R a) 4000000 (B2R s) (2883001 * 6 / 11) Ha) as [_ S3]; try (rewrite Vs'; unfold D, E6; lra). destruct (ends_ok (B2R b) 4000000 (B2R e) (2883001 * 5 / 11) Hb) as [_ T3]; try (rewrite Ve'; unfold D, E5; lra).
  apply mix with (ks := 21%Z) (ke := 21%Z); try assumption; try lia.
  - change (bpow radix2 (21 - 54)) with (/ 8589934592). change (bpow radix2 (21 - 54)) with (/ 8589934592). lra.
  - lra.
  - lra.
Qed.
Lemma sample6 (a b : bf) : is_finite a = true -> is_finite b = true -> Rabs (B2R a) <= D -> Rabs (B2R b) <= D ->
  exists t : bf, fadd (fmul (B2SF a) (fl (1023545369856931) (-51))) (fmul (B2SF b) (fl (1228254443828317) (-51))) = B2SF t /\ mixed (B2R a) (B2R b) E5 E6 (/ 8589934592 + / 8589934592) t.
Proof.
  intros Fa Fb Ha Hb. destruct (fl_bf (1023545369856931) (-51)) as (s & -> & Fs & Vs); [split; lia|]. destruct (fl_bf (1228254443828317) (-51)) as (e & -> & Fe & Ve); [split; lia|].
  assert (Vs' : B2R s = E5) by (rewrite Vs; reflexivity). assert (Ve' : B2R e = E6) by (rewrite Ve; reflexivity). rewrite <- Vs', <- Ve'.
  destruct (ends_ok (B2R a) 2097152 (B2R s) 2097152 Ha) as [S1 S2]; try (rewrite Vs'; unfold D, E5; lra). destruct (ends_ok (B2R b) 2097152 (B2R e) 2097152 Hb) as [T1 T2]; try (rewrite Ve'; unfold D, E6; lra).
  destruct (ends_ok (B2R a) 4000000 (B2R s) (2883001 * 5 / 11) Ha) as [_ S3]; try (rewrite Vs'; unfold D, E5; lra). destruct (ends_ok (B2R b) 4000000 (B2R e) (2883001 * 6 / 11) Hb) as [_ T3]; try (rewrite Ve'; unfold D, E6; lra).
  apply mix with (ks := 21%Z) (ke := 21%Z); try assumption; try lia.
  - change (bpow radix2 (21 - 54)) with (/ 8589934592). change (bpow radix2 (21 - 54)) with (/ 8589934592). lra.
  - lra.
  - lra.
Qed.
Lemma sample7 (a b : bf) : is_finite a = true -> is_finite b = true -> Rabs (B2R a) <= D -> Rabs (B2R b) <= D ->
  exists t : bf, fadd (fmul (B2SF a) (fl (3275345183542179) (-53))) (fmul (B2SF b) (fl (5731854071198813) (-53))) = B2SF t /\ mixed (B2R a) (B2R b) E4 E7 (/ 17179869184 + / 8589934592) t.
Proof.
  intros Fa Fb Ha Hb. destruct (fl_bf (3275345183542179) (-53)) as (s & -> & Fs & Vs); [split; lia|]. destruct (fl_bf (5731854071198813) (-53)) as (e & -> & Fe & Ve); [split; lia|].
  assert (Vs' : B2R s = E4) by (rewrite Vs; reflexivity). assert (Ve' : B2R e = E7) by (rewrite Ve; reflexivity). rewrite <- Vs', <- Ve'.
  destruct (ends_ok (B2R a) 1048576 (B2R s) 1048576 Ha) as [S1 S2]; try (rewrite Vs'; unfold D, E4; lra). destruct (ends_ok (B2R b) 2097152 (B2R e) 2097152 Hb) as [T1 T2]; try (rewrite Ve'; unfold D, E7; lra).
  destruct (ends_ok (B2R a) 4000000 (B2R s) (2883001 * 4 / 11) Ha) as [_ S3]; try (rewrite Vs'; unfold D, E4; lra). destruct (ends_ok (B2R b) 4000000 (B2R e) (2883001 * 7 / 11) Hb) as [_ T3]; try (rewrite Ve'; unfold D, E7; lra).
  apply mix with (ks := 20%Z) (ke := 21%Z); try assumption; try lia.
  - change (bpow radix2 (20 - 54)) with (/ 17179869184). change (bpow radix2 (21 - 54)) with (/ 8589934592). lra.
  - lra.
  - lra.
Qed.
Lemma sample8 (a b : bf) : is_finite a = true -> is_finite b = true -> Rabs (B2R a) <= D -> Rabs (B2R b) <= D ->
  exists t : bf, fadd (fmul (B2SF a) (fl (1228254443828317) (-52))) (fmul (B2SF b) (fl (3275345183542179) (-52))) = B2SF t /\ mixed (B2R a) (B2R b) E3 E8 (/ 17179869184 + / 8589934592) t.
Proof.
  intros Fa Fb Ha Hb. destruct (fl_bf (1228254443828317) (-52)) as (s & -> & Fs & Vs); [split; lia|]. destruct (fl_bf (3275345183542179) (-52)) as (e & -> & Fe & Ve); [split; lia|].
  assert (Vs' : B2R s = E3) by (rewrite Vs; reflexivity). assert (Ve' : B2R e = E8) by (rewrite Ve; reflexivity). rewrite <- Vs', <- Ve'.
  destruct (ends_ok (B2R a) 1048576 (B2R s) 1048576 Ha) as [S1 S2]; try (rewrite Vs'; unfold D, E3; lra). destruct (ends_ok (B2R b) 2097152 (B2R e) 2097152 Hb) as [T1 T2]; try (rewrite Ve'; unfold D, E8; lra).
  destruct (ends_ok (B2R a) 4000000 (B2R s) (2883001 * 3 / 11) Ha) as [_ S3]; try (rewrite Vs'; unfold D, E3; lra). destruct (ends_ok (B2R b) 4000000 (B2R e) (2883001 * 8 / 11) Hb) as [_ T3]; try (rewrite Ve'; unfold D, E8; lra).
  apply mix with (ks := 20%Z) (ke := 21%Z); try assumption; try lia.
  - change (bpow radix2 (20 - 54)) with (/ 17179869184). change (bpow radix2 (21 - 54)) with (/ 8589934592). lra.
  - lra.
  - lra.
Qed.
Lemma sample9 (a b : bf) : is_finite a = true -> is_finite b = true -> Rabs (B2R a) <= D -> Rabs (B2R b) <= D ->
  exists t : bf, fadd (fmul (B2SF a) (fl (3275345183542179) (-54))) (fmul (B2SF b) (fl (7369526662969903) (-53))) = B2SF t /\ mixed (B2R a) (B2R b) E2 E9 (/ 34359738368 + / 4294967296) t.
Proof.
  intros Fa Fb Ha Hb. destruct (fl_bf (3275345183542179) (-54)) as (s & -> & Fs & Vs); [split; lia|]. destruct (fl_bf (7369526662969903) (-53)) as (e & -> & Fe & Ve); [split; lia|].
  assert (Vs' : B2R s = E2) by (rewrite Vs; reflexivity). assert (Ve' : B2R e = E9) by (rewrite Ve; reflexivity). rewrite <- Vs', <- Ve'.
  destruct (ends_ok (B2R a) 524288 (B2R s) 524288 Ha) as [S1 S2]; try (rewrite Vs'; unfold D, E2; lra). destruct (ends_ok (B2R b) 4194304 (B2R e) 4194304 Hb) as [T1 T2]; try (rewrite Ve'; unfold D, E9; lra).
  destruct (ends_ok (B2R a) 4000000 (B2R s) (2883001 * 2 / 11) Ha) as [_ S3]; try (rewrite Vs'; unfold D, E2; lra). destruct (ends_ok (B2R b) 4000000 (B2R e) (2883001 * 9 / 11) Hb) as [_ T3]; try (rewrite Ve'; unfold D, E9; lra).
  apply mix with (ks := 19%Z) (ke := 22%Z); try assumption; try lia.
  - change (bpow radix2 (19 - 54)) with (/ 34359738368). change (bpow radix2 (22 - 54)) with (/ 4294967296). lra.
  - lra.
  - lra.
Qed.
Lemma sample10 (a b : bf) : is_finite a = true -> is_finite b = true -> Rabs (B2R a) <= D -> Rabs (B2R b) <= D ->
  exists t : bf, fadd (fmul (B2SF a) (fl (3275345183542179) (-55))) (fmul (B2SF b) (fl (1023545369856931) (-50))) = B2SF t /\ mixed (B2R a) (B2R b) E1 E10 (/ 68719476736 + / 4294967296) t.
Proof.
  intros Fa Fb Ha Hb. destruct (fl_bf (3275345183542179) (-55)) as (s & -> & Fs & Vs); [split; lia|]. destruct (fl_bf (1023545369856931) (-50)) as (e & -> & Fe & Ve); [split; lia|].
  assert (Vs' : B2R s = E1) by (rewrite Vs; reflexivity). assert (Ve' : B2R e = E10) by (rewrite Ve; reflexivity). rewrite <- Vs', <- Ve'.
  destruct (ends_ok (B2R a) 262144 (B2R s) 262144 Ha) as [S1 S2]; try (rewrite Vs'; unfold D, E1; lra). destruct (ends_ok (B2R b) 4194304 (B2R e) 4194304 Hb) as [T1 T2]; try (rewrite Ve'; unfold D, E10; lra).
  destruct (ends_ok (B2R a) 4000000 (B2R s) (2883001 * 1 / 11) Ha) as [_ S3]; try (rewrite Vs'; unfold D, E1; lra). destruct (ends_ok (B2R b) 4000000 (B2R e) (2883001 * 10 / 11) Hb) as [_ T3]; try (rewrite Ve'; unfold D, E10; lra).
  apply mix with (ks := 18%Z) (ke := 22%Z); try assumption; try lia.
  - change (bpow radix2 (18 - 54)) with (/ 68719476736). change (bpow radix2 (22 - 54)) with (/ 4294967296). lra.
  - lra.
  - lra.
Qed.

(** The whole block. *)
Fixpoint run (w : R) (x : bf) (l : list bf) : Prop := match l with [] => True | y :: r => regular w x y /\ run w y r end.
Ltac closed := unfold D, U, E0, E1, E2, E3, E4, E5, E6, E7, E8, E9, E10, E11; repeat (unfold Rabs; destruct Rcase_abs; try lra).
Lemma block_floats (a b : bf) : is_finite a = true -> is_finite b = true -> Rabs (B2R a) <= D -> Rabs (B2R b) <= D -> 14.5 * U <= B2R b - B2R a <= 131072 ->
  exists x l, block64 12 (B2SF a, B2SF b) = map (fun b : bf => B2SF b) (x :: l) /\ Forall (fun b : bf => is_finite b = true) (x :: l) /\ B2R x = B2R a /\ B2R (last l x) = B2R b /\ run (B2R b - B2R a) x l.
Proof.
  intros Fa Fb Ha Hb Hw.
  destruct (fl_bf 0 0) as (z & Ez & Fz & Vz); [split; lia|]. destruct (fl_bf 1 0) as (o & Eo & Fo & Vo); [split; lia|]. assert (Vz' : B2R z = 0) by (rewrite Vz; unfold F2R; cbn; lra). assert (Vo' : B2R o = 1) by (rewrite Vo; unfold F2R; cbn; lra).
  destruct (mix_left a b o z Fa Fb Fo Fz Ha Vo' Vz') as (t0 & T0 & M0 & V0). destruct (mix_right a b z o Fa Fb Fz Fo Hb Vz' Vo') as (t11 & T11 & M11 & V11).
  destruct (sample1 a b Fa Fb Ha Hb) as (t1 & T1 & M1).
  destruct (sample2 a b Fa Fb Ha Hb) as (t2 & T2 & M2).
  destruct (sample3 a b Fa Fb Ha Hb) as (t3 & T3 & M3).
  destruct (sample4 a b Fa Fb Ha Hb) as (t4 & T4 & M4).
  destruct (sample5 a b Fa Fb Ha Hb) as (t5 & T5 & M5).
  destruct (sample6 a b Fa Fb Ha Hb) as (t6 & T6 & M6).
  destruct (sample7 a b Fa Fb Ha Hb) as (t7 & T7 & M7).
  destruct (sample8 a b Fa Fb Ha Hb) as (t8 & T8 & M8).
  destruct (sample9 a b Fa Fb Ha Hb) as (t9 & T9 & M9).
  destruct (sample10 a b Fa Fb Ha Hb) as (t10 & T10 & M10).
  assert (N0 : regular (B2R b - B2R a) t0 t1) by (eapply neighbours; [exact Ha|exact Hw|exact M0|exact M1|clear; closed|clear; closed]).
  assert (N1 : regular (B2R b - B2R a) t1 t2) by (eapply neighbours; [exact Ha|exact Hw|exact M1|exact M2|clear; closed|clear; closed]).
  assert (N2 : regular (B2R b - B2R a) t2 t3) by (eapply neighbours; [exact Ha|exact Hw|exact M2|exact M3|clear; closed|clear; closed]).
  assert (N3 : regular (B2R b - B2R a) t3 t4) by (eapply neighbours; [exact Ha|exact Hw|exact M3|exact M4|clear; closed|clear; closed]).
  assert (N4 : regular (B2R b - B2R a) t4 t5) by (eapply neighbours; [exact Ha|exact Hw|exact M4|exact M5|clear; closed|clear; closed]).
  assert (N5 : regular (B2R b - B2R a) t5 t6) by (eapply neighbours; [exact Ha|exact Hw|exact M5|exact M6|clear; closed|clear; closed]).
  assert (N6 : regular (B2R b - B2R a) t6 t7) by (eapply neighbours; [exact Ha|exact Hw|exact M6|exact M7|clear; closed|clear; closed]).
  assert (N7 : regular (B2R b - B2R a) t7 t8) by (eapply neighbours; [exact Ha|exact Hw|exact M7|exact M8|clear; closed|clear; closed]).
  assert (N8 : regular (B2R b - B2R a) t8 t9) by (eapply neighbours; [exact Ha|exact Hw|exact M8|exact M9|clear; closed|clear; closed]).
  assert (N9 : regular (B2R b - B2R a) t9 t10) by (eapply neighbours; [exact Ha|exact Hw|exact M9|exact M10|clear; closed|clear; closed]).
  assert (N10 : regular (B2R b - B2R a) t10 t11) by (eapply neighbours; [exact Ha|exact Hw|exact M10|exact M11|clear; closed|clear; closed]).
  exists t0, [t1; t2; t3; t4; t5; t6; t7; t8; t9; t10; t11].
  split; [|split; [|split; [exact V0|split; [exact V11|]]]].
  - unfold block64. rewrite masks. cbn [rev app combine map fst snd]. rewrite Ez, Eo. rewrite T0, T11, T1, T2, T3, T4, T5, T6, T7, T8, T9, T10. reflexivity.
  - repeat constructor; (apply M0 || apply M1 || apply M2 || apply M3 || apply M4 || apply M5 || apply M6 || apply M7 || apply M8 || apply M9 || apply M10 || apply M11).
  - cbn [run]. repeat split; (assumption || exact I || apply N0 || apply N1 || apply N2 || apply N3 || apply N4 || apply N5 || apply N6 || apply N7 || apply N8 || apply N9 || apply N10).
Qed.
