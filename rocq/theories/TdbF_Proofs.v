(** Proofs about TDB in binary64. *)
From Coq Require Import ZArith Reals Lia Lra.
From Coq.Floats Require Import SpecFloat.
From Flocq Require Import Core BinarySingleNaN.
From Verif Require Import Float64 Float64_Proofs Float_Time_Model Float_Time_Proofs Float_Time_Proofs4 SexaF_Proofs2 CalF_Proofs CalF_Proofs2 Spin_Spec Wrap_Model Wrap_Spec Wrap_Proofs Wrap_Proofs2 EraF_Model EraF_Proofs ObliqF_Proofs TdbF_Model TdbF_Spec.
From Verif Require Frames_Proofs SphF_Proofs3.
Open Scope R_scope.

(** A sine of a nearby angle. *)
Lemma sine_close s (x : bf) (X e : R) : good_sine s -> is_finite x = true -> Rabs (B2R x) <= 20000 -> Rabs (B2R x - X) <= e -> exists y : bf, s (B2SF x) = B2SF y /\ is_finite y = true /\ Rabs (B2R y - sin X) <= e + / 2 ^ 52.
Proof.
  intros G Fx Bx Hx. destruct (G x Fx Bx) as (y & E & Fy & Vy). exists y. split; [exact E|]. split; [exact Fy|]. pose proof (Frames_Proofs.sin_lip1 (B2R x) X) as L. replace (B2R y - sin X) with ((B2R y - sin (B2R x)) + (sin (B2R x) - sin X)) by ring. eapply Rle_trans; [apply Rabs_triang|]. lra.
Qed.
(** A term whose amplitude [a] is near [A]. *)
Lemma term_close s (a r p t : bf) (A Rr P T d : R) : good_sine s -> is_finite a = true -> is_finite r = true -> is_finite p = true -> is_finite t = true ->
  Rabs (B2R a - A) <= / 10 ^ 18 -> Rabs A <= / 512 -> Rabs (B2R r - Rr) <= / (8 * 10 ^ 12) -> Rabs Rr <= 1257 -> Rabs (B2R p - P) <= / 10 ^ 15 -> Rabs P <= 7 ->
  Rabs (B2R t - T) <= d -> 0 <= d <= / 281474976710656 -> Rabs (B2R t) <= 8 -> Rabs T <= 8 ->
  exists v : bf, tdb_term64 s (B2SF a) (B2SF r) (B2SF p) (B2SF t) = B2SF v /\ is_finite v = true /\ Rabs (B2R v - A * sin (Rr * T + P)) <= (Rabs A + / 10 ^ 18) * (8 / 10 ^ 12) + 2 / 10 ^ 18 /\ Rabs (A * sin (Rr * T + P)) <= Rabs A.
Proof.
  intros G Fa Fr Fp Ft Ha BA Hr BR Hp BP Ht Dd B8 T8. pose proof top_ge as TT.
  destruct (step_close false 14 r t p Rr T P (/ (8 * 10 ^ 12)) 1257 d (/ 10 ^ 15) Fr Ft Fp ltac:(lia) Hr BR Ht B8 T8 ltac:(lra) Hp) as (x & Ex & Fx & Vx & Bx); [change (bpow radix2 (14 - 54)) with (/ 1099511627776); change (bpow radix2 14) with 16384; lra|].
  cbv iota in Ex, Vx, Bx. change (bpow radix2 (14 - 54)) with (/ 1099511627776) in Vx. unfold tdb_term64. rewrite Ex. set (X := Rr * T + P) in *.
  assert (Hx : Rabs (B2R x - X) <= 78 / 10 ^ 13) by lra. assert (B20 : Rabs (B2R x) <= 20000) by (apply Rabs_le_inv in Hx; assert (HX : Rabs X <= 10070) by lra; apply Rabs_le_inv in HX; apply Rabs_le; lra).
  destruct (sine_close s x X _ G Fx B20 Hx) as (y & -> & Fy & Vy). pose proof (SIN_bound X) as SB. set (S := sin X) in *.
  assert (HS : Rabs S <= 1) by (apply Rabs_le; lra). assert (Hy : Rabs (B2R y - S) <= 8 / 10 ^ 12) by lra.
  assert (P1 : Rabs (B2R a * B2R y - A * S) <= (Rabs A + / 10 ^ 18) * (8 / 10 ^ 12) + / 10 ^ 18).
  { replace (B2R a * B2R y - A * S) with (B2R a * (B2R y - S) + (B2R a - A) * S) by ring. eapply Rle_trans; [apply Rabs_triang|]. rewrite !Rabs_mult. assert (Na : Rabs (B2R a) <= Rabs A + / 10 ^ 18) by (replace (B2R a) with (A + (B2R a - A)) by ring; eapply Rle_trans; [apply Rabs_triang|lra]).
    assert (Rabs (B2R a) * Rabs (B2R y - S) <= (Rabs A + / 10 ^ 18) * (8 / 10 ^ 12)) by (apply Rmult_le_compat; (apply Rabs_pos || assumption)). assert (Rabs (B2R a - A) * Rabs S <= / 10 ^ 18 * 1) by (apply Rmult_le_compat; (apply Rabs_pos || assumption)). lra. }
  assert (P2 : Rabs (A * S) <= Rabs A) by (rewrite Rabs_mult; rewrite <- (Rmult_1_r (Rabs A)) at 2; apply Rmult_le_compat_l; [apply Rabs_pos|exact HS]).
  assert (A0 := Rabs_pos A). assert (M : - / 500 < B2R a * B2R y < / 500) by (apply Rabs_le_inv in P1, P2; lra).
  destruct (fmul_val a y Fa Fy) as (v & -> & Fv & Vv & _); [apply Rabs_lt; lra|]. pose proof (rnd_err (B2R a * B2R y) (-8) ltac:(lia) ltac:(change (bpow radix2 (-8)) with (/ 256); lra)) as RR. change (bpow radix2 (-8 - 54)) with (/ 4611686018427387904) in RR. rewrite <- Vv in RR.
  exists v. split; [reflexivity|]. split; [exact Fv|]. split; [|exact P2]. apply Rabs_le_inv in P1. apply Rabs_le. lra.
Qed.
(** Adding terms that together stay below a 64th of a second. *)
Lemma sum_close (a b : bf) (A B ea eb Ma Mb : R) : is_finite a = true -> is_finite b = true -> Rabs (B2R a - A) <= ea -> Rabs (B2R b - B) <= eb -> Rabs A <= Ma -> Rabs B <= Mb -> ea + eb + Ma + Mb < / 256 ->
  exists v : bf, fadd (B2SF a) (B2SF b) = B2SF v /\ is_finite v = true /\ Rabs (B2R v - (A + B)) <= ea + eb + / 10 ^ 18 /\ Rabs (A + B) <= Ma + Mb.
Proof.
  intros Fa Fb Ha Hb HA HB S. pose proof top_ge as TT. apply Rabs_le_inv in Ha, Hb, HA, HB. destruct (fadd_val a b Fa Fb) as (v & -> & Fv & Vv); [apply Rabs_lt; lra|]. pose proof (rnd_err (B2R a + B2R b) (-8) ltac:(lia) ltac:(change (bpow radix2 (-8)) with (/ 256); lra)) as RR. change (bpow radix2 (-8 - 54)) with (/ 4611686018427387904) in RR. rewrite <- Vv in RR.
  exists v. split; [reflexivity|]. split; [exact Fv|]. split; apply Rabs_le; lra.
Qed.
Lemma tdb_terms_close s (w f : bf) : good_sine s -> is_finite w = true -> within (-1) 1 f -> Rabs (B2R w - 2451545) <= 262000 ->
  exists v : bf, tdb_minus_tt64 s (B2SF w) (B2SF f) = B2SF v /\ is_finite v = true /\ Rabs (B2R v - tdb_circular_179 (centuries (B2R w + B2R f))) <= 15 / 10 ^ 15 /\ Rabs (tdb_circular_179 (centuries (B2R w + B2R f))) <= 18 / 10 ^ 4.
Proof.
  intros G Fw Hf B. pose proof top_ge as TT. destruct (days_close w f Fw Hf B) as (t & Et & Ft & Vt & BT). unfold tdb_minus_tt64. rewrite Et. cbv zeta. set (T := centuries (B2R w + B2R f)) in *. set (d := / 281474976710656) in *. assert (Dv : d = / 281474976710656) by reflexivity. assert (Dd : 0 <= d <= / 281474976710656) by (rewrite Dv; lra). clearbody d.
  assert (T8 : Rabs T <= 8) by lra. assert (B8 : Rabs (B2R t) <= 8) by (apply Rabs_le_inv in Vt, BT; apply Rabs_le; lra).
  destruct (const_bf (7641563732534182) (-62) 62 ltac:(unfold small; lia) eq_refl) as (a0 & Ea0 & Fa0 & Va0). change (IZR (Z.pow_pos 2 62)) with 4611686018427387904 in Va0. try rewrite Ea0; clear Ea0.
  destruct (const_bf (5526652096160255) (-43) 43 ltac:(unfold small; lia) eq_refl) as (r0 & Er0 & Fr0 & Vr0). change (IZR (Z.pow_pos 2 43)) with 8796093022208 in Vr0. try rewrite Er0; clear Er0.
  destruct (const_bf (7025728008688658) (-50) 50 ltac:(unfold small; lia) eq_refl) as (p0 & Ep0 & Fp0 & Vp0). change (IZR (Z.pow_pos 2 50)) with 1125899906842624 in Vp0. try rewrite Ep0; clear Ep0.
  destruct (const_bf (6493253913945762) (-68) 68 ltac:(unfold small; lia) eq_refl) as (a1 & Ea1 & Fa1 & Va1). change (IZR (Z.pow_pos 2 68)) with 295147905179352825856 in Va1. try rewrite Ea1; clear Ea1.
  destruct (const_bf (5060730965257617) (-43) 43 ltac:(unfold small; lia) eq_refl) as (r1 & Er1 & Fr1 & Vr1). change (IZR (Z.pow_pos 2 43)) with 8796093022208 in Vr1. try rewrite Er1; clear Er1.
  destruct (const_bf (4837991899702755) (-50) 50 ltac:(unfold small; lia) eq_refl) as (p1 & Ep1 & Fp1 & Vp1). change (IZR (Z.pow_pos 2 50)) with 1125899906842624 in Vp1. try rewrite Ep1; clear Ep1.
  destruct (const_bf (8264141345021879) (-69) 69 ltac:(unfold small; lia) eq_refl) as (a2 & Ea2 & Fa2 & Va2). change (IZR (Z.pow_pos 2 69)) with 590295810358705651712 in Va2. try rewrite Ea2; clear Ea2.
  destruct (const_bf (5526652096160255) (-42) 42 ltac:(unfold small; lia) eq_refl) as (r2 & Er2 & Fr2 & Vr2). change (IZR (Z.pow_pos 2 42)) with 4398046511104 in Vr2. try rewrite Er2; clear Er2.
  destruct (const_bf (6977089132713057) (-50) 50 ltac:(unfold small; lia) eq_refl) as (p2 & Ep2 & Fp2 & Vp2). change (IZR (Z.pow_pos 2 50)) with 1125899906842624 in Vp2. try rewrite Ep2; clear Ep2.
  destruct (const_bf (5902958103587057) (-70) 70 ltac:(unfold small; lia) eq_refl) as (a3 & Ea3 & Fa3 & Va3). change (IZR (Z.pow_pos 2 70)) with 1180591620717411303424 in Va3. try rewrite Ea3; clear Ea3.
  destruct (const_bf (5339032311605861) (-43) 43 ltac:(unfold small; lia) eq_refl) as (r3 & Er3 & Fr3 & Vr3). change (IZR (Z.pow_pos 2 43)) with 8796093022208 in Vr3. try rewrite Er3; clear Er3.
  destruct (const_bf (4527468705395560) (-50) 50 ltac:(unfold small; lia) eq_refl) as (p3 & Ep3 & Fp3 & Vp3). change (IZR (Z.pow_pos 2 50)) with 1125899906842624 in Vp3. try rewrite Ep3; clear Ep3.
  destruct (const_bf (7454738094442204) (-47) 47 ltac:(unfold small; lia) eq_refl) as (r4 & Er4 & Fr4 & Vr4). change (IZR (Z.pow_pos 2 47)) with 140737488355328 in Vr4. try rewrite Er4; clear Er4.
  destruct (const_bf (8005598697613794) (-54) 54 ltac:(unfold small; lia) eq_refl) as (p4 & Ep4 & Fp4 & Vp4). change (IZR (Z.pow_pos 2 54)) with 18014398509481984 in Vp4. try rewrite Ep4; clear Ep4.
  destruct (const_bf (4722366482869645) (-71) 71 ltac:(unfold small; lia) eq_refl) as (a5 & Ea5 & Fa5 & Va5). change (IZR (Z.pow_pos 2 71)) with 2361183241434822606848 in Va5. try rewrite Ea5; clear Ea5.
  destruct (const_bf (6003833105740621) (-48) 48 ltac:(unfold small; lia) eq_refl) as (r5 & Er5 & Fr5 & Vr5). change (IZR (Z.pow_pos 2 48)) with 281474976710656 in Vr5. try rewrite Er5; clear Er5.
  destruct (const_bf (6240975773619349) (-50) 50 ltac:(unfold small; lia) eq_refl) as (p5 & Ep5 & Fp5 & Vp5). change (IZR (Z.pow_pos 2 50)) with 1125899906842624 in Vp5. try rewrite Ep5; clear Ep5.
  destruct (const_bf (5902958103587057) (-69) 69 ltac:(unfold small; lia) eq_refl) as (a6 & Ea6 & Fa6 & Va6). change (IZR (Z.pow_pos 2 69)) with 590295810358705651712 in Va6. try rewrite Ea6; clear Ea6.
  destruct (const_bf (4783948704174309) (-50) 50 ltac:(unfold small; lia) eq_refl) as (p6 & Ep6 & Fp6 & Vp6). change (IZR (Z.pow_pos 2 50)) with 1125899906842624 in Vp6. try rewrite Ep6; clear Ep6.
  assert (HT := Vt). apply Rabs_le_inv in HT. assert (BT' := T8). apply Rabs_le_inv in BT'. assert (B8' := B8). apply Rabs_le_inv in B8'.
  destruct (fmul_val a6 t Fa6 Ft) as (a6t & Ea6t & Fa6t & Va6t & _); [rewrite Va6; apply Rabs_lt; lra|]. rewrite Ea6t; clear Ea6t.
  assert (H6 : Rabs (B2R a6t - 1 / 10 ^ 5 * T) <= / 10 ^ 18).
  { pose proof (rnd_err (B2R a6 * B2R t) (-13) ltac:(lia) ltac:(change (bpow radix2 (-13)) with (/ 8192); rewrite Va6; lra)) as RR. change (bpow radix2 (-13 - 54)) with (/ 147573952589676412928) in RR. rewrite <- Va6t in RR. rewrite Va6 in RR. apply Rabs_le. lra. }
  destruct (term_close s a0 r0 p0 t (1657 / 10 ^ 6) (6283076 / 10 ^ 4) (62401 / 10 ^ 4) T d G Fa0 Fr0 Fp0 Ft ltac:(rewrite Va0; apply Rabs_le; lra) ltac:(apply Rabs_le; lra) ltac:(rewrite Vr0; apply Rabs_le; lra) ltac:(apply Rabs_le; lra) ltac:(rewrite Vp0; apply Rabs_le; lra) ltac:(apply Rabs_le; lra) Vt Dd B8 T8) as (v0 & -> & G0 & W0 & M0).
  rewrite (Rabs_pos_eq (1657 / 10 ^ 6)) in W0, M0 by lra.
  set (S0 := 1657 / 10 ^ 6 * sin (6283076 / 10 ^ 4 * T + 62401 / 10 ^ 4)) in *.
  destruct (term_close s a1 r1 p1 t (22 / 10 ^ 6) (5753385 / 10 ^ 4) (4297 / 10 ^ 3) T d G Fa1 Fr1 Fp1 Ft ltac:(rewrite Va1; apply Rabs_le; lra) ltac:(apply Rabs_le; lra) ltac:(rewrite Vr1; apply Rabs_le; lra) ltac:(apply Rabs_le; lra) ltac:(rewrite Vp1; apply Rabs_le; lra) ltac:(apply Rabs_le; lra) Vt Dd B8 T8) as (v1 & -> & G1 & W1 & M1).
  rewrite (Rabs_pos_eq (22 / 10 ^ 6)) in W1, M1 by lra.
  set (S1 := 22 / 10 ^ 6 * sin (5753385 / 10 ^ 4 * T + 4297 / 10 ^ 3)) in *.
  destruct (term_close s a2 r2 p2 t (14 / 10 ^ 6) (12566152 / 10 ^ 4) (61969 / 10 ^ 4) T d G Fa2 Fr2 Fp2 Ft ltac:(rewrite Va2; apply Rabs_le; lra) ltac:(apply Rabs_le; lra) ltac:(rewrite Vr2; apply Rabs_le; lra) ltac:(apply Rabs_le; lra) ltac:(rewrite Vp2; apply Rabs_le; lra) ltac:(apply Rabs_le; lra) Vt Dd B8 T8) as (v2 & -> & G2 & W2 & M2).
  rewrite (Rabs_pos_eq (14 / 10 ^ 6)) in W2, M2 by lra.
  set (S2 := 14 / 10 ^ 6 * sin (12566152 / 10 ^ 4 * T + 61969 / 10 ^ 4)) in *.
  destruct (term_close s a3 r3 p3 t (5 / 10 ^ 6) (6069777 / 10 ^ 4) (40212 / 10 ^ 4) T d G Fa3 Fr3 Fp3 Ft ltac:(rewrite Va3; apply Rabs_le; lra) ltac:(apply Rabs_le; lra) ltac:(rewrite Vr3; apply Rabs_le; lra) ltac:(apply Rabs_le; lra) ltac:(rewrite Vp3; apply Rabs_le; lra) ltac:(apply Rabs_le; lra) Vt Dd B8 T8) as (v3 & -> & G3 & W3 & M3).
  rewrite (Rabs_pos_eq (5 / 10 ^ 6)) in W3, M3 by lra.
  set (S3 := 5 / 10 ^ 6 * sin (6069777 / 10 ^ 4 * T + 40212 / 10 ^ 4)) in *.
  destruct (term_close s a3 r4 p4 t (5 / 10 ^ 6) (529691 / 10 ^ 4) (4444 / 10 ^ 4) T d G Fa3 Fr4 Fp4 Ft ltac:(rewrite Va3; apply Rabs_le; lra) ltac:(apply Rabs_le; lra) ltac:(rewrite Vr4; apply Rabs_le; lra) ltac:(apply Rabs_le; lra) ltac:(rewrite Vp4; apply Rabs_le; lra) ltac:(apply Rabs_le; lra) Vt Dd B8 T8) as (v4 & -> & G4 & W4 & M4).
  rewrite (Rabs_pos_eq (5 / 10 ^ 6)) in W4, M4 by lra.
  set (S4 := 5 / 10 ^ 6 * sin (529691 / 10 ^ 4 * T + 4444 / 10 ^ 4)) in *.
  destruct (term_close s a5 r5 p5 t (2 / 10 ^ 6) (213299 / 10 ^ 4) (55431 / 10 ^ 4) T d G Fa5 Fr5 Fp5 Ft ltac:(rewrite Va5; apply Rabs_le; lra) ltac:(apply Rabs_le; lra) ltac:(rewrite Vr5; apply Rabs_le; lra) ltac:(apply Rabs_le; lra) ltac:(rewrite Vp5; apply Rabs_le; lra) ltac:(apply Rabs_le; lra) Vt Dd B8 T8) as (v5 & -> & G5 & W5 & M5).
  rewrite (Rabs_pos_eq (2 / 10 ^ 6)) in W5, M5 by lra.
  set (S5 := 2 / 10 ^ 6 * sin (213299 / 10 ^ 4 * T + 55431 / 10 ^ 4)) in *.
  destruct (term_close s a6t r0 p6 t (1 / 10 ^ 5 * T) (6283076 / 10 ^ 4) (4249 / 10 ^ 3) T d G Fa6t Fr0 Fp6 Ft H6 ltac:(apply Rabs_le; lra) ltac:(rewrite Vr0; apply Rabs_le; lra) ltac:(apply Rabs_le; lra) ltac:(rewrite Vp6; apply Rabs_le; lra) ltac:(apply Rabs_le; lra) Vt Dd B8 T8) as (v6 & -> & G6 & W6 & M6).
  assert (A6 : Rabs (1 / 10 ^ 5 * T) <= 8 / 10 ^ 5) by (apply Rabs_le; lra).
  set (S6 := 1 / 10 ^ 5 * T * sin (6283076 / 10 ^ 4 * T + 4249 / 10 ^ 3)) in *.
  unfold tdb_circular_179. fold S0 S1 S2 S3 S4 S5 S6.
  assert (W6' : Rabs (B2R v6 - S6) <= (8 / 10 ^ 5 + / 10 ^ 18) * (8 / 10 ^ 12) + 2 / 10 ^ 18) by lra. assert (M6' : Rabs S6 <= 8 / 10 ^ 5) by lra. clear W6 M6. clearbody S0 S1 S2 S3 S4 S5 S6.
  destruct (sum_close v0 v1 S0 S1 _ _ _ _ G0 G1 W0 W1 M0 M1 ltac:(lra)) as (u1 & -> & K1 & Y1 & N1).
  destruct (sum_close u1 v2 (S0 + S1) S2 _ _ _ _ K1 G2 Y1 W2 N1 M2 ltac:(lra)) as (u2 & -> & K2 & Y2 & N2).
  destruct (sum_close u2 v3 ((S0 + S1) + S2) S3 _ _ _ _ K2 G3 Y2 W3 N2 M3 ltac:(lra)) as (u3 & -> & K3 & Y3 & N3).
  destruct (sum_close u3 v4 (((S0 + S1) + S2) + S3) S4 _ _ _ _ K3 G4 Y3 W4 N3 M4 ltac:(lra)) as (u4 & -> & K4 & Y4 & N4).
  destruct (sum_close u4 v5 ((((S0 + S1) + S2) + S3) + S4) S5 _ _ _ _ K4 G5 Y4 W5 N4 M5 ltac:(lra)) as (u5 & -> & K5 & Y5 & N5).
  destruct (sum_close u5 v6 (((((S0 + S1) + S2) + S3) + S4) + S5) S6 _ _ _ _ K5 G6 Y5 W6' N5 M6' ltac:(lra)) as (u6 & -> & K6 & Y6 & N6).
  exists u6. split; [reflexivity|]. split; [exact K6|]. split; lra.
Qed.
(** The fraction of TDB. *)
Lemma tdb_fraction_close s (w f : bf) : good_sine s -> is_finite w = true -> within (-1) 1 f -> Rabs (B2R w - 2451545) <= 262000 ->
  exists v : bf, fadd (B2SF f) (fdiv (tdb_minus_tt64 s (B2SF w) (B2SF f)) DAY_S64) = B2SF v /\ is_finite v = true /\ Rabs (B2R v - (B2R f + tdb_circular_179 (centuries (B2R w + B2R f)) / 86400)) <= 12 / 10 ^ 17.
Proof.
  intros G Fw Hf B. pose proof top_ge as TT. destruct (tdb_terms_close s w f G Fw Hf B) as (x & -> & Fx & Vx & Bx). set (X := tdb_circular_179 _) in *. clearbody X. destruct Hf as (Ff & Hf). apply Rabs_le_inv in Vx, Bx.
  unfold DAY_S64. destruct (of_Z_bf 86400 ltac:(unfold fits; lia)) as (c & -> & Fc & Vc).
  destruct (fdiv_val x c Fx) as (y & -> & Fy & Vy); [rewrite Vc; lra|rewrite Vc; apply Rabs_lt; lra|]. rewrite Vc in Vy.
  pose proof (rnd_err (B2R x / 86400) (-25) ltac:(lia) ltac:(change (bpow radix2 (-25)) with (/ 33554432); lra)) as R1. change (bpow radix2 (-25 - 54)) with (/ 604462909807314587353088) in R1. rewrite <- Vy in R1.
  destruct (fadd_val f y Ff Fy) as (v & -> & Fv & Vv); [apply Rabs_lt; lra|]. pose proof (rnd_err (B2R f + B2R y) 1 ltac:(lia) ltac:(change (bpow radix2 1) with 2; lra)) as R2. change (bpow radix2 (1 - 54)) with (/ 9007199254740992) in R2. rewrite <- Vv in R2.
  exists v. split; [reflexivity|]. split; [exact Fv|]. apply Rabs_le. lra.
Qed.
(** A sine of the kind that is asked for: the nearest float. *)
Lemma some_sine : exists s, good_sine s.
Proof.
  exists (fun x => B2SF (SphF_Proofs3.nearest_bf (sin (SF2R radix2 x)))). intros x Fx _. rewrite SF2R_B2SF. pose proof (SIN_bound (B2R x)) as B. destruct (SphF_Proofs3.nearest_bf_val (sin (B2R x))) as [G V]; [apply SphF_Proofs3.small_bpow, Rabs_le; lra|]. exists (SphF_Proofs3.nearest_bf (sin (B2R x))). split; [reflexivity|]. split; [exact G|]. rewrite V.
  pose proof (rnd_err (sin (B2R x)) 1 ltac:(lia) ltac:(change (bpow radix2 1) with 2; lra)) as R. change (bpow radix2 (1 - 54)) with (/ 9007199254740992) in R. apply Rabs_le. lra.
Qed.
Lemma tdb_example : exists (s : b64 -> b64) (w f : bf), good_sine s /\ is_finite w = true /\ within (-1) 1 f /\ B2R w = 2460000 /\ B2R f = 1 / 4 /\ Rabs (B2R w - 2451545) <= 262000.
Proof. destruct some_sine as (s & G). destruct era_example as (w & f & A & B & C & D & E & _). exists s, w, f. repeat split; try assumption; apply B. Qed.
Lemma tdb_fraction_of_time s (t : time64) (w f : bf) : good_sine s -> whole64 t = B2SF w -> fraction64 t = B2SF f -> is_finite w = true -> within (-1) 1 f -> Rabs (B2R w - 2451545) <= 262000 ->
  exists v : bf, tdb_fraction64 s t = B2SF v /\ is_finite v = true /\ Rabs (B2R v - (B2R f + tdb_circular_179 (centuries (B2R w + B2R f)) / 86400)) <= 12 / 10 ^ 17.
Proof. intros G Ew Ef. unfold tdb_fraction64. rewrite Ew, Ef. apply tdb_fraction_close. exact G. Qed.
