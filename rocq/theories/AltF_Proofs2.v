(** Directions in a reference frame in binary64: the main statement. *)
From Coq Require Import ZArith Reals Lia Lra Psatz.
From Flocq Require Import Core BinarySingleNaN.
From Verif Require Import Pi_Bounds Float64 Float64_Proofs Float_Time_Proofs Float_Time_Proofs4 SexaF_Proofs2 Real_Math Real_Math_Proofs Vector_Model Vector_Proofs Vector_Proofs2 Geo_Model Wrap_Spec SepF_Model SepF_Spec SepF_Proofs SepF_Proofs2 SepF_Proofs3 SphF_Model SphF_Spec SphF_Proofs SphF_Proofs3 RotF_Model RotF_Spec RotF_Proofs RotF_Proofs3 RotF_Proofs4 AltF_Model AltF_Proofs.
Open Scope R_scope.

Lemma frame_ok f h s c d d9 t p v lat lon : good_direction f -> good_hypot h -> good_function s sin -> good_function c cos -> good_dot3 d -> good_dot9 d9 -> usual_angles t -> (Z.of_nat (number t) <= 1000000)%Z ->
  stands_for p v -> / 2 ^ 199 <= vlength v <= 2 ^ 199 -> placed (carried t false v) (vlength v) lat lon ->
  exists (r th ph : bf) (k : BinNums.Z), frame_latlon64 f h s c d d9 t p = (B2SF r, B2SF th, B2SF ph) /\ is_finite r = true /\ is_finite th = true /\ is_finite ph = true /\
    Rabs (B2R r - vlength v) <= 19 * INR (number t) / 2 ^ 53 * vlength v /\
    Rabs (B2R th - lat) <= 56 * INR (number t) / 2 ^ 53 /\
    Rabs (B2R ph - lon - 2 * PI * IZR k) * cos lat <= 201 * INR (number t) / 2 ^ 53 /\ 0 <= B2R ph <= tau_float.
Proof.
  intros Gf Gh Gs Gc Gd G9 U N P [L1 L2] Pl. pose proof (number_range t N) as NR. destruct (off_range (number t) NR) as [_ [I1 I2]].
  assert (W2 : 2 ^ 200 = 2 ^ 199 * 2) by (change (2 ^ 200) with (2 * 2 ^ 199); ring). assert (W1 : / 2 ^ 200 = / 2 ^ 199 / 2) by (rewrite W2; field; apply pow_nonzero; lra). assert (P199 : 0 < / 2 ^ 199) by (apply Rinv_0_lt_compat, pow_lt; lra).
  assert (O : ordinary v) by (unfold ordinary; rewrite W1, W2; lra).
  destruct (rotated_ok s c d d9 Gs Gc Gd G9 t p v U N P O) as (w & Sw & Dw). set (e := 15 * INR (number t) / 2 ^ 53) in *. set (x := vlength v) in *.
  assert (Ee : 0 <= e <= / 1000) by (unfold e; lra). assert (Cl : vlength (carried t false v) = x) by apply carried_length.
  pose proof (by_difference w (carried t false v)) as G1. pose proof (by_difference (carried t false v) w) as G2. rewrite sub_sym, Cl in G2. rewrite Cl in G1.
  assert (X0 : 0 < x) by lra. assert (Ex : e * x <= / 1000 * x) by (apply Rmult_le_compat_r; lra).
  assert (Ow : ordinary w) by (unfold ordinary; rewrite W1, W2; lra).
  destruct (coordinates_ok f h _ w Gf Gh Sw Ow) as (r & th & ph & a & l & E & Pw & (r' & Er & Fr & Vr) & (th' & Et & Ft & Vt) & (ph' & Ep & Fp & Vp) & (b & Eb & Fb & Bb)).
  pose proof (placed_unit _ _ _ _ Pw) as Uw. pose proof (placed_unit _ _ _ _ Pl) as Uc. destruct Pw as [Ra _]. destruct Pl as [Rl _].
  pose proof (directions_close w _ x e a l lat lon X0 ltac:(lra) Cl Uw Uc Dw) as Dc. destruct (lat_lon_moved a lat l lon (2 * e) Ra Rl ltac:(lra) Dc) as [Da (k & Dl)].
  pose proof pi_bounds as [_ Phi0]; assert (Phi : PI < 3.1416) by lra; clear Phi0.
  exists r', th', b, k. unfold frame_latlon64. rewrite E, Er, Et, Eb. split; [reflexivity|]. split; [exact Fr|]. split; [exact Ft|]. split; [exact Fb|]. split; [|split; [|split; [|exact Bb]]].
  - apply Rabs_le. apply Rabs_le_inv in Vr. assert (3 / 2 ^ 53 * vlength w <= 4 / 2 ^ 53 * x) by lra. assert (19 * INR (number t) / 2 ^ 53 * x = e * x + 4 * INR (number t) / 2 ^ 53 * x) as -> by (unfold e; field; apply pow_nonzero; lra). assert (4 / 2 ^ 53 * x <= 4 * INR (number t) / 2 ^ 53 * x) by (apply Rmult_le_compat_r; lra). lra.
  - assert (PI / 2 * (2 * e) <= 3.1416 * e) by (assert (PI * e <= 3.1416 * e) by (apply Rmult_le_compat_r; lra); lra). apply Rabs_le. apply Rabs_le_inv in Vt. apply Rabs_le_inv in Da. unfold e in *. lra.
  - assert (Cl0 : 0 <= cos lat <= 1) by (split; [apply cos_ge_0; lra|apply COS_bound]). assert (Vb : Rabs (B2R b - l) <= 3 / 2 ^ 51).
    { assert (HB : B2SF b = B2SF ph') by (rewrite <- Eb, <- Ep; reflexivity). assert (HR : B2R b = B2R ph') by (rewrite <- !SF2R_B2SF, HB; reflexivity). rewrite HR. exact Vp. }
    assert (2 * PI * (2 * e) <= 12.5664 * e) by (assert (PI * e <= 3.1416 * e) by (apply Rmult_le_compat_r; lra); lra).
    apply Rle_trans with ((Rabs (B2R b - l) + Rabs (l - lon - 2 * PI * IZR k)) * cos lat). { apply Rmult_le_compat_r; [lra|]. replace (B2R b - lon - 2 * PI * IZR k) with ((B2R b - l) + (l - lon - 2 * PI * IZR k)) by ring. apply Rabs_triang. }
    rewrite Rmult_plus_distr_r. assert (Rabs (B2R b - l) * cos lat <= 3 / 2 ^ 51 * 1) by (apply Rmult_le_compat; try lra; apply Rabs_pos). unfold e in *. lra.
Qed.
