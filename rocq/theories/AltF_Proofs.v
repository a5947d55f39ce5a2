(** Directions in a reference frame in binary64: proofs. *)
From Coq Require Import ZArith Reals Lia Lra Psatz.
From Flocq Require Import Core BinarySingleNaN.
From Verif Require Import Float64 Float64_Proofs SexaF_Proofs2 Real_Math Real_Math_Proofs Vector_Model Vector_Proofs Vector_Proofs2 Geo_Model Wrap_Spec SepF_Model SepF_Spec SepF_Proofs SepF_Proofs2 SphF_Model SphF_Spec SphF_Proofs SphF_Proofs3 RotF_Model RotF_Spec RotF_Proofs RotF_Proofs3 AltF_Model.
Open Scope R_scope.

Definition unit_at (lat lon : R) : vec := V3 (cos lat * cos lon) (cos lat * sin lon) (sin lat).
Lemma placed_unit w r lat lon : placed w r lat lon -> w = smul r (unit_at lat lon).
Proof. intros [_ ->]. apply vec_eq; unfold unit_at; cbn [smul vx vy vz]; ring. Qed.
(** Half an angle from its sine. *)
Lemma half_sine x : Rabs x <= PI -> Rabs x <= PI * Rabs (sin (x / 2)).
Proof.
  assert (Pos : forall y, 0 <= y <= PI -> y <= PI * sin (y / 2)).
  { intros y [A B]. destruct (Req_dec y 0) as [->|N]; [unfold Rdiv; rewrite Rmult_0_l, sin_0; lra|]. destruct (Req_dec y PI) as [->|N']; [rewrite sin_PI2; lra|].
    assert (C : forall z, 0 < z < PI / 2 -> 2 / PI * z <= sin z).
    { intros z Hz. pose proof PI_RGT_0 as PP.
      (* the sine is concave: compare with the chord through the derivative *)
      destruct (Rle_or_lt (2 / PI * z) (sin z)) as [H|H]; [exact H|exfalso].
      set (g := fun t => sin t - 2 / PI * t). set (g' := fun t => cos t - 2 / PI).
      assert (D : forall t, derivable_pt_lim g t (g' t)). { intros t. apply derivable_pt_lim_minus; [apply derivable_pt_lim_sin|]. rewrite <- (Rmult_1_r (2 / PI)) at 2. apply (derivable_pt_lim_scal id (2 / PI) t 1). apply derivable_pt_lim_id. }
      destruct (MVT_cor2 g g' 0 z (proj1 Hz) (fun c _ => D c)) as (a & Ha & Ra). destruct (MVT_cor2 g g' z (PI / 2) (proj2 Hz) (fun c _ => D c)) as (b & Hb & Rb).
      assert (G0 : g 0 = 0) by (unfold g; rewrite sin_0; ring). assert (G1 : g (PI / 2) = 0) by (unfold g; rewrite sin_PI2; field; lra). assert (Gz : g z < 0) by (unfold g; lra).
      rewrite G0 in Ha. rewrite G1 in Hb.
      assert (Na : g' a < 0). { destruct (Rlt_or_le (g' a) 0) as [Q|Q]; [exact Q|]. pose proof (Rmult_le_pos _ _ Q (Rlt_le _ _ (Rlt_Rminus _ _ (proj1 Hz)))). lra. }
      assert (Nb : 0 < g' b). { destruct (Rlt_or_le 0 (g' b)) as [Q|Q]; [exact Q|]. assert (0 <= PI / 2 - z) by lra. pose proof (Rmult_le_pos (- g' b) (PI / 2 - z) ltac:(lra) H0). lra. }
      assert (cos b < cos a) by (apply cos_decreasing_1; lra). unfold g' in *. lra. }
    specialize (C (y / 2) ltac:(lra)). pose proof PI_RGT_0. replace y with (PI * (2 / PI * (y / 2))) at 1 by (field; lra). apply Rmult_le_compat_l; lra. }
  intros H. destruct (Rle_or_lt 0 x) as [P|P].
  - rewrite Rabs_pos_eq in * by lra. pose proof (Pos x ltac:(lra)). apply Rle_trans with (1 := H0). apply Rmult_le_compat_l; [pose proof PI_RGT_0; lra|]. apply Rle_abs.
  - rewrite Rabs_left in * by lra. pose proof (Pos (- x) ltac:(lra)) as Q. replace (- x / 2) with (- (x / 2)) in Q by lra. rewrite sin_neg in Q. apply Rle_trans with (1 := Q). apply Rmult_le_compat_l; [pose proof PI_RGT_0; lra|]. rewrite <- Rabs_Ropp. apply Rle_abs.
Qed.
(** The square of the chord between two directions. *)
Lemma chord a b l m : vlength (vsub (unit_at a l) (unit_at b m)) * vlength (vsub (unit_at a l) (unit_at b m)) = 4 * (sin ((a - b) / 2) * sin ((a - b) / 2)) + 4 * (cos a * cos b) * (sin ((l - m) / 2) * sin ((l - m) / 2)).
Proof.
  rewrite vlength_sq. unfold unit_at. cbn [vsub vx vy vz].
  assert (H : forall x y, 4 * (sin ((x - y) / 2) * sin ((x - y) / 2)) = 2 - 2 * (cos x * cos y + sin x * sin y)).
  { intros x y. rewrite <- cos_minus. replace (cos (x - y)) with (cos (2 * ((x - y) / 2))) by (f_equal; field). rewrite cos_2a_sin. ring. }
  rewrite H. replace (4 * (cos a * cos b) * (sin ((l - m) / 2) * sin ((l - m) / 2))) with (cos a * cos b * (4 * (sin ((l - m) / 2) * sin ((l - m) / 2)))) by ring. rewrite H. pose proof (cs1 a). pose proof (cs1 b). pose proof (cs1 l). pose proof (cs1 m).
  replace (cos a * cos l - cos b * cos m) with (cos a * cos l - cos b * cos m) by ring.
  transitivity (cos a * cos a * (cos l * cos l + sin l * sin l) + cos b * cos b * (cos m * cos m + sin m * sin m) + sin a * sin a + sin b * sin b - 2 * (cos a * cos b) * (cos l * cos m + sin l * sin m) - 2 * (sin a * sin b)); [ring|]. rewrite H2, H3. lra.
Qed.
Lemma lat_lon_moved a b l m e : - (PI / 2) <= a <= PI / 2 -> - (PI / 2) <= b <= PI / 2 -> 0 <= e -> vlength (vsub (unit_at a l) (unit_at b m)) <= e ->
  Rabs (a - b) <= PI / 2 * e /\ exists n : BinNums.Z, Rabs (l - m - 2 * PI * IZR n) * cos b <= 2 * PI * e.
Proof.
  intros A B E V. pose proof PI_RGT_0 as PP. pose proof PI2_3_2 as P3. pose proof (vlength_pos (vsub (unit_at a l) (unit_at b m))) as V0.
  assert (Q : 4 * (sin ((a - b) / 2) * sin ((a - b) / 2)) + 4 * (cos a * cos b) * (sin ((l - m) / 2) * sin ((l - m) / 2)) <= e * e). { rewrite <- chord. apply Rmult_le_compat; lra. }
  assert (Ca : 0 <= cos a) by (apply cos_ge_0; lra). assert (Cb : 0 <= cos b) by (apply cos_ge_0; lra).
  assert (S1 : 0 <= sin ((l - m) / 2) * sin ((l - m) / 2)) by apply Rle_0_sqr. assert (S2 : 0 <= sin ((a - b) / 2) * sin ((a - b) / 2)) by apply Rle_0_sqr.
  assert (S3 : 0 <= 4 * (cos a * cos b) * (sin ((l - m) / 2) * sin ((l - m) / 2))) by (apply Rmult_le_pos; [|exact S1]; pose proof (Rmult_le_pos _ _ Ca Cb); lra).
  assert (Root : forall t k, 0 <= k -> t * t <= k * k -> Rabs t <= k). { intros t k K H. apply Rsqr_incr_0; [|apply Rabs_pos|exact K]. rewrite <- Rsqr_abs. exact H. }
  assert (La : Rabs (a - b) <= PI / 2 * e).
  { assert (H : Rabs (sin ((a - b) / 2)) <= e / 2) by (apply Root; lra). pose proof (half_sine (a - b) ltac:(apply Rabs_le; lra)) as G. apply Rle_trans with (1 := G). replace (PI / 2 * e) with (PI * (e / 2)) by field. apply Rmult_le_compat_l; lra. }
  split; [exact La|]. destruct (some_turns (l - m)) as (n & Hn). exists n. set (d := l - m - 2 * PI * IZR n) in *. assert (Hd : Rabs d <= PI) by (apply Rabs_le; lra).
  destruct (Rle_or_lt (cos b) (2 * e)) as [Small|Large].
  { apply Rle_trans with (PI * (2 * e)); [apply Rmult_le_compat; try lra; apply Rabs_pos|lra]. }
  assert (SS : sin (d / 2) * sin (d / 2) = sin ((l - m) / 2) * sin ((l - m) / 2)).
  { assert (W : forall x, sin (x / 2) * sin (x / 2) = (1 - cos x) / 2). { intros x. replace (cos x) with (cos (2 * (x / 2))) by (f_equal; field). rewrite cos_2a_sin. field. } rewrite !W. unfold d. rewrite (proj1 (cos_turns (l - m) n)). reflexivity. }
  rewrite <- SS in Q, S3.
  assert (Near : cos b / 2 <= cos a).
  { (* the vertical axis distance: cosines differ by the chord at most *)
    assert ((cos a - cos b) * (cos a - cos b) <= e * e).
    { apply Rle_trans with (4 * (sin ((a - b) / 2) * sin ((a - b) / 2))); [|lra]. pose proof (form2 a b) as F. rewrite F. pose proof (Rle_0_sqr (sin ((a - b) / 2))) as R1. unfold Rsqr in R1. assert (R2 : sin ((a + b) / 2) * sin ((a + b) / 2) <= 1). { pose proof (cs1 ((a + b) / 2)). pose proof (Rle_0_sqr (cos ((a + b) / 2))). unfold Rsqr in *. lra. } replace (-2 * sin ((a - b) / 2) * sin ((a + b) / 2) * (-2 * sin ((a - b) / 2) * sin ((a + b) / 2))) with (4 * (sin ((a - b) / 2) * sin ((a - b) / 2)) * (sin ((a + b) / 2) * sin ((a + b) / 2))) by ring. rewrite <- (Rmult_1_r (4 * (sin ((a - b) / 2) * sin ((a - b) / 2)))) at 2. apply Rmult_le_compat_l; lra. }
    pose proof (Root _ _ E H) as R. apply Rabs_le_inv in R. lra. }
  assert (T : (cos b * sin (d / 2)) * (cos b * sin (d / 2)) <= e * e).
  { assert (SD : 0 <= sin (d / 2) * sin (d / 2)) by apply Rle_0_sqr. assert (cos b * (cos b / 2) <= cos b * cos a) by (apply Rmult_le_compat_l; lra). pose proof (Rmult_le_compat_r _ _ _ SD H) as M. replace (4 * (cos a * cos b) * (sin (d / 2) * sin (d / 2))) with (4 * (cos b * cos a * (sin (d / 2) * sin (d / 2)))) in Q by ring. replace (cos b * sin (d / 2) * (cos b * sin (d / 2))) with (2 * (cos b * (cos b / 2) * (sin (d / 2) * sin (d / 2)))) by field. assert (0 <= cos b * cos a * (sin (d / 2) * sin (d / 2))) by (apply Rmult_le_pos; [apply Rmult_le_pos; assumption|exact SD]). lra. }
  pose proof (Root _ _ E T) as R. rewrite Rabs_mult, (Rabs_pos_eq _ Cb) in R. pose proof (half_sine d Hd) as G. apply Rle_trans with (PI * Rabs (sin (d / 2)) * cos b); [apply Rmult_le_compat_r; assumption|]. replace (PI * Rabs (sin (d / 2)) * cos b) with (PI * (cos b * Rabs (sin (d / 2)))) by ring. apply Rle_trans with (PI * e); [apply Rmult_le_compat_l; lra|]. pose proof (Rmult_le_pos _ _ (Rlt_le _ _ PP) E). lra.
Qed.

(** Every vector has a latitude and a longitude. *)
Lemma has_direction x y : exists t, direction x y t.
Proof.
  exists (atan2 y x). unfold direction. fold (rho x y). destruct (Req_dec x 0) as [Ex|Nx]; [destruct (Req_dec y 0) as [Ey|Ny]|].
  - rewrite Ex, Ey. rewrite atan2_00. unfold rho. replace (0 * 0 + 0 * 0) with 0 by ring. rewrite sqrt_0. pose proof PI_RGT_0. split; [lra|]. split; ring.
  - destruct (atan2_spec y x (or_intror Ny)) as (C & S & B). split; [lra|]. split; symmetry; assumption.
  - destruct (atan2_spec y x (or_introl Nx)) as (C & S & B). split; [lra|]. split; symmetry; assumption.
Qed.
Lemma placed_somewhere w : exists lat lon, placed w (vlength w) lat lon.
Proof.
  destruct w as [x y z]. destruct (has_direction x y) as (m & _ & X & Y). destruct (has_direction (rho x y) z) as (b & B & C & S). fold (rho x y) in X, Y.
  assert (R0 : 0 <= rho x y) by apply sqrt_pos.
  assert (L : sqrt (rho x y * rho x y + z * z) = vlength (V3 x y z)). { unfold vlength, rho. cbn [vx vy vz]. rewrite sqrt_sqrt; [reflexivity|]. pose proof (Rle_0_sqr x). pose proof (Rle_0_sqr y). unfold Rsqr in *. lra. }
  rewrite L in C, S. destruct (Req_dec (vlength (V3 x y z)) 0) as [E|N].
  - exists 0, m. pose proof PI_RGT_0. split; [lra|]. rewrite E in *. rewrite C in X, Y. apply vec_eq; cbn [vx vy vz]; [rewrite X|rewrite Y|rewrite S]; ring.
  - pose proof (vlength_pos (V3 x y z)) as V0. pose proof PI_RGT_0 as PP. exists b, m. split.
    + assert (Cb : 0 <= cos b). { apply Rmult_le_reg_l with (vlength (V3 x y z)); [lra|]. rewrite Rmult_0_r, <- C. exact R0. }
      split; [destruct (Rle_or_lt (- (PI / 2)) b) as [H|H]|destruct (Rle_or_lt b (PI / 2)) as [H|H]]; try exact H; exfalso.
      * assert (cos (- b) < 0) by (apply cos_lt_0; lra). rewrite cos_neg in H0. lra.
      * assert (cos b < 0) by (apply cos_lt_0; lra). lra.
    + rewrite <- C. apply vec_eq; cbn [vx vy vz]; assumption.
Qed.
(** Directions of vectors that are close. *)
Lemma unit_length a l : vlength (unit_at a l) = 1.
Proof. rewrite <- sqrt_1. unfold vlength. f_equal. unfold unit_at. cbn [vx vy vz]. pose proof (cs1 a). pose proof (cs1 l). transitivity (cos a * cos a * (cos l * cos l + sin l * sin l) + sin a * sin a); [ring|]. rewrite H0. lra. Qed.
Lemma scaled_length k v : vlength (smul k v) = Rabs k * vlength v.
Proof. unfold vlength. rewrite <- sqrt_Rsqr_abs, <- sqrt_mult; [|apply Rle_0_sqr|]; [f_equal; unfold Rsqr; cbn [smul vx vy vz]; ring|]. pose proof (Rle_0_sqr (vx v)). pose proof (Rle_0_sqr (vy v)). pose proof (Rle_0_sqr (vz v)). unfold Rsqr in *. lra. Qed.
Lemma directions_close w c k e a l b m : 0 < k -> vlength w <= 2 * k -> vlength c = k -> w = smul (vlength w) (unit_at a l) -> c = smul k (unit_at b m) -> vlength (vsub w c) <= e * k -> vlength (vsub (unit_at a l) (unit_at b m)) <= 2 * e.
Proof.
  intros K _ C W B D. apply Rmult_le_reg_l with k; [exact K|]. rewrite <- (Rabs_pos_eq k) at 1 by lra. rewrite <- scaled_length.
  assert (E : smul k (vsub (unit_at a l) (unit_at b m)) = vsub (smul k (unit_at a l)) c). { rewrite B. apply vec_eq; cbn [smul vsub vx vy vz]; ring. }
  rewrite E. apply Rle_trans with (1 := via _ w _). assert (F : vlength (vsub (smul k (unit_at a l)) w) = Rabs (k - vlength w)). { rewrite W at 1. replace (vsub (smul k (unit_at a l)) (smul (vlength w) (unit_at a l))) with (smul (k - vlength w) (unit_at a l)) by (apply vec_eq; cbn [smul vsub vx vy vz]; ring). rewrite scaled_length, unit_length. ring. }
  rewrite F. pose proof (by_difference w c) as G1. pose proof (by_difference c w) as G2. rewrite sub_sym in G2. rewrite C in *. assert (Rabs (k - vlength w) <= e * k) by (apply Rabs_le; lra). lra.
Qed.
