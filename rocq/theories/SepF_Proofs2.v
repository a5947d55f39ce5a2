(** Angles between vectors of floats. *)
From Coq Require Import ZArith Reals Lia Lra Psatz Bool.
From Coq.Floats Require Import SpecFloat.
From Flocq Require Import Core BinarySingleNaN.
From Verif Require Import Float64 Float64_Proofs Float_Time_Proofs4 CalF_Proofs2 SexaF_Proofs2 Real_Math Real_Math_Proofs Vector_Model Vector_Proofs Vector_Proofs2 Geo_Model Geo_Proofs Spin_Proofs2 SepF_Model SepF_Spec SepF_Proofs.
Open Scope R_scope.

Lemma vec_eq a b : vx a = vx b -> vy a = vy b -> vz a = vz b -> a = b.
Proof. destruct a, b. cbn. intros -> -> ->. reflexivity. Qed.
(** Rounding the components. *)
Lemma rounded_vector e w : Rabs (vx e) <= eps * Rabs (vx w) + eta -> Rabs (vy e) <= eps * Rabs (vy w) + eta -> Rabs (vz e) <= eps * Rabs (vz w) + eta ->
  vlength e <= eps * vlength w + 2 * eta.
Proof.
  intros X Y Z. pose proof (vlength_pos w) as P. pose proof (vlength_sq w) as Q. pose proof eta_pos as H. pose proof eps_small as E. apply length_le; [nra|].
  assert (S : forall t, t * t = Rabs t * Rabs t) by (intros t; rewrite <- Rabs_mult, Rabs_pos_eq by nra; reflexivity).
  rewrite (S (vx e)), (S (vy e)), (S (vz e)). rewrite (S (vx w)), (S (vy w)), (S (vz w)) in Q.
  pose proof (Rabs_pos (vx e)). pose proof (Rabs_pos (vy e)). pose proof (Rabs_pos (vz e)). pose proof (Rabs_pos (vx w)). pose proof (Rabs_pos (vy w)). pose proof (Rabs_pos (vz w)).
  set (a := Rabs (vx w)) in *. set (b := Rabs (vy w)) in *. set (c := Rabs (vz w)) in *. set (k := vlength w) in *. set (a' := Rabs (vx e)) in *. set (b' := Rabs (vy e)) in *. set (c' := Rabs (vz e)) in *. set (u := eps) in *. set (h := eta) in *. clearbody a b c k a' b' c' u h.
  assert (Sum : a + b + c <= 2 * k).
  { apply Rsqr_incr_0; [|lra|lra]. unfold Rsqr. replace (2 * k * (2 * k)) with (4 * (k * k)) by ring. rewrite Q. clear - H3 H4 H5. pose proof (Rle_0_sqr (a - b)). pose proof (Rle_0_sqr (b - c)). pose proof (Rle_0_sqr (a - c)). unfold Rsqr in *. nra. }
  clear S.
  assert (a' * a' <= (u * a + h) * (u * a + h)) by (apply Rmult_le_compat; lra). assert (b' * b' <= (u * b + h) * (u * b + h)) by (apply Rmult_le_compat; lra). assert (c' * c' <= (u * c + h) * (u * c + h)) by (apply Rmult_le_compat; lra).
  apply Rle_trans with ((u * a + h) * (u * a + h) + (u * b + h) * (u * b + h) + (u * c + h) * (u * c + h)); [lra|].
  replace ((u * a + h) * (u * a + h) + (u * b + h) * (u * b + h) + (u * c + h) * (u * c + h)) with (u * u * (a * a + b * b + c * c) + 2 * (u * h) * (a + b + c) + 3 * (h * h)) by ring. rewrite <- Q.
  replace ((u * k + 2 * h) * (u * k + 2 * h)) with (u * u * (k * k) + 2 * (u * h) * (2 * k) + 4 * (h * h)) by ring. assert (0 <= u * h) by nra. assert (0 <= h * h) by nra. assert (2 * (u * h) * (a + b + c) <= 2 * (u * h) * (2 * k)) by (apply Rmult_le_compat_l; lra). lra.
Qed.
Lemma sizes_ok w t : vlength w <= bpow radix2 1000 -> Rabs t <= vlength w -> Rabs t < bpow radix2 1007.
Proof. intros H L. apply Rle_lt_trans with (1 := L). apply Rle_lt_trans with (1 := H). apply bpow_lt. lia. Qed.
Lemma scaled_vector p w (k : bf) : stands_for p w -> is_finite k = true -> vlength (smul (B2R k) w) <= bpow radix2 1000 ->
  exists a, stands_for (fscale p (B2SF k)) a /\ vlength (vsub a (smul (B2R k) w)) <= eps * vlength (smul (B2R k) w) + 2 * eta.
Proof.
  intros (x & y & z & -> & Fx & Fy & Fz & ->) Fk B. unfold fscale. cbn [fx fy fz]. pose proof (comp_le (smul (B2R k) (V3 (B2R x) (B2R y) (B2R z)))) as (Cx & Cy & Cz). cbn in Cx, Cy, Cz. rewrite (Rmult_comm (B2R k)) in Cx. rewrite (Rmult_comm (B2R k)) in Cy. rewrite (Rmult_comm (B2R k)) in Cz.
  destruct (fmul_val x k Fx Fk) as (a & -> & Ga & Va & _); [eapply sizes_ok; eassumption|]. destruct (fmul_val y k Fy Fk) as (b & -> & Gb & Vb & _); [eapply sizes_ok; eassumption|]. destruct (fmul_val z k Fz Fk) as (c & -> & Gc & Vc & _); [eapply sizes_ok; eassumption|].
  exists (V3 (B2R a) (B2R b) (B2R c)). split; [exists a, b, c; auto|]. apply rounded_vector; cbn [vx vy vz vsub smul]; rewrite (Rmult_comm (B2R k)); [rewrite Va|rewrite Vb|rewrite Vc]; apply rnd_err.
Qed.
Lemma difference_vector p q w v : stands_for p w -> stands_for q v -> vlength (vsub w v) <= bpow radix2 1000 ->
  exists a, stands_for (fminus p q) a /\ vlength (vsub a (vsub w v)) <= eps * vlength (vsub w v) + 2 * eta.
Proof.
  intros (x & y & z & -> & Fx & Fy & Fz & ->) (x' & y' & z' & -> & Fx' & Fy' & Fz' & ->) B. unfold fminus. cbn [fx fy fz]. pose proof (comp_le (vsub (V3 (B2R x) (B2R y) (B2R z)) (V3 (B2R x') (B2R y') (B2R z')))) as (Cx & Cy & Cz). cbn in Cx, Cy, Cz.
  destruct (fsub_val x x' Fx Fx') as (a & -> & Ga & Va); [eapply sizes_ok; eassumption|]. destruct (fsub_val y y' Fy Fy') as (b & -> & Gb & Vb); [eapply sizes_ok; eassumption|]. destruct (fsub_val z z' Fz Fz') as (c & -> & Gc & Vc); [eapply sizes_ok; eassumption|].
  exists (V3 (B2R a) (B2R b) (B2R c)). split; [exists a, b, c; auto|]. apply rounded_vector; cbn [vx vy vz vsub vadd]; [rewrite Va|rewrite Vb|rewrite Vc]; apply rnd_err.
Qed.
Lemma sum_vector p q w v : stands_for p w -> stands_for q v -> vlength (vadd w v) <= bpow radix2 1000 ->
  exists a, stands_for (fplus p q) a /\ vlength (vsub a (vadd w v)) <= eps * vlength (vadd w v) + 2 * eta.
Proof.
  intros (x & y & z & -> & Fx & Fy & Fz & ->) (x' & y' & z' & -> & Fx' & Fy' & Fz' & ->) B. unfold fplus. cbn [fx fy fz]. pose proof (comp_le (vadd (V3 (B2R x) (B2R y) (B2R z)) (V3 (B2R x') (B2R y') (B2R z')))) as (Cx & Cy & Cz). cbn in Cx, Cy, Cz.
  destruct (fadd_val x x' Fx Fx') as (a & -> & Ga & Va); [eapply sizes_ok; eassumption|]. destruct (fadd_val y y' Fy Fy') as (b & -> & Gb & Vb); [eapply sizes_ok; eassumption|]. destruct (fadd_val z z' Fz Fz') as (c & -> & Gc & Vc); [eapply sizes_ok; eassumption|].
  exists (V3 (B2R a) (B2R b) (B2R c)). split; [exists a, b, c; auto|]. apply rounded_vector; cbn [vx vy vz vsub vadd]; [rewrite Va|rewrite Vb|rewrite Vc]; apply rnd_err.
Qed.
Lemma via a b c : vlength (vsub a c) <= vlength (vsub a b) + vlength (vsub b c).
Proof. apply Rle_trans with (2 := triangle _ _). apply Req_le. f_equal. apply vec_eq; cbn; ring. Qed.
Lemma by_difference a b : vlength a <= vlength b + vlength (vsub a b).
Proof. apply Rle_trans with (2 := triangle _ _). apply Req_le. f_equal. apply vec_eq; cbn; ring. Qed.
Lemma sub_sym a b : vlength (vsub a b) = vlength (vsub b a).
Proof. unfold vlength. f_equal. cbn. ring. Qed.

(** The product of a vector and the length of the other. *)
Lemma crosswise p w q v : stands_for p w -> stands_for q v -> ordinary w -> ordinary v ->
  exists a, stands_for (fscale p (length64 q)) a /\ vlength (vsub a (smul (vlength v) w)) <= 3.55 * eps * (vlength w * vlength v).
Proof.
  intros Sp Sq Ow Ov. pose proof Ov as [L U]. pose proof Ow as [L' U']. rewrite pow_bpow in L, U, L', U'.
  destruct (length64_rel q v Sq) as (k & -> & Fk & Pk & Vk). { rewrite pow_bpow. split; [apply Rle_trans with (2 := L); rewrite <- !bpow_opp; apply bpow_le; lia|apply Rle_trans with (1 := U); apply bpow_le; lia]. }
  pose proof eps_small as E. pose proof (vlength_pos w) as Pw. pose proof (vlength_pos v) as Pv. apply Rabs_le_inv in Vk.
  assert (Kb : 0 <= eps * vlength v <= vlength v * / 1000000000000000) by nra. assert (Lk : vlength (smul (B2R k) w) = B2R k * vlength w) by (rewrite smul_length, Rabs_pos_eq by exact Pk; reflexivity).
  set (P := vlength w * vlength v). assert (PP : bpow radix2 (-400) <= P). { unfold P. replace (-400)%Z with (- Z.of_nat 200 + - Z.of_nat 200)%Z by reflexivity. rewrite bpow_plus, !bpow_opp. apply Rmult_le_compat; try assumption; apply Rlt_le, Rinv_0_lt_compat, bpow_gt_0. }
  assert (KP : B2R k * vlength w <= (1 + 2.54 * eps) * P) by (unfold P; nra).
  assert (PU : P <= bpow radix2 400). { unfold P. change 400%Z with (Z.of_nat 200 + Z.of_nat 200)%Z. rewrite bpow_plus. apply Rmult_le_compat; assumption. }
  assert (P0 : 0 < P) by (apply Rlt_le_trans with (2 := PP); apply bpow_gt_0). assert (Ps : 0 <= eps * P <= P * / 1000000000000000) by nra.
  destruct (scaled_vector p w k Sp Fk) as (a & Sa & Va). { rewrite Lk. apply Rle_trans with (2 * bpow radix2 400); [lra|]. change 2 with (bpow radix2 1). rewrite <- bpow_plus. apply bpow_le. lia. }
  exists a. split; [exact Sa|]. apply Rle_trans with (1 := via a (smul (B2R k) w) (smul (vlength v) w)). rewrite Lk in Va.
  replace (vsub (smul (B2R k) w) (smul (vlength v) w)) with (smul (B2R k - vlength v) w) by (apply vec_eq; cbn; ring). rewrite smul_length.
  assert (D : Rabs (B2R k - vlength v) * vlength w <= 2.54 * eps * P). { unfold P. replace (2.54 * eps * (vlength w * vlength v)) with (2.54 * eps * vlength v * vlength w) by ring. apply Rmult_le_compat_r; [exact Pw|]. apply Rabs_le. lra. }
  assert (H : 2 * eta <= P * / 1152921504606846976). { apply Rle_trans with (bpow radix2 (-400) * bpow radix2 (-60)); [unfold eta; change 2 with (bpow radix2 1); rewrite <- !bpow_plus; apply bpow_le; lia|]. change (bpow radix2 (-60)) with (/ 1152921504606846976). lra. }
  apply Rle_trans with (eps * ((1 + 2.54 * eps) * P) + 2 * eta + 2.54 * eps * P). { assert (eps * (B2R k * vlength w) <= eps * ((1 + 2.54 * eps) * P)) by (apply Rmult_le_compat_l; lra). lra. }
  clear - H P0. unfold eps in *. lra.
Qed.

(** The two sides of Kahan's formula. *)
Lemma side (d : fvec) (w t : vec) P : stands_for d w -> bpow radix2 (-400) <= P <= bpow radix2 401 -> vlength t <= 2 * P -> vlength (vsub w t) <= 7.12 * eps * P + 1.001 * eps * vlength t ->
  exists b : bf, length64 d = B2SF b /\ is_finite b = true /\ 0 <= B2R b /\ Rabs (B2R b - vlength t) <= 7.15 * eps * P + 3.56 * eps * vlength t.
Proof.
  intros S [PL PU] T D. pose proof eps_small as E. pose proof (vlength_pos t) as Pt. assert (P0 : 0 < P) by (apply Rlt_le_trans with (2 := PL); apply bpow_gt_0).
  pose proof (by_difference w t) as W1. pose proof (by_difference t w) as W2. rewrite (sub_sym t w) in W2. set (k := vlength w) in *. set (l := vlength t) in *. set (z := vlength (vsub w t)) in *.
  assert (Ps : 0 <= eps * P <= P * / 1000000000000000) by nra. assert (Pl : 0 <= eps * l <= l * / 1000000000000000) by nra.
  destruct (length64_near d w S) as (b & Eb & Fb & Nb & Vb). { fold k. apply Rle_trans with (8 * bpow radix2 401); [lra|]. change 8 with (bpow radix2 3). rewrite <- bpow_plus. apply bpow_le. lia. }
  exists b. split; [exact Eb|]. split; [exact Fb|]. split; [exact Nb|]. fold k in Vb. apply Rabs_le_inv in Vb.
  assert (H : 2 * speck <= P * / 1152921504606846976). { apply Rle_trans with (bpow radix2 (-400) * bpow radix2 (-60)); [unfold speck; change 2 with (bpow radix2 1); rewrite <- !bpow_plus; apply bpow_le; lia|]. change (bpow radix2 (-60)) with (/ 1152921504606846976). lra. }
  apply Rabs_le. clearbody k l z. clear S T Eb Fb Nb PL PU. unfold eps in *. lra.
Qed.

(** ** The angle *)
Lemma atan_le t : 0 <= t -> atan t <= t.
Proof.
  intros [H|<-]; [|rewrite atan_0; lra]. destruct (MVT_cor2 atan (fun x => / (1 + x ^ 2)) 0 t H) as (c & E & B). { intros c _. apply derivable_pt_lim_atan. }
  rewrite atan_0 in E. assert (/ (1 + c ^ 2) <= 1). { rewrite <- Rinv_1. apply Rinv_le_contravar; [lra|]. nra. } nra.
Qed.
Lemma atan_abs t : Rabs (atan t) <= Rabs t.
Proof.
  destruct (Rle_dec 0 t) as [H|H].
  - assert (0 <= atan t). { destruct H as [H| <-]; [|rewrite atan_0; lra]. rewrite <- atan_0. apply Rlt_le, atan_increasing, H. } rewrite !Rabs_pos_eq by assumption. apply atan_le. exact H.
  - apply Rnot_le_lt in H. assert (E : atan t = - atan (- t)) by (rewrite <- atan_opp; f_equal; ring). pose proof (atan_le (- t) ltac:(lra)). assert (0 <= atan (- t)) by (rewrite <- atan_0; apply Rlt_le, atan_increasing; lra). rewrite E, Rabs_Ropp, (Rabs_pos_eq (atan (- t))) by assumption. rewrite Rabs_left by assumption. assumption.
Qed.
Lemma turned Y X y x c : 0 <= Y -> 0 <= X -> 0 <= y -> 0 <= x -> 0 < X * x + Y * y -> 0 <= c -> Rabs (y * X - x * Y) <= c * (X * x + Y * y) -> Rabs (atan2 y x - atan2 Y X) <= c.
Proof.
  intros HY HX Hy Hx D C H. assert (N : X <> 0 \/ Y <> 0). { destruct (Req_dec X 0); [|auto]. right. intros ->. subst X. lra. } assert (N' : x <> 0 \/ y <> 0). { destruct (Req_dec x 0); [|auto]. right. intros ->. subst x. lra. }
  destruct (atan2_spec Y X N) as (C1 & S1 & _). destruct (atan2_spec y x N') as (C2 & S2 & _). pose proof (rho_pos X Y N) as R1. pose proof (rho_pos x y N') as R2. pose proof (atan2_nonneg Y X HY) as B1. pose proof (atan2_nonneg y x Hy) as B2. pose proof (atan2_right Y X HX) as B3. pose proof (atan2_right y x Hx) as B4.
  set (T := atan2 Y X) in *. set (t := atan2 y x) in *. set (r := rho X Y) in *. set (q := rho x y) in *.
  assert (Sd : q * r * sin (t - T) = y * X - x * Y) by (rewrite sin_minus, <- C1, <- S1, <- C2, <- S2; ring). assert (Cd : q * r * cos (t - T) = X * x + Y * y) by (rewrite cos_minus, <- C1, <- S1, <- C2, <- S2; ring).
  assert (QR : 0 < q * r) by nra. assert (Cp : 0 < cos (t - T)) by nra. assert (In : - (PI / 2) < t - T < PI / 2).
  { destruct (Req_dec (t - T) (PI / 2)) as [E|E]; [rewrite E, cos_PI2 in Cp; lra|]. destruct (Req_dec (t - T) (- (PI / 2))) as [E'|E']; [rewrite E', cos_neg, cos_PI2 in Cp; lra|]. lra. }
  rewrite <- (atan_tan (t - T)) by exact In. apply Rle_trans with (1 := atan_abs _). unfold tan, Rdiv. rewrite Rabs_mult, Rabs_inv, (Rabs_pos_eq (cos (t - T))) by lra. apply Rmult_le_reg_r with (cos (t - T)); [exact Cp|]. rewrite Rmult_assoc, Rinv_l, Rmult_1_r by lra.
  apply Rmult_le_reg_l with (q * r); [exact QR|]. replace (q * r * (c * cos (t - T))) with (c * (q * r * cos (t - T))) by ring. rewrite Cd. rewrite <- (Rabs_pos_eq (q * r)) by lra. rewrite <- Rabs_mult, Sd. exact H.
Qed.
Lemma parallelogram u v : let P := vlength u * vlength v in let D := vsub (smul (vlength v) u) (smul (vlength u) v) in let S := vadd (smul (vlength v) u) (smul (vlength u) v) in
  vlength D * vlength D + vlength S * vlength S = 4 * (P * P).
Proof.
  intros P D S. rewrite !vlength_sq. unfold P, D, S. cbn. pose proof (vlength_sq u) as U. pose proof (vlength_sq v) as V. set (a := vlength u) in *. set (b := vlength v) in *.
  transitivity (2 * (b * b * (vx u * vx u + vy u * vy u + vz u * vz u)) + 2 * (a * a * (vx v * vx v + vy v * vy v + vz v * vz v))); [ring|]. rewrite <- U, <- V. ring.
Qed.
(** Errors of the two sides and the angle they make. *)
Lemma kahan_error Y X y x P : 0 < P -> 0 <= Y -> 0 <= X -> 0 <= y -> 0 <= x -> Y * Y + X * X = 4 * (P * P) ->
  Rabs (y - Y) <= 7.15 * eps * P + 3.56 * eps * Y -> Rabs (x - X) <= 7.15 * eps * P + 3.56 * eps * X -> Rabs (atan2 y x - atan2 Y X) <= 8.8 * eps.
Proof.
  intros HP HY HX Hy Hx Q Ey Ex. pose proof eps_small as E. assert (SumXY : X + Y <= 2.83 * P). { apply Rsqr_incr_0; [|lra|lra]. unfold Rsqr. pose proof (Rle_0_sqr (X - Y)). pose proof (Rle_0_sqr P). unfold Rsqr in *. lra. }
  assert (XY : X * Y <= 2 * (P * P)). { pose proof (Rle_0_sqr (X - Y)). unfold Rsqr in *. lra. }
  assert (PP : 0 < P * P) by nra. apply Rabs_le_inv in Ey. apply Rabs_le_inv in Ex. set (ey := y - Y) in *. set (ex := x - X) in *. assert (y = Y + ey) by (unfold ey; ring). assert (x = X + ex) by (unfold ex; ring). clearbody ey ex. subst y x.
  assert (Cr : (Y + ey) * X - (X + ex) * Y = ey * X - ex * Y) by ring.
  set (p := 7.15 * eps * P) in *. assert (p0 : 0 <= p) by (unfold p; nra).
  assert (A1 : Rabs (ey * X) <= (p + 3.56 * eps * Y) * X). { rewrite Rabs_mult, (Rabs_pos_eq X) by exact HX. apply Rmult_le_compat_r; [exact HX|]. apply Rabs_le. lra. }
  assert (A2 : Rabs (ex * Y) <= (p + 3.56 * eps * X) * Y). { rewrite Rabs_mult, (Rabs_pos_eq Y) by exact HY. apply Rmult_le_compat_r; [exact HY|]. apply Rabs_le. lra. }
  assert (A3 : Rabs (ex * X) <= (p + 3.56 * eps * X) * X). { rewrite Rabs_mult, (Rabs_pos_eq X) by exact HX. apply Rmult_le_compat_r; [exact HX|]. apply Rabs_le. lra. }
  assert (A4 : Rabs (ey * Y) <= (p + 3.56 * eps * Y) * Y). { rewrite Rabs_mult, (Rabs_pos_eq Y) by exact HY. apply Rmult_le_compat_r; [exact HY|]. apply Rabs_le. lra. }
  assert (ePP : 0 <= eps * (P * P)) by nra.
  assert (pS : p * (X + Y) <= 20.24 * eps * (P * P)). { apply Rle_trans with (p * (2.83 * P)); [apply Rmult_le_compat_l; assumption|]. unfold p. lra. }
  assert (eXY : 7.12 * eps * (X * Y) <= 14.24 * eps * (P * P)). { apply Rle_trans with (7.12 * eps * (2 * (P * P))); [apply Rmult_le_compat_l; lra|]. lra. }
  apply Rabs_le_inv in A3. apply Rabs_le_inv in A4. assert (Dot : 3.999 * (P * P) <= X * (X + ex) + Y * (Y + ey)).
  { replace (X * (X + ex) + Y * (Y + ey)) with (4 * (P * P) + (ex * X + ey * Y)) by (rewrite <- Q; ring). assert (p * (X + Y) + 3.56 * eps * (X * X + Y * Y) <= / 1000 * (P * P)); [|lra]. replace (X * X + Y * Y) with (4 * (P * P)) by lra. assert (eps * (P * P) <= / 1000000000000000 * (P * P)) by (apply Rmult_le_compat_r; lra). lra. }
  apply turned; [assumption|assumption|assumption|assumption|lra|lra|]. rewrite Cr. unfold Rminus. apply Rle_trans with (1 := Rabs_triang _ _). rewrite Rabs_Ropp.
  apply Rle_trans with (8.8 * eps * (3.999 * (P * P))); [|apply Rmult_le_compat_l; lra]. apply Rle_trans with (p * (X + Y) + 7.12 * eps * (X * Y)); [lra|]. assert (0 <= eps * (P * P)) by nra. lra.
Qed.
Lemma twice (r : b64) t e : near t e r -> Rabs t <= 4 -> e <= 1 -> near (2 * t) (2 * e) (fmul (of_Z 2) r).
Proof.
  intros (b & -> & F & V) T E1. destruct (of_Z_bf 2) as (k & Ek & Fk & Vk); [unfold Float_Time_Proofs.fits; lia|]. rewrite Ek. apply Rabs_le_inv in V. apply Rabs_le_inv in T.
  destruct (fmul_val k b Fk F) as (z & -> & Fz & Vz & _). { rewrite Vk. assert (1024 <= bpow radix2 1007) by (change 1024 with (bpow radix2 10); apply bpow_le; lia). apply Rabs_lt. lra. }
  exists z. split; [reflexivity|]. split; [exact Fz|]. rewrite Vz, Vk. rewrite round_generic; [|apply valid_rnd_N|]. - apply Rabs_le. lra.
  - assert (G : generic_format radix2 (FLT_exp (-1074) 53) (B2R b)) by apply (generic_format_B2R 53 1024 b). apply FLT_format_generic in G; [|reflexivity]. destruct G as [f G1 G2 G3]. apply (generic_format_FLT radix2 (-1074) 53). exists (Float radix2 (Fnum f) (Fexp f + 1)).
    + rewrite G1. unfold F2R. cbn [Fnum Fexp]. rewrite bpow_plus. change (bpow radix2 1) with 2. ring.
    + exact G2.
    + cbn [Fexp]. lia.
Qed.
Lemma near_more x e y e' r : near x e r -> Rabs (x - y) <= e' - e -> near y e' r.
Proof. intros (b & E & F & V) D. exists b. split; [exact E|]. split; [exact F|]. apply Rabs_le_inv in V. apply Rabs_le_inv in D. apply Rabs_le. lra. Qed.
Theorem angle64_near f p q u v : good_arctan2 f -> stands_for p u -> stands_for q v -> ordinary u -> ordinary v ->
  near (angle_between u v) (3 / 2 ^ 50) (angle_between64 f p q).
Proof.
  intros G Sp Sq Ou Ov. destruct (crosswise p u q v Sp Sq Ou Ov) as (a & Sa & Va). destruct (crosswise q v p u Sq Sp Ov Ou) as (b & Sb & Vb). rewrite (Rmult_comm (vlength v)) in Vb.
  unfold angle_between64, angle_between. cbv zeta. set (A := smul (vlength v) u) in *. set (B := smul (vlength u) v) in *. set (P := vlength u * vlength v) in *. pose proof eps_small as E.
  assert (PB : bpow radix2 (-400) <= P <= bpow radix2 400).
  { destruct Ou as [L U], Ov as [L' U']. rewrite pow_bpow in L, U, L', U'. unfold P. split.
    - replace (-400)%Z with (- Z.of_nat 200 + - Z.of_nat 200)%Z by reflexivity. rewrite bpow_plus, !bpow_opp. apply Rmult_le_compat; try assumption; apply Rlt_le, Rinv_0_lt_compat, bpow_gt_0.
    - change 400%Z with (Z.of_nat 200 + Z.of_nat 200)%Z. rewrite bpow_plus. apply Rmult_le_compat; try assumption; apply vlength_pos. }
  assert (P0 : 0 < P) by (apply Rlt_le_trans with (2 := proj1 PB); apply bpow_gt_0). assert (Ps : 0 <= eps * P <= P * / 1000000000000000) by nra. assert (Up : bpow radix2 400 <= bpow radix2 401) by (apply bpow_le; lia). assert (Top : 8 * bpow radix2 400 <= bpow radix2 1000) by (change 8 with (bpow radix2 3); rewrite <- bpow_plus; apply bpow_le; lia).
  assert (H : 2 * eta <= P * / 1152921504606846976). { apply Rle_trans with (bpow radix2 (-400) * bpow radix2 (-60)); [unfold eta; change 2 with (bpow radix2 1); rewrite <- !bpow_plus; apply bpow_le; lia|]. change (bpow radix2 (-60)) with (/ 1152921504606846976). lra. }
  pose proof (parallelogram u v) as Q. cbv zeta in Q. fold A B P in Q. set (Y := vlength (vsub A B)) in *. set (X := vlength (vadd A B)) in *. assert (Y0 : 0 <= Y) by apply vlength_pos. assert (X0 : 0 <= X) by apply vlength_pos.
  assert (Y2 : Y <= 2 * P). { apply Rsqr_incr_0; [|lra|lra]. pose proof (Rle_0_sqr X). unfold Rsqr in *. lra. } assert (X2 : X <= 2 * P). { apply Rsqr_incr_0; [|lra|lra]. pose proof (Rle_0_sqr Y). unfold Rsqr in *. lra. }
  assert (Dab : vlength (vsub (vsub a b) (vsub A B)) <= 7.1 * eps * P). { apply Rle_trans with (vlength (vsub a A) + vlength (vsub B b)); [|rewrite (sub_sym B b); lra]. apply Rle_trans with (2 := triangle _ _). apply Req_le. f_equal. apply vec_eq; cbn; ring. }
  assert (Sab : vlength (vsub (vadd a b) (vadd A B)) <= 7.1 * eps * P). { apply Rle_trans with (vlength (vsub a A) + vlength (vsub b B)); [|lra]. apply Rle_trans with (2 := triangle _ _). apply Req_le. f_equal. apply vec_eq; cbn; ring. }
  pose proof (by_difference (vsub a b) (vsub A B)) as Ld. fold Y in Ld. pose proof (by_difference (vadd a b) (vadd A B)) as Ls. fold X in Ls.
  destruct (difference_vector _ _ _ _ Sa Sb) as (d & Sd & Vd); [lra|]. destruct (sum_vector _ _ _ _ Sa Sb) as (s & Ss & Vs); [lra|].
  assert (Wd : vlength (vsub d (vsub A B)) <= 7.12 * eps * P + 1.001 * eps * Y).
  { apply Rle_trans with (1 := via d (vsub a b) (vsub A B)). assert (eps * vlength (vsub a b) <= eps * (Y + 7.1 * eps * P)) by (apply Rmult_le_compat_l; lra). assert (0 <= eps * Y) by nra. assert (eps * (eps * P) <= / 1000000000000000 * (eps * P)) by (apply Rmult_le_compat_r; lra). unfold eps in *. lra. }
  assert (Ws : vlength (vsub s (vadd A B)) <= 7.12 * eps * P + 1.001 * eps * X).
  { apply Rle_trans with (1 := via s (vadd a b) (vadd A B)). assert (eps * vlength (vadd a b) <= eps * (X + 7.1 * eps * P)) by (apply Rmult_le_compat_l; lra). assert (0 <= eps * X) by nra. assert (eps * (eps * P) <= / 1000000000000000 * (eps * P)) by (apply Rmult_le_compat_r; lra). unfold eps in *. lra. }
  destruct (side _ _ _ P Sd ltac:(lra) Y2 Wd) as (y & -> & Fy & Ny & Vy). destruct (side _ _ _ P Ss ltac:(lra) X2 Ws) as (x & -> & Fx & Nx & Vx). fold Y in Vy. fold X in Vx.
  pose proof (kahan_error Y X (B2R y) (B2R x) P P0 Y0 X0 Ny Nx Q Vy Vx) as K. pose proof (G y x Fy Fx Ny Nx) as N. pose proof (atan2_nonneg (B2R y) (B2R x) Ny) as B1. pose proof PI_4.
  apply near_more with (2 * atan2 (B2R y) (B2R x)) (2 * / 2 ^ 52). - apply twice; [exact N|apply Rabs_le; lra|lra].
  - apply Rabs_le_inv in K. apply Rabs_le. unfold eps in *. lra.
Qed.
