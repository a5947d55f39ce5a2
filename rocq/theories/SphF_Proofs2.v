(** From spherical coordinates to a vector of floats, and back. *)
From Coq Require Import ZArith Reals Lia Lra Psatz Bool.
From Coq.Floats Require Import SpecFloat.
From Flocq Require Import Core BinarySingleNaN.
From Verif Require Import Pi_Bounds Float64 Float64_Proofs Float_Time_Proofs Float_Time_Proofs4 CalF_Proofs2 SexaF_Proofs2 Real_Math Real_Math_Proofs Vector_Model Vector_Proofs Vector_Proofs2 Geo_Model Geo_Proofs Measure_Model Wrap_Model Wrap_Spec Wrap_Proofs2 SepF_Model SepF_Spec SepF_Proofs SepF_Proofs2 SphF_Model SphF_Spec SphF_Proofs.
Open Scope R_scope.

Lemma product_near (a b : bf) A B e1 : is_finite a = true -> is_finite b = true -> 0 < A <= bpow radix2 200 -> Rabs B <= 1 -> 0 <= e1 <= 4 * eps ->
  Rabs (B2R a - A) <= e1 * A -> Rabs (B2R b - B) <= Rabs B / 2 ^ 52 + / 2 ^ 900 ->
  exists z : bf, fmul (B2SF a) (B2SF b) = B2SF z /\ is_finite z = true /\ Rabs (B2R z - A * B) <= (e1 + 3.01 * eps) * Rabs (A * B) + 2 * (A * / 2 ^ 900) + eta.
Proof.
  intros Fa Fb [PA UA] HB He Ha Hb. pose proof eps_small as Es. assert (P9 : 0 < / 2 ^ 900) by (apply Rinv_0_lt_compat, pow_lt; lra). assert (U9 : / 2 ^ 900 <= 1). { rewrite <- Rinv_1. apply Rinv_le; [lra|]. rewrite pow_bpow. change 1 with (bpow radix2 0). apply bpow_le. lia. }
  set (t := / 2 ^ 900) in *. clearbody t. assert (E2 : Rabs B / 2 ^ 52 = 2 * eps * Rabs B) by (unfold eps; lra). rewrite E2 in Hb.
  assert (Ra : Rabs (B2R a) <= A + e1 * A). { replace (B2R a) with (A + (B2R a - A)) by ring. apply Rle_trans with (1 := Rabs_triang _ _). rewrite (Rabs_pos_eq A) by lra. lra. }
  pose proof (Rabs_pos B) as PB. rewrite Rabs_mult, (Rabs_pos_eq A) by lra. set (P := A * Rabs B). set (Q := A * t). assert (PP : 0 <= P) by (apply Rmult_le_pos; lra). assert (PQ : 0 <= Q) by (apply Rmult_le_pos; lra).
  assert (D : Rabs (B2R a * B2R b - A * B) <= (e1 + 2.001 * eps) * P + 1.01 * Q).
  { replace (B2R a * B2R b - A * B) with (B2R a * (B2R b - B) + (B2R a - A) * B) by ring. apply Rle_trans with (1 := Rabs_triang _ _). rewrite !Rabs_mult.
    apply Rle_trans with ((A + e1 * A) * (2 * eps * Rabs B + t) + e1 * A * Rabs B). { apply Rplus_le_compat; [apply Rmult_le_compat; auto using Rabs_pos|apply Rmult_le_compat_r; assumption]. }
    replace ((A + e1 * A) * (2 * eps * Rabs B + t) + e1 * A * Rabs B) with (e1 * P + 2 * eps * P + e1 * (2 * eps * P) + Q + e1 * Q) by (unfold P, Q; ring).
    assert (e1 * (2 * eps * P) <= 4 * eps * (2 * eps * P)) by (apply Rmult_le_compat_r; [nra|lra]). assert (e1 * Q <= 4 * eps * Q) by (apply Rmult_le_compat_r; lra). assert (0 <= eps * P) by nra. nra. }
  assert (AB : Rabs (A * B) = P) by (rewrite Rabs_mult, (Rabs_pos_eq A) by lra; reflexivity).
  assert (M : Rabs (B2R a * B2R b) <= P + ((e1 + 2.001 * eps) * P + 1.01 * Q)). { replace (B2R a * B2R b) with (A * B + (B2R a * B2R b - A * B)) by ring. apply Rle_trans with (1 := Rabs_triang _ _). rewrite AB. lra. }
  assert (EP : 0 <= (e1 + 2.001 * eps) * P <= P * / 1000000000000). { split; [apply Rmult_le_pos; lra|]. rewrite Rmult_comm. apply Rmult_le_compat_l; lra. }
  destruct (fmul_val a b Fa Fb) as (z & E & F & V & _).
  { apply Rle_lt_trans with (1 := M). assert (P <= A) by (unfold P; nra). assert (Q <= A) by (unfold Q; nra). assert (bpow radix2 200 * 1024 <= bpow radix2 1006) by (change 1024 with (bpow radix2 10); rewrite <- bpow_plus; apply bpow_le; lia). assert (bpow radix2 1006 < bpow radix2 1007) by (apply bpow_lt; lia). lra. }
  exists z. split; [exact E|]. split; [exact F|]. rewrite V. pose proof (SexaF_Proofs2.rnd_err (B2R a * B2R b)) as R. set (m := B2R a * B2R b) in *. replace (rnd m - A * B) with ((rnd m - m) + (m - A * B)) by ring. apply Rle_trans with (1 := Rabs_triang _ _).
  assert (eps * Rabs m <= eps * (P + (P * / 1000000000000 + 1.01 * Q))) by (apply Rmult_le_compat_l; lra). assert (0 <= eps * P) by nra. assert (0 <= eps * Q <= Q * / 1000000000000) by nra. lra.
Qed.
Lemma absorb A B : bpow radix2 (-260) <= B -> 0 <= A <= bpow radix2 60 * B -> 2 * (A * / 2 ^ 900) + eta <= / 1000 * eps * B.
Proof.
  intros LB [PA UA]. pose proof (bpow_gt_0 radix2 (-260)). assert (Eb : / 2 ^ 900 = bpow radix2 (-900)) by (rewrite pow_bpow, <- bpow_opp; reflexivity). rewrite Eb.
  assert (H1 : A * bpow radix2 (-900) <= bpow radix2 (-100) * B). { apply Rle_trans with (bpow radix2 60 * B * bpow radix2 (-900)); [apply Rmult_le_compat_r; [apply bpow_ge_0|exact UA]|]. replace (bpow radix2 60 * B * bpow radix2 (-900)) with (bpow radix2 60 * bpow radix2 (-900) * B) by ring. rewrite <- bpow_plus. apply Rmult_le_compat_r; [lra|]. apply bpow_le. lia. }
  assert (H2 : eta <= bpow radix2 (-100) * B). { apply Rle_trans with (bpow radix2 (-100) * bpow radix2 (-260)); [|apply Rmult_le_compat_l; [apply bpow_ge_0|exact LB]]. rewrite <- bpow_plus. unfold eta. apply bpow_le. lia. }
  change (bpow radix2 (-100)) with (/ 1267650600228229401496703205376) in *. unfold eps. lra.
Qed.
(** The cosine of the largest latitude. *)
Lemma least_cos t : Rabs t <= pi_float / 2 -> bpow radix2 (-55) <= cos t.
Proof.
  intros H. pose proof pi_bounds as PB. assert (L : pi_float / 2 <= PI / 2 - / 2 ^ 54 * (53 / 50)) by (unfold pi_float, tau_float; lra). set (u := PI / 2 - Rabs t). assert (U1 : / 2 ^ 54 * (53 / 50) <= u) by (unfold u; lra). pose proof (Rabs_pos t) as Pt.
  assert (Ec : cos t = sin u). { unfold u. rewrite sin_shift. unfold Rabs. destruct (Rcase_abs t); [rewrite cos_neg|]; reflexivity. } rewrite Ec.
  change (bpow radix2 (-55)) with (/ 36028797018963968). destruct (Rle_dec u (PI / 3)) as [Hu|Hu].
  - assert (C : / 2 <= cos u). { replace (/ 2) with (cos (PI / 3)) by (rewrite cos_PI3; lra). apply cos_decr_1; lra. } assert (Ps : 0 <= sin u) by (apply sin_ge_0; lra).
    assert (K : Rabs u <= sin u / cos u). { apply small_turn; [lra|lra|]. rewrite Rabs_pos_eq by exact Ps. unfold Rdiv. rewrite Rmult_assoc, Rinv_l by lra. lra. } rewrite Rabs_pos_eq in K by lra.
    assert (u * cos u <= sin u). { apply Rmult_le_compat_r with (r := cos u) in K; [|lra]. unfold Rdiv in K. rewrite Rmult_assoc, Rinv_l in K by lra. lra. } nra.
  - assert (sin (PI / 3) <= sin u) by (apply sin_incr_1; unfold u in *; lra). assert (cos (PI / 3) * cos (PI / 3) + sin (PI / 3) * sin (PI / 3) = 1) by (pose proof (sc2 (PI / 3)); lra). rewrite cos_PI3 in H1. assert (0 <= sin (PI / 3)) by (apply sin_ge_0; lra). nra.
Qed.
Section Vector_of.
Variables (s c : b64 -> b64) (r theta phi : bf).
Hypotheses (Gs : good_function s sin) (Gc : good_function c cos) (Fr : is_finite r = true) (Ft : is_finite theta = true) (Fp : is_finite phi = true).
Hypotheses (Hr : / 2 ^ 199 <= B2R r <= 2 ^ 199) (Ht : Rabs (B2R theta) <= pi_float / 2) (Hp : Rabs (B2R phi) <= 7).
Let R0 := B2R r * cos (B2R theta).
Lemma bounds_of_r : bpow radix2 (-199) <= B2R r <= bpow radix2 199.
Proof. destruct Hr as [L U]. rewrite pow_bpow in L, U. rewrite <- bpow_opp in L. split; assumption. Qed.
Lemma vector_of : exists x y z : bf, from_spherical64 s c (B2SF r) (B2SF theta) (B2SF phi) = F3 (B2SF x) (B2SF y) (B2SF z) /\ is_finite x = true /\ is_finite y = true /\ is_finite z = true /\
  Rabs (B2R x - R0 * cos (B2R phi)) <= 6.05 * eps * Rabs (R0 * cos (B2R phi)) + / 100 * eps * R0 /\
  Rabs (B2R y - R0 * sin (B2R phi)) <= 6.05 * eps * Rabs (R0 * sin (B2R phi)) + / 100 * eps * R0 /\
  Rabs (B2R z - B2R r * sin (B2R theta)) <= 6.05 * eps * Rabs (B2R r * sin (B2R theta)) + / 100 * eps * B2R r.
Proof.
  pose proof bounds_of_r as [LR UR]. pose proof eps_small as Es. pose proof (least_cos _ Ht) as LC. pose proof (COS_bound (B2R theta)) as [_ CU]. pose proof (bpow_gt_0 radix2 (-199)) as P1. pose proof (bpow_gt_0 radix2 (-55)) as P2.
  assert (U2 : bpow radix2 199 <= bpow radix2 200) by (apply bpow_le; lia). assert (Ht7 : Rabs (B2R theta) <= 7) by (apply Rle_trans with (1 := Ht); unfold pi_float, tau_float; lra).
  assert (One : forall t, Rabs (cos t) <= 1 /\ Rabs (sin t) <= 1) by (intros t; pose proof (COS_bound t); pose proof (SIN_bound t); split; apply Rabs_le; lra).
  destruct (Gc theta Ft Ht7) as (ct & Ect & Fct & Vct). destruct (Gs theta Ft Ht7) as (st & Est & Fst & Vst). destruct (Gc phi Fp Hp) as (cp & Ecp & Fcp & Vcp). destruct (Gs phi Fp Hp) as (sp & Esp & Fsp & Vsp).
  assert (Self : Rabs (B2R r - B2R r) <= 0 * B2R r) by (unfold Rminus; rewrite Rplus_opp_r, Rabs_R0; lra).
  destruct (product_near r ct (B2R r) (cos (B2R theta)) 0 Fr Fct ltac:(lra) (proj1 (One _)) ltac:(lra) Self Vct) as (q & Eq & Fq & Vq).
  destruct (product_near r st (B2R r) (sin (B2R theta)) 0 Fr Fst ltac:(lra) (proj2 (One _)) ltac:(lra) Self Vst) as (z & Ez & Fz & Vz). fold R0 in Vq.
  assert (LR0 : bpow radix2 (-254) <= R0). { replace (-254)%Z with (-199 + -55)%Z by reflexivity. rewrite bpow_plus. unfold R0. apply Rmult_le_compat; lra. } assert (L260 : bpow radix2 (-260) <= bpow radix2 (-254)) by (apply bpow_le; lia). pose proof (bpow_gt_0 radix2 (-254)) as P3. assert (UR0 : R0 <= B2R r) by (unfold R0; nra).
  assert (rR : B2R r <= bpow radix2 60 * R0). { unfold R0. assert (B60 : bpow radix2 60 * bpow radix2 (-55) = 32) by (rewrite <- bpow_plus; reflexivity). assert (1 <= bpow radix2 60 * cos (B2R theta)). { apply Rle_trans with (bpow radix2 60 * bpow radix2 (-55)); [lra|]. apply Rmult_le_compat_l; [apply bpow_ge_0|exact LC]. } nra. }
  assert (B1 : forall a, 0 <= a -> 0 <= a <= bpow radix2 60 * a). { intros a Pa. split; [exact Pa|]. assert (B1 : 1 <= bpow radix2 60) by (change 1 with (bpow radix2 0); apply bpow_le; lia). pose proof (Rmult_le_compat_r a _ _ Pa B1). lra. }
  pose proof (absorb (B2R r) R0 ltac:(lra) (conj (ltac:(lra) : 0 <= B2R r) rR)) as A1. pose proof (absorb R0 R0 ltac:(lra) (B1 R0 ltac:(lra))) as A2.
  assert (L261 : bpow radix2 (-260) <= bpow radix2 (-199)) by (apply bpow_le; lia). pose proof (absorb (B2R r) (B2R r) ltac:(lra) (B1 (B2R r) ltac:(lra))) as A3.
  assert (Ep : 0 < eps * R0) by (apply Rmult_lt_0_compat; lra). assert (Er : 0 < eps * B2R r) by (apply Rmult_lt_0_compat; lra).
  rewrite (Rabs_pos_eq R0) in Vq by lra. assert (Vq' : Rabs (B2R q - R0) <= 3.012 * eps * R0) by lra.
  destruct (product_near q cp R0 (cos (B2R phi)) (3.012 * eps) Fq Fcp ltac:(lra) (proj1 (One _)) ltac:(lra) Vq' Vcp) as (x & Ex & Fx & Vx).
  destruct (product_near q sp R0 (sin (B2R phi)) (3.012 * eps) Fq Fsp ltac:(lra) (proj2 (One _)) ltac:(lra) Vq' Vsp) as (y & Ey & Fy & Vy).
  exists x, y, z. split; [unfold from_spherical64; rewrite Ect, Est, Ecp, Esp, Eq, Ex, Ey, Ez; reflexivity|]. split; [exact Fx|]. split; [exact Fy|]. split; [exact Fz|].
  split; [|split].
  - pose proof (Rabs_pos (R0 * cos (B2R phi))) as K. assert (0 <= eps * Rabs (R0 * cos (B2R phi))) by (apply Rmult_le_pos; lra). lra.
  - pose proof (Rabs_pos (R0 * sin (B2R phi))) as K. assert (0 <= eps * Rabs (R0 * sin (B2R phi))) by (apply Rmult_le_pos; lra). lra.
  - pose proof (Rabs_pos (B2R r * sin (B2R theta))) as K. assert (0 <= eps * Rabs (B2R r * sin (B2R theta))) by (apply Rmult_le_pos; lra). lra.
Qed.
Theorem round_trip f h : good_direction f -> good_hypot h ->
  exists (r' th' ph' : b64) (n : Z), to_spherical64 f h (from_spherical64 s c (B2SF r) (B2SF theta) (B2SF phi)) = (r', th', ph') /\
    near (B2R r) (9 / 2 ^ 53 * B2R r) r' /\ near (B2R theta) (15 / 2 ^ 53) th' /\ near (B2R phi + 2 * PI * IZR n) (19 / 2 ^ 53) ph' /\ in_one_turn ph'.
Proof.
  intros Gf Gh. destruct vector_of as (x & y & z & E & Fx & Fy & Fz & Vx & Vy & Vz). set (w := V3 (B2R x) (B2R y) (B2R z)). pose proof bounds_of_r as [LR UR]. pose proof eps_small as Es. pose proof (least_cos _ Ht) as LC. pose proof (bpow_gt_0 radix2 (-199)) as P1. pose proof (bpow_gt_0 radix2 (-55)) as P2.
  assert (PR : 0 < R0) by (unfold R0; nra). assert (S : stands_for (F3 (B2SF x) (B2SF y) (B2SF z)) w) by (exists x, y, z; auto 10).
  pose proof (Geo_Proofs.spherical_back w) as SB. destruct (to_spherical w) as [[k lat] lon] eqn:ES. destruct (SB k lat lon eq_refl) as (W & Ek & Bl & _). unfold from_spherical in W. rewrite Ek in W. clear SB.
  assert (Wx : B2R x = vlength w * cos lat * cos lon) by (apply (f_equal vx) in W; symmetry; exact W). assert (Wy : B2R y = vlength w * cos lat * sin lon) by (apply (f_equal vy) in W; symmetry; exact W). assert (Wz : B2R z = vlength w * sin lat) by (apply (f_equal vz) in W; symmetry; exact W).
  pose proof (vlength_pos w) as PK. assert (Cl : 0 <= cos lat) by (apply cos_ge_0; lra). assert (PQ : 0 <= vlength w * cos lat) by nra.
  destruct (plane R0 (B2R phi) (B2R x) (B2R y) _ lon 6.05 PR ltac:(lra) PQ Wx Wy Vx Vy) as [Q1 _].
  assert (PRr : 0 < B2R r) by lra.
  assert (Q2 : Rabs (vlength w * cos lat - B2R r * cos (B2R theta)) <= 6.075 * eps * Rabs (B2R r * cos (B2R theta)) + / 100 * eps * B2R r). { fold R0. rewrite (Rabs_pos_eq R0) by lra. assert (0 < eps * B2R r) by (apply Rmult_lt_0_compat; lra). lra. }
  assert (Vz' : Rabs (B2R z - B2R r * sin (B2R theta)) <= 6.075 * eps * Rabs (B2R r * sin (B2R theta)) + / 100 * eps * B2R r). { pose proof (Rabs_pos (B2R r * sin (B2R theta))). assert (0 <= eps * Rabs (B2R r * sin (B2R theta))) by (apply Rmult_le_pos; lra). lra. }
  destruct (plane (B2R r) (B2R theta) (vlength w * cos lat) (B2R z) (vlength w) lat 6.075 PRr ltac:(lra) PK eq_refl Wz Q2 Vz') as [Q3 _].
  assert (O : ordinary w). { apply Rabs_le_inv in Q3. unfold ordinary. rewrite pow_bpow, <- bpow_opp. assert (bpow radix2 (-199) = 2 * bpow radix2 (-200)) by (change 2 with (bpow radix2 1); rewrite <- bpow_plus; reflexivity). assert (bpow radix2 200 = 2 * bpow radix2 199) by (change 2 with (bpow radix2 1); rewrite <- bpow_plus; reflexivity). change (- Z.of_nat 200)%Z with (-200)%Z. change (Z.of_nat 200) with 200%Z. assert ((6.075 + / 40) * eps * B2R r <= B2R r * / 2) by nra. lra. }
  destruct (spherical64_near f h _ w Gf Gh S O) as (r' & th' & ph' & b & lat' & lon' & ET & (Bl' & W') & Nr & Nt & -> & Fb & Bb & Vb).
  assert (Wx' : B2R x = vlength w * cos lat' * cos lon') by (apply (f_equal vx) in W'; exact W'). assert (Wy' : B2R y = vlength w * cos lat' * sin lon') by (apply (f_equal vy) in W'; exact W'). assert (Wz' : B2R z = vlength w * sin lat') by (apply (f_equal vz) in W'; exact W').
  assert (Cl' : 0 <= cos lat') by (apply cos_ge_0; lra). assert (PQ' : 0 <= vlength w * cos lat') by nra.
  destruct (plane R0 (B2R phi) (B2R x) (B2R y) _ lon' 6.05 PR ltac:(lra) PQ' Wx' Wy' Vx Vy) as [Q1' (n & Tn)].
  assert (Q2' : Rabs (vlength w * cos lat' - B2R r * cos (B2R theta)) <= 6.075 * eps * Rabs (B2R r * cos (B2R theta)) + / 100 * eps * B2R r). { fold R0. rewrite (Rabs_pos_eq R0) by lra. assert (0 < eps * B2R r) by (apply Rmult_lt_0_compat; lra). lra. }
  destruct (plane (B2R r) (B2R theta) (vlength w * cos lat') (B2R z) (vlength w) lat' 6.075 PRr ltac:(lra) PK eq_refl Wz' Q2' Vz') as [_ (m & Tm)].
  assert (Hm : m = 0%Z). { pose proof PI2_3_2 as PI32. apply Rabs_le_inv in Tm. assert (T2 := Ht). apply Rabs_le_inv in T2. assert (pi_float / 2 <= PI / 2) by (pose proof pi_bounds; unfold pi_float, tau_float; lra). assert ((-1 < m < 1)%Z); [|lia]. split; apply lt_IZR; apply Rnot_le_lt; intros X; nra. } subst m.
  exists r', th', (B2SF b), n. rewrite E. split; [exact ET|]. assert (Ev : eps = / 2 ^ 53) by apply eps_val. split; [|split; [|split]].
  - apply near_more with (1 := Nr). apply Rle_trans with (1 := Q3). apply Rabs_le_inv in Q3. unfold eps in *. nra.
  - apply near_more with (1 := Nt). apply Rabs_le_inv in Tm. apply Rabs_le. unfold eps in *. lra.
  - exists b. split; [reflexivity|]. split; [exact Fb|]. apply Rabs_le_inv in Vb. apply Rabs_le_inv in Tn. apply Rabs_le. unfold eps in *. lra.
  - exists b. auto.
Qed.
End Vector_of.
