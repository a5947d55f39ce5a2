(** Spherical coordinates of a vector of floats. *)
From Coq Require Import ZArith Reals Lia Lra Psatz Bool.
From Coq.Floats Require Import SpecFloat.
From Flocq Require Import Core BinarySingleNaN.
From Verif Require Import Pi_Bounds Float64 Float64_Proofs Float_Time_Proofs4 CalF_Proofs2 SexaF_Proofs2 Real_Math Real_Math_Proofs Vector_Model Vector_Proofs Vector_Proofs2 Geo_Model Geo_Proofs Measure_Model Wrap_Model Wrap_Spec Wrap_Proofs2 SepF_Model SepF_Spec SepF_Proofs SepF_Proofs2 SphF_Model SphF_Spec.
Open Scope R_scope.

(** ** Turning *)
Lemma small_turn d c : - PI <= d <= PI -> 0 < cos d -> Rabs (sin d) <= c * cos d -> Rabs d <= c.
Proof.
  intros B Cp H. pose proof PI_RGT_0 as PP. assert (In : - (PI / 2) < d < PI / 2).
  { split; apply Rnot_le_lt; intros N; apply (Rlt_not_le _ _ Cp).
    - rewrite <- cos_neg. apply cos_le_0; lra.
    - apply cos_le_0; lra. }
  rewrite <- (atan_tan d) by exact In. apply Rle_trans with (1 := atan_abs _). unfold tan, Rdiv. rewrite Rabs_mult, Rabs_inv, (Rabs_pos_eq (cos d)) by lra. apply Rmult_le_reg_r with (cos d); [exact Cp|]. rewrite Rmult_assoc, Rinv_l, Rmult_1_r by lra. exact H.
Qed.
Lemma some_turns d : exists n : Z, - PI <= d - 2 * PI * IZR n <= PI.
Proof.
  pose proof PI_RGT_0 as P. exists (Zfloor (d / (2 * PI) + / 2)). pose proof (Zfloor_lb (d / (2 * PI) + / 2)) as L. pose proof (Zfloor_ub (d / (2 * PI) + / 2)) as U. set (n := IZR (Zfloor (d / (2 * PI) + / 2))) in *.
  assert (E : d = 2 * PI * (d / (2 * PI))) by (field; lra). set (q := d / (2 * PI)) in *. rewrite E. clearbody q n. clear E. split; nra.
Qed.
Lemma cos_turns d (n : Z) : cos (d - 2 * PI * IZR n) = cos d /\ sin (d - 2 * PI * IZR n) = sin d.
Proof.
  replace (d - 2 * PI * IZR n) with (d + tau * IZR (- n)) by (rewrite opp_IZR; unfold tau; ring). split; [apply cos_tau|apply sin_tau].
Qed.
(** A point near the point at distance [R] in the direction [phi]. *)
Lemma plane R phi x y q t k : 0 < R -> 0 <= k <= 7 -> 0 <= q -> x = q * cos t -> y = q * sin t ->
  Rabs (x - R * cos phi) <= k * eps * Rabs (R * cos phi) + / 100 * eps * R -> Rabs (y - R * sin phi) <= k * eps * Rabs (R * sin phi) + / 100 * eps * R ->
  Rabs (q - R) <= (k + / 40) * eps * R /\ exists n : Z, Rabs (t - phi - 2 * PI * IZR n) <= (k + / 40) * eps.
Proof.
  intros HR Hk Hq -> -> Hx Hy. pose proof eps_small as E. set (c := cos phi) in *. set (s := sin phi) in *. assert (CS : s * s + c * c = 1) by apply sc2.
  rewrite Rabs_mult, (Rabs_pos_eq R) in Hx, Hy by lra.
  assert (Bc : Rabs c <= 1) by (apply Rabs_le; nra). assert (Bs : Rabs s <= 1) by (apply Rabs_le; nra). assert (B2 : 2 * (Rabs c * Rabs s) <= 1).
  { assert (Rabs c * Rabs c = c * c) by (rewrite <- Rabs_mult; apply Rabs_pos_eq; nra). assert (Rabs s * Rabs s = s * s) by (rewrite <- Rabs_mult; apply Rabs_pos_eq; nra). pose proof (Rle_0_sqr (Rabs c - Rabs s)) as Z. unfold Rsqr in Z. lra. }
  assert (Ec : Rabs c * Rabs c = c * c) by (rewrite <- Rabs_mult; apply Rabs_pos_eq; nra). assert (Es : Rabs s * Rabs s = s * s) by (rewrite <- Rabs_mult; apply Rabs_pos_eq; nra).
  pose proof (Rabs_pos c) as Pc. pose proof (Rabs_pos s) as Ps. assert (P1 : Rabs c + Rabs s <= 142 / 100). { assert ((Rabs c + Rabs s) * (Rabs c + Rabs s) <= 2) by lra. nra. }
  set (a := q * cos (t - phi)). set (b := q * sin (t - phi)).
  assert (Ea : a - R = (q * cos t - R * c) * c + (q * sin t - R * s) * s) by (unfold a; rewrite cos_minus; fold c s; replace R with (R * (s * s + c * c)) at 1 by (rewrite CS; ring); ring).
  assert (Eb : b = (q * sin t - R * s) * c - (q * cos t - R * c) * s) by (unfold b; rewrite sin_minus; fold c s; ring).
  set (dx := q * cos t - R * c) in *. set (dy := q * sin t - R * s) in *. set (C := Rabs c) in *. set (S := Rabs s) in *. set (m := (k + / 60) * eps * R).
  assert (KE : 0 <= k * eps * R) by (apply Rmult_le_pos; [apply Rmult_le_pos|]; lra). assert (ER : 0 < eps * R) by (apply Rmult_lt_0_compat; lra).
  assert (Da : Rabs (a - R) <= m).
  { rewrite Ea. apply Rle_trans with (Rabs dx * C + Rabs dy * S). { apply Rle_trans with (1 := Rabs_triang _ _). rewrite !Rabs_mult. unfold C, S. lra. }
    apply Rle_trans with ((k * eps * (R * C) + / 100 * eps * R) * C + (k * eps * (R * S) + / 100 * eps * R) * S). { apply Rplus_le_compat; apply Rmult_le_compat_r; assumption. }
    replace ((k * eps * (R * C) + / 100 * eps * R) * C + (k * eps * (R * S) + / 100 * eps * R) * S) with (k * eps * R * (C * C + S * S) + / 100 * (eps * R) * (C + S)) by ring. replace (C * C + S * S) with 1 by lra. unfold m. nra. }
  assert (Db : Rabs b <= m).
  { rewrite Eb. apply Rle_trans with (Rabs dy * C + Rabs dx * S). { unfold Rminus. apply Rle_trans with (1 := Rabs_triang _ _). rewrite Rabs_Ropp, !Rabs_mult. unfold C, S. lra. }
    apply Rle_trans with ((k * eps * (R * S) + / 100 * eps * R) * C + (k * eps * (R * C) + / 100 * eps * R) * S). { apply Rplus_le_compat; apply Rmult_le_compat_r; assumption. }
    replace ((k * eps * (R * S) + / 100 * eps * R) * C + (k * eps * (R * C) + / 100 * eps * R) * S) with (k * eps * R * (2 * (C * S)) + / 100 * (eps * R) * (C + S)) by ring. unfold m. nra. }
  assert (M : m <= R * / 10000000000000). { unfold m. assert ((k + / 60) * eps <= / 10000000000000) by nra. nra. } assert (M0 : 0 <= m) by (unfold m; nra).
  assert (Q : q * q = a * a + b * b). { unfold a, b. pose proof (sc2 (t - phi)) as Z. replace (q * cos (t - phi) * (q * cos (t - phi)) + q * sin (t - phi) * (q * sin (t - phi))) with (q * q * (sin (t - phi) * sin (t - phi) + cos (t - phi) * cos (t - phi))) by ring. rewrite Z. ring. }
  apply Rabs_le_inv in Da. apply Rabs_le_inv in Db. assert (Pa : 0 < a) by lra. assert (Pq : 0 < q) by nra.
  assert (G : (k + / 40) * eps * R = m + / 120 * (eps * R)) by (unfold m; lra). split.
  - assert (a <= q) by nra. assert (Mm : m * m <= R * (/ 120 * (eps * R))). { apply Rle_trans with (m * (R * / 10000000000000)); [apply Rmult_le_compat_l; lra|]. unfold m. assert ((k + / 60) * / 10000000000000 <= / 120) by lra. assert (0 < R * (eps * R)) by nra. replace ((k + / 60) * eps * R * (R * / 10000000000000)) with ((k + / 60) * / 10000000000000 * (R * (eps * R))) by lra. nra. }
    assert (b * b <= m * m) by nra. set (g := / 120 * (eps * R)) in *. assert (0 < g) by (unfold g; lra). assert (q <= a + g). { apply Rnot_lt_le. intros N. assert ((a + g) * (a + g) < q * q) by nra. assert (R * g <= 2 * a * g) by nra. nra. }
    apply Rabs_le. lra.
  - destruct (some_turns (t - phi)) as (n & Bn). exists n. destruct (cos_turns (t - phi) n) as [Cn Sn]. apply small_turn; [exact Bn| |]; rewrite ?Cn, ?Sn; [unfold a in Pa; nra|].
    apply Rmult_le_reg_l with q; [exact Pq|]. rewrite <- (Rabs_pos_eq q) at 1 by lra. rewrite <- Rabs_mult. fold b. replace (q * ((k + / 40) * eps * cos (t - phi))) with ((k + / 40) * eps * a) by (unfold a; ring). apply Rle_trans with m; [apply Rabs_le; lra|].
    assert (m * m <= / 120 * (eps * R) * R). { apply Rle_trans with (m * (R * / 10000000000000)); [apply Rmult_le_compat_l; lra|]. unfold m. assert ((k + / 60) * / 10000000000000 <= / 120) by lra. assert (0 < R * (eps * R)) by nra. replace ((k + / 60) * eps * R * (R * / 10000000000000)) with ((k + / 60) * / 10000000000000 * (R * (eps * R))) by lra. nra. }
    assert ((k + / 40) * eps * R * (1 - / 10000000000000) <= (k + / 40) * eps * a). { replace ((k + / 40) * eps * R * (1 - / 10000000000000)) with ((k + / 40) * eps * (R - R * / 10000000000000)) by lra. apply Rmult_le_compat_l; [nra|lra]. } apply Rle_trans with (2 := H0). unfold m.
    assert (k + / 60 <= (k + / 40) * (1 - / 10000000000000)) by lra. replace ((k + / 40) * eps * R * (1 - / 10000000000000)) with ((k + / 40) * (1 - / 10000000000000) * (eps * R)) by lra. rewrite (Rmult_assoc (k + / 60)). apply Rmult_le_compat_r; lra.
Qed.

(** ** The coordinates of a vector *)
Lemma tau_near : Rabs (tau_float - 2 * PI) <= / 2 ^ 51.
Proof. pose proof pi_bounds. unfold tau_float. apply Rabs_le. lra. Qed.
Lemma tiny k : bpow radix2 (-200) <= k -> / 2 ^ 900 <= bpow radix2 (-60) * k.
Proof.
  intros H. apply Rle_trans with (bpow radix2 (-60) * bpow radix2 (-200)); [|apply Rmult_le_compat_l; [apply bpow_ge_0|exact H]]. rewrite pow_bpow, <- bpow_opp, <- bpow_plus. apply bpow_le. lia.
Qed.
Lemma longitude_near (a : bf) theta : is_finite a = true -> - PI <= theta <= PI -> Rabs (B2R a - theta) <= / 2 ^ 51 ->
  exists (b : bf) (n : Z), longitude64 (B2SF a) = B2SF b /\ is_finite b = true /\ 0 <= B2R b <= tau_float /\ Rabs (B2R b - (theta - 2 * PI * IZR n)) <= 3 / 2 ^ 51.
Proof.
  intros F B V. destruct (longitude_folded a F) as (b & n & E & G & D & W). exists b, n. split; [exact E|]. split; [exact G|]. split; [lra|]. pose proof tau_near as T. pose proof tau_range as TR. pose proof pi_bounds as PB.
  apply Rabs_le_inv in V. apply Rabs_le_inv in W. apply Rabs_le_inv in T. assert (N : (-2 < n < 1)%Z). { split; apply lt_IZR; nra. } assert (Nn : n = (-1)%Z \/ n = 0%Z) by lia. apply Rabs_le. destruct Nn as [-> | ->]; lra.
Qed.
Lemma latitude_error k lat rho z h q t : bpow radix2 (-200) <= k -> 0 <= rho -> 0 <= h -> 0 <= q -> rho = k * cos lat -> z = k * sin lat -> h = q * cos t -> z = q * sin t ->
  - (PI / 2) <= lat <= PI / 2 -> - PI <= t <= PI -> Rabs (h - rho) <= rho / 2 ^ 52 + / 2 ^ 900 -> Rabs (t - lat) <= / 2 ^ 52 * (11 / 10).
Proof.
  intros K Pr Ph Pq E1 E2 E3 E4 Bl Bt D. pose proof (tiny k K) as Ty. set (e9 := / 2 ^ 900) in *. change (bpow radix2 (-60)) with (/ 1152921504606846976) in Ty. assert (P9 : 0 < e9) by (apply Rinv_0_lt_compat, pow_lt; lra). clearbody e9. assert (KP : 0 < k) by lra.
  assert (Sum : rho * rho + z * z = k * k). { rewrite E1, E2. pose proof (sc2 lat) as Z. replace (k * cos lat * (k * cos lat) + k * sin lat * (k * sin lat)) with (k * k * (sin lat * sin lat + cos lat * cos lat)) by ring. rewrite Z. ring. }
  assert (Kp2 : 0 < k * k) by nra. assert (Rk : rho <= k) by nra. assert (Zk : Rabs z <= k). { apply Rabs_le. split; nra. } apply Rabs_le_inv in D.
  assert (Dot : q * k * cos (t - lat) = h * rho + z * z). { rewrite cos_minus. replace (h * rho + z * z) with (h * rho + (k * sin lat) * (q * sin t)) by (rewrite <- E2, <- E4; ring). rewrite E1, E3. ring. }
  assert (Crs : q * k * sin (t - lat) = z * (rho - h)). { rewrite sin_minus. replace (z * (rho - h)) with ((q * sin t) * (k * cos lat) - h * (k * sin lat)) by (rewrite <- E4, <- E1, <- E2; ring). rewrite E3. ring. }
  assert (DL : k * k * (1 - / 2 ^ 51) <= h * rho + z * z). { rewrite <- Sum. assert (rho * (rho - (rho / 2 ^ 52 + e9)) <= h * rho) by nra. assert (rho * e9 <= / 1152921504606846976 * (k * k)) by nra. assert (0 <= z * z) by nra. assert (0 <= rho * rho) by nra. rewrite <- Sum in *. lra. }
  assert (CU : Rabs (z * (rho - h)) <= k * k * (/ 2 ^ 52 * (51 / 100))). { rewrite Rabs_mult. assert (A : Rabs (rho - h) <= rho / 2 ^ 52 + e9) by (apply Rabs_le; lra). pose proof (Rabs_pos z) as Pz. assert (Zz : Rabs z * Rabs z = z * z) by (rewrite <- Rabs_mult; apply Rabs_pos_eq; nra). set (Z := Rabs z) in *. clearbody Z.
    apply Rle_trans with (Z * (rho / 2 ^ 52 + e9)); [apply Rmult_le_compat_l; assumption|]. assert (2 * (Z * rho) <= k * k) by (pose proof (Rle_0_sqr (Z - rho)) as Y; unfold Rsqr in Y; lra). assert (Z * e9 <= / 1152921504606846976 * (k * k)) by nra. lra. }
  assert (QK : 0 < q * k). { destruct Pq as [Pq| <-]; [nra|]. rewrite !Rmult_0_l in Dot. exfalso. lra. } assert (Cp : 0 < cos (t - lat)) by nra.
  pose proof PI_RGT_0 as PP. destruct (some_turns (t - lat)) as (n & Bn). destruct (cos_turns (t - lat) n) as [Cn Sn].
  assert (Key : Rabs (t - lat - 2 * PI * IZR n) <= / 2 ^ 52 * (11 / 10)).
  { apply small_turn; [exact Bn|rewrite Cn; exact Cp|]. rewrite Cn, Sn. apply Rmult_le_reg_l with (q * k); [exact QK|]. rewrite <- (Rabs_pos_eq (q * k)) at 1 by lra. rewrite <- Rabs_mult, Crs. replace (q * k * (/ 2 ^ 52 * (11 / 10) * cos (t - lat))) with (/ 2 ^ 52 * (11 / 10) * (q * k * cos (t - lat))) by ring. rewrite Dot. apply Rle_trans with (1 := CU). lra. }
  apply Rabs_le_inv in Key. assert (Bt' : - (PI / 2) <= t <= PI / 2).
  { destruct Ph as [Ph|Ph].
    - assert (0 < cos t) by nra. split; apply Rnot_lt_le; intros N; apply (Rlt_not_le _ _ H); [rewrite <- cos_neg|]; apply cos_le_0; lra.
    - assert (C0 : cos t = 0). { assert (0 < q) by nra. nra. } split; apply Rnot_lt_le; intros N; assert (cos t < 0); try lra; [rewrite <- cos_neg|]; apply cos_lt_0; lra. }
  assert (N : (-1 < n < 1)%Z). { pose proof PI2_3_2. split; apply lt_IZR; apply Rnot_le_lt; intros X; nra. } assert (Hn : n = 0%Z) by lia. subst n. apply Rabs_le. lra.
Qed.
Lemma ordinary_bpow w : ordinary w -> bpow radix2 (-200) <= vlength w <= bpow radix2 200.
Proof. intros [L U]. rewrite pow_bpow in L, U. rewrite <- bpow_opp in L. split; assumption. Qed.
Theorem spherical64_near f h p w : good_direction f -> good_hypot h -> stands_for p w -> ordinary w ->
  exists (r th ph : b64) (b : bf) (lat lon : R), to_spherical64 f h p = (r, th, ph) /\ placed w (vlength w) lat lon /\
    near (vlength w) (2.54 * eps * vlength w) r /\ near lat (/ 2 ^ 50) th /\ ph = B2SF b /\ is_finite b = true /\ 0 <= B2R b <= tau_float /\ Rabs (B2R b - lon) <= 3 / 2 ^ 51.
Proof.
  intros Gf Gh S O. pose proof (ordinary_bpow w O) as [KL KU]. destruct (length64_rel p w S) as (br & Er & Fr & Pr & Vr).
  { rewrite pow_bpow, <- bpow_opp. split; [apply Rle_trans with (2 := KL)|apply Rle_trans with (1 := KU)]; apply bpow_le; lia. }
  destruct S as (x & y & z & Ep & Fx & Fy & Fz & Ew). assert (KU2 : vlength w <= 2 ^ 200) by apply O. destruct (comp_le w) as (Cx & Cy & _). assert (Lw : vlength w * vlength w = B2R x * B2R x + B2R y * B2R y + B2R z * B2R z) by (rewrite vlength_sq, Ew; reflexivity).
  assert (Kp : 0 < vlength w) by (pose proof (bpow_gt_0 radix2 (-200)); lra). assert (Cx' : Rabs (B2R x) <= 2 ^ 200) by (apply Rle_trans with (2 := KU2); rewrite Ew in Cx at 1; exact Cx). assert (Cy' : Rabs (B2R y) <= 2 ^ 200) by (apply Rle_trans with (2 := KU2); rewrite Ew in Cy at 1; exact Cy).
  destruct (Gh x y Fx Fy Cx' Cy') as (bh & Eh & Fh & Ph & Vh). destruct (Gf z bh Fz Fh) as (t & (Bt & Ct & St) & (bt & Et & Ft & Vt)). destruct (Gf y x Fy Fx) as (l & (Bl & Cl & Sl) & (bl & El & Fl & Vl)).
  destruct (longitude_near bl l Fl Bl Vl) as (b & n & Eb & Fb & Bb & Vb). fold (rho (B2R x) (B2R y)) in Vh, Cl, Sl. set (rh := rho (B2R x) (B2R y)) in *. assert (Prh : 0 <= rh) by apply sqrt_pos. assert (Sq : rh * rh = B2R x * B2R x + B2R y * B2R y) by apply rho_sq.
  set (lat := atan2 (B2R z) rh). assert (Rr : rho rh (B2R z) = vlength w). { unfold rho. rewrite Sq, <- Lw. apply sqrt_square. lra. }
  assert (N : rh <> 0 \/ B2R z <> 0). { destruct (Req_dec rh 0) as [Z|]; [|auto]. right. intros Z'. rewrite <- Sq, Z, Z' in Lw. nra. } destruct (atan2_spec (B2R z) rh N) as (Ca & Sa & _). fold lat in Ca, Sa. rewrite Rr in Ca, Sa. pose proof (atan2_right (B2R z) rh Prh) as Ba. fold lat in Ba.
  set (q := sqrt (B2R bh * B2R bh + B2R z * B2R z)) in *. assert (Pq : 0 <= q) by apply sqrt_pos.
  pose proof (latitude_error (vlength w) lat rh (B2R z) (B2R bh) q t KL Prh Ph Pq (eq_sym Ca) (eq_sym Sa) Ct St Ba Bt Vh) as LE.
  exists (B2SF br), (B2SF bt), (B2SF b), b, lat, (l - 2 * PI * IZR n). split; [|split; [|split; [|split; [|split; [|split; [|split]]]]]].
  - unfold to_spherical64. rewrite Er, Ep. cbn [fx fy fz]. rewrite Eh, Et, El, Eb. reflexivity.
  - split; [exact Ba|]. destruct (cos_turns l n) as [-> ->]. rewrite Ca, Sa, <- Cl, <- Sl. exact Ew.
  - exists br. split; [reflexivity|]. split; [exact Fr|]. exact Vr.
  - exists bt. split; [reflexivity|]. split; [exact Ft|]. apply Rabs_le_inv in Vt. apply Rabs_le_inv in LE. apply Rabs_le. lra.
  - reflexivity.
  - exact Fb.
  - exact Bb.
  - exact Vb.
Qed.
