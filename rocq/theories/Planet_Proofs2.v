From Coq Require Import Reals ZArith List Bool Lra Lia Psatz.
From Verif Require Import Real_Math Real_Math_Proofs Vector_Model Vector_Proofs Geo_Model Geo_Spec Geo_Proofs Geo_Proofs2 Find_Proofs2 Planet_Model Planet_Spec Planet_Proofs.
Import ListNotations.
Open Scope R_scope.

(** * Local facts about derivatives *)
Lemma positive_near f t d : derivable_pt_lim f t d -> 0 < f t -> exists delta, 0 < delta /\ forall s, Rabs (s - t) < delta -> 0 < f s.
Proof.
  intros D P. destruct (D 1 Rlt_0_1) as [del Hd]. assert (A : 0 <= Rabs d) by apply Rabs_pos. assert (K : 0 < f t / (Rabs d + 2)) by (apply Rdiv_lt_0_compat; lra).
  exists (Rmin del (f t / (Rabs d + 2))). split; [apply Rmin_pos; [apply cond_pos|exact K]|]. intros s Hs. apply Rmin_Rgt_l in Hs as [H1 H2].
  destruct (Req_dec s t) as [->|N]; [exact P|]. specialize (Hd (s - t) ltac:(lra) H1). replace (t + (s - t)) with s in Hd by ring.
  set (h := s - t) in *. assert (Hh : 0 < Rabs h) by (apply Rabs_pos_lt; unfold h; lra).
  assert (B : Rabs (f s - f t) <= (Rabs d + 1) * Rabs h).
  { replace (f s - f t) with (((f s - f t) / h - d) * h + d * h) by (field; unfold h; lra). eapply Rle_trans; [apply Rabs_triang|]. rewrite !Rabs_mult. nra. }
  assert (C : (Rabs d + 2) * Rabs h < f t). { apply Rmult_lt_reg_l with (/ (Rabs d + 2)); [apply Rinv_0_lt_compat; lra|]. rewrite <- Rmult_assoc, Rinv_l, Rmult_1_l by lra. unfold Rdiv in H2. lra. }
  assert (L : f t - f s <= Rabs (f s - f t)) by (rewrite Rabs_minus_sym; apply Rle_abs). nra.
Qed.
Lemma dext_near f g t d delta : 0 < delta -> (forall s, Rabs (s - t) < delta -> f s = g s) -> derivable_pt_lim f t d -> derivable_pt_lim g t d.
Proof.
  intros Hd E D eps He. destruct (D eps He) as [del H]. assert (P : 0 < Rmin del delta) by (apply Rmin_pos; [apply cond_pos|exact Hd]). exists (mkposreal _ P). cbn. intros h Hh Hs. apply Rmin_Rgt_l in Hs as [H1 H2].
  rewrite <- (E t), <- (E (t + h)); [apply H; assumption| |].
  - replace (t + h - t) with h by ring. exact H2.
  - replace (t - t) with 0 by ring. rewrite Rabs_R0. exact Hd.
Qed.
Lemma dmult f g t a b : derivable_pt_lim f t a -> derivable_pt_lim g t b -> derivable_pt_lim (fun s => f s * g s) t (a * g t + f t * b).
Proof. intros. apply (derivable_pt_lim_mult f g); assumption. Qed.
Lemma dplus f g t a b : derivable_pt_lim f t a -> derivable_pt_lim g t b -> derivable_pt_lim (fun s => f s + g s) t (a + b).
Proof. intros. apply (derivable_pt_lim_plus f g); assumption. Qed.
Lemma dsqrt f t a : derivable_pt_lim f t a -> 0 < f t -> derivable_pt_lim (fun s => sqrt (f s)) t (a / (2 * sqrt (f t))).
Proof. intros D P. eapply dlin; [apply (derivable_pt_lim_comp f sqrt); [exact D|apply derivable_pt_lim_sqrt, P]|]. field. pose proof (sqrt_lt_R0 _ P). lra. Qed.
Lemma datan_div f g t a b : derivable_pt_lim f t a -> derivable_pt_lim g t b -> 0 < g t ->
  derivable_pt_lim (fun s => atan (f s / g s)) t ((a * g t - f t * b) / (g t * g t + f t * f t)).
Proof.
  intros D E P. eapply dlin; [apply (derivable_pt_lim_comp (fun s => f s / g s) atan); [apply (derivable_pt_lim_div f g); [exact D|exact E|lra]|apply derivable_pt_lim_atan]|].
  unfold Rsqr. field. repeat split; nra.
Qed.
(** * The rates of the spherical coordinates *)
Lemma tiny_pos : 0 < tiny /\ 0 < tiny_limit.
Proof. unfold tiny, tiny_limit. split; apply Rinv_0_lt_compat, pow_lt; lra. Qed.
Section Rates.
Variables (p : R -> vec) (v : vec) (t : R).
Hypothesis Dp : vderiv p t v.
Let s0 := vx (p t) * vx (p t) + vy (p t) * vy (p t).
Hypothesis Hs : tiny_limit <= s0.
Lemma s0_pos : 0 < s0. Proof. pose proof (proj2 tiny_pos). lra. Qed.
Lemma plus_tiny_id : plus_tiny s0 = s0.
Proof. unfold plus_tiny. destruct (Rlt_dec s0 tiny_limit); [lra|reflexivity]. Qed.
Lemma d_s : derivable_pt_lim (fun s => vx (p s) * vx (p s) + vy (p s) * vy (p s)) t (2 * (vx (p t) * vx v + vy (p t) * vy v)).
Proof. destruct Dp as (D1 & D2 & D3). eapply dlin; [apply dplus; apply dmult; eassumption|]. cbn beta. ring. Qed.
Lemma range_rate_ok : derivable_pt_lim (fun s => vlength (p s)) t (dot (p t) v / vlength (p t)).
Proof.
  pose proof s0_pos as S0. destruct Dp as (D1 & D2 & D3). unfold vlength at 1.
  eapply dlin; [apply dsqrt; [apply dplus; [apply d_s|apply dmult; eassumption]|]|].
  - fold s0. nra.
  - unfold vlength, dot. assert (Q : 0 < sqrt (vx (p t) * vx (p t) + vy (p t) * vy (p t) + vz (p t) * vz (p t))) by (apply sqrt_lt_R0; fold s0; nra). field. lra.
Qed.
Lemma lat_rate_ok : derivable_pt_lim (fun s => atan2 (vz (p s)) (hypot (vx (p s)) (vy (p s)))) t
  ((plus_tiny s0 * vz v - vz (p t) * (vx (p t) * vx v + vy (p t) * vy v)) / ((plus_tiny s0 + vz (p t) * vz (p t)) * sqrt (plus_tiny s0))).
Proof.
  pose proof s0_pos as S0. rewrite plus_tiny_id. destruct Dp as (D1 & D2 & D3). destruct (positive_near _ _ _ d_s S0) as [del [Hd Hn]].
  apply (dext_near (fun s => atan (vz (p s) / hypot (vx (p s)) (vy (p s)))) _ _ _ del Hd).
  - intros s Hs'. unfold atan2. destruct (Rlt_dec 0 (hypot (vx (p s)) (vy (p s)))) as [L|L]; [reflexivity|]. exfalso. apply L. unfold hypot. apply sqrt_lt_R0. exact (Hn s Hs').
  - pose proof (dsqrt _ _ _ d_s S0) as DH. assert (Q : 0 < sqrt s0) by (apply sqrt_lt_R0; exact S0). assert (Q2 : sqrt s0 * sqrt s0 = s0) by (apply sqrt_sqrt; lra).
    eapply dlin; [apply (datan_div (fun s => vz (p s)) (fun s => hypot (vx (p s)) (vy (p s)))); [exact D3|exact DH|exact Q]|].
    unfold hypot. fold s0. set (q := sqrt s0) in *. set (b := vx (p t) * vx v + vy (p t) * vy v). assert (P2 : 0 < s0 + vz (p t) * vz (p t)) by nra. rewrite Q2.
    replace (vz v * q - vz (p t) * (2 * b / (2 * q))) with ((vz v * (q * q) - vz (p t) * b) / q) by (field; lra). rewrite Q2. field. split; lra.
Qed.
Lemma lon_rate_ok : turns_at_rate (fun s => rmod (atan2 (vy (p s)) (vx (p s))) tau) t ((vx (p t) * vy v - vx v * vy (p t)) / plus_tiny s0).
Proof.
  pose proof s0_pos as S0. rewrite plus_tiny_id. destruct Dp as (D1 & D2 & D3).
  assert (PO : forall s, 0 < vx (p s) * vx (p s) + vy (p s) * vy (p s) -> let a := rmod (atan2 (vy (p s)) (vx (p s))) tau in
    vx (p s) = hypot (vx (p s)) (vy (p s)) * cos a /\ vy (p s) = hypot (vx (p s)) (vy (p s)) * sin a).
  { intros s Ps a. unfold a. rewrite cos_rmod, sin_rmod. destruct (atan2_spec (vy (p s)) (vx (p s))) as (C & S & _).
    - destruct (Req_dec (vx (p s)) 0) as [E|E]; [right|left; exact E]. intros E2. rewrite E, E2 in Ps. lra.
    - split; symmetry; [exact C|exact S]. }
  set (a := rmod (atan2 (vy (p t)) (vx (p t))) tau). destruct (PO t S0) as [Ex Ey]. fold a in Ex, Ey. set (h := hypot (vx (p t)) (vy (p t))) in *.
  assert (Hh : 0 < h) by (apply sqrt_lt_R0; exact S0). assert (Hh2 : h * h = s0) by (apply sqrt_sqrt; fold s0; lra).
  set (X := fun s => vx (p s) * cos a + vy (p s) * sin a). set (Y := fun s => vy (p s) * cos a - vx (p s) * sin a).
  pose proof (sc2 a) as SC. assert (X0 : X t = h) by (unfold X; transitivity (h * (sin a * sin a + cos a * cos a)); [rewrite Ex, Ey at 1; ring|rewrite SC; ring]).
  assert (Y0 : Y t = 0) by (unfold Y; rewrite Ex, Ey; ring).
  assert (DX : derivable_pt_lim X t (vx v * cos a + vy v * sin a)). { unfold X. eapply dlin; [apply dplus; apply dmult; try eassumption; apply derivable_pt_lim_const|]. cbn beta. ring. }
  assert (DY : derivable_pt_lim Y t (vy v * cos a - vx v * sin a)). { unfold Y. eapply dlin; [apply (derivable_pt_lim_minus (fun s => vy (p s) * cos a) (fun s => vx (p s) * sin a)); apply dmult; try eassumption; apply derivable_pt_lim_const|]. cbn beta. ring. }
  destruct (positive_near X t _ DX ltac:(lra)) as [del [Hd Hn]].
  exists (fun s => a + atan (Y s / X s)), del. split; [exact Hd|]. split; [|split].
  - rewrite Y0. unfold Rdiv. rewrite Rmult_0_l, atan_0, Rplus_0_r. reflexivity.
  - eapply dlin; [apply dplus; [apply derivable_pt_lim_const|apply datan_div; [exact DY|exact DX|lra]]|]. rewrite X0, Y0.
    replace (h * h + 0 * 0) with s0 by lra. rewrite Ex, Ey. unfold Rdiv. rewrite Rplus_0_l. f_equal. ring.
  - intros s Hs'. specialize (Hn s Hs').
    assert (Q : 0 < X s * X s + Y s * Y s) by nra.
    assert (E2 : X s * X s + Y s * Y s = vx (p s) * vx (p s) + vy (p s) * vy (p s)). { unfold X, Y. transitivity ((vx (p s) * vx (p s) + vy (p s) * vy (p s)) * (sin a * sin a + cos a * cos a)); [ring|rewrite SC; ring]. }
    destruct (PO s ltac:(lra)) as [Fx Fy]. set (b := rmod (atan2 (vy (p s)) (vx (p s))) tau) in *. set (k := hypot (vx (p s)) (vy (p s))) in *.
    assert (Hk : 0 < k) by (apply sqrt_lt_R0; lra).
    destruct (atan_cos_sin (Y s / X s)) as [CA SA].
    assert (Kx : sqrt (1 + Y s / X s * (Y s / X s)) = k / X s).
    { replace (1 + Y s / X s * (Y s / X s)) with ((vx (p s) * vx (p s) + vy (p s) * vy (p s)) / (X s * X s)) by (rewrite <- E2; field; lra).
      rewrite sqrt_div_alt by nra. rewrite sqrt_square by lra. reflexivity. }
    rewrite Kx in CA, SA. assert (C1 : cos (atan (Y s / X s)) * k = X s) by (rewrite CA; field; lra). assert (S1 : sin (atan (Y s / X s)) * k = Y s) by (rewrite SA; field; lra).
    destruct (same_turns (a + atan (Y s / X s)) b) as [j Hj].
    + apply Rmult_eq_reg_r with k; [|lra]. rewrite cos_plus. transitivity (cos a * (cos (atan (Y s / X s)) * k) - sin a * (sin (atan (Y s / X s)) * k)); [ring|]. rewrite C1, S1. unfold X, Y.
      transitivity (vx (p s) * (sin a * sin a + cos a * cos a)); [ring|]. rewrite SC, Rmult_1_r. rewrite Rmult_comm. exact Fx.
    + apply Rmult_eq_reg_r with k; [|lra]. rewrite sin_plus. transitivity (sin a * (cos (atan (Y s / X s)) * k) + cos a * (sin (atan (Y s / X s)) * k)); [ring|]. rewrite C1, S1. unfold X, Y.
      transitivity (vy (p s) * (sin a * sin a + cos a * cos a)); [ring|]. rewrite SC, Rmult_1_r. rewrite Rmult_comm. exact Fy.
    + exists j. lra.
Qed.
End Rates.
Lemma rates_ok p v t : vderiv p t v -> tiny_limit <= vx (p t) * vx (p t) + vy (p t) * vy (p t) ->
  let '(lat_rate, lon_rate, range_rate) := snd (to_spherical_and_rates (p t) v) in
  derivable_pt_lim (fun s => fst (fst (fst (to_spherical_and_rates (p s) v)))) t lat_rate /\
  turns_at_rate (fun s => snd (fst (fst (to_spherical_and_rates (p s) v)))) t lon_rate /\
  derivable_pt_lim (fun s => snd (fst (to_spherical_and_rates (p s) v))) t range_rate.
Proof. intros D H. cbn. split; [exact (lat_rate_ok p v t D H)|]. split; [exact (lon_rate_ok p v t D H)|exact (range_rate_ok p v t D H)]. Qed.
Lemma coordinates_ok p v : let '(lat, lon, d) := fst (to_spherical_and_rates p v) in to_spherical p = (d, lat, lon).
Proof. reflexivity. Qed.
(** In the horizon frame of a site on a uniformly turning Earth. *)
Lemma horizon_rates_ok lat lon M g w t p v : vderiv p t v -> let f s := frame_latlon_and_rates (topos_rotation lat lon (g + w * s) M) (Some (topos_rate w lat)) (p s) v in
  let q := mxv (topos_rotation lat lon (g + w * t) M) (p t) in tiny_limit <= vx q * vx q + vy q * vy q ->
  let '(alt_rate, az_rate, range_rate) := snd (f t) in
  derivable_pt_lim (fun s => fst (fst (fst (f s)))) t alt_rate /\
  turns_at_rate (fun s => snd (fst (fst (f s)))) t az_rate /\
  derivable_pt_lim (fun s => snd (fst (f s))) t range_rate.
Proof.
  intros D f q H. pose proof (horizon_rate lat lon M g w t p v D) as X. exact (rates_ok _ _ t X H).
Qed.
(** Through a pole the latitude has a corner, and the rate reported is nil. *)
Lemma at_the_pole : let p s := V3 s 0 1 in let v := V3 1 0 0 in
  vderiv p 0 v /\ fst (fst (snd (to_spherical_and_rates (p 0) v))) = 0 /\
  ~ exists d, derivable_pt_lim (fun s => fst (fst (fst (to_spherical_and_rates (p s) v)))) 0 d.
Proof.
  intros p v. assert (Dp : vderiv p 0 v) by (split; [|split]; cbn; [apply derivable_pt_lim_id|apply derivable_pt_lim_const|apply derivable_pt_lim_const]). split; [exact Dp|].
  split; [cbn; unfold Rdiv; ring|].
  intros [d D]. cbn in D. assert (L : forall h, h <> 0 -> atan2 1 (hypot h 0) - atan2 1 (hypot 0 0) = - atan (Rabs h)).
  { intros h Hh. assert (A : 0 < Rabs h) by (apply Rabs_pos_lt; exact Hh). assert (E : hypot h 0 = Rabs h) by (unfold hypot; rewrite Rmult_0_l, Rplus_0_r; apply sqrt_Rsqr_abs).
    rewrite E, (hypot_pos 0), atan2_10 by lra. unfold atan2. destruct (Rlt_dec 0 (Rabs h)); [|lra]. unfold Rdiv at 1. rewrite Rmult_1_l, atan_inv by exact A. lra. }
  destruct (D (1 / 4) ltac:(lra)) as [del Hd]. destruct (derivable_pt_lim_atan 0 (1 / 4) ltac:(lra)) as [del2 Hd2].
  set (h := Rmin del del2 / 2). assert (P : 0 < Rmin del del2) by (apply Rmin_pos; apply cond_pos). assert (H0 : 0 < h) by (unfold h; lra).
  assert (H1 : Rabs h < del) by (rewrite Rabs_pos_eq by lra; pose proof (Rmin_l del del2); unfold h; lra). assert (H2 : Rabs h < del2) by (rewrite Rabs_pos_eq by lra; pose proof (Rmin_r del del2); unfold h; lra).
  pose proof (Hd h ltac:(lra) H1) as A1. pose proof (Hd (- h) ltac:(lra) ltac:(rewrite Rabs_Ropp; exact H1)) as A2. pose proof (Hd2 h ltac:(lra) H2) as A3.
  rewrite !Rplus_0_l in A1, A2, A3. rewrite L in A1, A2 by lra. rewrite Rabs_Ropp, (Rabs_pos_eq h) in A2 by lra. rewrite (Rabs_pos_eq h) in A1 by lra. rewrite atan_0 in A3.
  set (q := atan h / h). replace (- atan h / h - d) with (- q - d) in A1 by (unfold q; field; lra). replace (- atan h / - h - d) with (q - d) in A2 by (unfold q; field; lra). replace ((atan h - 0) / h - / (1 + 0 ^ 2)) with (q - 1) in A3 by (unfold q; field; lra).
  apply Rabs_def2 in A1, A2, A3. lra.
Qed.
Lemma limit_small : tiny_limit <= 1.
Proof. unfold tiny_limit. rewrite <- Rinv_1. apply Rinv_le_contravar; [lra|]. apply pow_R1_Rle. lra. Qed.
Lemma rates_ex : let p s := V3 1 s 0 in vderiv p 0 (V3 0 1 0) /\ tiny_limit <= vx (p 0) * vx (p 0) + vy (p 0) * vy (p 0).
Proof. intros p. split; [split; [|split]; cbn; [apply derivable_pt_lim_const|apply derivable_pt_lim_id|apply derivable_pt_lim_const]|]. cbn. pose proof limit_small. lra. Qed.
Lemma spin_ex : derivable_pt_lim (fun t => DAY_S * (1 / 1000) * t) 0 (DAY_S * (1 / 1000)).
Proof. eapply dlin; [apply (derivable_pt_lim_scal id (DAY_S * (1 / 1000)) 0 1), derivable_pt_lim_id|]. ring. Qed.
(** Nothing is divided by zero. *)
Lemma divisors_positive r : r <> vzero ->
  let s := plus_tiny (vx r * vx r + vy r * vy r) in 0 < s /\ 0 < (s + vz r * vz r) * sqrt s /\ 0 < vlength r.
Proof.
  intros H s. pose proof tiny_pos as [T L]. pose proof (Rle_0_sqr (vx r)) as A. pose proof (Rle_0_sqr (vy r)) as B. pose proof (Rle_0_sqr (vz r)) as C. unfold Rsqr in *.
  assert (P : 0 < s) by (unfold s, plus_tiny; destruct (Rlt_dec _ _); lra). split; [exact P|]. split; [apply Rmult_lt_0_compat; [lra|apply sqrt_lt_R0, P]|apply vlength_ne, H].
Qed.
