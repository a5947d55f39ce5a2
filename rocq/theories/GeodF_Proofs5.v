(** Places in floats: the longitude, and there and back. *)
From Coq Require Import ZArith Reals Lia Lra Psatz Bool.
From Flocq Require Import Core BinarySingleNaN.
From Verif Require Import Float64 Float64_Proofs Float_Time_Proofs Float_Time_Proofs4 Pi_Bounds CalF_Proofs2 SexaF_Proofs2 Real_Math Real_Math_Proofs Vector_Model Vector_Proofs2 Geo_Model Geo_Spec Geo_Proofs Geo_Proofs3 Wrap_Model Wrap_Spec Wrap_Proofs2 SepF_Model SepF_Spec SepF_Proofs SepF_Proofs2 SphF_Spec SphF_Proofs RotF_Proofs4 FrameF_Model FrameF_Spec FrameF_Proofs FrameF_Proofs2 GeodF_Model GeodF_Spec GeodF_Proofs GeodF_Proofs2 GeodF_Proofs3 GeodF_Proofs4.
Open Scope R_scope.

Lemma lon_folded f (X Y : bf) T t e : good_direction f -> is_finite X = true -> is_finite Y = true -> direction (B2R X) (B2R Y) T -> near T (/ 2 ^ 51) (f (B2SF Y) (B2SF X)) -> (exists n : Z, Rabs (T - t - 2 * PI * IZR n) <= e) ->
  same_longitude t (e + 23 * eps) (geographic_longitude64 (f (B2SF Y) (B2SF X))).
Proof.
  intros Gf FX FY D (b & E & Fb & Vb) (n & Hn). rewrite E. destruct D as (B & _ & _). pose proof PI_4 as P4. pose proof PI2_3_2 as P3. apply Rabs_le_inv in Vb as V'. assert (S51 : / 2 ^ 51 = 4 * eps) by (unfold eps; lra). assert (S49 : / 2 ^ 49 = 16 * eps) by (unfold eps; lra). pose proof eps_small as Es.
  assert (P314 : PI <= 3.15). { pose proof tau_near as TN. apply Rabs_le_inv in TN. pose proof tau_range. lra. }
  destruct (geographic_folded b) as (c & m & Ec & Fc & Rc & Vc). { split; [exact Fb|]. lra. }
  exists c. split; [exact Ec|]. split; [exact Fc|]. split; [unfold pi_float in *; lra|].
  exists (n - m)%Z. pose proof tau_near as TN. assert (Em : Rabs (IZR m) <= 1).
  { rewrite <- abs_IZR. apply IZR_le. apply Z.lt_succ_r. apply lt_IZR. rewrite abs_IZR. simpl. pose proof tau_range as TR. unfold pi_float in Rc. rewrite S49 in Vc. apply Rabs_le_inv in Vc. 
    assert (Q : Rabs (tau_float * IZR m) < tau_float * 2) by (apply Rabs_def1; lra). rewrite Rabs_mult, (Rabs_pos_eq tau_float) in Q by lra. apply Rmult_lt_reg_l in Q; lra. }
  rewrite minus_IZR. replace (B2R c - t - 2 * PI * (IZR n - IZR m)) with ((B2R c - (B2R b - tau_float * IZR m)) + ((B2R b - T) + ((T - t - 2 * PI * IZR n) + (2 * PI - tau_float) * IZR m))) by ring.
  assert (Q : Rabs ((2 * PI - tau_float) * IZR m) <= / 2 ^ 52 + eps). { rewrite Rabs_mult, Rabs_minus_sym. apply Rle_trans with ((/ 2 ^ 52 + eps) * 1); [|lra]. apply Rmult_le_compat; try apply Rabs_pos; [|exact Em]. pose proof pi_bounds. unfold tau_float, eps. apply Rabs_le. lra. }
  apply Rle_trans with (1 := Rabs_triang _ _). pose proof (Rabs_triang (B2R b - T) ((T - t - 2 * PI * IZR n) + (2 * PI - tau_float) * IZR m)). pose proof (Rabs_triang (T - t - 2 * PI * IZR n) ((2 * PI - tau_float) * IZR m)). unfold eps in *. lra.
Qed.

(** A vector of floats. *)
Lemma geographic_ok fatan fsin g a finv p w : good_direction fatan -> good_function fsin sin -> ellipsoid g a finv -> stands_for p w -> a <= 1.1 * vlength w -> vlength w <= 2 ^ 90 ->
  let '(lat, lon, height) := geographic64 fatan fsin g p in let '(ac, hyp, lat3) := compute_latitude a finv w in
  near lat3 (8 / 2 ^ 53) lat /\ near (height_from (vx w) (vy w) ac hyp) (11 / 2 ^ 53 * vlength w) height /\ exists theta, direction (vx w) (vy w) theta /\ same_longitude theta (23 / 2 ^ 53) lon.
Proof.
  intros Ga Gs G (x & y & z & -> & Fx & Fy & Fz & ->) Ar Big. set (w := V3 (B2R x) (B2R y) (B2R z)) in *. set (r := vlength w) in *. destruct (radius_facts g a finv G) as (ra & _ & _ & _ & Pa & Ba).
  assert (Sr : scale r). { split. - apply Rle_trans with (/ 2 ^ 91); [rewrite pow_bpow, <- bpow_opp; apply bpow_le; lia|]. replace (/ 2 ^ 91) with (/ 2 * / 2 ^ 90) by (simpl; field). lra. - apply Rle_trans with (1 := Big). rewrite pow_bpow. apply bpow_le. lia. }
  pose proof (comp_le w) as (Cx & Cy & Cz). fold r in Cx, Cy, Cz. cbn [vx vy vz w] in Cx, Cy, Cz.
  assert (Px : at_scale r (vx w) 1 0 (B2SF x)) by (apply exactly; [exact Fx|lra|lra|exact Sr]). assert (Py : at_scale r (vy w) 1 0 (B2SF y)) by (apply exactly; [exact Fy|lra|lra|exact Sr]). assert (Pz : at_scale r (vz w) 1 0 (B2SF z)) by (apply exactly; [exact Fz|lra|lra|exact Sr]).
  pose proof (latitude_ok fatan fsin g a finv (F3 (B2SF x) (B2SF y) (B2SF z)) w r 0 Ga Gs G ltac:(lra) Px Py Pz eq_refl Ar) as H. unfold geographic64. destruct (compute_latitude64 fatan fsin g (F3 (B2SF x) (B2SF y) (B2SF z))) as [[ac' hyp'] lat']. destruct (compute_latitude a finv w) as [[ac hyp] lat3]. destruct H as [H1 H2].
  split; [replace (8 / 2 ^ 53) with ((3.1 * 0 + 8) * eps) by (unfold eps; lra); exact H1|]. split; [replace (11 / 2 ^ 53 * r) with ((3.1 * 0 + 11) * eps * r) by (unfold eps; lra); exact H2|].
  cbn [fx fy w vx vy]. destruct (Ga y x Fy Fx) as (T & D & N). exists T. split; [exact D|]. replace (23 / 2 ^ 53) with (0 + 23 * eps) by (unfold eps; lra). apply (lon_folded fatan x y T T 0 Ga Fx Fy D N). exists 0%Z. replace (T - T - 2 * PI * 0) with 0 by ring. rewrite Rabs_R0. lra.
Qed.

(** There and back. *)
Lemma place_length a finv lat lon h : 0 < a -> 993 / 1000 <= omf2 finv <= 994 / 1000 -> - (a / 100) <= h -> let v := latlon a finv lat lon h in 993 / 1000 * a + h <= vlength v <= 1.005 * a + Rabs h.
Proof.
  intros Pa W Hh v. pose proof (sq_sum lat _ W) as Q. unfold v, latlon. set (q := cos lat * cos lat + sin lat * sin lat * omf2 finv) in *. assert (RQ1 : 996 / 1000 <= sqrt q <= 1). { pose proof (sqrt_pos q). assert (sqrt q * sqrt q = q) by (apply sqrt_sqrt; lra). split; nra. }
  assert (I : 1 <= 1 / sqrt q <= 1.005). { split; apply Rmult_le_reg_r with (sqrt q); try lra; unfold Rdiv; rewrite Rmult_assoc, Rinv_l by lra; lra. } set (c := 1 / sqrt q) in *. pose proof (Rabs_pos h) as Ph. pose proof (Rle_abs h) as Ah.
  set (m := 993 / 1000 * a + h). set (M := 1.005 * a + Rabs h). assert (X : m <= a * c + h <= M) by (unfold m, M; split; nra). assert (Z : m <= a * (omf2 finv * c) + h <= M). { assert (993 / 1000 <= omf2 finv * c <= 1) by (split; nra). unfold m, M. split; nra. }
  set (A := a * c + h) in *. set (B := a * (omf2 finv * c) + h) in *. assert (P : 0 < m) by (unfold m; lra). set (v' := V3 _ _ _).
  assert (L2 : vlength v' * vlength v' = A * A * (cos lat * cos lat) + B * B * (sin lat * sin lat)). { rewrite vlength_sq. cbn [v' vx vy vz]. replace (A * cos lat * cos lon * (A * cos lat * cos lon) + A * cos lat * sin lon * (A * cos lat * sin lon)) with (A * A * (cos lat * cos lat) * (sin lon * sin lon + cos lon * cos lon)) by ring. pose proof (Geo_Proofs.sc2 lon) as SC. rewrite SC. ring. }
  pose proof (Geo_Proofs.sc2 lat) as SC. pose proof (vlength_pos v') as Lp. assert (A2 : m * m <= A * A <= M * M) by (split; apply Rmult_le_compat; lra). assert (B2 : m * m <= B * B <= M * M) by (split; apply Rmult_le_compat; lra).
  assert (C2 : 0 <= cos lat * cos lat) by nra. assert (S2 : 0 <= sin lat * sin lat) by nra. assert (E2 : forall t, t = t * (cos lat * cos lat) + t * (sin lat * sin lat)) by (intros t; rewrite <- Rmult_plus_distr_l, (Rplus_comm (cos lat * cos lat)), SC; ring).
  split; apply Rsqr_incr_0; unfold Rsqr; try lra; rewrite L2.
  - rewrite (E2 (m * m)). apply Rplus_le_compat; apply Rmult_le_compat_r; lra.
  - rewrite (E2 (M * M)). apply Rplus_le_compat; apply Rmult_le_compat_r; lra.
Qed.
Lemma recover_fine a finv lat lon h : 0 < a -> 290 <= finv -> 993 / 1000 <= omf2 finv <= 994 / 1000 -> 64 / 10000 <= e2 finv <= 69 / 10000 -> - (PI / 2) <= lat <= PI / 2 -> - (a / 100) <= h ->
  let p := latlon a finv lat lon h in let '(ac, hyp, lat3) := compute_latitude a finv p in Rabs (lat3 - lat) <= 48 / 10 ^ 10 /\ Rabs (height_from (vx p) (vy p) ac hyp - h) <= 27 * eps * a.
Proof.
  intros Pa F W E Hl Hh p. pose proof (recover a finv Pa ltac:(lra) lat lon h Hl ltac:(nra)) as R. cbv zeta in R. change (Geo_Proofs3.B a finv) with (axis_rate a finv) in R. fold p in R. destruct (compute_latitude a finv p) as [[ac hyp] lat3]. destruct R as [R1 R2].
  set (k := axis_rate a finv / (a * omf2 finv + h)) in *. set (B := axis_rate a finv) in *. assert (HB : 0 <= B <= 0.007 * a). { unfold B, axis_rate. set (o := omf2 finv) in *. assert (O2 : 0.986 <= o * o) by nra. split; [apply Rmult_le_pos; [apply Rmult_le_pos; lra|apply Rlt_le, Rinv_0_lt_compat; lra]|]. apply Rmult_le_reg_r with (o * o); [lra|]. unfold Rdiv. rewrite Rmult_assoc, Rinv_l by lra. rewrite Rmult_1_r. nra. }
  assert (Hm : 0.983 * a <= a * omf2 finv + h) by nra. set (m := a * omf2 finv + h) in *.
  assert (Hk : 0 <= k <= 0.00713). { unfold k. split; [apply Rmult_le_pos; [lra|apply Rlt_le, Rinv_0_lt_compat; lra]|]. apply Rmult_le_reg_r with m; [lra|]. unfold Rdiv. rewrite Rmult_assoc, Rinv_l by lra. lra. }
  assert (P : 3 / 2 < PI / 2 <= 1.5708). { pose proof tau_near as TN. apply Rabs_le_inv in TN. unfold tau_float in TN. lra. }
  assert (K2 : 0 <= k * k <= 0.0000508369) by nra. assert (K3 : 0 <= k * k * k <= 0.00000036247) by nra. assert (K4 : 0 <= k * k * k * k <= 0.0000000025844) by nra. set (u := PI / 2 * (k * k * k)) in *.
  assert (Hu : 0 <= u <= 0.00000056937) by (unfold u; nra). assert (Hu2 : 0 <= u * u <= 0.00000000000032419) by nra. split.
  - apply Rle_trans with (1 := R1). nra.
  - apply Rle_trans with (1 := R2). apply Rle_trans with (0.007 * a * 1.00713 * 0.00000000000032419). + apply Rmult_le_compat; [apply Rmult_le_pos; lra|lra| |lra]. apply Rmult_le_compat; lra. + unfold eps. nra.
Qed.
Lemma back_ok fatan fsin fcos g a finv lat lon (h : bf) : good_direction fatan -> good_function fsin sin -> good_function fcos cos -> ellipsoid g a finv -> usual lat -> usual lon -> is_finite h = true ->
  - (PI / 2) <= val lat <= PI / 2 -> - (a / 100) <= B2R h <= 2 ^ 89 -> a <= 2 ^ 88 ->
  let '(lat', lon', height) := geographic64 fatan fsin g (latlon64 fsin fcos g lat lon (B2SF h)) in
  near (val lat) (5 / 10 ^ 9) lat' /\ near (B2R h) (114 / 2 ^ 53 * (a + Rabs (B2R h))) height /\ (/ 2 ^ 30 <= cos (val lat) -> same_longitude (val lon) ((43 / cos (val lat) + 23) / 2 ^ 53) lon').
Proof.
  intros Ga Gs Gc G Ua Uo Fh Hl Hh A88. destruct (radius_facts g a finv G) as (ra & _ & _ & _ & Pa & Ba). pose proof (omf2_range g a finv G) as WR. pose proof (e2_range g a finv G) as ER. pose proof (finv_range g a finv G) as FR. pose proof eps_small as Es.
  assert (P89 : 2 ^ 89 = 2 * 2 ^ 88) by (simpl; ring). assert (P90 : 2 ^ 90 = 4 * 2 ^ 88) by (simpl; ring). assert (P88 : 0 < 2 ^ 88) by (apply pow_lt; lra).
  assert (Bh : Rabs (B2R h) <= 2 ^ 90) by (apply Rabs_le; lra).
  pose proof (place_ok g a finv fsin fcos lat lon h G Gs Gc Ua Uo Fh Bh) as P. cbv zeta in P. pose proof (place_length a finv (val lat) (val lon) (B2R h) Pa WR (proj1 Hh)) as Len. cbv zeta in Len. pose proof (recover_fine a finv (val lat) (val lon) (B2R h) Pa (proj1 FR) WR ER Hl (proj1 Hh)) as Rec. cbv zeta in Rec.
  set (v := latlon a finv (val lat) (val lon) (B2R h)) in *. set (p := latlon64 fsin fcos g lat lon (B2SF h)) in *. set (r := vlength v) in *. set (s := a + Rabs (B2R h)) in *. destruct P as (Px & Py & Pz). pose proof (Rabs_pos (B2R h)) as Ph.
  assert (Sr : s <= 1.04 * r). { apply Rle_trans with (1.04 * (993 / 1000 * a + B2R h)); [|lra]. unfold s. destruct (Rle_dec 0 (B2R h)); [rewrite Rabs_pos_eq by lra; lra|rewrite Rabs_left by lra; lra]. }
  assert (Rs : r <= 1.01 * s) by (unfold s; lra). assert (Ps : 0 < s) by (unfold s; lra). assert (Hs : scale s) by apply Px.
  assert (Sc : scale r). { split. - apply Rle_trans with (/ 2 ^ 91); [rewrite pow_bpow, <- bpow_opp; apply bpow_le; lia|]. replace (/ 2 ^ 91) with (/ 2 * / 2 ^ 90) by (simpl; field). unfold s in Sr. lra. - apply Rle_trans with (2 ^ 91); [|rewrite pow_bpow; apply bpow_le; lia]. assert (P91 : 2 ^ 91 = 8 * 2 ^ 88) by (simpl; ring). assert (Rabs (B2R h) <= 2 ^ 89) by (apply Rabs_le; lra). lra. }
  pose proof (comp_le v) as (Cx & Cy & Cz). fold r in Cx, Cy, Cz.
  assert (Conv : forall x B k b, at_scale s x B k b -> k <= 23 -> Rabs x <= r -> at_scale r x 1 24 b). { intros x B k b ((q & -> & Fq & Vq) & _ & Kk & _) K23 Hx. apply known; [|lra|lra|lra|exact Sc]. exists q. split; [reflexivity|]. split; [exact Fq|]. apply Rle_trans with (1 := Vq). apply Rle_trans with (23 * eps * s); [apply Rmult_le_compat_r; [lra|apply Rmult_le_compat_r; lra]|]. apply Rle_trans with (23 * eps * (1.04 * r)); [apply Rmult_le_compat_l; lra|]. assert (0 <= eps * r) by (apply Rmult_le_pos; lra). lra. }
  assert (Ar : a <= 1.1 * r) by (unfold s in Sr; lra).
  pose proof (latitude_ok fatan fsin g a finv p v r 24 Ga Gs G ltac:(lra) (Conv _ _ _ _ Px ltac:(lra) Cx) (Conv _ _ _ _ Py ltac:(lra) Cy) (Conv _ _ _ _ Pz ltac:(lra) Cz) eq_refl Ar) as H.
  unfold geographic64. destruct (compute_latitude64 fatan fsin g p) as [[ac' hyp'] lat']. destruct (compute_latitude a finv v) as [[ac hyp] lat3]. destruct H as [H1 H2]. destruct Rec as [R1 R2].
  split; [|split].
  - apply (near_more lat3 ((3.1 * 24 + 8) * eps)); [exact H1|]. apply Rle_trans with (1 := R1). unfold eps. lra.
  - apply (near_more _ _ _ _ _ H2). apply Rle_trans with (1 := R2). assert (0 <= eps * a) by (apply Rmult_le_pos; lra). assert (eps * r <= eps * (1.01 * s)) by (apply Rmult_le_compat_l; lra). assert (eps * a <= eps * s) by (apply Rmult_le_compat_l; [lra|unfold s; lra]). replace (114 / 2 ^ 53) with (114 * eps) by (unfold eps; lra). lra.
  - intros Cl. destruct Px as ((X & EX & FX & VX) & _ & _). destruct Py as ((Y & EY & FY & VY) & _ & _). rewrite EX, EY. destruct (Ga Y X FY FX) as (T & D & N).
    replace ((43 / cos (val lat) + 23) / 2 ^ 53) with (43 / cos (val lat) * eps + 23 * eps) by (unfold eps; field; assert (0 < / 2 ^ 30) by (apply Rinv_0_lt_compat, pow_lt; lra); lra). apply (lon_folded fatan X Y T _ _ Ga FX FY D N).
    set (cl := cos (val lat)) in *. assert (Cpos : 0 < cl) by (assert (0 < / 2 ^ 30) by (apply Rinv_0_lt_compat, pow_lt; lra); lra).
    set (R := rho (vx v) (vy v)). pose proof (sq_sum (val lat) _ WR) as Q.
    set (q := cos (val lat) * cos (val lat) + sin (val lat) * sin (val lat) * omf2 finv) in *. assert (RQ1 : 996 / 1000 <= sqrt q <= 1). { pose proof (sqrt_pos q). assert (sqrt q * sqrt q = q) by (apply sqrt_sqrt; lra). split; nra. }
    assert (I : 1 <= 1 / sqrt q <= 1.005). { split; apply Rmult_le_reg_r with (sqrt q); try lra; unfold Rdiv; rewrite Rmult_assoc, Rinv_l by lra; lra. }
    set (A := a * (1 / sqrt q) + B2R h). assert (HA : s <= 1.04 * A). { unfold A, s. destruct (Rle_dec 0 (B2R h)); [rewrite Rabs_pos_eq by lra; nra|rewrite Rabs_left by lra; nra]. } assert (Ap : 0 < A) by lra.
    assert (Ex : vx v = A * cl * cos (val lon)) by reflexivity. assert (Ey : vy v = A * cl * sin (val lon)) by reflexivity. assert (AC : 0 < A * cl) by (apply Rmult_lt_0_compat; assumption).
    assert (ER2 : R = A * cl). { unfold R, rho. rewrite Ex, Ey. replace (A * cl * cos (val lon) * (A * cl * cos (val lon)) + A * cl * sin (val lon) * (A * cl * sin (val lon))) with (A * cl * (A * cl) * (sin (val lon) * sin (val lon) + cos (val lon) * cos (val lon))) by ring. pose proof (Geo_Proofs.sc2 (val lon)) as SC. rewrite SC, Rmult_1_r. apply sqrt_square. lra. }
    destruct (some_turns (T - val lon)) as (n & Hn). exists n. destruct D as (DB & DX & DY). fold (rho (B2R X) (B2R Y)) in DX, DY.
    assert (Mv : Rabs (B2R X - vx v) + Rabs (B2R Y - vy v) <= 42 * eps * / cl * rho (vx v) (vy v)). { fold R. rewrite ER2. replace (42 * eps * / cl * (A * cl)) with (42 * eps * A) by (field; lra). assert (eps * s <= eps * (1.04 * A)) by (apply Rmult_le_compat_l; lra). assert (0 <= eps * A) by (apply Rmult_le_pos; lra). lra. }
    assert (Ic : 0 < / cl <= 2 ^ 30). { split; [apply Rinv_0_lt_compat; lra|]. rewrite <- (Rinv_inv (2 ^ 30)). apply Rinv_le; [apply Rinv_0_lt_compat, pow_lt; lra|exact Cl]. }
    assert (He : 0 <= 42 * eps * / cl <= / 2000). { split; [apply Rmult_le_pos; lra|]. apply Rle_trans with (42 * eps * 2 ^ 30); [apply Rmult_le_compat_l; lra|unfold eps; lra]. }
    destruct (turn_moved (vx v) (vy v) (val lon) (B2R X) (B2R Y) T _ ltac:(fold R; lra) ltac:(fold R; rewrite ER2; exact Ex) ltac:(fold R; rewrite ER2; exact Ey) DX DY Mv He) as [Cp Sn].
    destruct (cos_turns (T - val lon) n) as [Tc Ts]. rewrite <- Tc in Cp, Sn. rewrite <- Ts in Sn. apply Rle_trans with (1 := small_turn _ _ Hn Cp Sn). unfold Rdiv. assert (0 <= eps * / cl) by (apply Rmult_le_pos; lra). lra.
Qed.

(** The two ellipsoids of the library. *)
Lemma au_bf : exists b : bf, Measure_Model.AU_M64 = B2SF b /\ is_finite b = true /\ B2R b = 149597870700.
Proof. destruct (of_Z_bf 149597870700 ltac:(unfold fits; lia)) as (b & E & F & V). exists b. split; [exact E|]. split; [exact F|exact V]. Qed.
Lemma radius_of (m : bf) R : is_finite m = true -> Rabs (B2R m - R) <= / 2 ^ 31 -> 6378000 <= R <= 6379000 ->
  exists r : bf, fdiv (B2SF m) Measure_Model.AU_M64 = B2SF r /\ is_finite r = true /\ Rabs (B2R r - R / 149597870700) <= 3 / 2 ^ 67 /\ / 2 ^ 90 <= B2R r <= 2 ^ 90.
Proof.
  intros F N HR. destruct au_bf as (u & -> & Fu & Vu). apply Rabs_le_inv in N. assert (M : 6377999 <= B2R m <= 6379001) by lra. assert (Q : 0.00004 <= B2R m / B2R u <= 0.00005) by (rewrite Vu; lra). pose proof big16 as Bg.
  destruct (fdiv_val m u F) as (r & -> & Fr & Vr); [rewrite Vu; lra|rewrite Rabs_pos_eq; lra|]. exists r. split; [reflexivity|]. split; [exact Fr|]. pose proof (SexaF_Proofs2.rnd_err (B2R m / B2R u)) as E. rewrite <- Vr in E. rewrite (Rabs_pos_eq (B2R m / B2R u)) in E by lra. pose proof eta_small as T. pose proof eps_small as Es.
  assert (eta <= / 2 ^ 100). { unfold eta. rewrite pow_bpow, <- bpow_opp. apply bpow_le. lia. } apply Rabs_le_inv in E. rewrite Vu in *.
  split.
  - apply Rabs_le. unfold eps in *. split; lra.
  - assert (eps * (B2R m / 149597870700) <= eps * 1) by (apply Rmult_le_compat_l; lra). split; [lra|]. apply Rle_trans with 1; [lra|apply pow_R1_Rle; lra].
Qed.
Lemma wgs84_ok : exists a finv, ellipsoid wgs84_64 a finv /\ Rabs (a - 6378137 / 149597870700) <= 3 / 2 ^ 67 /\ Rabs (finv - 298257223563 / 10 ^ 9) <= / 2 ^ 45.
Proof.
  destruct (of_Z_bf 6378137 ltac:(unfold fits; lia)) as (m & Em & Fm & Vm). destruct (radius_of m 6378137 Fm) as (r & Er & Fr & Vr & Br); [rewrite Vm; replace (6378137 - 6378137) with 0 by ring; rewrite Rabs_R0; apply Rlt_le, Rinv_0_lt_compat, pow_lt; lra|lra|].
  destruct (fl_bf 5246996566011272 (-44)) as (f & Ef & Ff & Vf); [unfold small; lia|]. unfold F2R in Vf; cbn [Fnum Fexp] in Vf. change (bpow radix2 (-44)) with (/ 17592186044416) in Vf. exists (B2R r), (B2R f). split; [|split; [exact Vr|rewrite Vf; apply Rabs_le; lra]].
  exists r, f. unfold wgs84_64. rewrite Em, Er, Ef. repeat (split; [reflexivity || assumption|]). rewrite Vf. lra.
Qed.
Lemma iers2010_ok : exists a finv, ellipsoid iers2010_64 a finv /\ Rabs (a - 63781366 / 1495978707000) <= 3 / 2 ^ 67 /\ Rabs (finv - 29825642 / 10 ^ 5) <= / 2 ^ 45.
Proof.
  destruct (fl_bf 6848472026605158 (-30)) as (m & Em & Fm & Vm); [unfold small; lia|]. unfold F2R in Vm; cbn [Fnum Fexp] in Vm. change (bpow radix2 (-30)) with (/ 1073741824) in Vm. destruct (radius_of m (63781366 / 10) Fm) as (r & Er & Fr & Vr & Br); [rewrite Vm; apply Rabs_le; lra|lra|].
  destruct (fl_bf 5246982429581477 (-44)) as (f & Ef & Ff & Vf); [unfold small; lia|]. unfold F2R in Vf; cbn [Fnum Fexp] in Vf. change (bpow radix2 (-44)) with (/ 17592186044416) in Vf. exists (B2R r), (B2R f). split; [|split; [replace (63781366 / 1495978707000) with (63781366 / 10 / 149597870700) by lra; exact Vr|rewrite Vf; apply Rabs_le; lra]].
  exists r, f. unfold iers2010_64. rewrite Em, Er, Ef. repeat (split; [reflexivity || assumption|]). rewrite Vf. lra.
Qed.
Lemma place_near fsin fcos g a finv lat lon (h : bf) : good_function fsin sin -> good_function fcos cos -> ellipsoid g a finv -> usual lat -> usual lon -> is_finite h = true -> Rabs (B2R h) <= 2 ^ 90 ->
  let v := latlon a finv (val lat) (val lon) (B2R h) in let p := latlon64 fsin fcos g lat lon (B2SF h) in let s := a + Rabs (B2R h) in
  near (vx v) (20 / 2 ^ 53 * s) (fx p) /\ near (vy v) (20 / 2 ^ 53 * s) (fy p) /\ near (vz v) (23 / 2 ^ 53 * s) (fz p).
Proof.
  intros Gs Gc G Ua Uo Fh Bh v p s. destruct (place_ok g a finv fsin fcos lat lon h G Gs Gc Ua Uo Fh Bh) as ((X & _) & (Y & _) & (Z & _)). fold v p s in X, Y, Z.
  replace (20 / 2 ^ 53) with (20 * eps) by (unfold eps; lra). replace (23 / 2 ^ 53) with (23 * eps) by (unfold eps; lra). split; [exact X|]. split; [exact Y|exact Z].
Qed.
Lemma radius_size a : Rabs (a - 6378137 / 149597870700) <= 3 / 2 ^ 67 -> 0.00004 <= a <= 0.00005.
Proof. intros H. apply Rabs_le_inv in H. lra. Qed.
Lemma somewhere : exists a finv lat lon (h : bf), ellipsoid wgs84_64 a finv /\ usual lat /\ usual lon /\ is_finite h = true /\ - (PI / 2) <= val lat <= PI / 2 /\ val lat = 1 /\ - (a / 100) <= B2R h <= 2 ^ 89 /\ a <= 2 ^ 88 /\ / 2 ^ 30 <= cos (val lat).
Proof.
  destruct wgs84_ok as (a & finv & G & Va & _). apply radius_size in Va. destruct (of_Z_bf 1 ltac:(unfold fits; lia)) as (o & Eo & Fo & Vo). destruct (of_Z_bf 0 ltac:(unfold fits; lia)) as (z & Ez & Fz & Vz).
  assert (V1 : val (of_Z 1) = 1) by (unfold val; rewrite Eo, SF2R_B2SF; exact Vo). exists a, finv, (of_Z 1), (of_Z 1), z. split; [exact G|]. split; [apply usual_Z; lia|]. split; [apply usual_Z; lia|]. split; [exact Fz|]. rewrite V1. pose proof PI2_3_2. split; [lra|]. split; [reflexivity|]. rewrite Vz.
  pose proof (pow_lt 2 89 ltac:(lra)). split; [lra|]. split; [apply Rle_trans with 1; [lra|apply pow_R1_Rle; lra]|].
  assert (C : cos (PI / 3) <= cos 1). { apply cos_decr_1; lra. } rewrite cos_PI3 in C. apply Rle_trans with (1 / 2); [|exact C]. lra.
Qed.
Lemma some_vector : exists a finv p w, ellipsoid wgs84_64 a finv /\ stands_for p w /\ a <= 1.1 * vlength w /\ vlength w <= 2 ^ 90.
Proof.
  destruct wgs84_ok as (a & finv & G & Va & _). apply radius_size in Va. destruct (of_Z_bf 1 ltac:(unfold fits; lia)) as (o & Eo & Fo & Vo). exists a, finv, (F3 (B2SF o) (B2SF o) (B2SF o)), (V3 (B2R o) (B2R o) (B2R o)). split; [exact G|]. split; [exists o, o, o; repeat split; assumption|]. rewrite Vo.
  assert (L : vlength (V3 1 1 1) * vlength (V3 1 1 1) = 3) by (rewrite vlength_sq; cbn [vx vy vz]; ring). pose proof (vlength_pos (V3 1 1 1)) as P. split; [nra|]. apply Rle_trans with (2 ^ 2); [nra|]. apply Rle_pow; [lra|lia].
Qed.
