From Coq Require Import Reals Lra Lia ZArith List.
From Verif Require Import Real_Math Real_Math_Proofs Vector_Model Vector_Proofs Vector_Proofs2 Geo_Model Geo_Spec Geo_Proofs Geo_Proofs2 Geo_Proofs3 Pi_Bounds Kepler_Proofs4 Spin_Model Spin_Spec Spin_Proofs.
Import ListNotations.
Open Scope R_scope.

(** * Small rotations *)
Lemma length_le v b : 0 <= b -> vx v * vx v + vy v * vy v + vz v * vz v <= b * b -> vlength v <= b.
Proof. intros Hb H. rewrite <- (sqrt_square b Hb). apply sqrt_le_1_alt. exact H. Qed.
Lemma versine a : 0 <= 2 - 2 * cos a <= a * a.
Proof.
  pose proof (COS_bound a). split; [lra|]. replace a with (2 * (a / 2)) at 1 by field. rewrite cos_2a_sin.
  pose proof (sin_lip' (a / 2) 0) as L. rewrite sin_0, !Rminus_0_r in L. set (s := sin (a / 2)) in *. clearbody s.
  assert (s * s <= (a / 2) * (a / 2)).
  { replace (s * s) with (Rabs s * Rabs s) by (rewrite <- Rabs_mult; apply Rabs_right; nra).
    replace (a / 2 * (a / 2)) with (Rabs (a / 2) * Rabs (a / 2)) by (rewrite <- Rabs_mult; apply Rabs_right; nra).
    pose proof (Rabs_pos s). nra. }
  lra.
Qed.
Lemma small_turn (a l2 b2 : R) v w : vlength w * vlength w = l2 -> 0 <= b2 <= l2 ->
  vx v * vx v + vy v * vy v + vz v * vz v = (2 - 2 * cos a) * b2 -> vlength v <= Rabs a * vlength w.
Proof.
  intros E Hb H. apply length_le.
  - apply Rmult_le_pos; [apply Rabs_pos|apply vlength_pos].
  - rewrite H. pose proof (versine a) as V. replace (Rabs a * vlength w * (Rabs a * vlength w)) with ((Rabs a * Rabs a) * (vlength w * vlength w)) by ring.
    rewrite E. replace (Rabs a * Rabs a) with (a * a) by (rewrite <- Rabs_mult; symmetry; apply Rabs_right; nra). nra.
Qed.
Lemma turn_x a u : vlength (vsub (mxv (rot_x a) u) u) <= Rabs a * vlength u.
Proof.
  apply (small_turn a _ (vy u * vy u + vz u * vz u) _ u (vlength_sq u)); [nra|]. gsimp. pose proof (sc2 a) as H.
  set (c := cos a) in *. set (s := sin a) in *. clearbody c s. assert (E : s * s = 1 - c * c) by lra.
  transitivity ((c * c + s * s - 2 * c + 1) * (vy u * vy u + vz u * vz u)); [ring|rewrite E; ring].
Qed.
Lemma turn_y a u : vlength (vsub (mxv (rot_y a) u) u) <= Rabs a * vlength u.
Proof.
  apply (small_turn a _ (vx u * vx u + vz u * vz u) _ u (vlength_sq u)); [nra|]. gsimp. pose proof (sc2 a) as H.
  set (c := cos a) in *. set (s := sin a) in *. clearbody c s. assert (E : s * s = 1 - c * c) by lra.
  transitivity ((c * c + s * s - 2 * c + 1) * (vx u * vx u + vz u * vz u)); [ring|rewrite E; ring].
Qed.
Lemma turn_z a u : vlength (vsub (mxv (rot_z a) u) u) <= Rabs a * vlength u.
Proof.
  apply (small_turn a _ (vx u * vx u + vy u * vy u) _ u (vlength_sq u)); [nra|]. gsimp. pose proof (sc2 a) as H.
  set (c := cos a) in *. set (s := sin a) in *. clearbody c s. assert (E : s * s = 1 - c * c) by lra.
  transitivity ((c * c + s * s - 2 * c + 1) * (vx u * vx u + vy u * vy u)); [ring|rewrite E; ring].
Qed.
Lemma length_via a b c x y : vlength (vsub a b) <= x -> vlength (vsub b c) <= y -> vlength (vsub a c) <= x + y.
Proof. intros H K. replace (vsub a c) with (vadd (vsub a b) (vsub b c)) by (apply vec_ext; cbn; ring). eapply Rle_trans; [apply triangle|lra]. Qed.
Lemma length_sub_zero a b k : vlength (vsub a b) <= k -> k = 0 -> a = b.
Proof.
  intros H ->. pose proof (vlength_pos (vsub a b)). assert (L : vlength (vsub a b) = 0) by lra. apply vlength_zero in L. injection L as L1 L2 L3. apply vec_ext; lra.
Qed.
Lemma orth_sub M a b : orthogonal M -> vlength (vsub (mxv M a) (mxv M b)) = vlength (vsub a b).
Proof. intros H. rewrite <- (orth_length M (vsub a b) H). f_equal. vgring. Qed.

(** * The matrices *)
Lemma tr_rot a : transp (rot_x a) = rot_x (- a) /\ transp (rot_y a) = rot_y (- a) /\ transp (rot_z a) = rot_z (- a).
Proof. repeat split; apply mat_ext; apply vec_ext; gsimp; rewrite ?cos_neg, ?sin_neg; ring. Qed.
Lemma rotz_0 : rot_z 0 = identity.
Proof. unfold rot_z. rewrite cos_0, sin_0. apply mat_ext; apply vec_ext; cbn; ring. Qed.
Lemma mxmxm_eq A B C : mxmxm A B C = mxm A (mxm B C).
Proof. unfold mxmxm. rewrite mxm_assoc. reflexivity. Qed.
Lemma polar_eq t : let '(s, x, y) := polar_motion_angles t in polar_motion_matrix t = wobble (s * arcsecond) (x * arcsecond) (y * arcsecond).
Proof.
  unfold polar_motion_matrix. destruct (polar_motion_angles t) as [[s x] y]. rewrite mxmxm_eq. unfold wobble. do 3 f_equal. ring.
Qed.
Lemma wobble_rot s x y : rotation (wobble s x y).
Proof. unfold wobble. apply rotation_mxm; [apply rot_ok|apply rotation_mxm; apply rot_ok]. Qed.
Lemma wobble_0 : wobble 0 0 0 = identity.
Proof. unfold wobble. rewrite Ropp_0. apply mat_ext; apply vec_ext; gsimp; rewrite ?cos_0, ?sin_0; ring. Qed.
Lemma itrs_eq t : let '(s, x, y) := polar_motion_angles t in
  itrs_rotation_at t = mxm (wobble (s * arcsecond) (x * arcsecond) (y * arcsecond)) (tirs_rotation_at t).
Proof.
  pose proof (polar_eq t) as P. unfold itrs_rotation_at, tirs_rotation_at. cbv zeta. destruct (polar_motion_angles t) as [[s x] y] eqn:E.
  unfold polar_motion_angles in E. destruct (polar_motion_table t) as [tab|].
  - rewrite P. reflexivity.
  - injection E as <- <- <-. rewrite Rmult_0_l, wobble_0, mxm_id_l. reflexivity.
Qed.
Lemma itrs_no_table t : polar_motion_table t = None -> itrs_rotation_at t = tirs_rotation_at t.
Proof. intros E. unfold itrs_rotation_at. rewrite E. reflexivity. Qed.
(** The pole of rotation in Earth-fixed axes. *)
Lemma wobble_pole s x y : mxv (wobble s x y) (V3 0 0 1) = V3 (sin x) (- (sin y * cos x)) (cos y * cos x).
Proof. unfold wobble. apply vec_ext; gsimp; rewrite ?cos_neg, ?sin_neg; ring. Qed.
Lemma wobble_swing s x y u : vlength (vsub (mxv (transp (wobble s x y)) u) (mxv (rot_z s) u)) <= (Rabs x + Rabs y) * vlength u.
Proof.
  unfold wobble. rewrite !transp_mxm, (proj2 (proj2 (tr_rot (- s)))), Ropp_involutive, (proj1 (proj2 (tr_rot x))), (proj1 (tr_rot y)), !mxv_mxm.
  rewrite orth_sub by apply rot_ok. pose proof (turn_y (- x) (mxv (rot_x (- y)) u)) as Y. pose proof (turn_x (- y) u) as X.
  rewrite orth_length in Y by apply rot_ok. rewrite Rabs_Ropp in X, Y. replace ((Rabs x + Rabs y) * vlength u) with (Rabs x * vlength u + Rabs y * vlength u) by ring.
  eapply length_via; eassumption.
Qed.

(** * Right ascension of the zenith *)
Lemma rotz_up a lat lon : mxv (rot_z a) (up lat lon) = up lat (a + lon).
Proof. unfold up. apply vec_ext; gsimp; rewrite ?cos_plus, ?sin_plus; ring. Qed.
Lemma up_turn lat a b : same_mod tau a b -> up lat a = up lat b.
Proof. intros H. apply sm_cos in H as [C S]. unfold up. rewrite C, S. reflexivity. Qed.
Lemma up_length lat lon : vlength (up lat lon) = 1.
Proof.
  unfold vlength, up. cbn. replace (_ + _) with 1; [apply sqrt_1|]. pose proof (sc2 lat) as A. pose proof (sc2 lon) as B.
  transitivity (cos lat * cos lat * (sin lon * sin lon + cos lon * cos lon) + sin lat * sin lat); [rewrite B; lra|ring].
Qed.
Lemma lst_angle lon t : same_mod tau (hours_to_radians (lst_hours_at lon t))
  (gast t * tau / 24 + hours_to_radians lon + - (47.0e-6) * (tdb_of t - T0) / 36525 * arcsecond).
Proof.
  unfold lst_hours_at, hours_to_radians, tdb_of. cbv zeta. replace (whole t + tdb_fraction t - T0) with (whole t - T0 + tdb_fraction t) by ring.
  set (s := - (47.0e-6) * _ / _). destruct (rmod_shift (gast t + lon + s / 54000) 24) as [k ->]. exists k. unfold tau, arcsecond. field.
Qed.
Lemma zenith_ra lat lon t z : mxv (itrs_rotation_at t) z = up lat (hours_to_radians lon) ->
  let '(s, x, y) := polar_motion_angles t in
  vlength (vsub (mxv (M_of t) z) (up lat (hours_to_radians (lst_hours_at lon t)))) <=
    (Rabs x + Rabs y + Rabs (- (47.0e-6) * (tdb_of t - T0) / 36525 - s)) * arcsecond.
Proof.
  intros Hz. pose proof (itrs_eq t) as I. destruct (polar_motion_angles t) as [[s x] y]. rewrite I in Hz. clear I.
  set (sp := - (47.0e-6) * (tdb_of t - T0) / 36525). assert (A0 : 0 < arcsecond) by (unfold arcsecond; pose proof PI_RGT_0; lra).
  set (W := wobble (s * arcsecond) (x * arcsecond) (y * arcsecond)) in *. rewrite mxv_mxm in Hz.
  assert (T : mxv (tirs_rotation_at t) z = mxv (transp W) (up lat (hours_to_radians lon))).
  { rewrite <- Hz, <- mxv_mxm. unfold W. rewrite (proj2 (proj1 (wobble_rot (s * arcsecond) (x * arcsecond) (y * arcsecond)))), mxv_id. reflexivity. }
  unfold tirs_rotation_at in T. rewrite mxv_mxm in T. set (g := gast t * tau / 24). replace (- gast t * tau / 24) with (- g) in T by (unfold g; field).
  assert (V : mxv (M_of t) z = mxv (rot_z g) (mxv (transp W) (up lat (hours_to_radians lon)))).
  { rewrite <- T, <- mxv_mxm, rotz_add. replace (g + - g) with 0 by ring. rewrite rotz_0, mxv_id. reflexivity. }
  rewrite V. pose proof (wobble_swing (s * arcsecond) (x * arcsecond) (y * arcsecond) (up lat (hours_to_radians lon))) as S.
  rewrite up_length, !Rabs_mult, (Rabs_right arcsecond), Rmult_1_r in S by lra. rewrite rotz_up in S.
  rewrite <- (orth_sub (rot_z g)) in S by apply rot_ok. rewrite rotz_up in S. fold W in S.
  replace ((Rabs x + Rabs y + Rabs (sp - s)) * arcsecond) with (Rabs x * arcsecond + Rabs y * arcsecond + Rabs (sp - s) * arcsecond) by ring.
  eapply length_via; [exact S|].
  rewrite (up_turn lat _ _ (lst_angle lon t)). fold g sp.
  pose proof (turn_z ((sp - s) * arcsecond) (up lat (g + (s * arcsecond + hours_to_radians lon)))) as Z. rewrite up_length, rotz_up, Rmult_1_r, Rabs_mult, (Rabs_right arcsecond) in Z by lra.
  replace (g + hours_to_radians lon + sp * arcsecond) with ((sp - s) * arcsecond + (g + (s * arcsecond + hours_to_radians lon))) by ring.
  replace (vlength (vsub (up lat (g + (s * arcsecond + hours_to_radians lon))) _)) with (vlength (vsub (up lat ((sp - s) * arcsecond + (g + (s * arcsecond + hours_to_radians lon)))) (up lat (g + (s * arcsecond + hours_to_radians lon))))); [exact Z|].
  unfold vlength. f_equal. cbn. ring.
Qed.
(** With the pole at the origin, to the letter. *)
Lemma zenith_exact lat lon t z : - (PI / 2) < lat < PI / 2 -> mxv (itrs_rotation_at t) z = up lat (hours_to_radians lon) ->
  polar_motion_angles t = (- (47.0e-6) * (tdb_of t - T0) / 36525, 0, 0) ->
  has_right_ascension (mxv (M_of t) z) (lst_hours_at lon t).
Proof.
  intros Hl Hz Hp. pose proof (zenith_ra lat lon t z Hz) as Z. rewrite Hp in Z. rewrite Rabs_R0 in Z. rewrite Rminus_eq_0, Rabs_R0 in Z.
  apply length_sub_zero in Z; [|lra]. rewrite Z. apply up_ra. assumption.
Qed.

(** * Earth-fixed velocities *)
Lemma gast_turned t s : same_mod 24 (gast (turned t s)) (gast t + 24 * (100273781191135448 / 10 ^ 17) * s).
Proof.
  unfold gast, turned, gmst, sidereal_time, mean_obliquity_radians, tdb_of. cbv zeta. cbn [whole ut1_fraction tdb_fraction d_psi c_terms].
  destruct (era_ok (whole t) (ut1_fraction t + s)) as [k1 E1]. destruct (era_ok (whole t) (ut1_fraction t)) as [k2 E2].
  rewrite E1, E2. set (st := 0.014506 + _). set (eq := _ / tau * 24). clearbody st eq.
  match goal with |- same_mod _ (rmod ?a 24) _ => eapply sm_trans; [apply (sm_rmod a 24)|] end.
  eapply sm_trans; [apply sm_plus; [apply sm_rmod|apply sm_refl]|].
  eapply sm_trans; [|apply sm_plus; [apply sm_sym, sm_rmod|apply sm_refl]].
  eapply sm_trans; [|apply sm_plus; [apply sm_plus; [apply sm_sym, sm_rmod|apply sm_refl]|apply sm_refl]].
  exists (k1 - k2)%Z. rewrite minus_IZR. unfold era_iau. field.
Qed.
Lemma turned_angles t s : polar_motion_angles (turned t s) = polar_motion_angles t.
Proof. reflexivity. Qed.
Lemma turned_M t s : M_of (turned t s) = M_of t. Proof. reflexivity. Qed.
Opaque M_of gast.
Lemma tirs_turned t s : tirs_rotation_at (turned t s) = itrs_rotation (gast t * tau / 24 + spin_rate * s) (M_of t).
Proof.
  unfold tirs_rotation_at, itrs_rotation. rewrite turned_M. f_equal. apply sm_rot_z. destruct (gast_turned t s) as [k ->].
  exists (- k)%Z. rewrite opp_IZR. unfold spin_rate, tau. field.
Qed.
Lemma itrs_turned t s : let '(sp, x, y) := polar_motion_angles t in
  itrs_rotation_at (turned t s) = mxm (wobble (sp * arcsecond) (x * arcsecond) (y * arcsecond)) (itrs_rotation (gast t * tau / 24 + spin_rate * s) (M_of t)).
Proof.
  pose proof (itrs_eq (turned t s)) as I. rewrite turned_angles in I. destruct (polar_motion_angles t) as [[sp x] y]. rewrite I, tirs_turned. reflexivity.
Qed.
Lemma turned_0 t : turned t 0 = t.
Proof. destruct t. unfold turned. cbn. rewrite Rplus_0_r. reflexivity. Qed.
Lemma spin_rate_close : 12 / 10 ^ 8 <= spin_rate - ANGVEL * DAY_S <= 13 / 10 ^ 8.
Proof. unfold spin_rate, ANGVEL, DAY_S. pose proof pi_bounds. lra. Qed.
(** About the pole of rotation, and about the pole of the axes. *)
Definition zturn (r : vec) : vec := V3 (- vy r) (vx r) 0.
Lemma zturn_len r : vlength (zturn r) <= vlength r.
Proof. apply sqrt_le_1_alt. cbn. nra. Qed.
Lemma zturn_lin a b : zturn (vsub a b) = vsub (zturn a) (zturn b).
Proof. apply vec_ext; cbn; ring. Qed.
Lemma rotz_zturn s r : mxv (rot_z s) (zturn r) = zturn (mxv (rot_z s) r).
Proof. vgring. Qed.
Lemma pole_shift s x y r : let W := wobble s x y in
  vlength (vsub (mxv W (zturn (mxv (transp W) r))) (zturn r)) <= 2 * ((Rabs x + Rabs y) * vlength r).
Proof.
  intros W. assert (O : orthogonal W) by apply wobble_rot.
  rewrite <- (orth_sub (transp W)) by (apply orth_transp; assumption). rewrite <- mxv_mxm, (proj2 O), mxv_id.
  pose proof (wobble_swing s x y r) as A. pose proof (wobble_swing s x y (zturn r)) as B. fold W in A, B. rewrite rotz_zturn in B.
  assert (Z : vlength (vsub (zturn (mxv (transp W) r)) (zturn (mxv (rot_z s) r))) <= (Rabs x + Rabs y) * vlength r).
  { rewrite <- zturn_lin. eapply Rle_trans; [apply zturn_len|exact A]. }
  assert (B' : vlength (vsub (zturn (mxv (rot_z s) r)) (mxv (transp W) (zturn r))) <= (Rabs x + Rabs y) * vlength r).
  { replace (vlength _) with (vlength (vsub (mxv (transp W) (zturn r)) (zturn (mxv (rot_z s) r)))) by (unfold vlength; f_equal; cbn -[mxv zturn]; ring).
    eapply Rle_trans; [exact B|]. pose proof (zturn_len r). pose proof (Rabs_pos x). pose proof (Rabs_pos y). nra. }
  replace (2 * _) with ((Rabs x + Rabs y) * vlength r + (Rabs x + Rabs y) * vlength r) by ring.
  eapply length_via; eassumption.
Qed.
Lemma vderiv_ext f g t d : (forall s, f s = g s) -> vderiv f t d -> vderiv g t d.
Proof. intros E (A & B & C). split; [|split]; (eapply dext; [|eassumption]); intros s; cbn beta; rewrite E; reflexivity. Qed.
Lemma vderiv_eq f t d e : vderiv f t d -> d = e -> vderiv f t e. Proof. intros H <-. exact H. Qed.
Lemma angvel_zturn w v : mxv (itrs_angvel_matrix w) v = smul (- w) (zturn v).
Proof. vgring. Qed.
Lemma angvel_zturn_T w v : mxv (transp (itrs_angvel_matrix w)) v = smul w (zturn v).
Proof. vgring. Qed.
Lemma mxv_zero M : mxv M vzero = vzero. Proof. unfold vzero. vgring. Qed.
Lemma vadd_zero a : vadd vzero a = a. Proof. unfold vzero. vring. Qed.
Lemma mxv_smul M k v : mxv M (smul k v) = smul k (mxv M v). Proof. vgring. Qed.
(** Velocity error, in Earth-fixed axes. *)
Lemma rate_error s x y r : let W := wobble s x y in
  vlength (vsub (smul spin_rate (mxv W (zturn (mxv (transp W) r)))) (smul (ANGVEL * DAY_S) (zturn r))) <=
  (13 / 10 ^ 8 + 13 * (Rabs x + Rabs y)) * vlength r.
Proof.
  intros W. pose proof (pole_shift s x y r) as P. cbv zeta in P. fold W in P. pose proof spin_rate_close as S. pose proof (zturn_len r) as Z.
  assert (S7 : 0 <= spin_rate <= 65 / 10) by (unfold spin_rate; pose proof pi_bounds; lra).
  replace ((13 / 10 ^ 8 + 13 * (Rabs x + Rabs y)) * vlength r) with (13 * (Rabs x + Rabs y) * vlength r + 13 / 10 ^ 8 * vlength r) by ring.
  apply (length_via _ (smul spin_rate (zturn r))).
  - replace (vsub _ _) with (smul spin_rate (vsub (mxv W (zturn (mxv (transp W) r))) (zturn r))) by (apply vec_ext; cbn -[mxv zturn]; ring).
    rewrite smul_length, (Rabs_right spin_rate) by lra. pose proof (vlength_pos (vsub (mxv W (zturn (mxv (transp W) r))) (zturn r))).
    pose proof (Rabs_pos x). pose proof (Rabs_pos y). pose proof (vlength_pos r).
    apply Rle_trans with (65 / 10 * (2 * ((Rabs x + Rabs y) * vlength r))); [apply Rmult_le_compat; lra|lra].
  - replace (vsub _ _) with (smul (spin_rate - ANGVEL * DAY_S) (zturn r)) by (apply vec_ext; cbn -[zturn]; ring).
    rewrite smul_length, (Rabs_right (spin_rate - ANGVEL * DAY_S)) by lra. pose proof (vlength_pos (zturn r)). apply Rmult_le_compat; lra.
Qed.
Lemma site_rate r t : let '(_, x, y) := polar_motion_angles t in
  exists v' v, vderiv (fun s => fst (site_at r (turned t s))) 0 (mxv (transp (itrs_rotation_at t)) v') /\
    snd (site_at r t) = mxv (transp (itrs_rotation_at t)) v /\
    vlength (vsub v' v) <= (13 / 10 ^ 8 + 13 * (Rabs x + Rabs y) * arcsecond) * vlength r.
Proof.
  pose proof (itrs_turned t) as I. destruct (polar_motion_angles t) as [[sp x] y].
  set (W := wobble (sp * arcsecond) (x * arcsecond) (y * arcsecond)) in *. set (g := gast t * tau / 24) in *.
  exists (smul spin_rate (mxv W (zturn (mxv (transp W) r)))), (smul (ANGVEL * DAY_S) (zturn r)). split; [|split].
  - pose proof (spin_deriv W (M_of t) g spin_rate 0) as D. apply mderiv_transp in D.
    pose proof (mderiv_mxv _ 0 _ (fun _ => r) vzero D (vderiv_const r 0)) as X. cbn beta in X.
    eapply vderiv_eq; [eapply vderiv_ext; [|exact X]|].
    + intros s. cbn beta. unfold site_at. cbn [fst]. rewrite I. reflexivity.
    + pose proof (I 0) as I0. rewrite turned_0 in I0. rewrite I0. rewrite !transp_mxm. rewrite !mxv_mxm. rewrite angvel_zturn_T, !mxv_smul.
      assert (O : orthogonal W) by apply wobble_rot. rewrite <- (mxv_mxm (transp W)), (proj2 O), mxv_id.
      rewrite !mxv_zero, vadd_zero. reflexivity.
  - unfold site_at. cbn [snd]. do 2 f_equal. apply vec_ext; cbn; ring.
  - assert (A0 : 0 < arcsecond) by (unfold arcsecond; pose proof PI_RGT_0; lra).
    pose proof (rate_error (sp * arcsecond) (x * arcsecond) (y * arcsecond) r) as E. cbv zeta in E. fold W in E.
    rewrite !Rabs_mult, (Rabs_right arcsecond) in E by lra. eapply Rle_trans; [exact E|]. apply Req_le. ring.
Qed.
(** Coordinates in the Earth-fixed axes. *)
Lemma itrs_frame_rate t p v : vderiv p 0 v -> let '(_, x, y) := polar_motion_angles t in
  exists d, vderiv (fun s => fst (frame_xyz_and_velocity (itrs_rotation_at (turned t s)) (Some spin_matrix) (p s) v)) 0 d /\
    let '(q, u) := frame_xyz_and_velocity (itrs_rotation_at t) (Some spin_matrix) (p 0) v in
    vlength (vsub d u) <= (13 / 10 ^ 8 + 13 * (Rabs x + Rabs y) * arcsecond) * vlength q.
Proof.
  intros Hp. pose proof (itrs_turned t) as I. destruct (polar_motion_angles t) as [[sp x] y].
  set (W := wobble (sp * arcsecond) (x * arcsecond) (y * arcsecond)) in *. set (g := gast t * tau / 24) in *.
  pose proof (spin_deriv W (M_of t) g spin_rate 0) as D. pose proof (mderiv_mxv _ 0 _ p v D Hp) as X. cbn beta in X.
  eexists. split; [eapply vderiv_ext; [|exact X]|].
  - intros s. cbn [frame_xyz_and_velocity fst]. rewrite I. reflexivity.
  - cbn [frame_xyz_and_velocity]. pose proof (I 0) as I0. rewrite turned_0 in I0. rewrite I0.
    set (q := mxv (mxm W (itrs_rotation (g + spin_rate * 0) (M_of t))) (p 0)).
    assert (Q : mxv (itrs_rotation (g + spin_rate * 0) (M_of t)) (p 0) = mxv (transp W) q).
    { unfold q. rewrite (mxv_mxm W), <- (mxv_mxm (transp W) W). unfold W. rewrite (proj2 (proj1 (wobble_rot (sp * arcsecond) (x * arcsecond) (y * arcsecond)))), mxv_id. reflexivity. }
    rewrite !mxv_mxm, Q. unfold spin_matrix. rewrite !angvel_zturn, mxv_smul.
    assert (A0 : 0 < arcsecond) by (unfold arcsecond; pose proof PI_RGT_0; lra).
    pose proof (rate_error (sp * arcsecond) (x * arcsecond) (y * arcsecond) q) as E. cbv zeta in E. fold W in E.
    rewrite !Rabs_mult, (Rabs_right arcsecond) in E by lra.
    replace (vlength _) with (vlength (vsub (smul spin_rate (mxv W (zturn (mxv (transp W) q)))) (smul (ANGVEL * DAY_S) (zturn q)))).
    + eapply Rle_trans; [exact E|]. apply Req_le. ring.
    + unfold vlength. f_equal. cbn -[mxv zturn]. ring.
Qed.
