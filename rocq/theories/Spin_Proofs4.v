From Coquelicot Require Import Coquelicot.
From Coq Require Import Reals Lra Lia ZArith List Sorted.
From Verif Require Import Real_Math Real_Math_Proofs Vector_Model Vector_Proofs Vector_Proofs2 Geo_Model Geo_Spec Geo_Proofs Geo_Proofs2 Geo_Proofs3 Pi_Bounds Planet_Proofs Spin_Model Spin_Spec Spin_Proofs Spin_Proofs2 Spin_Proofs3.
Import ListNotations.
Open Scope R_scope.

Definition j2000 (table : option (list (R * R * R))) : moment := Moment T0 0 0 0 0 0 0 table.
Lemma gast_reaches t x : 0 <= x < 24 -> exists s, gast (turned t s) = x.
Proof.
  intros Hx. exists ((x - gast t) / (24 * (100273781191135448 / 10 ^ 17))). apply (sm_unique 24); [lra|apply gast_range|assumption|].
  eapply sm_trans; [apply gast_turned|]. apply sm_eq. field.
Qed.
Lemma rotz_injective a u v : mxv (rot_z a) u = mxv (rot_z a) v -> u = v.
Proof.
  intros E. apply (f_equal (mxv (rot_z (- a)))) in E. rewrite <- !mxv_mxm, rotz_add in E. replace (- a + a) with 0 in E by ring. rewrite rotz_0, !mxv_id in E. exact E.
Qed.
Lemma wrapped_second : exists t r, second_spin t (turned t one_second) < -6 /\
  ~ vderiv (fun s => fst (ITRF_to_GCRS2 (turned t s) r vzero (Some (turned t one_second)))) 0 (snd (ITRF_to_GCRS2 t r vzero (Some (turned t one_second)))).
Proof.
  destruct (gast_reaches (j2000 None) (24 - one_second)) as [s Hs]. { unfold one_second. lra. }
  set (t := turned (j2000 None) s) in *. exists t, (V3 1 0 0).
  assert (S : second_spin t (turned t one_second) = spin_rate / DAY_S - tau).
  { rewrite second_spin_turned. destruct (Rlt_dec _ _) as [L|_]; [|reflexivity]. exfalso. rewrite Hs in L. unfold one_second in L. lra. }
  assert (N : second_spin t (turned t one_second) < -6) by (rewrite S; unfold spin_rate, DAY_S, tau; pose proof pi_bounds; lra).
  split; [exact N|]. intros H.
  pose proof (spin_deriv identity (M_of t) (gast t * tau / 24) spin_rate 0) as D. apply mderiv_transp in D.
  pose proof (mderiv_mxv _ 0 _ (fun _ => V3 1 0 0) vzero D (vderiv_const (V3 1 0 0) 0)) as X. cbn beta in X.
  assert (X' : vderiv (fun s => fst (ITRF_to_GCRS2 (turned t s) (V3 1 0 0) vzero (Some (turned t one_second)))) 0
    (vadd (mxv (transp (mxm identity (itrs_rotation (gast t * tau / 24 + spin_rate * 0) (M_of t)))) vzero) (mxv (transp (mxm identity (mxm (itrs_angvel_matrix spin_rate) (itrs_rotation (gast t * tau / 24 + spin_rate * 0) (M_of t))))) (V3 1 0 0)))).
  { eapply vderiv_ext; [|exact X]. intros x. cbn beta. rewrite to_GCRS_position, mxm_id_l. reflexivity. }
  pose proof (vderiv_unique _ _ _ _ H X') as E. clear X X' H D. rewrite !mxm_id_l, mxv_zero, vadd_zero in E. unfold ITRF_to_GCRS2 in E. cbn [snd] in E.
  set (w := second_spin t (turned t one_second)) in *. clearbody w.
  rewrite transp_mxm in E. unfold itrs_rotation in E. rewrite transp_mxm, (proj2 (proj2 (tr_rot _))) in E. replace (- - (gast t * tau / 24 + spin_rate * 0)) with (gast t / 24 * tau) in E by field.
  rewrite !mxv_mxm in E. apply MT_injective in E. apply rotz_injective in E. apply (f_equal vy) in E. cbn in E. unfold dot in E. cbn in E.
  unfold spin_rate, DAY_S, vzero in E. cbn in E. pose proof pi_bounds. lra.
Qed.
(** A station at the pole of the axes, when the pole of rotation is elsewhere. *)
Lemma displaced_pole : exists t r d, polar_motion_table t <> None /\ vderiv (fun s => fst (site_at r (turned t s))) 0 d /\
  d <> vzero /\ snd (site_at r t) = vzero.
Proof.
  set (t := j2000 (Some [(T0, 3 / 10, 0)])). exists t, (V3 0 0 1).
  pose proof (itrs_turned t) as I. destruct (polar_motion_angles t) as [[sp x] y] eqn:A.
  assert (Ax : x = 3 / 10 /\ y = 0).
  { unfold polar_motion_angles, t in A. cbn [polar_motion_table j2000] in A. unfold tt_of in A. cbn [whole tt_fraction map interp] in A. destruct (Rle_dec _ _) as [_|C]; [injection A as _ <- <-; split; reflexivity|exfalso; apply C; cbn; lra]. }
  destruct Ax as [-> ->]. set (W := wobble (sp * arcsecond) (3 / 10 * arcsecond) (0 * arcsecond)) in *. set (g := gast t * tau / 24) in *.
  pose proof (spin_deriv W (M_of t) g spin_rate 0) as D. apply mderiv_transp in D.
  pose proof (mderiv_mxv _ 0 _ (fun _ => V3 0 0 1) vzero D (vderiv_const (V3 0 0 1) 0)) as X. cbn beta in X.
  eexists. split; [discriminate|]. split; [eapply vderiv_ext; [|exact X]|split].
  - intros s. cbn beta. unfold site_at. cbn [fst]. rewrite I. reflexivity.
  - intros E. rewrite mxv_zero, vadd_zero in E. rewrite !transp_mxm, !mxv_mxm, angvel_zturn_T, mxv_smul in E. unfold itrs_rotation in E. rewrite transp_mxm, (proj2 (proj2 (tr_rot _))), mxv_mxm in E.
    rewrite <- !mxv_smul in E. rewrite <- (mxv_zero (transp (M_of t))) in E. apply MT_injective in E. rewrite <- (mxv_zero (rot_z (- - (g + spin_rate * 0)))) in E. apply rotz_injective in E.
    set (u := mxv (transp W) (V3 0 0 1)) in *.
    assert (U : u = V3 (- sin (3 / 10 * arcsecond) * cos (sp * arcsecond)) (- sin (3 / 10 * arcsecond) * sin (sp * arcsecond)) (cos (3 / 10 * arcsecond))).
    { unfold u, W, wobble. rewrite !transp_mxm, (proj2 (proj2 (tr_rot _))), (proj1 (proj2 (tr_rot _))), (proj1 (tr_rot _)), !mxv_mxm. rewrite !Rmult_0_l, Ropp_0.
      apply vec_ext; gsimp; rewrite ?cos_neg, ?sin_neg, ?cos_0, ?sin_0, ?Ropp_involutive; ring. }
    rewrite U in E. unfold vzero in E. injection E as E1 E2. pose proof pi_bounds as P. assert (S : 0 < spin_rate) by (unfold spin_rate; lra).
    assert (Sx : 0 < sin (3 / 10 * arcsecond)) by (apply sin_gt_0; unfold arcsecond; lra).
    pose proof (sc2 (sp * arcsecond)) as C2. set (c := cos (sp * arcsecond)) in *. set (n := sin (sp * arcsecond)) in *. set (q := sin (3 / 10 * arcsecond)) in *. clearbody c n q.
    assert (K : spin_rate * q <> 0) by nra. assert (c = 0) by (apply (Rmult_eq_reg_l (spin_rate * q)); [lra|assumption]). assert (n = 0) by (apply (Rmult_eq_reg_l (spin_rate * q)); [lra|assumption]). nra.
  - unfold site_at. cbn [snd]. replace (smul _ _) with vzero by (unfold vzero; apply vec_ext; cbn; ring). apply mxv_zero.
Qed.

(** * Interpolation of the pole *)
Lemma interp_from_hold x : forall rest x0 y0, (forall a y, In (a, y) rest -> a <= x) -> interp_from x x0 y0 rest = last (map snd rest) y0.
Proof.
  induction rest as [|[x1 y1] rest IH]; intros x0 y0 H; [reflexivity|]. cbn [interp_from]. destruct (Rlt_dec x x1) as [L|L].
  - exfalso. pose proof (H x1 y1 (or_introl eq_refl)). lra.
  - rewrite IH by (intros a y K; apply (H a y); right; assumption). cbn [map snd]. destruct rest; [reflexivity|]. cbn [map last]. 
    clear. revert p. induction rest as [|q rest IH]; intros p; [reflexivity|]. cbn. apply IH.
Qed.
Definition inc (l : list (R * R)) : Prop := StronglySorted Rlt (map fst l).
Lemma inc_app l1 a y l2 : inc (l1 ++ (a, y) :: l2) -> (forall b z, In (b, z) l1 -> b < a) /\ inc ((a, y) :: l2).
Proof.
  unfold inc. induction l1 as [|[b z] l1 IH]; cbn [app map fst]; intros H; [split; [intros b z []|exact H]|].
  apply StronglySorted_inv in H as [H F]. destruct (IH H) as [I J]. split; [|exact J]. intros c w [E|K]; [|eapply I; eassumption].
  injection E as <- <-. rewrite Forall_forall in F. apply F. rewrite map_app. apply in_or_app. right. left. reflexivity.
Qed.
Lemma interp_from_at b yb l : inc ((b, yb) :: l) -> interp_from b b yb l = yb.
Proof.
  intros H. destruct l as [|[c yc] l]; [reflexivity|]. unfold inc in H. cbn in H. apply StronglySorted_inv in H as [_ H]. apply Forall_inv in H.
  cbn. destruct (Rlt_dec b c); [|lra]. replace (b - b) with 0 by ring. ring.
Qed.
Lemma interp_from_between x a ya b yb l2 : inc ((a, ya) :: (b, yb) :: l2) -> a <= x <= b -> interp_from x a ya ((b, yb) :: l2) = line a ya b yb x.
Proof.
  intros H Hx. pose proof (inc_app [(a, ya)] b yb l2 H) as [I J]. pose proof (I a ya (or_introl eq_refl)) as L. cbn [interp_from]. unfold line. destruct (Rlt_dec x b) as [K|K].
  - field. lra.
  - replace x with b by lra. rewrite (interp_from_at b yb l2 J). field. lra.
Qed.
Lemma interp_from_skip x a ya l2 : forall l1 x0 y0, (forall b z, In (b, z) l1 -> b < a) -> a <= x -> interp_from x x0 y0 (l1 ++ (a, ya) :: l2) = interp_from x a ya l2.
Proof.
  induction l1 as [|[b z] l1 IH]; intros x0 y0 H Hx; cbn [app interp_from].
  - destruct (Rlt_dec x a); [lra|reflexivity].
  - pose proof (H b z (or_introl eq_refl)). destruct (Rlt_dec x b); [lra|]. apply IH; [|assumption]. intros c w K. apply (H c w). right. exact K.
Qed.
Lemma interp_between x l1 a ya b yb l2 : inc (l1 ++ (a, ya) :: (b, yb) :: l2) -> a <= x <= b ->
  interp x (l1 ++ (a, ya) :: (b, yb) :: l2) = line a ya b yb x.
Proof.
  intros H Hx. destruct (inc_app l1 a ya _ H) as [I J]. destruct l1 as [|[c w] l1]; cbn [app interp].
  - destruct (Rle_dec x a) as [K|K]; [|apply interp_from_between; assumption]. replace x with a by lra. unfold line.
    pose proof (inc_app [(a, ya)] b yb l2 J) as [I' _]. pose proof (I' a ya (or_introl eq_refl)). field. lra.
  - pose proof (I c w (or_introl eq_refl)). destruct (Rle_dec x c) as [K|K]; [lra|].
    rewrite interp_from_skip; [apply interp_from_between; assumption|intros d v K'; apply (I d v); right; exact K'|lra].
Qed.
Lemma interp_before x a y l : x <= a -> interp x ((a, y) :: l) = y.
Proof. intros H. cbn. destruct (Rle_dec x a); [reflexivity|lra]. Qed.
Lemma interp_after x l a y : inc (l ++ [(a, y)]) -> a <= x -> interp x (l ++ [(a, y)]) = y.
Proof.
  intros H Hx. destruct (inc_app l a y [] H) as [I _]. destruct l as [|[c w] l]; cbn [app interp].
  - destruct (Rle_dec x a); reflexivity.
  - pose proof (I c w (or_introl eq_refl)). destruct (Rle_dec x c); [lra|]. rewrite interp_from_skip; [reflexivity| |exact Hx]. intros d v K'. apply (I d v). right. exact K'.
Qed.
Definition row_x (row : R * R * R) : R * R := let '(jd, x, _) := row in (jd, x).
Definition row_y (row : R * R * R) : R * R := let '(jd, _, y) := row in (jd, y).
Lemma inc_rows l : increasing l -> inc (map row_x l) /\ inc (map row_y l).
Proof.
  unfold increasing, inc. rewrite !map_map. intros H. split; [replace (map _ _) with (map (fun row : R * R * R => fst (fst row)) l)|replace (map _ _) with (map (fun row : R * R * R => fst (fst row)) l)]; try exact H;
  apply map_ext; intros [[a b] c]; reflexivity.
Qed.
Lemma angles_some t l : polar_motion_table t = Some l ->
  polar_motion_angles t = (- (47.0e-6) * (tdb_of t - T0) / 36525, interp (tt_of t) (map row_x l), interp (tt_of t) (map row_y l)).
Proof. intros E. unfold polar_motion_angles. rewrite E. reflexivity. Qed.
Lemma pole_between t l1 a xa ya b xb yb l2 : polar_motion_table t = Some (l1 ++ (a, xa, ya) :: (b, xb, yb) :: l2) ->
  increasing (l1 ++ (a, xa, ya) :: (b, xb, yb) :: l2) -> a <= tt_of t <= b ->
  polar_motion_angles t = (- (47.0e-6) * (tdb_of t - T0) / 36525, line a xa b xb (tt_of t), line a ya b yb (tt_of t)).
Proof.
  intros E H Ht. rewrite (angles_some _ _ E). apply inc_rows in H as [Hx Hy]. rewrite !map_app in *. cbn [map row_x row_y] in *. f_equal; [f_equal|]; apply interp_between; assumption.
Qed.
Lemma pole_before t a xa ya l : polar_motion_table t = Some ((a, xa, ya) :: l) -> tt_of t <= a ->
  polar_motion_angles t = (- (47.0e-6) * (tdb_of t - T0) / 36525, xa, ya).
Proof. intros E Ht. rewrite (angles_some _ _ E). cbn [map row_x row_y]. rewrite !interp_before by assumption. reflexivity. Qed.
Lemma pole_after t l a xa ya : polar_motion_table t = Some (l ++ [(a, xa, ya)]) -> increasing (l ++ [(a, xa, ya)]) -> a <= tt_of t ->
  polar_motion_angles t = (- (47.0e-6) * (tdb_of t - T0) / 36525, xa, ya).
Proof.
  intros E H Ht. rewrite (angles_some _ _ E). apply inc_rows in H as [Hx Hy]. rewrite !map_app in *. cbn [map row_x row_y] in *. rewrite !interp_after by assumption. reflexivity.
Qed.

(** * The old conversions *)
Lemma omf_eq : one_minus_flattening * one_minus_flattening = omf2 IERS_2010_INVERSE_EARTH_FLATTENING.
Proof. unfold one_minus_flattening, omf2. cbv zeta. unfold IERS_2010_INVERSE_EARTH_FLATTENING. replace 298.25642 with (29825642 / 100000) by lra. field. Qed.
Lemma terra_position lat lon h g : fst (terra lat lon h g) = latlon earth_radius_au IERS_2010_INVERSE_EARTH_FLATTENING lat (lon + hours_to_radians g) h.
Proof.
  unfold terra, latlon. cbv zeta. cbn [fst]. rewrite omf_eq. replace (15 * degree * g + lon) with (lon + hours_to_radians g) by (unfold degree, hours_to_radians; field).
  apply vec_ext; cbn [vx vy vz]; ring.
Qed.
Lemma latlon_turn a finv lat lon h g : latlon a finv lat (lon + g) h = mxv (rot_z g) (latlon a finv lat lon h).
Proof. unfold latlon. cbv zeta. rewrite cos_plus, sin_plus. set (c := 1 / sqrt _). clearbody c. apply vec_ext; gsimp; ring. Qed.
Lemma terra_site lat lon h t : polar_motion_table t = None ->
  let p := latlon earth_radius_au IERS_2010_INVERSE_EARTH_FLATTENING lat lon h in
  let '(r, v) := terra lat lon h (gast t) in site_at p t = (mxv (transp (M_of t)) r, mxv (transp (M_of t)) v).
Proof.
  intros Hn p. destruct (terra lat lon h (gast t)) as [r v] eqn:E.
  assert (Er : r = mxv (rot_z (hours_to_radians (gast t))) p) by (unfold p; rewrite <- latlon_turn, <- terra_position, E; reflexivity).
  assert (Ev : v = smul (ANGVEL * DAY_S) (zturn r)) by (unfold terra in E; cbv zeta in E; injection E as <- <-; reflexivity).
  unfold site_at. rewrite (itrs_no_table t Hn). unfold tirs_rotation_at. rewrite transp_mxm, (proj2 (proj2 (tr_rot _))). replace (- (- gast t * tau / 24)) with (hours_to_radians (gast t)) by (unfold hours_to_radians, tau; field).
  rewrite !mxv_mxm, Ev, Er. f_equal. rewrite !mxv_smul. do 2 f_equal. rewrite <- rotz_zturn. f_equal. unfold zturn. rewrite Rmult_0_l. reflexivity.
Qed.
Lemma cos_atan2 y x : 0 < x -> x / cos (atan2 y x) = sqrt (y * y + x * x).
Proof.
  intros Hx. unfold atan2. destruct (Rlt_dec 0 x); [|lra]. rewrite cos_atan. unfold Rsqr. replace (1 + y / x * (y / x)) with ((y * y + x * x) / (x * x)) by (field; lra).
  rewrite sqrt_div by nra. rewrite sqrt_square by lra. assert (0 < sqrt (y * y + x * x)) by (apply sqrt_lt_R0; nra). field. lra.
Qed.
Lemma reverse_terra_eq p g : 0 < vx p * vx p + vy p * vy p ->
  let '(ac, hyp, lat3) := compute_latitude earth_radius_au IERS_2010_INVERSE_EARTH_FLATTENING p in
  reverse_terra p g 3 = (lat3, rmod (atan2 (vy p) (vx p) - 15 * degree * g - PI) tau - PI, height_from (vx p) (vy p) ac hyp * AU_M).
Proof.
  intros Hp. unfold compute_latitude, reverse_terra, latitude_round, terra_rounds, e2. cbv zeta.
  set (R0 := sqrt (vx p * vx p + vy p * vy p)). assert (HR : 0 < R0) by (apply sqrt_lt_R0; assumption).
  fold earth_radius_au. set (a := earth_radius_au). set (f := 1 / IERS_2010_INVERSE_EARTH_FLATTENING). set (e := 2 * f - f * f).
  assert (S : forall l, vz p + a * (1 / sqrt (1 - e * (sin l * sin l))) * e * sin l = vz p + a / sqrt (1 - e * sin l * sin l) * (e * sin l)).
  { intros l. replace (e * (sin l * sin l)) with (e * sin l * sin l) by ring. unfold Rdiv. ring. }
  rewrite !S. set (l0 := atan2 (vz p) R0). set (l1 := atan2 (vz p + a / sqrt (1 - e * sin l0 * sin l0) * (e * sin l0)) R0). set (l2 := atan2 (vz p + a / sqrt (1 - e * sin l1 * sin l1) * (e * sin l1)) R0).
  f_equal. unfold height_from. fold R0. rewrite cos_atan2 by assumption. do 2 f_equal. replace (e * (sin l2 * sin l2)) with (e * sin l2 * sin l2) by ring. unfold Rdiv. ring.
Qed.
Lemma old_axis finv a h : 29825 / 100 <= finv -> 0 < a -> - (a / 600) <= h -> 0 < axis_rate a finv <= a * (679 / 10 ^ 5) /\ 0 < axis_rate a finv / (a * omf2 finv + h) <= 685 / 10 ^ 5.
Proof.
  intros Hf Ha Hh. assert (N : 0 < 1 / finv <= 100 / 29825).
  { split; [apply Rdiv_lt_0_compat; lra|]. apply Rmult_le_reg_r with finv; [lra|]. replace (1 / finv * finv) with 1 by (field; lra). lra. }
  assert (E : 0 < e2 finv <= 66946 / 10 ^ 7). { unfold e2. cbv zeta. set (f := 1 / finv) in *. clearbody f. split; nra. }
  pose proof (e_omf2 finv ltac:(lra)) as M. unfold axis_rate. set (m := omf2 finv) in *. set (e := e2 finv) in *. clearbody m e.
  assert (Hm : 993300 / 10 ^ 6 <= m < 1) by lra.
  assert (B : 0 < e / (m * m) <= 679 / 10 ^ 5). { split; [apply Rdiv_lt_0_compat; nra|]. apply Rmult_le_reg_r with (m * m); [nra|]. replace (e / (m * m) * (m * m)) with e by (field; nra). nra. }
  replace (a * e / (m * m)) with (a * (e / (m * m))) by (field; nra). set (b := e / (m * m)) in *. clearbody b. split; [split; nra|].
  assert (D : a * (991633 / 10 ^ 6) <= a * m + h) by nra. split; [apply Rdiv_lt_0_compat; nra|]. apply Rmult_le_reg_r with (a * m + h); [nra|].
  replace (a * b / (a * m + h) * (a * m + h)) with (a * b) by (field; nra). nra.
Qed.
Lemma reverse_terra_back lat lon h g : - (PI / 2) < lat < PI / 2 -> - PI <= lon < PI -> - 10000 <= h ->
  let '(lat', lon', h') := reverse_terra (fst (terra lat lon (h / AU_M) g)) g 3 in
  Rabs (lat' - lat) <= 5 / 10 ^ 9 /\ lon' = lon /\ Rabs (h' - h) <= 2 / 10 ^ 8.
Proof.
  intros Hl Hlon Hh. rewrite terra_position. set (a := earth_radius_au). set (finv := IERS_2010_INVERSE_EARTH_FLATTENING). set (L := lon + hours_to_radians g). set (H := h / AU_M). set (p := latlon a finv lat L H).
  assert (Au : 0 < AU_M) by (unfold AU_M; lra). assert (aA : a * AU_M = 6378136.6) by (unfold a, earth_radius_au, ERAD, AU_M; field). assert (HA : H * AU_M = h) by (unfold H; field; lra).
  assert (Ha : 0 < a) by (apply Rmult_lt_reg_r with AU_M; lra). assert (Hf : 29825 / 100 <= finv) by (unfold finv, IERS_2010_INVERSE_EARTH_FLATTENING; lra).
  assert (Hh' : - (a / 600) <= H) by (apply Rmult_le_reg_r with AU_M; lra).
  destruct (old_axis finv a H Hf Ha Hh') as [B K].
  assert (Hm : - (a * omf2 finv) < H). { pose proof (e_omf2 finv ltac:(lra)). pose proof (omf2_range finv ltac:(lra)). unfold omf2 in *. cbv zeta in *.
    assert (99 / 100 <= (finv - 1) / finv). { apply Rmult_le_reg_r with finv; [lra|]. replace ((finv - 1) / finv * finv) with (finv - 1) by (field; lra). lra. } nra. }
  assert (Hn : 0 < aC a finv lat + H). { pose proof (aC_ge a finv Ha ltac:(lra) lat). nra. }
  pose proof (recover a finv Ha ltac:(lra) lat L H ltac:(lra) Hm) as X. cbv zeta in X. fold p in X.
  assert (C : 0 < cos lat) by (apply cos_gt_0; lra).
  assert (Pp : vx p * vx p + vy p * vy p = ((aC a finv lat + H) * cos lat) * ((aC a finv lat + H) * cos lat)).
  { unfold p. rewrite (latlon_eq a finv ltac:(lra)). cbn [vx vy]. pose proof (sc2 L) as S. set (n := (aC a finv lat + H) * cos lat). clearbody n. transitivity (n * n * (sin L * sin L + cos L * cos L)); [ring|rewrite S; ring]. }
  assert (Pos : 0 < vx p * vx p + vy p * vy p) by (rewrite Pp; assert (0 < (aC a finv lat + H) * cos lat) by (apply Rmult_lt_0_compat; assumption); nra).
  pose proof (reverse_terra_eq p g Pos) as E. fold a finv in E. destruct (compute_latitude a finv p) as [[ac hyp] lat3]. rewrite E. destruct X as [X1 X2].
  change (Geo_Proofs3.B a finv) with (axis_rate a finv) in X1, X2.
  set (k := axis_rate a finv / (a * omf2 finv + H)) in *. set (b := axis_rate a finv) in *. clearbody k b. pose proof PI_4 as P4. pose proof PI_RGT_0 as P0.
  assert (K2 : 0 < k * k <= 46923 / 10 ^ 9) by (split; nra). assert (K3 : 0 < k * k * k <= 32143 / 10 ^ 11) by (split; nra). assert (K4 : 0 < k * k * k * k <= 2202 / 10 ^ 12) by (split; nra).
  split; [|split].
  - eapply Rle_trans; [exact X1|]. nra.
  - assert (Hlo : exists j, atan2 (vy p) (vx p) = L + tau * IZR j).
    { unfold p. rewrite (latlon_eq a finv ltac:(lra)). cbn [vx vy]. set (n := (aC a finv lat + H) * cos lat). assert (0 < n) by (apply Rmult_lt_0_compat; assumption).
      destruct (rmod_shift (L + PI) tau) as [j Hj]. pose proof (rmod_bounds (L + PI) tau ltac:(unfold tau; lra)) as RB. set (q := rmod (L + PI) tau) in *.
      destruct (Req_dec q 0) as [Z|Z].
      - exists (- (- j) + 1)%Z. replace (cos L) with (cos PI) by (replace L with (PI + tau * IZR (- j - 1)) by (rewrite minus_IZR, opp_IZR; unfold tau in *; lra); rewrite cos_tau; reflexivity).
        replace (sin L) with (sin PI) by (replace L with (PI + tau * IZR (- j - 1)) by (rewrite minus_IZR, opp_IZR; unfold tau in *; lra); rewrite sin_tau; reflexivity).
        rewrite atan2_polar by lra. rewrite plus_IZR, !opp_IZR. unfold tau in *. lra.
      - exists j. replace (cos L) with (cos (q - PI)) by (replace L with (q - PI + tau * IZR (- j)) by (rewrite opp_IZR; lra); rewrite cos_tau; reflexivity).
        replace (sin L) with (sin (q - PI)) by (replace L with (q - PI + tau * IZR (- j)) by (rewrite opp_IZR; lra); rewrite sin_tau; reflexivity).
        rewrite atan2_polar; [lra|assumption|unfold tau in *; lra]. }
    destruct Hlo as [j ->]. rewrite (rmod_unique _ tau (lon + PI) (j - 1)); [ring|unfold tau; lra|unfold tau; lra|]. rewrite minus_IZR. unfold L, hours_to_radians, degree, tau. field.
  - replace (height_from (vx p) (vy p) ac hyp * AU_M - h) with ((height_from (vx p) (vy p) ac hyp - H) * AU_M) by lra. rewrite Rabs_mult, (Rabs_right AU_M) by lra.
    set (q := PI / 2 * (k * k * k)) in *. assert (Q : 0 < q <= 64286 / 10 ^ 11) by (unfold q; split; nra).
    assert (Q2 : 0 < q * q <= 41328 / 10 ^ 17) by (split; nra). assert (Bk : 0 < b * (k + 1) <= a * (6837 / 10 ^ 6)) by (split; nra).
    set (u := b * (k + 1)) in *. set (v := q * q) in *. clearbody u v. assert (U : u * v <= a * (6837 / 10 ^ 6) * (41328 / 10 ^ 17)) by nra.
    assert (T : u * v * AU_M <= a * AU_M * (6837 / 10 ^ 6) * (41328 / 10 ^ 17)) by nra. rewrite aA in T. set (d := Rabs _) in *. clearbody d. nra.
Qed.
(** Over a pole. *)
Lemma reverse_terra_pole z g : 0 < z -> let '(_, _, h) := reverse_terra (V3 0 0 z) g 3 in h <= -6378136.
Proof.
  intros Hz. unfold reverse_terra. cbn [vx vy vz]. replace (0 * 0 + 0 * 0) with 0 by ring. rewrite sqrt_0. fold earth_radius_au.
  set (f := 1 / IERS_2010_INVERSE_EARTH_FLATTENING). set (e := 2 * f - f * f). set (a := earth_radius_au).
  assert (F : 0 < f <= 1 / 298). { unfold f. replace IERS_2010_INVERSE_EARTH_FLATTENING with (29825642 / 100000) by (unfold IERS_2010_INVERSE_EARTH_FLATTENING; lra). lra. }
  assert (E : 0 < e < 1) by (unfold e; clearbody f; split; nra).
  assert (Up : forall y, 0 < y -> atan2 y 0 = PI / 2). { intros y Hy. unfold atan2. destruct (Rlt_dec 0 0); [lra|]. destruct (Rlt_dec 0 0); [lra|]. destruct (Rlt_dec 0 y); [reflexivity|lra]. }
  assert (Aa : 0 < a) by (unfold a, earth_radius_au, ERAD, AU_M; lra).
  set (C := 1 / sqrt (1 - e * 1)).
  assert (S : 0 < sqrt (1 - e * 1) <= 1). { split; [apply sqrt_lt_R0; lra|]. apply Rle_trans with (sqrt 1); [apply sqrt_le_1_alt; lra|rewrite sqrt_1; lra]. }
  assert (HC : 1 <= C). { unfold C. apply Rmult_le_reg_r with (sqrt (1 - e * 1)); [lra|]. replace (1 / sqrt (1 - e * 1) * sqrt (1 - e * 1)) with 1 by (field; lra). lra. }
  cbn [terra_rounds]. rewrite (Up z Hz), sin_PI2. replace (1 * 1) with 1 by ring. fold C. assert (Hq : 0 < z + a * C * e * 1) by (pose proof (Rmult_lt_0_compat _ _ (Rmult_lt_0_compat _ _ Aa (Rlt_le_trans _ 1 _ Rlt_0_1 HC)) (proj1 E)); lra).
  rewrite (Up _ Hq), sin_PI2. replace (1 * 1) with 1 by ring. fold C. rewrite (Up _ Hq), sin_PI2. replace (1 * 1) with 1 by ring. fold C. rewrite (Up _ Hq).
  replace (0 / cos (PI / 2)) with 0 by (unfold Rdiv; ring). assert (aA : a * AU_M = 6378136.6) by (unfold a, earth_radius_au, ERAD, AU_M; field). assert (0 < AU_M) by (unfold AU_M; lra). nra.
Qed.
(** There and back. *)
Lemma itrs_near t : near (mxm (itrs_rotation_at t) (transp (itrs_rotation_at t))) (6 / 10 ^ 14).
Proof.
  pose proof (itrs_eq t) as E. destruct (polar_motion_angles t) as [[s x] y]. rewrite E. set (W := wobble _ _ _) in *. unfold tirs_rotation_at. set (Z := rot_z _).
  assert (O : orthogonal (mxm W Z)) by (apply orth_mxm; [apply wobble_rot|apply rot_ok]).
  replace (mxm (mxm W (mxm Z (M_of t))) (transp (mxm W (mxm Z (M_of t))))) with (mxm (mxm W Z) (mxm (mxm (M_of t) (transp (M_of t))) (transp (mxm W Z)))) by (rewrite !transp_mxm, !mxm_assoc; reflexivity).
  apply near_conj; [exact O|apply M_near].
Qed.
Lemma itrs_back t r : vlength (vsub (mxv (itrs_rotation_at t) (ITRF_to_GCRS t r)) r) <= 6 / 10 ^ 14 * vlength r.
Proof. unfold ITRF_to_GCRS. rewrite <- mxv_mxm. apply itrs_near. Qed.
Lemma pole_ignored : exists t r, polar_motion_table t <> None /\ fst (ITRF_to_GCRS2 t r vzero None) <> ITRF_to_GCRS t r.
Proof.
  set (t := j2000 (Some [(T0, 3 / 10, 0)])). exists t, (V3 0 0 1). split; [discriminate|]. intros E.
  pose proof (to_GCRS_position t 0 (V3 0 0 1) vzero None) as P. rewrite turned_0 in P. rewrite P in E. clear P. unfold ITRF_to_GCRS in E.
  pose proof (itrs_turned t 0) as I. rewrite turned_0 in I. destruct (polar_motion_angles t) as [[sp x] y] eqn:A.
  assert (Ax : x = 3 / 10 /\ y = 0).
  { unfold polar_motion_angles, t in A. cbn [polar_motion_table j2000] in A. unfold tt_of in A. cbn [whole tt_fraction map interp] in A. destruct (Rle_dec _ _) as [_|C]; [injection A as _ <- <-; split; reflexivity|exfalso; apply C; cbn; lra]. }
  destruct Ax as [-> ->]. rewrite I in E. rewrite transp_mxm, mxv_mxm in E. unfold itrs_rotation in E. rewrite transp_mxm, (proj2 (proj2 (tr_rot _))), !mxv_mxm in E. apply MT_injective in E. apply rotz_injective in E.
  apply (f_equal vz) in E. unfold wobble in E. rewrite !transp_mxm, (proj2 (proj2 (tr_rot _))), (proj1 (proj2 (tr_rot _))), (proj1 (tr_rot _)), !mxv_mxm in E. rewrite !Rmult_0_l, Ropp_0 in E.
  revert E. gsimp. rewrite ?cos_neg, ?sin_neg, ?cos_0, ?sin_0. intros E. pose proof pi_bounds as P.
  assert (Cx : cos (3 / 10 * arcsecond) < 1) by (rewrite <- cos_0; apply cos_decreasing_1; unfold arcsecond; lra). lra.
Qed.
Lemma zenith_both lat lon t z : mxv (itrs_rotation_at t) z = up lat (hours_to_radians lon) ->
  let '(s, x, y) := polar_motion_angles t in 0 <= lst_hours_at lon t < 24 /\
  vlength (vsub (mxv (M_of t) z) (up lat (hours_to_radians (lst_hours_at lon t)))) <=
    (Rabs x + Rabs y + Rabs (- (47.0e-6) * (tdb_of t - T0) / 36525 - s)) * arcsecond.
Proof. intros H. pose proof (zenith_ra lat lon t z H) as K. destruct (polar_motion_angles t) as [[s x] y]. split; [apply lst_range|exact K]. Qed.
Lemma theta_both jd fr : 0 <= fst (theta_GMST1982 jd fr) < 2 * PI /\
  same_mod (2 * PI) (fst (theta_GMST1982 jd fr)) (2 * PI * (gmst_1982 (centuries (jd + fr)) / 86400)).
Proof. split; [exact (theta_range jd fr)|exact (theta_ok jd fr)]. Qed.
Lemma theta_rate' jd fr s :
  derivable_pt_lim (fun s => 2 * PI * (gmst_1982 (centuries (jd + (fr + s))) / 86400)) s (snd (theta_GMST1982 jd (fr + s))).
Proof. exact (theta_rate jd fr s). Qed.
Lemma pole_of_rotation t : let '(s, x, y) := polar_motion_angles t in
  exists W, rotation W /\ itrs_rotation_at t = mxm W (tirs_rotation_at t) /\
    mxv W (V3 0 0 1) = V3 (sin (x * arcsecond)) (- (sin (y * arcsecond) * cos (x * arcsecond))) (cos (y * arcsecond) * cos (x * arcsecond)) /\
    (forall u, vlength (vsub (mxv (transp W) u) (mxv (rot_z (s * arcsecond)) u)) <= (Rabs (x * arcsecond) + Rabs (y * arcsecond)) * vlength u).
Proof.
  pose proof (itrs_eq t) as E. destruct (polar_motion_angles t) as [[s x] y]. exists (wobble (s * arcsecond) (x * arcsecond) (y * arcsecond)).
  split; [apply wobble_rot|]. split; [exact E|]. split; [apply wobble_pole|]. intros u. apply wobble_swing.
Qed.
Lemma onto M v : det M <> 0 -> exists z, mxv M z = v.
Proof.
  intros D. exists (smul (/ det M) (vadd (vadd (smul (vx v) (cross (r2 M) (r3 M))) (smul (vy v) (cross (r3 M) (r1 M)))) (smul (vz v) (cross (r1 M) (r2 M))))).
  revert D. unfold det, cross, dot. destruct M as [[a b c] [d e f] [g h i]], v as [x y z]. cbn. unfold dot. cbn. intros D. apply vec_ext; gsimp; field; exact D.
Qed.
Lemma bias_det : 0 < det bias.
Proof.
  unfold bias. set (x := _ * ASEC2RAD). set (y := _ * ASEC2RAD) at 1. set (d := - (1460 / 10 ^ 5) * ASEC2RAD).
  assert (B : -1 / 2 < x < 1 / 2 /\ -1 / 2 < y < 1 / 2 /\ -1 / 2 < d < 1 / 2) by (unfold x, y, d, ASEC2RAD; lra). clearbody x y d.
  unfold bias_of, det, cross, dot. cbn.
  set (a := 1 - 1 / 2 * (- d * - d + x * x)). set (b := 1 - 1 / 2 * (- d * - d + y * y)). set (c := 1 - 1 / 2 * (y * y + x * x)).
  assert (Ha : 0 < a) by (unfold a; nra). assert (Hb : 0 < b) by (unfold b; nra). assert (Hc : 0 < c) by (unfold c; nra). clearbody a b c.
  pose proof (Rmult_lt_0_compat _ _ (Rmult_lt_0_compat _ _ Ha Hb) Hc). pose proof (Rmult_le_pos _ _ (Rlt_le _ _ Ha) (Rle_0_sqr y)). pose proof (Rmult_le_pos _ _ (Rlt_le _ _ Hb) (Rle_0_sqr x)). pose proof (Rmult_le_pos _ _ (Rlt_le _ _ Hc) (Rle_0_sqr d)).
  unfold Rsqr in *. lra.
Qed.
Lemma some_zenith t lat lon : exists z, mxv (tirs_rotation_at t) z = up lat lon.
Proof.
  apply onto. unfold tirs_rotation_at. Transparent M_of. unfold M_of. cbv zeta. Opaque M_of. unfold time_M, mxmxm. rewrite !det_mxm.
  assert (N := fun a b c => proj2 (nutation_ok a b c)). assert (P := fun a => proj2 (precession_ok a)). rewrite N, P. rewrite (proj2 (proj2 (proj2 (rot_ok _)))). pose proof bias_det. lra.
Qed.
Lemma example_track : vderiv (fun s => V3 (7000 + 2 * s) 0 1) 0 (V3 2 0 0).
Proof. split; [|split]; cbn; apply is_derive_Reals; auto_derive; trivial; ring. Qed.
