From Coq Require Import Reals Lra Lia ZArith List.
From Verif Require Import Real_Math Real_Math_Proofs Vector_Model Vector_Proofs Vector_Proofs2 Geo_Model Geo_Spec Geo_Proofs Geo_Proofs2 Spin_Model Spin_Spec.
Import ListNotations.
Open Scope R_scope.

(** * Remainders *)
Lemma sm_refl m a : same_mod m a a. Proof. exists 0%Z. ring. Qed.
Lemma sm_sym m a b : same_mod m a b -> same_mod m b a.
Proof. intros [k ->]. exists (- k)%Z. rewrite opp_IZR. ring. Qed.
Lemma sm_trans m a b c : same_mod m a b -> same_mod m b c -> same_mod m a c.
Proof. intros [k ->] [j ->]. exists (j + k)%Z. rewrite plus_IZR. ring. Qed.
Lemma sm_plus m a b c d : same_mod m a b -> same_mod m c d -> same_mod m (a + c) (b + d).
Proof. intros [k ->] [j ->]. exists (k + j)%Z. rewrite plus_IZR. ring. Qed.
Lemma sm_opp m a b : same_mod m a b -> same_mod m (- a) (- b).
Proof. intros [k ->]. exists (- k)%Z. rewrite opp_IZR. ring. Qed.
Lemma sm_minus m a b c d : same_mod m a b -> same_mod m c d -> same_mod m (a - c) (b - d).
Proof. intros H K. apply sm_plus; [assumption|apply sm_opp; assumption]. Qed.
Lemma sm_scale k m a b : same_mod m a b -> same_mod (m * k) (a * k) (b * k).
Proof. intros [j ->]. exists j. ring. Qed.
Lemma sm_eq m a b : a = b -> same_mod m a b. Proof. intros ->. apply sm_refl. Qed.
Lemma sm_rmod x m : same_mod m (rmod x m) x.
Proof. destruct (rmod_shift x m) as [k ->]. exists k. ring. Qed.
Lemma sm_unique m a b : 0 < m -> 0 <= a < m -> 0 <= b < m -> same_mod m a b -> a = b.
Proof.
  intros Hm Ha Hb [k E]. assert (K : (-1 < k < 1)%Z).
  { split; apply lt_IZR; nra. }
  replace k with 0%Z in E by lia. rewrite E. ring.
Qed.
Lemma sm_cos a b : same_mod tau a b -> cos a = cos b /\ sin a = sin b.
Proof. intros [k ->]. split; [apply cos_tau|apply sin_tau]. Qed.
Lemma sm_rot_z a b : same_mod tau a b -> rot_z a = rot_z b.
Proof. intros H. apply sm_cos in H as [C S]. unfold rot_z. rewrite C, S. reflexivity. Qed.

(** * Sidereal time *)
Lemma era_range jd fr : 0 <= earth_rotation_angle jd fr < 1.
Proof. unfold earth_rotation_angle. apply rmod_bounds. lra. Qed.
Lemma era_ok jd fr : same_mod 1 (earth_rotation_angle jd fr) (era_iau (jd + fr - 2451545)).
Proof.
  unfold earth_rotation_angle. cbv zeta. eapply sm_trans; [apply sm_rmod|].
  eapply sm_trans; [apply sm_plus; [apply sm_plus; apply sm_rmod|apply sm_refl]|].
  exists 2451545%Z. unfold era_iau, T0. lra.
Qed.
Lemma era_split jd fr jd' fr' : jd + fr = jd' + fr' -> earth_rotation_angle jd fr = earth_rotation_angle jd' fr'.
Proof.
  intros E. apply (sm_unique 1); [lra|apply era_range|apply era_range|].
  eapply sm_trans; [apply era_ok|]. rewrite E. apply sm_sym, era_ok.
Qed.
Lemma gmst_range t : 0 <= gmst t < 24.
Proof. unfold gmst, sidereal_time. apply rmod_bounds. lra. Qed.
Lemma gmst_ok t : same_mod 24 (gmst t) (gmst_circular_179 (era_iau (ut1_of t - 2451545)) (centuries (tdb_of t)) / 3600).
Proof.
  unfold gmst, sidereal_time. cbv zeta. eapply sm_trans; [apply sm_rmod|].
  destruct (era_ok (whole t) (ut1_fraction t)) as [k Hk]. exists k. rewrite Hk. unfold ut1_of.
  set (th := era_iau _). clearbody th. unfold gmst_circular_179, centuries, tdb_of, T0.
  replace (whole t + tdb_fraction t - 2451545) with (whole t - 2451545 + tdb_fraction t) by ring.
  set (T := (whole t - 2451545 + tdb_fraction t) / 36525). clearbody T. lra.
Qed.
Lemma gast_range t : 0 <= gast t < 24.
Proof. unfold gast. apply rmod_bounds. lra. Qed.
Lemma gast_ok t : same_mod 24 (gast t - gmst t) ((d_psi t * cos (mean_obliquity (tdb_of t) * (PI / 648000)) + c_terms t) * (12 / PI)).
Proof.
  unfold gast. cbv zeta. destruct (rmod_shift (gmst t + (d_psi t * cos (mean_obliquity_radians t) + c_terms t) / tau * 24) 24) as [k ->].
  exists k. unfold mean_obliquity_radians, arcsecond, tau. pose proof PI_RGT_0. field. lra.
Qed.
Lemma era_day jd fr : same_mod 1 (earth_rotation_angle jd (fr + 1)) (earth_rotation_angle jd fr + 273781191135448 / 10 ^ 17).
Proof.
  eapply sm_trans; [apply era_ok|]. eapply sm_trans; [|apply sm_plus; [apply sm_sym, era_ok|apply sm_refl]].
  exists 1%Z. unfold era_iau. lra.
Qed.

(** * The two routes to the axis of the Earth *)
Lemma rotz_add a b : mxm (rot_z a) (rot_z b) = rot_z (a + b). Proof. apply rot_compose. Qed.
Lemma routes_agree t : mxm (rot_z (- (2 * PI * earth_rotation_angle (whole t) (ut1_fraction t)))) (C_of t) = tirs_rotation_at t.
Proof.
  unfold C_of, tirs_rotation_at. cbv zeta. rewrite mxm_assoc, rotz_add. f_equal. f_equal.
  rewrite (era_split (whole t) (ut1_fraction t) (ut1_of t) 0) by (unfold ut1_of; ring). unfold tau. field.
Qed.
(** Right ascensions. *)
Lemma rotz_spherical a r dec ra : mxv (rot_z a) (from_spherical r dec ra) = from_spherical r dec (a + ra).
Proof. unfold from_spherical. apply vec_ext; gsimp; rewrite ?cos_plus, ?sin_plus; ring. Qed.
Lemma spherical_turn r dec a b : same_mod tau a b -> from_spherical r dec a = from_spherical r dec b.
Proof. intros H. apply sm_cos in H as [C S]. unfold from_spherical. rewrite C, S. reflexivity. Qed.
Lemma ra_unique v a b : has_right_ascension v a -> has_right_ascension v b -> same_mod 24 a b.
Proof.
  intros (r & d & Hr & Hd & E) (r' & d' & Hr' & Hd' & E').
  assert (T : forall h, same_mod 24 h (rmod (h * (PI / 12)) tau * (12 / PI))).
  { intros h. apply sm_sym. destruct (rmod_shift (h * (PI / 12)) tau) as [k ->]. exists k. unfold tau. pose proof PI_RGT_0. field. lra. }
  assert (S : forall r d h, 0 < r -> - (PI / 2) < d < PI / 2 -> to_spherical (from_spherical r d (h * (PI / 12))) = (r, d, rmod (h * (PI / 12)) tau)).
  { intros r0 d0 h H0 H1. rewrite (spherical_turn r0 d0 _ (rmod (h * (PI / 12)) tau)) by (apply sm_sym, sm_rmod).
    apply spherical_forth; [assumption|assumption|apply rmod_bounds, tau_pos]. }
  pose proof (S r d a Hr Hd) as S1. pose proof (S r' d' b Hr' Hd') as S2. rewrite <- E in S1. rewrite <- E' in S2. rewrite S1 in S2. injection S2 as _ _ Ea.
  eapply sm_trans; [apply T|]. rewrite Ea. apply sm_sym, T.
Qed.
Lemma ra_rot v a h : has_right_ascension v a -> has_right_ascension (mxv (rot_z (h * (PI / 12))) v) (h + a).
Proof.
  intros (r & d & Hr & Hd & ->). exists r, d. split; [assumption|]. split; [assumption|]. rewrite rotz_spherical. f_equal. ring.
Qed.
Lemma ra_mod v a b : same_mod 24 a b -> has_right_ascension v a -> has_right_ascension v b.
Proof.
  intros H (r & d & Hr & Hd & ->). exists r, d. split; [assumption|]. split; [assumption|]. apply spherical_turn. destruct H as [k ->]. exists k. unfold tau. field.
Qed.
(** The right ascension measured from the CIO is that of date plus the equation of
    the origins. *)
Lemma cirs_ra t p ra : has_right_ascension (mxv (M_of t) p) ra ->
  has_right_ascension (mxv (C_of t) p) (ra + (24 * earth_rotation_angle (whole t) (ut1_fraction t) - gast t)).
Proof.
  intros H. unfold C_of. cbv zeta. rewrite mxv_mxm. rewrite (era_split (ut1_of t) 0 (whole t) (ut1_fraction t)) by (unfold ut1_of; ring).
  set (e := earth_rotation_angle _ _). replace (2 * PI * (e - gast t / 24)) with ((24 * e - gast t) * (PI / 12)) by field.
  rewrite Rplus_comm. apply ra_rot. assumption.
Qed.
(** Hour angles. *)
Lemma hadec_ra lon p ra : has_right_ascension p ra ->
  exists ha dec r, hadec lon p = (ha, dec, r) /\ same_mod 24 (ha * (12 / PI)) (lon * (12 / PI) - ra).
Proof.
  intros (r & d & Hr & Hd & E). unfold hadec.
  assert (S : to_spherical p = (r, d, rmod (ra * (PI / 12)) tau)).
  { rewrite E. rewrite (spherical_turn r d _ (rmod (ra * (PI / 12)) tau)) by (apply sm_sym, sm_rmod).
    apply spherical_forth; [assumption|assumption|apply rmod_bounds, tau_pos]. }
  rewrite S. do 3 eexists. split; [reflexivity|].
  destruct (rmod_shift (lon - rmod (ra * (PI / 12)) tau + PI) tau) as [k ->]. destruct (rmod_shift (ra * (PI / 12)) tau) as [j ->].
  exists (k - j)%Z. rewrite minus_IZR. unfold tau. pose proof PI_RGT_0. field. lra.
Qed.
Lemma tirs_eq t v : mxv (tirs_rotation_at t) v = mxv (rot_z ((- gast t) * (PI / 12))) (mxv (M_of t) v).
Proof. unfold tirs_rotation_at. rewrite mxv_mxm. do 2 f_equal. unfold tau. field. Qed.
Lemma tirs_cirs_eq t v : mxv (tirs_rotation_at t) v = mxv (rot_z ((- (24 * earth_rotation_angle (whole t) (ut1_fraction t))) * (PI / 12))) (mxv (C_of t) v).
Proof. rewrite <- routes_agree, mxv_mxm. do 2 f_equal. field. Qed.
Lemma ha_of_date lon t p ra : has_right_ascension (mxv (M_of t) p) ra ->
  exists ha dec r, hadec lon (mxv (tirs_rotation_at t) p) = (ha, dec, r) /\
    same_mod 24 (ha * (12 / PI)) (gast t + lon * (12 / PI) - ra).
Proof.
  intros H. apply (ra_rot _ _ (- gast t)) in H. rewrite <- tirs_eq in H. apply (hadec_ra lon) in H as (ha & dec & r & E & S).
  exists ha, dec, r. split; [assumption|]. eapply sm_trans; [exact S|]. apply sm_eq. ring.
Qed.
Lemma ha_cirs lon t p ra : has_right_ascension (mxv (C_of t) p) ra ->
  exists ha dec r, hadec lon (mxv (tirs_rotation_at t) p) = (ha, dec, r) /\
    same_mod 24 (ha * (12 / PI)) (24 * earth_rotation_angle (whole t) (ut1_fraction t) + lon * (12 / PI) - ra).
Proof.
  intros H. apply (ra_rot _ _ (- (24 * earth_rotation_angle (whole t) (ut1_fraction t)))) in H. rewrite <- tirs_cirs_eq in H.
  apply (hadec_ra lon) in H as (ha & dec & r & E & S).
  exists ha, dec, r. split; [assumption|]. eapply sm_trans; [exact S|]. apply sm_eq. ring.
Qed.
Lemma lst_range lon t : 0 <= lst_hours_at lon t < 24.
Proof. unfold lst_hours_at. apply rmod_bounds. lra. Qed.
(** Right ascension of the zenith. *)
Lemma up_ra lat lon : - (PI / 2) < lat < PI / 2 -> has_right_ascension (up lat (hours_to_radians lon)) lon.
Proof.
  intros H. exists 1, lat. split; [lra|]. split; [assumption|]. unfold up, from_spherical, hours_to_radians. f_equal; ring.
Qed.
