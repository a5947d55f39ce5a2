From Coq Require Import Reals Lra Lia Psatz ZArith List Bool.
From Verif Require Import Real_Math Real_Math_Proofs Vector_Model Vector_Proofs Vector_Proofs2 Geo_Model Geo_Spec Geo_Proofs Light_Model Light_Spec Light_Proofs Light_Proofs2.
Import ListNotations.
Open Scope R_scope.

(** * Where the light passes closest *)
Lemma sq_mono a b : 0 <= a <= b -> a * a <= b * b. Proof. intros. nra. Qed.
Lemma clip_cases x L : 0 <= L -> (x <= 0 /\ clip x 0 L = 0) \/ (0 <= x <= L /\ clip x 0 L = x) \/ (L <= x /\ clip x 0 L = L).
Proof.
  intros HL. unfold clip. destruct (Rle_dec x 0); [left; rewrite Rmax_right, Rmin_left by lra; split; [assumption|reflexivity]|right].
  rewrite Rmax_left by lra. destruct (Rle_dec x L); [left; rewrite Rmin_left by lra; split; [lra|reflexivity]|right; rewrite Rmin_right by lra; split; [lra|reflexivity]].
Qed.
Lemma clip_best x s L : 0 <= L -> 0 <= s <= L -> 0 <= clip x 0 L <= L /\ (clip x 0 L - x) * (clip x 0 L - x) <= (s - x) * (s - x).
Proof.
  intros HL Hs. destruct (clip_cases x L HL) as [[H ->]|[[H ->]|[H ->]]]; (split; [lra|]).
  - apply sq_mono. lra.
  - replace ((x - x) * (x - x)) with 0 by ring. apply Rle_0_sqr.
  - replace ((L - x) * (L - x)) with ((x - L) * (x - L)) by ring. replace ((s - x) * (s - x)) with ((x - s) * (x - s)) by ring. apply sq_mono. lra.
Qed.
Lemma clip_scale x L c : 0 < c -> 0 <= L -> c * clip x 0 (L / c) = clip (c * x) 0 L.
Proof.
  intros Hc HL. assert (E : c * (L / c) = L) by (field; lra). assert (H0 : 0 <= L / c) by (apply Rmult_le_pos; [assumption|apply Rlt_le, Rinv_0_lt_compat; assumption]).
  destruct (clip_cases x _ H0) as [[H ->]|[[H ->]|[H ->]]]; destruct (clip_cases (c * x) L HL) as [[H' ->]|[[H' ->]|[H' ->]]]; nra.
Qed.
Lemma distance_along u g s : dot u u = 1 -> vlength (vsub g (smul s u)) * vlength (vsub g (smul s u)) = dot g g - dot u g * dot u g + (s - dot u g) * (s - dot u g).
Proof. intros Hu. rewrite <- dot_self. dots. rewrite Hu, (dot_sym g u). ring. Qed.
Lemma sq_le a b : 0 <= b -> a * a <= b * b -> a <= b. Proof. intros. nra. Qed.
Lemma closest_point p g : p <> vzero ->
  let k := C_AUDAY * clip (light_time_difference p g) 0 (vlength p / C_AUDAY) in
  0 <= k <= vlength p /\
  forall s, 0 <= s <= vlength p -> vlength (vsub g (smul k (unit_of p))) <= vlength (vsub g (smul s (unit_of p))).
Proof.
  intros Hp k. pose proof (vlength_ne p Hp) as HL. pose proof c_pos as Hc.
  assert (U : dot (unit_of p) (unit_of p) = 1) by (unfold unit_of; dots; rewrite dot_self; field; lra).
  assert (Ek : k = clip (dot (unit_of p) g) 0 (vlength p)).
  { unfold k. rewrite clip_scale by lra. f_equal. unfold light_time_difference. rewrite plus_tiny_ne by lra. unfold unit_of. field. lra. }
  split; [rewrite Ek; apply (clip_best _ 0); lra|]. intros s Hs. apply sq_le; [apply vlength_pos|]. rewrite !distance_along by assumption. rewrite Ek.
  pose proof (clip_best (dot (unit_of p) g) s (vlength p) ltac:(lra) Hs). lra.
Qed.
Lemma deflector_time t o p body : p <> vzero ->
  exists k, 0 <= k <= vlength p /\
  compute_deflector_position t o p body (vlength p / C_AUDAY) = vsub o (body (t - k / C_AUDAY)) /\
  forall s, 0 <= s <= vlength p ->
    vlength (vsub (body t) (vadd o (smul k (unit_of p)))) <= vlength (vsub (body t) (vadd o (smul s (unit_of p)))).
Proof.
  intros Hp. destruct (closest_point p (vsub (body t) o) Hp) as [B M]. set (k := C_AUDAY * _) in *. exists k. split; [assumption|]. split.
  - unfold compute_deflector_position. f_equal. f_equal. unfold k. pose proof c_pos. field. lra.
  - intros s Hs. specialize (M s Hs). replace (vsub (body t) (vadd o (smul k (unit_of p)))) with (vsub (vsub (body t) o) (smul k (unit_of p))) by (apply vec_ext; cbn; ring).
    replace (vsub (body t) (vadd o (smul s (unit_of p)))) with (vsub (vsub (body t) o) (smul s (unit_of p))) by (apply vec_ext; cbn; ring). exact M.
Qed.

(** * The limb *)
Lemma acos_opp' x : PI - acos x = acos (- x). Proof. rewrite acos_opp. reflexivity. Qed.
Lemma limb p o : p <> vzero -> earth_radius_au < vlength o ->
  (snd (compute_limb_angle p o) < 1 <-> sight_blocked o p earth_radius_au) /\
  (fst (compute_limb_angle p o) < 0 <-> sight_blocked o p earth_radius_au).
Proof.
  intros Hp Ho. set (r := earth_radius_au) in *. assert (Hr : 0 < r) by (unfold r, earth_radius_au, ERAD, AU_M; lra).
  pose proof (vlength_ne p Hp) as HP. unfold compute_limb_angle. cbn [fst snd]. fold r. rewrite <- !vlength_dot.
  set (P := vlength p) in *. set (D := vlength o) in *.
  assert (Q : 0 < r / D < 1). { split; [apply Rdiv_lt_0_compat; lra|]. apply Rmult_lt_reg_r with D; [lra|]. unfold Rdiv. rewrite Rmult_assoc, Rinv_l by lra. lra. }
  rewrite Rmin_left by lra.
  assert (Cz : -1 <= dot p o / (P * D) <= 1).
  { pose proof (abs_between _ _ (cauchy_abs p o)) as B. fold P D in B. assert (0 < P * D) by nra. split; apply Rmult_le_reg_r with (P * D); try assumption; unfold Rdiv; rewrite Rmult_assoc, Rinv_l by lra; lra. }
  replace (clip (dot p o / (P * D)) (-1) 1) with (dot p o / (P * D)) by (unfold clip; rewrite Rmax_left, Rmin_left by lra; reflexivity).
  set (z := dot p o / (P * D)) in *. set (ap := asin (r / D)).
  assert (Hap : 0 < ap <= PI / 2). { pose proof (asin_bound (r / D)) as Ba. pose proof (sin_asin (r / D) ltac:(lra)) as Sa. fold ap in Ba, Sa. split; [|lra]. destruct (Rlt_dec 0 ap) as [|N]; [assumption|]. exfalso. pose proof (sin_ge_0 (- ap) ltac:(lra) ltac:(pose proof PI_RGT_0; lra)) as G. rewrite sin_neg in G. lra. }
  rewrite acos_opp'. 
  assert (Key : acos (- z) < ap <-> sight_blocked o p r).
  { assert (Cap : cos ap = sqrt (1 - (r / D) * (r / D))). { unfold ap. rewrite cos_asin by lra. unfold Rsqr. reflexivity. }
    assert (S0 : 0 < 1 - r / D * (r / D)) by nra.
    assert (A : acos (- z) < ap <-> cos ap < - z).
    { pose proof (acos_bound (- z)) as Bz. split; intros H.
      - apply cos_decreasing_1 in H; try lra. rewrite cos_acos in H by lra. exact H.
      - rewrite <- (cos_acos (- z)) in H by lra. apply cos_decreasing_0 in H; lra. }
    rewrite A, Cap. assert (Zd : dot p o = z * (P * D)) by (unfold z; field; lra).
    assert (Len : forall s, vlength (vadd o (smul s p)) * vlength (vadd o (smul s p)) = (D * D) * (1 - z * z) + (s * P + z * D) * (s * P + z * D)).
    { intros s. rewrite <- dot_self. dots. rewrite (dot_sym o p), Zd, !dot_self. fold P D. ring. }
    assert (Rr : (D * D) * (1 - (1 - r / D * (r / D))) = r * r) by (field; lra).
    split.
    - intros H. exists (- z * D / P). pose proof (sqrt_lt_R0 _ S0) as Sq0. pose proof (sqrt_sqrt (1 - r / D * (r / D)) ltac:(lra)) as Sq. set (q := sqrt _) in *. split; [apply Rmult_le_pos; [nra|apply Rlt_le, Rinv_0_lt_compat; assumption]|].
      specialize (Len (- z * D / P)). replace (- z * D / P * P + z * D) with 0 in Len by (field; lra). pose proof (vlength_pos (vadd o (smul (- z * D / P) p))) as V. set (l := vlength (vadd o _)) in *.
      assert (q * q < z * z) by nra. assert (0 < D * D) by nra. assert (l * l < r * r) by (rewrite Len, <- Rr, <- Sq; nra). nra.
    - intros (s & Hs & H). specialize (Len s). pose proof (vlength_pos (vadd o (smul s p))) as V. set (l := vlength (vadd o _)) in *.
      assert (L2 : l * l < r * r) by nra. rewrite Len, <- Rr in L2. assert (0 < D * D) by nra.
      assert (W : 1 - r / D * (r / D) < z * z). { pose proof (Rle_0_sqr (s * P + z * D)) as Sr. unfold Rsqr in Sr. assert (D * D * (1 - z * z) < D * D * (1 - (1 - r / D * (r / D)))) by lra. apply Rmult_lt_reg_l in H1; lra. }
      assert (Zn : z < 0). { destruct (Rlt_dec z 0); [assumption|]. exfalso. apply Rnot_lt_le in n. assert (0 <= s * P) by nra. assert ((z * D) * (z * D) <= (s * P + z * D) * (s * P + z * D)) by (apply sq_mono; split; [apply Rmult_le_pos; lra|lra]). assert (D * D <= D * D * (1 - z * z) + (s * P + z * D) * (s * P + z * D)) by (replace (D * D * (1 - z * z)) with (D * D - (z * D) * (z * D)) by ring; lra). rewrite Rr in L2. assert (r * r < D * D) by nra. lra. }
      pose proof (sqrt_pos (1 - r / D * (r / D))) as Sq0. pose proof (sqrt_sqrt (1 - r / D * (r / D)) ltac:(lra)) as Sq. set (q := sqrt _) in *. nra. }
  split.
  - rewrite <- Key. pose proof (acos_bound (- z)). split; intros H'.
    + apply (Rmult_lt_compat_r ap) in H'; [|lra]. unfold Rdiv in H'. rewrite Rmult_assoc, Rinv_l in H' by lra. lra.
    + apply Rmult_lt_reg_r with ap; [lra|]. unfold Rdiv. rewrite Rmult_assoc, Rinv_l by lra. lra.
  - rewrite <- Key. rewrite <- (acos_opp' z). assert (0 < RAD2DEG) by (unfold RAD2DEG; lra). split; intros H'; nra.
Qed.

(** * Apparent positions *)
Lemma apparent_without_masses eph t o v p : p <> vzero -> vlength v < C_AUDAY ->
  exists q, apparent eph t o v None p (vlength p / C_AUDAY) [] = Position q /\ vlength q = vlength p.
Proof. intros Hp Hv. eexists. split; [reflexivity|]. apply aberration_length; assumption. Qed.
Lemma apparent_at_a_mass eph t v g p lt code codes body m :
  rmass_of code = Some m -> eph code = Some body -> (0 <= vlength p / C_AUDAY) ->
  apparent eph t (body t) v g p lt (code :: codes) = NotANumber.
Proof.
  intros Hm He Ht. unfold apparent. cbn [deflect_all]. unfold deflect_by. rewrite Hm, He. rewrite andb_false_r, He.
  replace (compute_deflector_position t (body t) p body (vlength p / C_AUDAY)) with vzero; [rewrite deflection_at_the_mass; reflexivity|].
  unfold compute_deflector_position. replace (vsub (body t) (body t)) with vzero by (apply vec_ext; cbn; ring).
  unfold light_time_difference. replace (dot (smul (/ plus_tiny (vlength p)) p) vzero) with 0 by (unfold dot; cbn; ring).
  replace (0 / C_AUDAY) with 0 by (unfold Rdiv; ring). unfold clip. rewrite Rmax_left by lra. rewrite Rmin_left by assumption. rewrite Rminus_0_r. apply vec_ext; cbn; ring.
Qed.
