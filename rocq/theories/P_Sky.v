(** Properties C93 to C96: position angles, the stereographic plot, planetary
    magnitudes, phase angles. *)
From Coq Require Import Reals ZArith List Lra.
From Verif Require Import Real_Math Real_Math_Proofs Vector_Model Geo_Model Geo_Spec Geo_Proofs Sky_Spec Sky_Model Sky_Proofs Sky_Proofs2.
Import ListNotations.
Open Scope R_scope.

(** * C93 *)
(** Right ascension and declination, as [radec] returns them. *)
Theorem C93_right_ascension : forall ra1 dec1 ra2 dec2 s1 s2, - (PI / 2) < dec2 < PI / 2 ->
  let a r s h := {| a_radians := r; a_signed := s; a_hours := h |} in
  let th := position_angle_of (a ra1 false true, a dec1 true s1) (a ra2 false true, a dec2 true s2) in
  0 <= th < tau /\ seen_at_bearing dec1 ra1 (up dec2 ra2) th.
Proof. intros. apply radec_bearing. assumption. Qed.
Print Assumptions C93_right_ascension.
(** Altitude and azimuth: angles turn to the left, so against the azimuth. *)
Theorem C93_azimuth : forall alt1 az1 alt2 az2 s, - (PI / 2) < alt2 < PI / 2 ->
  let a r s h := {| a_radians := r; a_signed := s; a_hours := h |} in
  let th := position_angle_of (a alt1 s false, a az1 false false) (a alt2 s false, a az2 false false) in
  0 <= th < tau /\ seen_at_bearing alt1 az1 (up alt2 az2) (- th).
Proof. intros. apply altaz_bearing. assumption. Qed.
Print Assumptions C93_azimuth.
(** There is only one such angle, unless the second place is the first or opposite to it. *)
Theorem C93_only_angle : forall lat lon q a b, unit_vector q -> q <> up lat lon -> q <> vopp (up lat lon) ->
  0 <= a < tau -> 0 <= b < tau -> seen_at_bearing lat lon q a -> seen_at_bearing lat lon q b -> a = b.
Proof. exact bearing_unique. Qed.
Print Assumptions C93_only_angle.
Example C93_ex : seen_at_bearing 0 0 (up 0 1) (PI / 2) /\ up 0 1 <> up 0 0 /\ - (PI / 2) < 0 < PI / 2.
Proof.
  pose proof PI_RGT_0. split; [|split; [|lra]].
  - exists (sin 1). rewrite cos_PI2, sin_PI2. unfold dot, up, north, east. cbn. rewrite cos_0, sin_0. pose proof (sc2 1) as Q. pose proof PI2_1.
    split; [apply sin_ge_0; lra|]. repeat split; nra.
  - unfold up. rewrite cos_0, sin_0. intros E. injection E as _ E. rewrite !Rmult_1_l in E. pose proof PI2_1. assert (0 < sin 1) by (apply sin_gt_0; lra). lra.
Qed.

(** * C94 *)
(** Plotted position: the distance from the middle grows with the separation from the
    centre, and the direction is the bearing there, with east to the left. *)
Theorem C94_radius_and_direction : forall c p u, unit_vector c -> 0 < off_axis c -> unit_of p = Some u -> u <> vopp c ->
  exists x y, project c p = Some (x, y) /\ (x * x + y * y) * (1 + dot u c) = 1 - dot u c /\
    - x * (1 + dot u c) = dot (east_at c) u /\ y * (1 + dot u c) = dot (north_at c) u.
Proof. exact project_radius. Qed.
Print Assumptions C94_radius_and_direction.
Theorem C94_bearing : forall lat lon p u b, - (PI / 2) < lat < PI / 2 -> unit_of p = Some u -> u <> vopp (up lat lon) -> seen_at_bearing lat lon u b ->
  exists t, 0 <= t /\ t * t = (1 - dot u (up lat lon)) / (1 + dot u (up lat lon)) /\ project (up lat lon) p = Some (- t * sin b, t * cos b).
Proof. exact project_bearing. Qed.
Print Assumptions C94_bearing.
(** The plotted distance of two directions: their chord, scaled alike in every
    direction, so that shapes of small figures stay true. *)
Theorem C94_shapes_kept : forall c p1 p2 u1 u2, unit_vector c -> 0 < off_axis c -> unit_of p1 = Some u1 -> unit_of p2 = Some u2 -> dot u1 c <> -1 -> dot u2 c <> -1 ->
  exists x1 y1 x2 y2, project c p1 = Some (x1, y1) /\ project c p2 = Some (x2, y2) /\
    ((x1 - x2) * (x1 - x2) + (y1 - y2) * (y1 - y2)) * ((1 + dot u1 c) * (1 + dot u2 c)) = 2 * (1 - dot u1 u2).
Proof. exact project_chord. Qed.
Print Assumptions C94_shapes_kept.
Theorem C94_no_two_alike : forall c p1 p2 u1 u2, unit_vector c -> 0 < off_axis c -> unit_of p1 = Some u1 -> unit_of p2 = Some u2 -> u1 <> vopp c -> u2 <> vopp c ->
  project c p1 = project c p2 -> u1 = u2.
Proof. exact project_injective. Qed.
Print Assumptions C94_no_two_alike.
Theorem C94_distance_does_not_matter : forall c k p, 0 < k -> project c (smul k p) = project c p.
Proof. exact project_direction. Qed.
Print Assumptions C94_distance_does_not_matter.
Theorem C94_middle : forall p c, center_of_one p = Some c -> 0 < off_axis c -> project c p = Some (0, 0).
Proof. exact center_ok. Qed.
Print Assumptions C94_middle.
(** For several positions: the middle is in the direction of the sum of the unit
    vectors towards them. *)
Theorem C94_middle_of_many : forall ps c, center_of_many ps = Some c ->
  unit_vector c /\ exists us k, Forall2 (fun p u => unit_of p = Some u) ps us /\ 0 < k /\ smul k c = vsum us.
Proof.
  intros ps c H. split; [exact (center_unit ps c H)|]. destruct (center_mean ps c H) as (us & k & A & B). exists us, k. rewrite <- units_spec. split; assumption.
Qed.
Print Assumptions C94_middle_of_many.
(** Where the plot gives no number: the opposite point, and any point at all when the
    centre lies on the z-axis. *)
Theorem C94_defined_partial : forall c p u, unit_vector c -> unit_of p = Some u -> (project c p = None <-> off_axis c = 0 \/ u = vopp c).
Proof. exact project_none. Qed.
Print Assumptions C94_defined_partial.
Theorem C94_centre_at_pole_refuted : exists c, center_of_one (V3 0 0 2) = Some c /\ project c (V3 0 0 2) = None /\ project c (V3 1 2 2) = None.
Proof.
  assert (L : vlength (V3 0 0 2) = 2) by (unfold vlength; cbn; replace (0 * 0 + 0 * 0 + 2 * 2) with (2 * 2) by ring; apply sqrt_square; lra).
  assert (L3 : vlength (V3 1 2 2) = 3) by (unfold vlength; cbn; replace (1 * 1 + 2 * 2 + 2 * 2) with (3 * 3) by ring; apply sqrt_square; lra).
  assert (N : V3 0 0 2 <> vzero) by (intros E; injection E; lra). assert (N3 : V3 1 2 2 <> vzero) by (intros E; injection E; lra).
  pose proof (unit_of_some _ N) as U. rewrite L in U. pose proof (unit_of_some _ N3) as U3.
  exists (smul (/ 2) (V3 0 0 2)). split; [exact U|].
  assert (O : off_axis (smul (/ 2) (V3 0 0 2)) = 0) by (unfold off_axis, smul; cbn; rewrite !Rmult_0_r, Rplus_0_l; apply sqrt_0).
  destruct (unit_of_unit _ _ U) as [W _]. split; eapply project_none; eauto.
Qed.
Print Assumptions C94_centre_at_pole_refuted.
Example C94_ex : unit_vector (V3 1 0 0) /\ 0 < off_axis (V3 1 0 0) /\ unit_of (V3 0 0 5) = Some (V3 0 0 1) /\ project (V3 1 0 0) (V3 0 0 5) = Some (0, 1).
Proof.
  assert (U : unit_vector (V3 1 0 0)) by (unfold unit_vector, dot; cbn; ring).
  assert (O : off_axis (V3 1 0 0) = 1) by (unfold off_axis; cbn; replace (1 * 1 + 0 * 0) with 1 by ring; apply sqrt_1).
  assert (L : vlength (V3 0 0 5) = 5) by (unfold vlength; cbn; replace (0 * 0 + 0 * 0 + 5 * 5) with (5 * 5) by ring; apply sqrt_square; lra).
  assert (Z : unit_of (V3 0 0 5) = Some (V3 0 0 1)) by (rewrite unit_of_some by (intros E; injection E; lra); rewrite L; unfold smul; cbn; do 2 f_equal; field).
  split; [exact U|]. split; [rewrite O; lra|]. split; [exact Z|].
  rewrite (project_formula _ _ (V3 0 0 1) U); [|rewrite O; lra|exact Z|unfold dot; cbn; lra].
  unfold north_at, east_at, cross, dot, smul. cbn. rewrite O. f_equal. f_equal; field.
Qed.

(** * C95 *)
(** The Sun is at the origin, [o] is the observer, [q] the planet. The phase angle is
    the one at the planet between the directions to the Sun and to the observer; the
    latitudes are those over which Sun and observer stand. *)
Theorem C95_geometry : forall target p o q year, magnitude_function target = Some p -> q <> vzero -> q <> o ->
  exists ph ls lo,
    (0 <= ph <= 180 /\ vlength q * vlength (vsub q o) * cos (to_rad ph) = dot (vopp q) (vsub o q)) /\
    (-90 <= ls <= 90 /\ (p = Saturn \/ p = Uranus -> vlength (pole_of p) * vlength q * sin (to_rad ls) = dot (pole_of p) (vopp q))) /\
    (-90 <= lo <= 90 /\ (p = Saturn \/ p = Uranus -> vlength (pole_of p) * vlength (vsub q o) * sin (to_rad lo) = dot (pole_of p) (vsub o q))) /\
    planetary_magnitude target o (vsub q o) year = Magnitude (magnitude_of p (vlength q) (vlength (vsub q o)) ph ls lo year).
Proof. exact magnitude_geometry. Qed.
Print Assumptions C95_geometry.
Theorem C95_accepted_targets : forall target o d year, planetary_magnitude target o d year = Cannot_compute <->
  ~ In target [1; 2; 4; 5; 6; 7; 8; 199; 299; 399; 499; 599; 699; 799; 899]%Z.
Proof. exact magnitude_accepts. Qed.
Print Assumptions C95_accepted_targets.
(** Inverse square laws of the light from the Sun and of the light to the observer. *)
Theorem C95_distances : forall p r d r' d' ph sl ol y m m', 0 < r -> 0 < d -> 0 < r' -> 0 < d' ->
  magnitude_of p r d ph sl ol y = Some m -> magnitude_of p r' d' ph sl ol y = Some m' ->
  m' - m = 5 * (lg (r' * d') - lg (r * d)) /\ (r * d < r' * d' -> m < m').
Proof. exact magnitude_distance. Qed.
Print Assumptions C95_distances.
Theorem C95_all_distances_scaled : forall target o d year k m, 0 < k -> d <> vzero -> vadd o d <> vzero ->
  planetary_magnitude target o d year = Magnitude (Some m) -> planetary_magnitude target (smul k o) (smul k d) year = Magnitude (Some (m + 10 * lg k)).
Proof. exact magnitude_scaled. Qed.
Print Assumptions C95_all_distances_scaled.
(** The separate formulae for small and large phase angles join, up to the steps listed:
    let [b] come down to [a]. *)
Theorem C95_formulae_join : forall p r d a b sl ol y m1 m2, 0 < r -> 0 < d -> 0 <= a -> a <= b -> b <= 180 ->
  magnitude_of p r d a sl ol y = Some m1 -> magnitude_of p r d b sl ol y = Some m2 ->
  Rabs (m2 - m1) <= (match p with Venus => 0.0073 | Mars => 0.0008 | Jupiter => 0.0005 | Uranus => 0.0215 | Neptune => 0.0155 | _ => 0 end) + 200 * (b - a).
Proof. exact magnitude_steps. Qed.
Print Assumptions C95_formulae_join.
(** When there is no magnitude. The documentation gives two cases: Saturn beyond 6.5
    degrees, and Neptune beyond 1.9 degrees before 2000; the latitudes of Saturn are a
    third. *)
Theorem C95_unknown_partial : forall p r d ph sl ol y, 0 < r -> 0 < d -> 0 <= ph <= 180 ->
  (magnitude_of p r d ph sl ol y = None <-> (p = Saturn /\ (6.5 < ph \/ 729 < sl * ol)) \/ (p = Neptune /\ 1.9 < ph /\ y < 2000)).
Proof. exact magnitude_none. Qed.
Print Assumptions C95_unknown_partial.
Theorem C95_documented_cases_refuted : exists o q, q <> vzero /\ q <> o /\ vlength q * vlength (vsub q o) * cos (to_rad 0) = dot (vopp q) (vsub o q) /\
  planetary_magnitude 699 o (vsub q o) 2020 = Magnitude None.
Proof. exact saturn_pole_on. Qed.
Print Assumptions C95_documented_cases_refuted.
Example C95_ex : magnitude_function 5 = Some Jupiter /\ V3 3 4 0 <> vzero /\ V3 3 4 0 <> V3 0 1 0 /\ 0 < 5 /\
  exists m, magnitude_of Jupiter 5 4 10 0 0 2020 = Some m.
Proof.
  split; [reflexivity|]. split; [intros E; injection E; lra|]. split; [intros E; injection E; lra|]. split; [lra|].
  destruct (magnitude_of Jupiter 5 4 10 0 0 2020) as [m|] eqn:E; [exists m; reflexivity|].
  apply magnitude_none in E; [|lra|lra|lra]. destruct E as [[? _]|[? _]]; discriminate.
Qed.

(** * C96 *)
Theorem C96_phase_angle : forall target center sun, let q := vadd center target in target <> vzero -> q <> sun ->
  0 <= phase_angle target center sun <= PI /\
  vlength (vsub sun q) * vlength (vsub center q) * cos (phase_angle target center sun) = dot (vsub sun q) (vsub center q).
Proof. exact phase_ok. Qed.
Print Assumptions C96_phase_angle.
(** On every chord of the disc that runs towards the Sun's side, the part that the Sun
    reaches is the last [fraction] of it. *)
Theorem C96_lit_part : forall target center sun w x, target <> vzero -> vadd center target <> sun -> 0 < w -> - w < x < w ->
  let a := phase_angle target center sun in
  (0 <= x * sin a + sqrt (w * w - x * x) * cos a <-> w - 2 * w * fraction_illuminated target center sun <= x).
Proof. intros target center sun w x H1 H2 Hw Hx a. apply lit_chord; [apply (phase_ok target center sun H1 H2)|assumption|assumption]. Qed.
Print Assumptions C96_lit_part.
Theorem C96_fraction_range : forall target center sun, 0 <= fraction_illuminated target center sun <= 1.
Proof. exact fraction_ok. Qed.
Print Assumptions C96_fraction_range.
Theorem C96_full_and_new : forall t c s, t <> vzero -> vadd c t <> s ->
  (fraction_illuminated t c s = 1 <-> phase_angle t c s = 0) /\ (fraction_illuminated t c s = 0 <-> phase_angle t c s = PI).
Proof. exact fraction_full. Qed.
Print Assumptions C96_full_and_new.
Theorem C96_smaller_angle_more_light : forall t c s t' c' s', t <> vzero -> vadd c t <> s -> t' <> vzero -> vadd c' t' <> s' ->
  (fraction_illuminated t c s < fraction_illuminated t' c' s' <-> phase_angle t' c' s' < phase_angle t c s).
Proof. exact fraction_order. Qed.
Print Assumptions C96_smaller_angle_more_light.
Theorem C96_moon_node : forall p, moon_node_at p = true <-> 0 < vz p.
Proof. exact node_ok. Qed.
Print Assumptions C96_moon_node.
Example C96_ex : V3 1 0 0 <> vzero /\ vadd (V3 0 1 0) (V3 1 0 0) <> V3 1 5 0 /\ fraction_illuminated (V3 1 0 0) (V3 0 1 0) (V3 1 5 0) = / 2.
Proof.
  assert (N : V3 1 0 0 <> vzero) by (intros E; injection E; lra). assert (M : vadd (V3 0 1 0) (V3 1 0 0) <> V3 1 5 0) by (intros E; injection E; lra).
  split; [exact N|]. split; [exact M|]. destruct (phase_ok (V3 1 0 0) (V3 0 1 0) (V3 1 5 0) N M) as [_ C]. unfold fraction_illuminated.
  assert (Z : cos (phase_angle (V3 1 0 0) (V3 0 1 0) (V3 1 5 0)) = 0); [|rewrite Z; lra].
  set (k := cos _) in *. clearbody k. unfold vlength, dot, vsub, vadd in C. cbn in C.
  assert (P1 : 0 < sqrt ((1 - (0 + 1)) * (1 - (0 + 1)) + (5 - (1 + 0)) * (5 - (1 + 0)) + (0 - (0 + 0)) * (0 - (0 + 0)))) by (apply sqrt_lt_R0; lra).
  assert (P2 : 0 < sqrt ((0 - (0 + 1)) * (0 - (0 + 1)) + (1 - (1 + 0)) * (1 - (1 + 0)) + (0 - (0 + 0)) * (0 - (0 + 0)))) by (apply sqrt_lt_R0; lra).
  match type of P1 with _ < ?x => set (s1 := x) in * end. match type of P2 with _ < ?x => set (s2 := x) in * end. clearbody s1 s2.
  assert (E : s1 * s2 * k = 0) by lra. apply Rmult_integral in E. destruct E as [E|E]; [|exact E]. apply Rmult_integral in E. lra.
Qed.
