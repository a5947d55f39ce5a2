From Coq Require Import Reals Lra Lia List Bool.
From Verif Require Import Real_Math Real_Math_Proofs Vector_Model Vector_Proofs Vector_Proofs2 Geo_Model Geo_Spec Geo_Proofs Sky_Spec Sky_Model.
Open Scope R_scope.

(** ** Position angles *)
Lemma turn_norm c s x y : s * s + c * c = 1 -> (c * x + s * y) * (c * x + s * y) + (- s * x + c * y) * (- s * x + c * y) = x * x + y * y.
Proof. intros H. replace (x * x + y * y) with ((s * s + c * c) * (x * x + y * y)) by (rewrite H; ring). ring. Qed.
Lemma basis_norm lat lon q :
  dot (up lat lon) q * dot (up lat lon) q + dot (north lat lon) q * dot (north lat lon) q + dot (east lon) q * dot (east lon) q = dot q q.
Proof.
  destruct q as [x y z]. unfold dot, up, north, east. cbn.
  pose proof (turn_norm (cos lat) (sin lat) (cos lon * x + sin lon * y) z (sc2 lat)) as A.
  pose proof (turn_norm (cos lon) (sin lon) x y (sc2 lon)) as B. lra.
Qed.
Lemma up_unit lat lon : dot (up lat lon) (up lat lon) = 1.
Proof.
  unfold dot, up. cbn. pose proof (sc2 lat) as A. pose proof (sc2 lon) as B.
  replace (cos lat * cos lon * (cos lat * cos lon) + cos lat * sin lon * (cos lat * sin lon)) with (cos lat * cos lat * (sin lon * sin lon + cos lon * cos lon)) by ring.
  rewrite B. lra.
Qed.
Lemma bearing_ok lat1 lon1 lat2 lon2 : - (PI / 2) < lat2 < PI / 2 ->
  let th := rmod (atan2 (sin (lon2 - lon1)) (cos lat1 * tan lat2 - sin lat1 * cos (lon2 - lon1))) tau in
  0 <= th < tau /\ seen_at_bearing lat1 lon1 (up lat2 lon2) th.
Proof.
  intros H th. split; [apply rmod_bounds, tau_pos|].
  assert (C : 0 < cos lat2) by (apply cos_gt_0; lra).
  unfold th. clear th.
  set (y := sin (lon2 - lon1)). set (x := cos lat1 * tan lat2 - sin lat1 * cos (lon2 - lon1)).
  assert (N : dot (north lat1 lon1) (up lat2 lon2) = cos lat2 * x).
  { unfold x, dot, north, up, tan. cbn. rewrite cos_minus. field. lra. }
  assert (E : dot (east lon1) (up lat2 lon2) = cos lat2 * y).
  { unfold y, dot, east, up. cbn. rewrite sin_minus. ring. }
  clearbody x y. exists (cos lat2 * rho x y). split; [apply Rmult_le_pos; [lra|apply sqrt_pos]|]. split; [|split].
  - pose proof (basis_norm lat1 lon1 (up lat2 lon2)) as B. rewrite up_unit in B. pose proof (rho_sq x y) as Q. rewrite N, E in B.
    replace (cos lat2 * rho x y * (cos lat2 * rho x y)) with (cos lat2 * cos lat2 * (rho x y * rho x y)) by ring. rewrite Q. lra.
  - rewrite N, cos_rmod. destruct (Req_dec x 0) as [Ex|Nx]; [destruct (Req_dec y 0) as [Ey|Ny]|].
    + subst. unfold rho. replace (0 * 0 + 0 * 0) with 0 by ring. rewrite sqrt_0. ring.
    + destruct (atan2_spec y x (or_intror Ny)) as [A _]. rewrite Rmult_assoc, A. reflexivity.
    + destruct (atan2_spec y x (or_introl Nx)) as [A _]. rewrite Rmult_assoc, A. reflexivity.
  - rewrite E, sin_rmod. destruct (Req_dec x 0) as [Ex|Nx]; [destruct (Req_dec y 0) as [Ey|Ny]|].
    + subst. unfold rho. replace (0 * 0 + 0 * 0) with 0 by ring. rewrite sqrt_0. ring.
    + destruct (atan2_spec y x (or_intror Ny)) as [_ [A _]]. rewrite Rmult_assoc, A. reflexivity.
    + destruct (atan2_spec y x (or_introl Nx)) as [_ [A _]]. rewrite Rmult_assoc, A. reflexivity.
Qed.
Lemma sq3_zero a b c : a * a + b * b + c * c = 0 -> a = 0 /\ b = 0 /\ c = 0.
Proof. intros H. pose proof (Rle_0_sqr a). pose proof (Rle_0_sqr b). pose proof (Rle_0_sqr c). unfold Rsqr in *. repeat split; apply Rsqr_0_uniq; unfold Rsqr; lra. Qed.
Lemma bearing_unique lat lon q a b : unit_vector q -> q <> up lat lon -> q <> vopp (up lat lon) ->
  0 <= a < tau -> 0 <= b < tau -> seen_at_bearing lat lon q a -> seen_at_bearing lat lon q b -> a = b.
Proof.
  intros Uq N1 N2 Ha Hb (s & S0 & S2 & S3 & S4) (s' & T0 & T2 & T3 & T4).
  assert (s = s') by (apply Rsqr_inj; [assumption|assumption|unfold Rsqr; lra]). subst s'. unfold tau in *.
  assert (s <> 0).
  { intros ->. unfold unit_vector in Uq. assert (D : dot (up lat lon) q * dot (up lat lon) q = 1) by lra.
    pose proof (up_unit lat lon) as U. set (u := up lat lon) in *. clearbody u. clear - Uq N1 N2 D U.
    assert (D' : dot u q = 1 \/ dot u q = -1) by (assert ((dot u q - 1) * (dot u q + 1) = 0) as Z by lra; apply Rmult_integral in Z; lra).
    destruct D' as [D'|D'].
    - apply N1. destruct u as [u1 u2 u3], q as [q1 q2 q3]. unfold dot in *. cbn in *.
      assert ((u1 - q1) * (u1 - q1) + (u2 - q2) * (u2 - q2) + (u3 - q3) * (u3 - q3) = 0) by lra.
      destruct (sq3_zero _ _ _ H) as (? & ? & ?). f_equal; lra.
    - apply N2. destruct u as [u1 u2 u3], q as [q1 q2 q3]. unfold dot, vopp in *. cbn in *.
      assert ((u1 + q1) * (u1 + q1) + (u2 + q2) * (u2 + q2) + (u3 + q3) * (u3 + q3) = 0) by lra.
      destruct (sq3_zero _ _ _ H) as (? & ? & ?). f_equal; lra. }
  apply angle_unique; [apply Rmult_eq_reg_l with s; lra|apply Rmult_eq_reg_l with s; lra|lra].
Qed.

(** The two pairs with latitude and longitude found by their flags. *)
Lemma position_angle_by_flags p1 p2 lat1 lon1 lat2 lon2 :
  lat_and_lon p1 = (lat1, lon1) -> lat_and_lon p2 = (lat2, lon2) -> - (PI / 2) < a_radians lat2 < PI / 2 ->
  0 <= position_angle_of p1 p2 < tau /\
  seen_at_bearing (a_radians lat1) (eastward lon1) (up (a_radians lat2) (eastward lon2)) (position_angle_of p1 p2).
Proof. intros E1 E2 H. unfold position_angle_of. rewrite E1, E2. apply bearing_ok. assumption. Qed.

(** Azimuths turn to the right. *)
Lemma mirrored lat lon lat2 lon2 : dot (up lat (- lon)) (up lat2 (- lon2)) = dot (up lat lon) (up lat2 lon2) /\
  dot (north lat (- lon)) (up lat2 (- lon2)) = dot (north lat lon) (up lat2 lon2) /\
  dot (east (- lon)) (up lat2 (- lon2)) = - dot (east lon) (up lat2 lon2).
Proof. unfold dot, up, north, east. cbn. rewrite !cos_neg, !sin_neg. repeat split; ring. Qed.
Lemma opposite_bearing lat lon q b : seen_at_bearing lat lon q b <->
  exists s, 0 <= s /\ s * s = 1 - dot (up lat lon) q * dot (up lat lon) q /\ dot (north lat lon) q = s * cos b /\ dot (east lon) q = s * sin b.
Proof. reflexivity. Qed.
Definition ra_of (r : R) := {| a_radians := r; a_signed := false; a_hours := true |}.
Definition dec_of (r : R) := {| a_radians := r; a_signed := true; a_hours := false |}.
Definition az_of (r : R) := {| a_radians := r; a_signed := false; a_hours := false |}.
Lemma radec_bearing ra1 dec1 ra2 dec2 : - (PI / 2) < dec2 < PI / 2 ->
  let th := position_angle_of (ra_of ra1, dec_of dec1) (ra_of ra2, dec_of dec2) in
  0 <= th < tau /\ seen_at_bearing dec1 ra1 (up dec2 ra2) th.
Proof. intros H th. apply (bearing_ok dec1 ra1 dec2 ra2 H). Qed.
Lemma altaz_bearing alt1 az1 alt2 az2 : - (PI / 2) < alt2 < PI / 2 ->
  let th := position_angle_of (dec_of alt1, az_of az1) (dec_of alt2, az_of az2) in
  0 <= th < tau /\ seen_at_bearing alt1 az1 (up alt2 az2) (- th).
Proof.
  intros H th. destruct (bearing_ok alt1 (- az1) alt2 (- az2) H) as [A (s & S0 & S1 & S2 & S3)].
  change (position_angle_of _ _) with (rmod (atan2 (sin (- az2 - - az1)) (cos alt1 * tan alt2 - sin alt1 * cos (- az2 - - az1))) tau) in th.
  fold th in A, S2, S3. split; [exact A|]. destruct (mirrored alt1 az1 alt2 az2) as (M1 & M2 & M3). rewrite M1 in S1. rewrite M2 in S2. rewrite M3 in S3.
  exists s. rewrite cos_neg, sin_neg. repeat split; lra.
Qed.
Lemma latitude_choice (a b : sky_angle) : lat_and_lon (a, b) = if a_signed b then (b, a) else (a, b).
Proof. reflexivity. Qed.

(** ** Stereographic projection *)
Lemma unit_of_unit p u : unit_of p = Some u -> unit_vector u /\ u = smul (/ vlength p) p.
Proof.
  unfold unit_of. destruct (Req_EM_T (vlength p) 0) as [|N]; [discriminate|]. intros E. injection E as <-. split; [|reflexivity].
  unfold unit_vector. pose proof (vlength_sq p) as S. fold (dot p p) in S. replace (dot (smul (/ vlength p) p) (smul (/ vlength p) p)) with (/ vlength p * / vlength p * dot p p) by (unfold dot, smul; cbn; ring).
  rewrite <- S. field. assumption.
Qed.

Lemma unit_of_some p : p <> vzero -> unit_of p = Some (smul (/ vlength p) p).
Proof. intros H. apply vlength_ne in H. unfold unit_of. destruct (Req_EM_T (vlength p) 0); [lra|reflexivity]. Qed.
Lemma divide_some a b : b <> 0 -> divide a b = Some (a / b).
Proof. intros. unfold divide. destruct (Req_EM_T b 0); [contradiction|reflexivity]. Qed.
Lemma project_formula c p u : unit_vector c -> 0 < off_axis c -> unit_of p = Some u -> dot u c <> -1 ->
  project c p = Some (- dot (east_at c) u / (1 + dot u c), dot (north_at c) u / (1 + dot u c)).
Proof.
  intros Uc Hd Hu Hn. unfold project. rewrite Hu. unfold unit_vector, east_at, north_at, off_axis, cross, dot, smul in *. destruct c as [a b z], u as [x y w]. cbn in *. unfold off_axis in *. cbn in *.
  set (d := sqrt (a * a + b * b)) in *.
  assert (D2 : d * d = a * a + b * b) by (unfold d; apply sqrt_sqrt; pose proof (Rle_0_sqr a); pose proof (Rle_0_sqr b); unfold Rsqr in *; lra).
  assert (T2 : sqrt (- (z * z) + 1) = d) by (unfold d; f_equal; lra).
  rewrite divide_some by lra. rewrite T2.
  assert (E3 : x * a * (1 / d * d) + 1 / d * d * (y * b) + w * z + 1 = 1 + (x * a + y * b + w * z)) by (field; lra).
  rewrite E3. rewrite divide_some by lra. f_equal. f_equal; field_simplify_eq; try lra.
  replace (d ^ 2) with (d * d) by ring. rewrite D2. ring.
Qed.

(** The three directions at [c] are perpendicular and of length one. *)
Lemma basis_at c u : unit_vector c -> 0 < off_axis c ->
  u = vadd (smul (dot u c) c) (vadd (smul (dot (east_at c) u) (east_at c)) (smul (dot (north_at c) u) (north_at c))).
Proof.
  intros Uc Hd. assert (D2 : off_axis c * off_axis c = vx c * vx c + vy c * vy c).
  { unfold off_axis. apply sqrt_sqrt. pose proof (Rle_0_sqr (vx c)). pose proof (Rle_0_sqr (vy c)). unfold Rsqr in *. lra. }
  unfold unit_vector, north_at, east_at, cross, vadd, dot, smul in *. set (d := off_axis c) in *. clearbody d. destruct c as [a b z], u as [x y w]. cbn in *.
  assert (I : / d * / d * (a * a + b * b) = 1) by (rewrite <- D2; field; lra). set (i := / d) in *. clearbody i.
  assert (Z2 : z * z = 1 - (a * a + b * b)) by lra.
  f_equal.
  - assert (E : forall k, k * (i * i * (a * a + b * b)) = k) by (intros; rewrite I; ring).
    transitivity (x * (a * a + z * z * (a * a) * (i * i) + b * b * (i * i)) + y * (a * b - a * b * (i * i) + z * z * (a * b) * (i * i)) + w * (a * z - a * z * (i * i * (a * a + b * b)))); [|ring].
    rewrite Z2, I.
    replace (a * a + (1 - (a * a + b * b)) * (a * a) * (i * i) + b * b * (i * i)) with (a * a + i * i * (a * a + b * b) - a * a * (i * i * (a * a + b * b))) by ring.
    replace (a * b - a * b * (i * i) + (1 - (a * a + b * b)) * (a * b) * (i * i)) with (a * b - a * b * (i * i * (a * a + b * b))) by ring.
    rewrite I. ring.
  - transitivity (y * (b * b + z * z * (b * b) * (i * i) + a * a * (i * i)) + x * (a * b - a * b * (i * i) + z * z * (a * b) * (i * i)) + w * (b * z - b * z * (i * i * (a * a + b * b)))); [|ring].
    rewrite Z2, I.
    replace (b * b + (1 - (a * a + b * b)) * (b * b) * (i * i) + a * a * (i * i)) with (b * b + i * i * (a * a + b * b) - b * b * (i * i * (a * a + b * b))) by ring.
    replace (a * b - a * b * (i * i) + (1 - (a * a + b * b)) * (a * b) * (i * i)) with (a * b - a * b * (i * i * (a * a + b * b))) by ring.
    rewrite I. ring.
  - transitivity (x * (a * z - a * z * (i * i * (a * a + b * b))) + y * (b * z - b * z * (i * i * (a * a + b * b))) + w * (z * z + (a * a + b * b) * (i * i * (a * a + b * b)))); [|ring].
    rewrite I, Z2. ring.
Qed.
Lemma basis_dot c u v : unit_vector c -> 0 < off_axis c ->
  dot u v = dot u c * dot v c + dot (east_at c) u * dot (east_at c) v + dot (north_at c) u * dot (north_at c) v.
Proof.
  intros Uc Hd. rewrite (basis_at c u Uc Hd) at 1. set (e := east_at c). set (n := north_at c). clearbody e n. unfold dot, vadd, smul. cbn. ring.
Qed.
(** How far two plotted directions are from each other. *)
Lemma chord_formula q s e1 n1 q2 e2 n2 : 1 + q <> 0 -> 1 + q2 <> 0 ->
  q * q + e1 * e1 + n1 * n1 = 1 -> q2 * q2 + e2 * e2 + n2 * n2 = 1 -> s = q * q2 + e1 * e2 + n1 * n2 ->
  let dx := - e1 / (1 + q) - - e2 / (1 + q2) in let dy := n1 / (1 + q) - n2 / (1 + q2) in
  (dx * dx + dy * dy) * ((1 + q) * (1 + q2)) = 2 * (1 - s).
Proof.
  intros H1 H2 N1 N2 -> dx dy. unfold dx, dy. 
  assert (E1 : e1 * e1 + n1 * n1 = (1 - q) * (1 + q)) by lra. assert (E2 : e2 * e2 + n2 * n2 = (1 - q2) * (1 + q2)) by lra.
  transitivity ((e1 * e1 + n1 * n1) / (1 + q) * (1 + q2) + (e2 * e2 + n2 * n2) / (1 + q2) * (1 + q) - 2 * (e1 * e2 + n1 * n2)); [field; split; assumption|].
  rewrite E1, E2. field. split; assumption.
Qed.
Lemma project_chord c p1 p2 u1 u2 : unit_vector c -> 0 < off_axis c -> unit_of p1 = Some u1 -> unit_of p2 = Some u2 -> dot u1 c <> -1 -> dot u2 c <> -1 ->
  exists x1 y1 x2 y2, project c p1 = Some (x1, y1) /\ project c p2 = Some (x2, y2) /\
    ((x1 - x2) * (x1 - x2) + (y1 - y2) * (y1 - y2)) * ((1 + dot u1 c) * (1 + dot u2 c)) = 2 * (1 - dot u1 u2).
Proof.
  intros Uc Hd H1 H2 N1 N2. exists (- dot (east_at c) u1 / (1 + dot u1 c)), (dot (north_at c) u1 / (1 + dot u1 c)), (- dot (east_at c) u2 / (1 + dot u2 c)), (dot (north_at c) u2 / (1 + dot u2 c)).
  split; [apply project_formula; assumption|]. split; [apply project_formula; assumption|].
  destruct (unit_of_unit _ _ H1) as [U1 _]. destruct (unit_of_unit _ _ H2) as [U2 _].
  apply chord_formula; [lra|lra| | |].
  - rewrite <- (basis_dot c u1 u1 Uc Hd). exact U1.
  - rewrite <- (basis_dot c u2 u2 Uc Hd). exact U2.
  - apply basis_dot; assumption.
Qed.
(** Dot products of unit vectors. *)
Lemma dot_of_units u v : unit_vector u -> unit_vector v -> dot u v <= 1 /\ -1 <= dot u v /\ (dot u v = 1 -> u = v) /\ (dot u v = -1 -> u = vopp v).
Proof.
  unfold unit_vector. intros U V. destruct u as [u1 u2 u3], v as [v1 v2 v3]. unfold dot, vopp in *. cbn in *.
  pose proof (Rle_0_sqr (u1 - v1)) as A1. pose proof (Rle_0_sqr (u2 - v2)) as A2. pose proof (Rle_0_sqr (u3 - v3)) as A3.
  pose proof (Rle_0_sqr (u1 + v1)) as B1. pose proof (Rle_0_sqr (u2 + v2)) as B2. pose proof (Rle_0_sqr (u3 + v3)) as B3. unfold Rsqr in *.
  split; [lra|]. split; [lra|]. split; intros E.
  - destruct (sq3_zero (u1 - v1) (u2 - v2) (u3 - v3)) as (? & ? & ?); [lra|]. f_equal; lra.
  - destruct (sq3_zero (u1 + v1) (u2 + v2) (u3 + v3)) as (? & ? & ?); [lra|]. f_equal; lra.
Qed.
Lemma project_radius c p u : unit_vector c -> 0 < off_axis c -> unit_of p = Some u -> u <> vopp c ->
  exists x y, project c p = Some (x, y) /\ (x * x + y * y) * (1 + dot u c) = 1 - dot u c /\
    - x * (1 + dot u c) = dot (east_at c) u /\ y * (1 + dot u c) = dot (north_at c) u.
Proof.
  intros Uc Hd H N. destruct (unit_of_unit _ _ H) as [U _]. destruct (dot_of_units u c U Uc) as (_ & _ & _ & O).
  assert (Q : dot u c <> -1) by (intros E; apply N, O; assumption).
  exists (- dot (east_at c) u / (1 + dot u c)), (dot (north_at c) u / (1 + dot u c)). split; [apply project_formula; assumption|].
  pose proof (basis_dot c u u Uc Hd) as B. unfold unit_vector in U. rewrite U in B. set (q := dot u c) in *. set (e := dot (east_at c) u) in *. set (n := dot (north_at c) u) in *.
  clearbody q e n. assert (1 + q <> 0) by lra. repeat split; [|field; assumption|field; assumption].
  transitivity ((e * e + n * n) / (1 + q)); [field; assumption|]. replace (e * e + n * n) with ((1 - q) * (1 + q)) by lra. field. assumption.
Qed.
Lemma project_injective c p1 p2 u1 u2 : unit_vector c -> 0 < off_axis c -> unit_of p1 = Some u1 -> unit_of p2 = Some u2 -> u1 <> vopp c -> u2 <> vopp c ->
  project c p1 = project c p2 -> u1 = u2.
Proof.
  intros Uc Hd H1 H2 N1 N2 E. destruct (unit_of_unit _ _ H1) as [U1 _]. destruct (unit_of_unit _ _ H2) as [U2 _].
  assert (Q1 : dot u1 c <> -1) by (intros X; apply N1, (dot_of_units u1 c U1 Uc); assumption).
  assert (Q2 : dot u2 c <> -1) by (intros X; apply N2, (dot_of_units u2 c U2 Uc); assumption).
  destruct (project_chord c p1 p2 u1 u2 Uc Hd H1 H2 Q1 Q2) as (x1 & y1 & x2 & y2 & E1 & E2 & D). rewrite E1, E2 in E. injection E as -> ->.
  apply dot_of_units; [assumption|assumption|]. lra.
Qed.
Lemma project_direction c k p : 0 < k -> project c (smul k p) = project c p.
Proof.
  intros Hk. unfold project. assert (unit_of (smul k p) = unit_of p) as ->; [|reflexivity].
  unfold unit_of. rewrite smul_length, Rabs_right by lra. destruct (Req_EM_T (vlength p) 0) as [E|E].
  - destruct (Req_EM_T (k * vlength p) 0); [reflexivity|nra].
  - destruct (Req_EM_T (k * vlength p) 0) as [F|F]; [apply Rmult_integral in F; lra|]. f_equal. destruct p. unfold smul. cbn. f_equal; field; split; lra.
Qed.
(** Undefined exactly when the centre is on the axis of the coordinates, or the
    direction is opposite to it. *)
Lemma project_none c p u : unit_vector c -> unit_of p = Some u -> (project c p = None <-> off_axis c = 0 \/ u = vopp c).
Proof.
  intros Uc Hu. pose proof (unit_of_unit _ _ Hu) as [U _]. split.
  - intros N. destruct (Rle_lt_or_eq_dec 0 (off_axis c) (sqrt_pos _)) as [P|P]; [right|left; symmetry; assumption].
    destruct (Req_dec (dot u c) (-1)) as [Q|Q]; [apply dot_of_units; assumption|]. rewrite (project_formula c p u Uc P Hu Q) in N. discriminate.
  - intros [Z | -> ].
    + unfold project. rewrite Hu. destruct c, u. unfold off_axis in Z. cbn in Z. rewrite Z. unfold divide. destruct (Req_EM_T 0 0); [reflexivity|lra].
    + unfold project. rewrite Hu. destruct c as [a b z]. cbn. unfold divide at 1. destruct (Req_EM_T _ 0) as [|N]; [reflexivity|].
      unfold unit_vector, dot in Uc. cbn in Uc.
      set (d := sqrt (a * a + b * b)) in *. assert (T2 : sqrt (- (z * z) + 1) = d) by (unfold d; f_equal; lra). rewrite T2.
      unfold divide. destruct (Req_EM_T _ 0) as [|N2]; [reflexivity|]. exfalso. apply N2.
      transitivity (1 - (a * a + b * b + z * z)); [field; assumption|lra].
Qed.
Lemma center_ok p c : center_of_one p = Some c -> 0 < off_axis c -> project c p = Some (0, 0).
Proof.
  intros H Hd. destruct (unit_of_unit _ _ H) as [U _]. unfold unit_vector in U. rewrite (project_formula c p c U Hd H) by (rewrite U; lra).
  rewrite U. f_equal. assert (D : off_axis c <> 0) by lra. unfold north_at, east_at, cross, dot, smul. cbn. f_equal; field; assumption.
Qed.
Lemma center_unit ps c : center_of_many ps = Some c -> unit_vector c.
Proof. unfold center_of_many. destruct (units_of ps); [|discriminate]. intros H. apply (unit_of_unit _ _ H). Qed.

Lemma center_mean ps c : center_of_many ps = Some c -> exists us k, units_of ps = Some us /\ 0 < k /\ smul k c = vsum us.
Proof.
  unfold center_of_many. destruct (units_of ps) as [us|]; [|discriminate]. intros H. exists us.
  unfold unit_of in H. set (m := smul (/ INR (length us)) (vsum us)) in *. destruct (Req_EM_T (vlength m) 0) as [|N]; [discriminate|]. injection H as <-.
  assert (L : us <> nil). { intros ->. apply N. unfold m, vlength. cbn. rewrite !Rmult_0_r, !Rplus_0_l. apply sqrt_0. }
  assert (P : 0 < INR (length us)) by (destruct us; [contradiction|apply lt_0_INR; cbn; lia]).
  assert (V : 0 < vlength m) by (destruct (Rle_lt_or_eq_dec _ _ (sqrt_pos _ : 0 <= vlength m)); [assumption|congruence]).
  exists (INR (length us) * vlength m). split; [reflexivity|]. split; [apply Rmult_lt_0_compat; assumption|].
  set (v := vlength m) in *. clearbody v. unfold m. destruct (vsum us) as [x y z]. unfold smul. cbn [vx vy vz]. f_equal; field; split; lra.
Qed.
Lemma units_spec ps us : units_of ps = Some us <-> Forall2 (fun p u => unit_of p = Some u) ps us.
Proof.
  revert us. induction ps as [|p r IH]; intros us; cbn.
  - split; [intros E; injection E as <-; constructor|intros F; inversion F; reflexivity].
  - split.
    + destruct (unit_of p) eqn:P; [|discriminate]. destruct (units_of r) eqn:Q; [|discriminate]. intros E. injection E as <-. constructor; [assumption|apply IH; reflexivity].
    + intros F. inversion F as [|? u ? us' A B]; subst. rewrite A. apply IH in B. rewrite B. reflexivity.
Qed.
(** At the place [lat], [lon] of the sphere. *)
Lemma local_axes lat lon : - (PI / 2) < lat < PI / 2 -> off_axis (up lat lon) = cos lat /\ east_at (up lat lon) = east lon /\ north_at (up lat lon) = north lat lon.
Proof.
  intros H. assert (C : 0 < cos lat) by (apply cos_gt_0; lra).
  assert (O : off_axis (up lat lon) = cos lat).
  { unfold off_axis, up. cbn. rewrite <- (sqrt_square (cos lat)) at 5 by lra. f_equal. pose proof (sc2 lon) as Q.
    replace (cos lat * cos lon * (cos lat * cos lon) + cos lat * sin lon * (cos lat * sin lon)) with (cos lat * cos lat * (sin lon * sin lon + cos lon * cos lon)) by ring. rewrite Q. ring. }
  assert (E : east_at (up lat lon) = east lon) by (unfold east_at; rewrite O; unfold east, smul, up; cbn; f_equal; field; lra).
  split; [assumption|]. split; [assumption|]. unfold north_at. rewrite E. unfold cross, up, east, north. cbn. f_equal; [ring|ring|].
  pose proof (sc2 lon) as Q. replace (cos lat * cos lon * cos lon - cos lat * sin lon * - sin lon) with (cos lat * (sin lon * sin lon + cos lon * cos lon)) by ring. rewrite Q. ring.
Qed.
Lemma project_bearing lat lon p u b : - (PI / 2) < lat < PI / 2 -> unit_of p = Some u -> u <> vopp (up lat lon) -> seen_at_bearing lat lon u b ->
  exists t, 0 <= t /\ t * t = (1 - dot u (up lat lon)) / (1 + dot u (up lat lon)) /\ project (up lat lon) p = Some (- t * sin b, t * cos b).
Proof.
  intros H Hu Hn (s & S0 & S1 & S2 & S3). destruct (local_axes lat lon H) as (O & E & N). assert (C : 0 < cos lat) by (apply cos_gt_0; lra).
  pose proof (up_unit lat lon) as Uc. destruct (unit_of_unit _ _ Hu) as [U _]. destruct (dot_of_units u (up lat lon) U Uc) as (_ & G & _ & D).
  assert (Q : dot u (up lat lon) <> -1) by (intros X; apply Hn, D; assumption).
  rewrite (project_formula (up lat lon) p u Uc ltac:(rewrite O; assumption) Hu Q), E, N, S2, S3. rewrite (dot_sym (up lat lon) u) in S1.
  set (q := dot u (up lat lon)) in *. clearbody q. exists (s / (1 + q)). split; [apply Rmult_le_pos; [assumption|apply Rlt_le, Rinv_0_lt_compat; lra]|]. split.
  - replace (s / (1 + q) * (s / (1 + q))) with (s * s / ((1 + q) * (1 + q))) by (field; lra). rewrite S1. field. lra.
  - f_equal. f_equal; field; lra.
Qed.
