From Coq Require Import Reals Lra Lia Psatz.
From Verif Require Import Real_Math Real_Math_Proofs Vector_Model Vector_Proofs Vector_Proofs2 Geo_Model Geo_Spec Geo_Proofs.
Open Scope R_scope.

(** * Rays and spheres *)
Lemma sq3 a b c : 0 <= a * a + b * b + c * c.
Proof. pose proof (Rle_0_sqr a). pose proof (Rle_0_sqr b). pose proof (Rle_0_sqr c). unfold Rsqr in *. lra. Qed.
Lemma sqrt_le_iff a r : 0 <= a -> 0 <= r -> (sqrt a <= r <-> a <= r * r).
Proof.
  intros Ha Hr. pose proof (sqrt_pos a). pose proof (sqrt_sqrt a Ha). split; intros; nra.
Qed.
Lemma chord e c rad near far k : e <> vzero -> 0 <= rad ->
  intersect_line_and_sphere e c rad = Some (near, far) ->
  (in_ball (smul k e) c rad <-> near <= k * vlength e <= far) /\ near <= far.
Proof.
  intros He Hr H. pose proof (vlength_ne e He) as L. unfold intersect_line_and_sphere in H.
  set (mb := 2 * dot (smul (/ vlength e) e) c) in *. set (cc := dot c c - rad * rad) in *.
  destruct (Rlt_dec (mb * mb - 4 * cc) 0) as [N|N]; [discriminate|]. injection H as <- <-.
  pose proof (sqrt_pos (mb * mb - 4 * cc)) as P. pose proof (sqrt_sqrt (mb * mb - 4 * cc) ltac:(lra)) as S1. set (ds := sqrt (mb * mb - 4 * cc)) in *.
  split; [|lra]. unfold in_ball, vlength at 1. rewrite sqrt_le_iff; [|apply sq3|assumption].
  pose proof (vlength_sq e) as Se. set (l := vlength e) in *.
  assert (Hmb : mb * l = 2 * dot e c). { unfold mb. replace (dot (smul (/ l) e) c) with (/ l * dot e c) by (unfold dot; cbn; ring). field. lra. }
  assert (Q : vx (vsub (smul k e) c) * vx (vsub (smul k e) c) + vy (vsub (smul k e) c) * vy (vsub (smul k e) c) + vz (vsub (smul k e) c) * vz (vsub (smul k e) c) - rad * rad
              = (k * l) * (k * l) - mb * (k * l) + cc).
  { replace (mb * (k * l)) with (k * (mb * l)) by ring. rewrite Hmb. replace (k * l * (k * l)) with (k * k * (l * l)) by ring. rewrite Se. unfold cc, dot. cbn. ring. }
  match type of Q with ?a - _ = _ => set (q := a) in * end. set (x := k * l) in *.
  assert (E : q - rad * rad = (x - (mb - ds) / 2) * (x - (mb + ds) / 2)) by (rewrite Q; nra).
  split; intros.
  - split; nra.
  - nra.
Qed.
Lemma no_chord e c rad k : e <> vzero -> 0 <= rad -> intersect_line_and_sphere e c rad = None -> ~ in_ball (smul k e) c rad.
Proof.
  intros He Hr H. pose proof (vlength_ne e He) as L. unfold intersect_line_and_sphere in H.
  set (mb := 2 * dot (smul (/ vlength e) e) c) in *. set (cc := dot c c - rad * rad) in *.
  destruct (Rlt_dec (mb * mb - 4 * cc) 0) as [N|N]; [|discriminate].
  unfold in_ball, vlength at 1. rewrite sqrt_le_iff; [|apply sq3|assumption].
  pose proof (vlength_sq e) as Se. set (l := vlength e) in *.
  assert (Hmb : mb * l = 2 * dot e c). { unfold mb. replace (dot (smul (/ l) e) c) with (/ l * dot e c) by (unfold dot; cbn; ring). field. lra. }
  assert (Q : vx (vsub (smul k e) c) * vx (vsub (smul k e) c) + vy (vsub (smul k e) c) * vy (vsub (smul k e) c) + vz (vsub (smul k e) c) * vz (vsub (smul k e) c) - rad * rad
              = (k * l) * (k * l) - mb * (k * l) + cc).
  { replace (mb * (k * l)) with (k * (mb * l)) by ring. rewrite Hmb. replace (k * l * (k * l)) with (k * k * (l * l)) by ring. rewrite Se. unfold cc, dot. cbn. ring. }
  match type of Q with ?a - _ = _ => set (q := a) in * end. set (x := k * l) in *. intros Hq. pose proof (Rle_0_sqr (x - mb / 2)) as Hs. unfold Rsqr in Hs. lra.
Qed.
Lemma ball_shift o d k rad : in_ball (vadd o (smul k d)) vzero rad <-> in_ball (smul k d) (vopp o) rad.
Proof.
  unfold in_ball. replace (vsub (vadd o (smul k d)) vzero) with (vsub (smul k d) (vopp o)); [tauto|]. vring.
Qed.
Lemma sunlit_ok satellite sun rad : 0 <= rad -> sun <> satellite ->
  (is_sunlit satellite sun rad = true <-> forall k, 0 < k -> ~ in_ball (vadd satellite (smul k (vsub sun satellite))) vzero rad).
Proof.
  intros Hr Hne. set (d := vsub sun satellite).
  assert (Hd : d <> vzero). { intros E. apply Hne. unfold d in E. destruct sun, satellite. unfold vsub, vzero in E. cbn in E. injection E as E1 E2 E3. f_equal; lra. }
  unfold is_sunlit. replace (vadd sun (vopp satellite)) with d by (unfold d; vring).
  destruct (intersect_line_and_sphere d (vopp satellite) rad) as [[near far]|] eqn:E; cbn [option_map nan_to_num fst snd].
  - pose proof (vlength_ne d Hd) as L. destruct (Rle_dec far 0) as [F|F].
    + split; [intros _ k Hk Hb|reflexivity]. apply ball_shift in Hb. apply (chord d _ rad near far k Hd Hr E) in Hb. nra.
    + split; [discriminate|]. intros H. exfalso. apply (H (far / vlength d)).
      * apply Rdiv_lt_0_compat; lra.
      * apply ball_shift. apply (chord d _ rad near far _ Hd Hr E). pose proof (proj2 (chord d _ rad near far 0 Hd Hr E)).
        replace (far / vlength d * vlength d) with far by (field; lra). lra.
  - destruct (Rle_dec 0 0); [|lra]. split; [intros _ k Hk Hb|reflexivity]. apply ball_shift in Hb. revert Hb. apply (no_chord d _ rad k Hd Hr E).
Qed.
Lemma behind_ok observer target rad : 0 <= rad -> target <> vzero ->
  (is_behind_earth observer target rad = true <-> exists k, 0 < k < 1 /\ in_ball (vadd observer (smul k target)) vzero rad).
Proof.
  intros Hr Hd. pose proof (vlength_ne target Hd) as L. unfold is_behind_earth.
  destruct (intersect_line_and_sphere target (vopp observer) rad) as [[near far]|] eqn:E; cbn [option_map nan_to_num fst snd].
  - pose proof (proj2 (chord target _ rad near far 0 Hd Hr E)) as NF. split.
    + intros H. destruct (Rlt_dec 0 far) as [F|]; [|discriminate]. destruct (Rlt_dec near (vlength target)) as [N|]; [|discriminate].
      set (x := if Rlt_dec 0 near then near else Rmin far (vlength target / 2)).
      assert (X : 0 < x < vlength target /\ near <= x <= far).
      { unfold x. destruct (Rlt_dec 0 near); [lra|]. unfold Rmin. destruct (Rle_dec far (vlength target / 2)); lra. }
      exists (x / vlength target). assert (Ex : x / vlength target * vlength target = x) by (field; lra). split.
      * split; [apply Rdiv_lt_0_compat; lra|]. apply Rmult_lt_reg_r with (vlength target); lra.
      * apply ball_shift. apply (chord target _ rad near far _ Hd Hr E). rewrite Ex. lra.
    + intros (k & Hk & Hb). apply ball_shift in Hb. apply (chord target _ rad near far _ Hd Hr E) in Hb.
      destruct (Rlt_dec 0 far); [|nra]. destruct (Rlt_dec near (vlength target)); [reflexivity|nra].
  - split.
    + destruct (Rlt_dec 0 0); [lra|discriminate].
    + intros (k & Hk & Hb). exfalso. apply ball_shift in Hb. revert Hb. apply (no_chord target _ rad k Hd Hr E).
Qed.

(** * Lines and ellipsoids *)
Lemma on_ellipsoid_scaled s d radii k : vx radii <> 0 -> vy radii <> 0 -> vz radii <> 0 ->
  let a := dot (vdiv d radii) (vdiv d radii) in let b := dot (vdiv s radii) (vdiv d radii) in let c := dot (vdiv s radii) (vdiv s radii) in
  on_ellipsoid (vadd s (smul k d)) radii <-> a * (k * k) + 2 * b * k + c = 1.
Proof.
  intros H1 H2 H3 a b c. unfold on_ellipsoid, a, b, c, dot. cbn.
  assert (E : forall x y, (vx s + k * vx d) / x * y = (vx s + k * vx d) / x * y) by reflexivity. clear E.
  match goal with |- ?l = 1 <-> ?r = 1 => replace l with r; [tauto|] end. field. auto.
Qed.
Lemma ellipsoid_ok s d radii : 0 < vx radii -> 0 < vy radii -> 0 < vz radii -> d <> vzero ->
  match line_and_ellipsoid_intersection s d radii with
  | Some p => exists k, 0 <= k /\ p = vadd s (smul k d) /\ on_ellipsoid p radii /\
                        forall k', 0 <= k' < k -> ~ on_ellipsoid (vadd s (smul k' d)) radii
  | None => forall k, 0 <= k -> ~ on_ellipsoid (vadd s (smul k d)) radii
  end.
Proof.
  intros H1 H2 H3 Hd. unfold line_and_ellipsoid_intersection.
  set (st := vdiv s radii). set (dr := vdiv d radii).
  assert (Hdr : dr <> vzero).
  { intros E. apply Hd. unfold dr, vdiv, vzero in E. injection E as E1 E2 E3. destruct d as [x y z]. cbn in *. unfold vzero.
    assert (forall u v, 0 < v -> u / v = 0 -> u = 0). { intros u v Hv Hu. replace u with (u / v * v) by (field; lra). rewrite Hu. ring. }
    f_equal; eauto. }
  pose proof (vlength_ne dr Hdr) as L. pose proof (vlength_sq dr) as Sd. fold (dot dr dr) in Sd.
  pose proof (vlength_sq st) as Ss. fold (dot st st) in Ss. pose proof (vlength_pos st) as Ps.
  set (A := dot dr dr) in *. set (B := dot st dr). set (C := dot st st) in *. set (l := vlength dr) in *.
  assert (HA : 0 < A) by nra.
  set (cp := vsub st (vector_projection st dr)).
  pose proof (vlength_sq cp) as Sc. pose proof (vlength_pos cp) as Pc.
  assert (Ecp : vlength cp * vlength cp * A = A * C - B * B).
  { rewrite Sc. unfold cp, vector_projection. fold A B. set (q := B / A). assert (Hq : q * A = B) by (unfold q; field; lra).
    transitivity ((C - 2 * q * B + q * q * A) * A); [f_equal; unfold C, B, A, dot; cbn; ring|]. rewrite <- Hq. ring. }
  pose proof (fun k => on_ellipsoid_scaled s d radii k ltac:(lra) ltac:(lra) ltac:(lra)) as Q. cbv zeta in Q. fold st dr A B C in Q.
  assert (Edot : dot (vsub cp st) dr = - B).
  { unfold cp, vector_projection. fold A B. set (q := B / A). assert (Hq : q * A = B) by (unfold q; field; lra). rewrite <- Hq. unfold A, dot. cbn. ring. }
  rewrite Edot. destruct (Req_EM_T (vlength st) 1) as [E1|N1].
  - exists 0. split; [lra|]. split; [vring|]. split; [|intros; lra].
    replace s with (vadd s (smul 0 d)) by vring. apply Q. rewrite <- Ss, E1. ring.
  - set (P := 1 - vlength cp * vlength cp) in *. assert (EP : P * A = A - A * C + B * B) by (unfold P; nra).
    assert (Eq : forall k, A * (A * (k * k) + 2 * B * k + C - 1) = (A * k + B) * (A * k + B) - P * A) by (intros; nra).
    assert (Qn : forall k, P < 0 -> ~ on_ellipsoid (vadd s (smul k d)) radii).
    { intros k Hk Ho. apply Q in Ho. specialize (Eq k). replace (A * (k * k) + 2 * B * k + C - 1) with 0 in Eq by lra. pose proof (Rle_0_sqr (A * k + B)) as Hs. unfold Rsqr in Hs. assert (P * A < 0) by (clearbody P; nra). lra. }
    assert (Ep : forall g, vmul (vadd cp (smul g (smul (/ l) dr))) radii = vadd s (smul (g / l - B / A) d)).
    { intros g. unfold cp, vector_projection. fold A B. unfold st, dr. apply vec_ext; cbn; field; lra. }
    destruct (Rlt_dec P 0) as [Hn|Hn].
    { destruct (Rlt_dec (vlength st) 1) as [I|I]; [|destruct (Rlt_dec (- B) 0)]; intros k Hk; apply Qn; assumption. }
    pose proof (sqrt_pos P) as HP. pose proof (sqrt_sqrt P ltac:(lra)) as HS. set (h := sqrt P) in *.
    (* roots: A k + B = +- h l *)
    assert (Root : forall k, on_ellipsoid (vadd s (smul k d)) radii <-> (A * k + B = h * l \/ A * k + B = - (h * l))).
    { intros k. rewrite (Q k). specialize (Eq k). assert (E2 : (A * k + B) * (A * k + B) - P * A = (A * k + B - h * l) * (A * k + B + h * l)) by (rewrite <- HS, <- Sd; ring).
      rewrite E2 in Eq. split.
      - intros E. replace (A * (k * k) + 2 * B * k + C - 1) with 0 in Eq by lra. rewrite Rmult_0_r in Eq. symmetry in Eq. apply Rmult_integral in Eq. destruct Eq; [left|right]; lra.
      - intros E. assert (Z : A * (A * (k * k) + 2 * B * k + C - 1) = 0) by (destruct E as [E|E]; rewrite Eq, E; ring). apply Rmult_integral in Z. lra. }
    assert (Hhl : 0 <= h * l) by nra.
    assert (Ehl : (h * l) * (h * l) = A - A * C + B * B) by (rewrite <- EP, <- HS, <- Sd; ring).
    assert (Val : forall g, A * (g / l - B / A) + B = g * l). { intros g. transitivity (A * g / l); [field; lra|]. rewrite <- Sd. field. lra. }
    destruct (Rlt_dec (vlength st) 1) as [I|I].
    + assert (HC : C < 1) by nra.
      assert (HB : - (h * l) < B < h * l). { assert (B * B < (h * l) * (h * l)) by nra. clear - H Hhl. set (y := h * l) in *. split; nra. }
      rewrite Ep. pose proof (Val (1 * h)) as V1. set (k := 1 * h / l - B / A) in *. clearbody k.
      assert (Hk : 0 <= k) by (apply Rmult_le_reg_l with A; lra). exists k. split; [assumption|split; [reflexivity|split]].
      * apply Root. left. lra.
      * intros k' Hk' Ho. apply Root in Ho. assert (A * k' < A * k) by (apply Rmult_lt_compat_l; lra). assert (0 <= A * k') by (apply Rmult_le_pos; lra). destruct Ho; lra.
    + assert (HC : 1 < C) by (destruct (Rtotal_order (vlength st) 1) as [?|[?|?]]; [lra|lra|nra]). assert (HB : (h * l) * (h * l) < B * B) by nra.
      destruct (Rlt_dec (- B) 0) as [Bh|Bh].
      * intros k Hk Ho. apply Root in Ho. assert (h * l < B) by (clear - HB Bh Hhl; set (y := h * l) in *; nra). assert (0 <= A * k) by (apply Rmult_le_pos; lra). destruct Ho; lra.
      * assert (HB2 : h * l < - B) by (clear - HB Bh Hhl; set (y := h * l) in *; nra).
        rewrite Ep. pose proof (Val (-1 * h)) as V1. set (k := -1 * h / l - B / A) in *. clearbody k.
        assert (Hk : 0 <= k) by (apply Rmult_le_reg_l with A; lra). exists k. split; [assumption|split; [reflexivity|split]].
        -- apply Root. right. lra.
        -- intros k' Hk' Ho. apply Root in Ho. assert (A * k' < A * k) by (apply Rmult_lt_compat_l; lra). destruct Ho; lra.
Qed.

(** * Horizon coordinates *)
Lemma R_latlon_rows lat lon v : mxv (R_latlon lat lon) v = V3 (dot (north lat lon) v) (dot (east lon) v) (dot (up lat lon) v).
Proof. apply vec_ext; gsimp; rewrite ?cos_neg, ?sin_neg; ring. Qed.
Lemma R_latlon_orth lat lon : orthogonal (R_latlon lat lon).
Proof.
  unfold R_latlon. apply orth_mxm; [|apply rot_ok]. pose proof (sc2 lat) as H. set (s1 := sin lat) in *. set (c := cos lat) in *.
  split; apply mat_ext; apply vec_ext; unfold R_lat, rot_y; fold s1 c; gsimp; lra.
Qed.
Lemma altaz_ok lat lon p alt az r : altaz lat lon p = (alt, az, r) ->
  r = vlength p /\ - (PI / 2) <= alt <= PI / 2 /\ 0 <= az < tau /\
  p = smul r (vadd (smul (cos alt * cos az) (north lat lon)) (vadd (smul (cos alt * sin az) (east lon)) (smul (sin alt) (up lat lon)))).
Proof.
  unfold altaz. destruct (to_spherical (mxv (R_latlon lat lon) p)) as [[r' t] f] eqn:E. intros H. injection H as <- <- <-.
  apply spherical_back in E as (E & Er & Ht & Hf). rewrite orth_length in Er by apply R_latlon_orth. split; [assumption|]. split; [assumption|]. split; [assumption|].
  assert (P : p = mxv (transp (R_latlon lat lon)) (from_spherical r' t f)).
  { rewrite E, <- mxv_mxm, (proj2 (R_latlon_orth lat lon)), mxv_id. reflexivity. }
  rewrite P. apply vec_ext; gsimp; rewrite ?cos_neg, ?sin_neg; ring.
Qed.
Lemma atan2_10 : atan2 1 0 = PI / 2.
Proof. unfold atan2. destruct (Rlt_dec 0 0); [lra|]. destruct (Rlt_dec 0 1); lra. Qed.
Lemma hypot_pos x : 0 <= x -> hypot x 0 = x.
Proof. intros. unfold hypot. replace (x * x + 0 * 0) with (x * x) by ring. apply sqrt_square. assumption. Qed.
Lemma atan2_pos_0 x : 0 <= x -> atan2 0 x = 0.
Proof. intros H. unfold atan2. destruct (Rlt_dec 0 x); [replace (0 / x) with 0 by (field; lra); apply atan_0|]. destruct (Rlt_dec x 0); [lra|]. destruct (Rlt_dec 0 0); lra. Qed.
Lemma rmod_0 : rmod 0 tau = 0. Proof. apply rmod_id. pose proof tau_pos. lra. Qed.
Lemma sph_1 c s t : 0 <= c -> c = cos t -> s = sin t -> - (PI / 2) <= t <= PI / 2 -> to_spherical (V3 c 0 s) = (1, t, 0).
Proof.
  intros Hc -> -> Ht. pose proof PI_RGT_0. pose proof (sc2 t) as H1. unfold to_spherical. cbn [vx vy vz]. rewrite hypot_pos by assumption. rewrite (atan2_pos_0 (cos t)) by assumption. rewrite rmod_0.
  f_equal. f_equal.
  - unfold vlength. cbn. replace (_ + _ + _) with 1 by lra. apply sqrt_1.
  - rewrite <- (Rmult_1_l (sin t)), <- (Rmult_1_l (cos t)). apply atan2_polar; lra.
Qed.
Lemma vec_e lat lon : mxv (R_latlon lat lon) (up lat lon) = V3 0 0 1 /\ mxv (R_latlon lat lon) (north lat lon) = V3 1 0 0 /\ mxv (R_latlon lat lon) (east lon) = V3 0 1 0.
Proof.
  rewrite !R_latlon_rows. pose proof (sc2 lat) as H1. pose proof (sc2 lon) as H2.
  split; [|split]; apply vec_ext; unfold up, north, east, dot; cbn [vx vy vz]; set (a := sin lat) in *; set (b := cos lat) in *; set (c := sin lon) in *; set (d := cos lon) in *; clearbody a b c d.
  all: try ring.
  - transitivity (b * a * (1 - (c * c + d * d))); [ring|rewrite H2; ring].
  - transitivity (b * b * (c * c + d * d) + a * a); [ring|rewrite H2; lra].
  - transitivity (a * a * (c * c + d * d) + b * b); [ring|rewrite H2; lra].
  - transitivity (b * a * (1 - (c * c + d * d))); [ring|rewrite H2; ring].
  - lra.
Qed.
Lemma horizon_ok lat lon : - (PI / 2) <= lat <= PI / 2 ->
  (exists az, altaz lat lon (up lat lon) = (PI / 2, az, 1)) /\
  altaz lat lon (V3 0 0 1) = (lat, 0, 1) /\
  altaz lat lon (east lon) = (0, PI / 2, 1) /\
  altaz lat lon (north lat lon) = (0, 0, 1).
Proof.
  intros Hl. pose proof PI_RGT_0. destruct (vec_e lat lon) as (Eu & En & Ee). unfold altaz. rewrite Eu, En, Ee. split; [|split; [|split]].
  - exists 0. rewrite (sph_1 0 1 (PI / 2)); [reflexivity|lra|rewrite cos_PI2; reflexivity|rewrite sin_PI2; reflexivity|lra].
  - replace (mxv (R_latlon lat lon) (V3 0 0 1)) with (V3 (cos lat) 0 (sin lat)). 2: { rewrite R_latlon_rows. apply vec_ext; gsimp; ring. }
    rewrite (sph_1 _ _ lat); [reflexivity|apply cos_ge_0; lra|reflexivity|reflexivity|assumption].
  - unfold to_spherical. cbn [vx vy vz]. rewrite atan2_10. assert (hypot 0 1 = 1) as -> by (unfold hypot; replace (0 * 0 + 1 * 1) with 1 by ring; apply sqrt_1).
    rewrite atan2_pos_0 by lra. rewrite rmod_id by (unfold tau; lra). unfold vlength. cbn. replace (0 * 0 + 1 * 1 + 0 * 0) with 1 by ring. rewrite sqrt_1. reflexivity.
  - rewrite (sph_1 1 0 0); [reflexivity|lra|rewrite cos_0; reflexivity|rewrite sin_0; reflexivity|lra].
Qed.
Lemma altaz_back lat lon p : let '(alt, az, r) := altaz lat lon p in from_altaz lat lon alt az r = p.
Proof.
  unfold altaz. destruct (to_spherical _) as [[r alt] az] eqn:E. apply spherical_back in E as (E & _). unfold from_altaz. rewrite E, <- mxv_mxm, (proj2 (R_latlon_orth lat lon)), mxv_id. reflexivity.
Qed.
Lemma hadec_ok lon p ha dec r : hadec lon p = (ha, dec, r) ->
  r = vlength p /\ - (PI / 2) <= dec <= PI / 2 /\ - PI <= ha < PI /\ p = from_spherical r dec (lon - ha).
Proof.
  unfold hadec. destruct (to_spherical p) as [[r' d] f] eqn:E. intros H. injection H as <- <- <-. apply spherical_back in E as (E & Er & Hd & Hf).
  split; [assumption|]. split; [assumption|]. split.
  - pose proof (rmod_bounds (lon - f + PI) tau tau_pos). unfold tau in *. lra.
  - rewrite <- E. destruct (rmod_shift (lon - f + PI) tau) as [k ->]. unfold from_spherical.
    replace (lon - (lon - f + PI + tau * IZR k - PI)) with (f + tau * IZR (- k)) by (rewrite opp_IZR; ring). rewrite cos_tau, sin_tau. reflexivity.
Qed.

(** * Rotating frames *)
Lemma mderiv_mxv f t D p v : mderiv f t D -> vderiv p t v ->
  vderiv (fun s => mxv (f s) (p s)) t (vadd (mxv (f t) v) (mxv D (p t))).
Proof.
  assert (Row : forall (g q : R -> vec) dg dq, vderiv g t dg -> vderiv q t dq ->
    derivable_pt_lim (fun s => dot (g s) (q s)) t (dot (g t) dq + dot dg (q t))).
  { intros g q dg dq (G1 & G2 & G3) (Q1 & Q2 & Q3). unfold dot.
    replace (_ + _) with ((vx dg * vx (q t) + vx (g t) * vx dq) + (vy dg * vy (q t) + vy (g t) * vy dq) + (vz dg * vz (q t) + vz (g t) * vz dq)) by ring.
    apply (derivable_pt_lim_plus (fun s => vx (g s) * vx (q s) + vy (g s) * vy (q s)) (fun s => vz (g s) * vz (q s))).
    - apply (derivable_pt_lim_plus (fun s => vx (g s) * vx (q s)) (fun s => vy (g s) * vy (q s))).
      + apply (derivable_pt_lim_mult (fun s => vx (g s)) (fun s => vx (q s))); assumption.
      + apply (derivable_pt_lim_mult (fun s => vy (g s)) (fun s => vy (q s))); assumption.
    - apply (derivable_pt_lim_mult (fun s => vz (g s)) (fun s => vz (q s))); assumption. }
  intros (F1 & F2 & F3) Hp. split; [|split]; cbn.
  - apply (Row (fun s => r1 (f s))); assumption.
  - apply (Row (fun s => r2 (f s))); assumption.
  - apply (Row (fun s => r3 (f s))); assumption.
Qed.
(** The rotation by a uniformly growing angle, between two constant matrices. *)
Lemma dlin f t a b : derivable_pt_lim f t a -> a = b -> derivable_pt_lim f t b.
Proof. intros H <-. assumption. Qed.
Lemma dtrig g w t :
  derivable_pt_lim (fun s => cos (g + w * s)) t (- w * sin (g + w * t)) /\
  derivable_pt_lim (fun s => sin (g + w * s)) t (w * cos (g + w * t)).
Proof.
  assert (L : derivable_pt_lim (fun s => g + w * s) t w).
  { eapply dlin; [apply (derivable_pt_lim_plus (fun _ => g) (fun s => w * s)); [apply derivable_pt_lim_const|apply (derivable_pt_lim_scal id w t 1), derivable_pt_lim_id]|]. ring. }
  split.
  - eapply dlin; [apply (derivable_pt_lim_comp (fun s => g + w * s) cos); [exact L|apply derivable_pt_lim_cos]|]. ring.
  - eapply dlin; [apply (derivable_pt_lim_comp (fun s => g + w * s) sin); [exact L|apply derivable_pt_lim_sin]|]. ring.
Qed.
Lemma dcomb a b c g w t :
  derivable_pt_lim (fun s => a * cos (g + w * s) + b * sin (g + w * s) + c) t (a * (- w * sin (g + w * t)) + b * (w * cos (g + w * t))).
Proof.
  destruct (dtrig g w t) as [Dc Ds]. eapply dlin.
  - apply (derivable_pt_lim_plus (fun s => a * cos (g + w * s) + b * sin (g + w * s)) (fun _ => c)); [|apply derivable_pt_lim_const].
    apply (derivable_pt_lim_plus (fun s => a * cos (g + w * s)) (fun s => b * sin (g + w * s))).
    + apply (derivable_pt_lim_scal (fun s => cos (g + w * s))). exact Dc.
    + apply (derivable_pt_lim_scal (fun s => sin (g + w * s))). exact Ds.
  - ring.
Qed.
Lemma dext f h t d : (forall s, f s = h s) -> derivable_pt_lim f t d -> derivable_pt_lim h t d.
Proof. intros E H e He. destruct (H e He) as [del Hd]. exists del. intros k Hk Hk'. rewrite <- !E. apply Hd; assumption. Qed.
Lemma spin_deriv A M g w t :
  mderiv (fun s => mxm A (itrs_rotation (g + w * s) M)) t (mxm A (mxm (itrs_angvel_matrix w) (itrs_rotation (g + w * t) M))).
Proof.
  unfold itrs_rotation.
  assert (E : forall s, mxm A (mxm (rot_z (- (g + w * s))) M) =
     let c := cos (g + w * s) in let n := sin (g + w * s) in
     let row a := let m1 := r1 M in let m2 := r2 M in let m3 := r3 M in
       V3 ((vx a * vx m1 + vy a * vx m2) * c + (vx a * vx m2 - vy a * vx m1) * n + vz a * vx m3)
          ((vx a * vy m1 + vy a * vy m2) * c + (vx a * vy m2 - vy a * vy m1) * n + vz a * vy m3)
          ((vx a * vz m1 + vy a * vz m2) * c + (vx a * vz m2 - vy a * vz m1) * n + vz a * vz m3) in
     M3 (row (r1 A)) (row (r2 A)) (row (r3 A))).
  { intros s. apply mat_ext; apply vec_ext; gsimp; rewrite cos_neg, sin_neg; ring. }
  split; [|split]; (split; [|split]).
  all: eapply dext; [intros s; rewrite (E s); cbn; reflexivity|].
  all: eapply dlin; [apply dcomb|]; gsimp; rewrite ?cos_neg, ?sin_neg; ring.
Qed.
Lemma earth_fixed_rate M g w t p v : vderiv p t v -> 
  vderiv (fun s => fst (frame_xyz_and_velocity (itrs_rotation (g + w * s) M) (Some (itrs_angvel_matrix w)) (p s) v)) t
         (snd (frame_xyz_and_velocity (itrs_rotation (g + w * t) M) (Some (itrs_angvel_matrix w)) (p t) v)).
Proof.
  intros Hp. cbn [frame_xyz_and_velocity fst snd]. pose proof (spin_deriv identity M g w t) as D. rewrite mxm_id_l in D.
  pose proof (mderiv_mxv _ t _ p v D Hp) as X. rewrite <- mxv_mxm. cbn beta in X. rewrite mxm_id_l in X.
  destruct X as (X1 & X2 & X3). split; [|split]; (eapply dext; [|eassumption]); intros s; cbn beta; rewrite mxm_id_l; reflexivity.
Qed.
Lemma topos_rate_ok w lat lon theta M : mxm (topos_rate w lat) (topos_rotation lat lon theta M) =
  mxm (R_latlon lat lon) (mxm (itrs_angvel_matrix w) (itrs_rotation theta M)).
Proof.
  unfold topos_rotation, R_latlon. rewrite !mxm_assoc. f_equal.
  apply mat_ext; apply vec_ext; gsimp; rewrite ?cos_neg, ?sin_neg; pose proof (sc2 lat) as H; set (a := sin lat) in *; set (b := cos lat) in *.
  all: try ring.
  - transitivity (- w * cos lon * (a * a + b * b)); [ring|rewrite H; ring].
  - transitivity (- w * sin lon * (a * a + b * b)); [ring|rewrite H; ring].
Qed.
Lemma horizon_rate lat lon M g w t p v : vderiv p t v ->
  vderiv (fun s => fst (frame_xyz_and_velocity (topos_rotation lat lon (g + w * s) M) (Some (topos_rate w lat)) (p s) v)) t
         (snd (frame_xyz_and_velocity (topos_rotation lat lon (g + w * t) M) (Some (topos_rate w lat)) (p t) v)).
Proof.
  intros Hp. cbn [frame_xyz_and_velocity fst snd]. pose proof (spin_deriv (R_latlon lat lon) M g w t) as D.
  pose proof (mderiv_mxv _ t _ p v D Hp) as X. rewrite <- mxv_mxm, topos_rate_ok. exact X.
Qed.
(** A site's velocity is the derivative of its position. *)
Lemma vderiv_const c t : vderiv (fun _ => c) t vzero.
Proof. split; [|split]; cbn; apply derivable_pt_lim_const. Qed.
Lemma mderiv_transp f t D : mderiv f t D -> mderiv (fun s => transp (f s)) t (transp D).
Proof. intros ((A1 & A2 & A3) & (B1 & B2 & B3) & (C1 & C2 & C3)). repeat split; assumption. Qed.
Lemma site_velocity M g w t r : vderiv (fun s => fst (itrs_at w (g + w * s) M r)) t (snd (itrs_at w (g + w * t) M r)).
Proof.
  unfold itrs_at. cbn [fst snd]. pose proof (spin_deriv identity M g w t) as D. apply mderiv_transp in D.
  pose proof (mderiv_mxv _ t _ (fun _ => r) vzero D (vderiv_const r t)) as X. cbn beta in X. rewrite !mxm_id_l in X.
  assert (E : vadd (mxv (transp (itrs_rotation (g + w * t) M)) vzero) (mxv (transp (mxm (itrs_angvel_matrix w) (itrs_rotation (g + w * t) M))) r)
            = mxv (transp (itrs_rotation (g + w * t) M)) (itrs_velocity w r)).
  { rewrite transp_mxm, mxv_mxm. apply vec_ext; gsimp; ring. }
  rewrite E in X. destruct X as (X1 & X2 & X3). split; [|split]; (eapply dext; [|eassumption]); intros s; cbn beta; rewrite mxm_id_l; reflexivity.
Qed.
