(** Geodetic positions: the ellipsoid, and the accuracy of the three rounds that
    recover a latitude and a height. *)
From Coq Require Import Reals Lra Lia Psatz.
From Coquelicot Require Import Coquelicot.
From Verif Require Import Real_Math Real_Math_Proofs Vector_Model Vector_Proofs Vector_Proofs2 Geo_Model Geo_Spec Geo_Proofs Geo_Proofs2.
Open Scope R_scope.

Lemma e_omf2 finv : finv <> 0 -> omf2 finv = 1 - e2 finv.
Proof. intros. unfold omf2, e2. field. assumption. Qed.
Lemma omf2_range finv : 1 < finv -> 0 < omf2 finv < 1.
Proof.
  intros H. unfold omf2. assert (0 < (finv - 1) / finv < 1); [|split; nra]. split; [apply Rdiv_lt_0_compat; lra|].
  apply Rmult_lt_reg_r with finv; [lra|]. replace ((finv - 1) / finv * finv) with (finv - 1) by (field; lra). lra.
Qed.
Section Geodetic.
  Variables (a finv : R).
  Hypothesis (Ha : 0 < a) (Hf : 1 < finv).
  Let e := e2 finv.
  Let m2 := omf2 finv.
  Lemma e_m2 : e = 1 - m2. Proof. unfold e, m2. rewrite e_omf2 by lra. ring. Qed.
  Lemma m2_range : 0 < m2 < 1. Proof. apply omf2_range. assumption. Qed.
  Definition W (phi : R) : R := 1 - e * sin phi * sin phi.
  Lemma W_range phi : m2 <= W phi <= 1.
  Proof. unfold W. rewrite e_m2. pose proof m2_range. pose proof (sc2 phi). pose proof (Rle_0_sqr (sin phi)). pose proof (Rle_0_sqr (cos phi)). unfold Rsqr in *. split; nra. Qed.
  Lemma W_alt phi : cos phi * cos phi + sin phi * sin phi * m2 = W phi.
  Proof. unfold W. rewrite e_m2. pose proof (sc2 phi). lra. Qed.
  Lemma sqrtW phi : 0 < sqrt (W phi) <= 1 /\ sqrt (W phi) * sqrt (W phi) = W phi /\ W phi <= sqrt (W phi).
  Proof.
    pose proof (W_range phi) as [H1 H2]. pose proof m2_range as [M1 M2]. assert (0 < sqrt (W phi)) by (apply sqrt_lt_R0; lra).
    pose proof (sqrt_sqrt (W phi) ltac:(lra)) as S1. split; [|split]; [split; [lra|]|assumption|]; nra.
  Qed.
  Definition aC (phi : R) : R := a / sqrt (W phi).
  Lemma aC_ge phi : a <= aC phi.
  Proof.
    unfold aC. destruct (sqrtW phi) as ([S1 S2] & _). apply Rmult_le_reg_r with (sqrt (W phi)); [assumption|].
    replace (a / sqrt (W phi) * sqrt (W phi)) with a by (field; lra). nra.
  Qed.
  Lemma latlon_eq lat lon h : latlon a finv lat lon h =
    V3 ((aC lat + h) * cos lat * cos lon) ((aC lat + h) * cos lat * sin lon) ((m2 * aC lat + h) * sin lat).
  Proof.
    unfold latlon. fold m2. rewrite W_alt. destruct (sqrtW lat) as ([S1 S2] & _). unfold aC. apply vec_ext; cbn; field; lra.
  Qed.
  Lemma surface_ok lat lon : on_ellipsoid (latlon a finv lat lon 0) (V3 a a (polar_radius a finv)).
  Proof.
    rewrite latlon_eq. unfold on_ellipsoid, polar_radius. cbn [vx vy vz]. rewrite !Rplus_0_r.
    assert (Em : m2 = (1 - 1 / finv) * (1 - 1 / finv)) by (unfold m2, omf2; field; lra).
    pose proof m2_range as [M1 M2]. assert (N : 1 - 1 / finv <> 0) by (intros E; rewrite E in Em; lra).
    destruct (sqrtW lat) as ([S1 S2] & S3 & _). unfold aC. set (w := sqrt (W lat)) in *. set (b := 1 - 1 / finv) in *.
    transitivity ((cos lat * cos lat * (sin lon * sin lon + cos lon * cos lon) + sin lat * sin lat * (m2 * m2 / (b * b))) / (w * w)); [field; lra|].
    rewrite sc2, Rmult_1_r. replace (m2 * m2 / (b * b)) with m2 by (rewrite Em; field; assumption).
    rewrite W_alt, S3. pose proof (W_range lat). field. lra.
  Qed.
  (** The normal of the ellipsoid: the gradient of its equation. *)
  Lemma normal_ok lat lon : let p := latlon a finv lat lon 0 in let b := polar_radius a finv in
    exists k, 0 < k /\ V3 (vx p / (a * a)) (vy p / (a * a)) (vz p / (b * b)) = smul k (up lat lon).
  Proof.
    cbv zeta. rewrite latlon_eq. pose proof (aC_ge lat) as G. exists (aC lat / (a * a)).
    assert (Em : m2 = (1 - 1 / finv) * (1 - 1 / finv)) by (unfold m2, omf2; field; lra).
    pose proof m2_range as [M1 M2]. assert (N : 1 - 1 / finv <> 0) by (intros E; rewrite E in Em; lra).
    split; [apply Rdiv_lt_0_compat; nra|]. unfold polar_radius. apply vec_ext; unfold up; cbn; rewrite ?Em; set (b := 1 - 1 / finv) in *; field; lra.
  Qed.
  Lemma elevation_ok lat lon h : latlon a finv lat lon h = vadd (latlon a finv lat lon 0) (smul h (up lat lon)).
  Proof. rewrite !latlon_eq. unfold up. apply vec_ext; cbn; ring. Qed.

  (** The iteration. *)
  Definition H (phi : R) : R := aC phi * (e * sin phi).
  Lemma round_eq x y z phi : latitude_round a finv x y z phi = (aC phi, z + H phi, atan2 (z + H phi) (sqrt (x * x + y * y))).
  Proof. unfold latitude_round. fold e. reflexivity. Qed.
  Lemma fixed_ok lat lon h : - (PI / 2) <= lat <= PI / 2 -> 0 < aC lat + h ->
    let p := latlon a finv lat lon h in
    latitude_round a finv (vx p) (vy p) (vz p) lat = (aC lat, (aC lat + h) * sin lat, lat) /\
    sqrt (vx p * vx p + vy p * vy p) = (aC lat + h) * cos lat /\
    height_from (vx p) (vy p) (aC lat) ((aC lat + h) * sin lat) = h.
  Proof.
    intros Hl Hh. cbv zeta. pose proof PI_RGT_0. rewrite round_eq, latlon_eq. cbn [vx vy vz].
    assert (C : 0 <= cos lat) by (apply cos_ge_0; lra). set (N := aC lat + h) in *.
    assert (Er : sqrt (N * cos lat * cos lon * (N * cos lat * cos lon) + N * cos lat * sin lon * (N * cos lat * sin lon)) = N * cos lat).
    { replace (_ + _) with ((N * cos lat) * (N * cos lat) * (sin lon * sin lon + cos lon * cos lon)) by ring. rewrite sc2, Rmult_1_r. apply sqrt_square. apply Rmult_le_pos; lra. }
    assert (Ez : (m2 * aC lat + h) * sin lat + H lat = N * sin lat). { unfold H, N. rewrite e_m2. ring. }
    rewrite Ez, Er. split; [|split; [reflexivity|]].
    - f_equal. apply atan2_polar; lra.
    - unfold height_from. rewrite Er. replace (_ + _) with (N * N * (sin lat * sin lat + cos lat * cos lat)) by ring. rewrite sc2, Rmult_1_r, sqrt_square by lra. unfold N. ring.
  Qed.
  Lemma longitude_ok lat lon h : - (PI / 2) < lat < PI / 2 -> 0 < aC lat + h -> - PI <= lon < PI -> longitude_of (latlon a finv lat lon h) = lon.
  Proof.
    intros Hl Hh Hlon. pose proof PI_RGT_0. assert (C : 0 < cos lat) by (apply cos_gt_0; lra). rewrite latlon_eq. unfold longitude_of. cbn [vx vy].
    assert (N : 0 < (aC lat + h) * cos lat) by nra. destruct (proj1 Hlon) as [L|E].
    - rewrite atan2_polar by lra. rewrite (rmod_unique (lon - PI) tau (lon + PI) (-1)); [ring|unfold tau; lra|unfold tau; lra|unfold tau; ring].
    - replace (cos lon) with (cos (lon + tau * IZR 1)) by apply cos_tau. replace (sin lon) with (sin (lon + tau * IZR 1)) by apply sin_tau.
      rewrite atan2_polar; [|lra|unfold tau; lra]. rewrite (rmod_unique _ tau (lon + PI) 0); [ring|unfold tau; lra|unfold tau; lra|unfold tau; ring].
  Qed.
  Definition H' (phi : R) : R := a * e * cos phi / (W phi * sqrt (W phi)).
  Lemma H_deriv phi : is_derive H phi (H' phi).
  Proof.
    unfold H, aC, W, H'. pose proof (W_range phi) as [W1 W2]. pose proof m2_range. destruct (sqrtW phi) as ([S1 S2] & S3 & _). unfold W in *.
    change (1 - e * sin phi * sin phi) with (1 + - (e * sin phi * sin phi)) in *.
    auto_derive.
    - split; [lra|]. split; [lra|trivial].
    - set (s := sin phi) in *. set (c := cos phi) in *. set (w := sqrt (1 + - (e * s * s))) in *. rewrite <- S3. transitivity (a * e * c * (w * w + e * s * s) / (w * w * w)); [field; lra|].
      rewrite S3. replace (1 + - (e * s * s) + e * s * s) with 1 by ring. rewrite Rmult_1_r. reflexivity.
  Qed.
  Lemma aC_deriv phi : is_derive aC phi (H' phi * sin phi).
  Proof.
    unfold aC, W, H'. pose proof (W_range phi) as [W1 W2]. pose proof m2_range. destruct (sqrtW phi) as ([S1 S2] & S3 & _). unfold W in *.
    change (1 - e * sin phi * sin phi) with (1 + - (e * sin phi * sin phi)) in *.
    auto_derive.
    - split; [lra|]. split; [lra|trivial].
    - set (s := sin phi) in *. set (c := cos phi) in *. set (w := sqrt (1 + - (e * s * s))) in *. rewrite <- S3. field. lra.
  Qed.
  Definition B : R := a * e / (m2 * m2).
  Lemma H'_bound phi : Rabs (H' phi) <= B.
  Proof.
    unfold H', B. pose proof (W_range phi) as [W1 W2]. pose proof m2_range. destruct (sqrtW phi) as ([S1 S2] & S3 & S4).
    assert (He : 0 < e) by (rewrite e_m2; lra). rewrite Rabs_div by nra. rewrite (Rabs_right (W phi * sqrt (W phi))) by nra.
    rewrite !Rabs_mult, (Rabs_right a), (Rabs_right e) by lra.
    assert (Hc : 0 <= Rabs (cos phi) <= 1). { split; [apply Rabs_pos|]. apply Rabs_le. pose proof (COS_bound phi). lra. }
    assert (D : m2 * m2 <= W phi * sqrt (W phi)) by (apply Rmult_le_compat; lra).
    apply Rle_trans with (a * e / (W phi * sqrt (W phi))).
    - apply Rmult_le_compat_r; [left; apply Rinv_0_lt_compat; nra|]. assert (0 < a * e) by nra. nra.
    - apply Rmult_le_compat_l; [nra|]. apply Rinv_le_contravar; nra.
  Qed.
  Lemma B_pos : 0 < B.
  Proof. unfold B. pose proof m2_range. rewrite e_m2. apply Rdiv_lt_0_compat; nra. Qed.
  Lemma H_sign phi : H phi * sin phi >= 0.
  Proof.
    unfold H. pose proof (aC_ge phi). pose proof m2_range. assert (0 < e) by (rewrite e_m2; lra).
    replace (aC phi * (e * sin phi) * sin phi) with (aC phi * e * (sin phi * sin phi)) by ring.
    apply Rle_ge, Rmult_le_pos; [nra|apply Rle_0_sqr].
  Qed.

  Section Point.
    Variables (R0 z m : R).
    Hypothesis (HR : 0 <= R0) (Hm : 0 < m) (Hmm : m * m <= R0 * R0 + z * z).
    Definition G (phi : R) : R := atan2 (z + H phi) R0.
    Definition F (phi : R) : R := sqrt ((z + H phi) * (z + H phi) + R0 * R0) - aC phi.
    Lemma grow phi : 0 <= z * sin phi -> z * z <= (z + H phi) * (z + H phi).
    Proof.
      intros Hs. pose proof (H_sign phi) as S1. assert (Hz : 0 <= z * H phi).
      { pose proof (aC_ge phi). pose proof m2_range. assert (0 < e) by (rewrite e_m2; lra). unfold H. replace (z * (aC phi * (e * sin phi))) with (aC phi * e * (z * sin phi)) by ring. apply Rmult_le_pos; [nra|assumption]. }
      nra.
    Qed.
    Lemma G_deriv phi : 0 < R0 -> derivable_pt_lim G phi (H' phi * R0 / (R0 * R0 + (z + H phi) * (z + H phi))).
    Proof.
      intros HR0. apply (dext (fun p => atan ((z + H p) / R0))).
      { intros s. unfold G, atan2. destruct (Rlt_dec 0 R0); [reflexivity|lra]. }
      apply is_derive_Reals. pose proof (H_deriv phi) as D.
      auto_derive.
      - exists (H' phi). exact D.
      - change (fun x : R => H x) with H. rewrite (is_derive_unique H phi (H' phi) D).
        assert (0 < 1 + (z + H phi) * / R0 * ((z + H phi) * / R0 * 1)).
        { pose proof (Rle_0_sqr ((z + H phi) * / R0)). unfold Rsqr in *. lra. }
        pose proof (Rle_0_sqr (z + H phi)). unfold Rsqr in *. assert (0 < R0 * R0) by nra. field. split; lra.
    Qed.
    Lemma G_slope phi : 0 < R0 -> 0 <= z * sin phi -> Rabs (H' phi * R0 / (R0 * R0 + (z + H phi) * (z + H phi))) <= B / m.
    Proof.
      intros HR0 Hs. pose proof (grow phi Hs) as Gr. pose proof (H'_bound phi) as Hb. pose proof B_pos.
      set (D := R0 * R0 + (z + H phi) * (z + H phi)). assert (HD : R0 * R0 + z * z <= D) by (unfold D; lra).
      assert (Dp : 0 < D) by nra. rewrite Rabs_div by lra. rewrite Rabs_mult, (Rabs_right R0), (Rabs_right D) by lra.
      assert (Hrm : R0 * m <= D). { assert (m * m <= D) by lra. assert (R0 * R0 <= D) by nra. nra. }
      apply Rmult_le_reg_r with (D * m); [nra|]. replace (Rabs (H' phi) * R0 / D * (D * m)) with (Rabs (H' phi) * (R0 * m)) by (field; lra).
      replace (B / m * (D * m)) with (B * D) by (field; lra). apply Rmult_le_compat; [apply Rabs_pos|nra|assumption|assumption].
    Qed.
    Lemma G_lip_lt phi psi : phi < psi -> (forall c, phi <= c <= psi -> 0 <= z * sin c) -> Rabs (G psi - G phi) <= B / m * Rabs (psi - phi).
    Proof.
      intros Hlt Hs. destruct HR as [HR0|E].
      - destruct (MVT_cor2 G (fun phi => H' phi * R0 / (R0 * R0 + (z + H phi) * (z + H phi))) phi psi Hlt) as (c & Ec & Hc).
        { intros c Hc. apply G_deriv. assumption. }
        rewrite Ec, Rabs_mult. apply Rmult_le_compat_r; [apply Rabs_pos|]. apply G_slope; [assumption|]. apply Hs. lra.
      - assert (Nz : z <> 0) by (intros ->; rewrite <- E in Hmm; nra).
        assert (V : forall c, 0 <= z * sin c -> G c = if Rlt_dec 0 z then PI / 2 else - (PI / 2)).
        { intros c Hc. pose proof (grow c Hc) as Gr. assert (Hz : 0 <= z * H c).
          { pose proof (aC_ge c). pose proof m2_range. assert (0 < e) by (rewrite e_m2; lra). unfold H. replace (z * (aC c * (e * sin c))) with (aC c * e * (z * sin c)) by ring. apply Rmult_le_pos; [nra|assumption]. }
          unfold G, atan2. rewrite <- E. destruct (Rlt_dec 0 0); [lra|]. destruct (Rlt_dec 0 z) as [P|P].
          - assert (0 <= H c) by nra. destruct (Rlt_dec 0 (z + H c)); [reflexivity|lra].
          - assert (z < 0) by lra. assert (H c <= 0) by nra. destruct (Rlt_dec 0 (z + H c)); [lra|]. destruct (Rlt_dec (z + H c) 0); [reflexivity|lra]. }
        rewrite !V by (apply Hs; lra). rewrite Rminus_eq_0, Rabs_R0. apply Rmult_le_pos; [|apply Rabs_pos].
        pose proof B_pos. left. apply Rdiv_lt_0_compat; assumption.
    Qed.
    Lemma G_lip phi psi : (forall c, Rmin phi psi <= c <= Rmax phi psi -> 0 <= z * sin c) -> Rabs (G psi - G phi) <= B / m * Rabs (psi - phi).
    Proof.
      intros Hs. unfold Rmin, Rmax in Hs. destruct (Rtotal_order phi psi) as [L|[->|L]].
      - destruct (Rle_dec phi psi); [|lra]. apply G_lip_lt; assumption.
      - rewrite !Rminus_eq_0, !Rabs_R0. lra.
      - destruct (Rle_dec phi psi); [lra|]. rewrite (Rabs_minus_sym (G psi)), (Rabs_minus_sym psi). apply G_lip_lt; assumption.
    Qed.
    Lemma F_deriv phi : 0 <= z * sin phi -> derivable_pt_lim F phi (H' phi * (sin (G phi) - sin phi)).
    Proof.
      intros Hs. pose proof (grow phi Hs) as Gr. apply is_derive_Reals. pose proof (H_deriv phi) as D. pose proof (aC_deriv phi) as D2.
      set (y := z + H phi) in *. assert (Hy : 0 < y * y + R0 * R0) by nra. assert (Sy : 0 < sqrt (y * y + R0 * R0)) by (apply sqrt_lt_R0; assumption).
      assert (N : R0 <> 0 \/ y <> 0). { destruct (Req_dec R0 0) as [E|]; [|auto]. right. intros E'. rewrite E, E' in Hy. lra. }
      destruct (atan2_spec y R0 N) as (_ & S1 & _). unfold rho in S1. rewrite (Rplus_comm (R0 * R0)) in S1.
      unfold F. auto_derive.
      - fold y. split; [exists (H' phi); exact D|]. split; [exists (H' phi); exact D|]. split; [exact Hy|]. split; [exists (H' phi * sin phi); exact D2|trivial].
      - change (fun x : R => H x) with H. change (fun x : R => aC x) with aC. rewrite (is_derive_unique H phi (H' phi) D), (is_derive_unique aC phi _ D2). fold y. unfold G. fold y.
        assert (E : sin (atan2 y R0) = y / sqrt (y * y + R0 * R0)) by (apply Rmult_eq_reg_l with (sqrt (y * y + R0 * R0)); [rewrite S1; field; lra|lra]).
        rewrite E. field. lra.
    Qed.
    Lemma sin_lip x y : Rabs (sin x - sin y) <= Rabs (x - y).
    Proof.
      assert (L : forall x y, x < y -> Rabs (sin y - sin x) <= Rabs (y - x)).
      { clear. intros x y Hlt. destruct (MVT_cor2 sin cos x y Hlt) as (c & E & _); [intros; apply derivable_pt_lim_sin|]. rewrite E, Rabs_mult.
        rewrite <- (Rmult_1_l (Rabs (y - x))) at 2. apply Rmult_le_compat_r; [apply Rabs_pos|]. apply Rabs_le. pose proof (COS_bound c). lra. }
      destruct (Rtotal_order x y) as [Hlt|[->|Hlt]]; [rewrite (Rabs_minus_sym (sin x)), (Rabs_minus_sym x); apply L; assumption|rewrite !Rminus_eq_0; lra|apply L; assumption].
    Qed.
    (** Around a fixed point the height varies quadratically. *)
    Lemma F_quad lat phi : G lat = lat -> (forall c, Rmin phi lat <= c <= Rmax phi lat -> 0 <= z * sin c) ->
      Rabs (F phi - F lat) <= B * (B / m + 1) * (Rabs (phi - lat) * Rabs (phi - lat)).
    Proof.
      intros Hfix Hs. pose proof B_pos as PB. assert (PK : 0 < B / m) by (apply Rdiv_lt_0_compat; assumption).
      assert (Slope : forall c, Rmin phi lat <= c <= Rmax phi lat -> Rabs (H' c * (sin (G c) - sin c)) <= B * (B / m + 1) * Rabs (phi - lat)).
      { intros c Hc. rewrite Rabs_mult, Rmult_assoc. apply Rmult_le_compat; [apply Rabs_pos|apply Rabs_pos|apply H'_bound|].
        eapply Rle_trans; [apply sin_lip|].
        assert (G1 : Rabs (G c - lat) <= B / m * Rabs (c - lat)).
        { rewrite <- Hfix at 1. apply G_lip. intros d Hd. apply Hs. unfold Rmin, Rmax in *. repeat match goal with |- context [Rle_dec ?a ?b] => destruct (Rle_dec a b) | H : context [Rle_dec ?a ?b] |- _ => destruct (Rle_dec a b) end; lra. }
        assert (C1 : Rabs (c - lat) <= Rabs (phi - lat)).
        { unfold Rmin, Rmax in Hc. destruct (Rle_dec phi lat); [rewrite !Rabs_left1 by lra; lra|rewrite !Rabs_right by lra; lra]. }
        replace (G c - c) with ((G c - lat) + (lat - c)) by ring. eapply Rle_trans; [apply Rabs_triang|]. rewrite (Rabs_minus_sym lat c).
        assert (B / m * Rabs (c - lat) <= B / m * Rabs (phi - lat)) by (apply Rmult_le_compat_l; lra). lra. }
      destruct (Rtotal_order phi lat) as [L|[->|L]].
      - destruct (MVT_cor2 F (fun c => H' c * (sin (G c) - sin c)) phi lat L) as (c & E & Hc).
        { intros c Hc. apply F_deriv. apply Hs. unfold Rmin, Rmax. destruct (Rle_dec phi lat); lra. }
        rewrite (Rabs_minus_sym (F phi)), E, Rabs_mult, (Rabs_minus_sym lat phi), <- Rmult_assoc. apply Rmult_le_compat_r; [apply Rabs_pos|]. apply Slope. unfold Rmin, Rmax. destruct (Rle_dec phi lat); lra.
      - rewrite !Rminus_eq_0, !Rabs_R0. lra.
      - destruct (MVT_cor2 F (fun c => H' c * (sin (G c) - sin c)) lat phi L) as (c & E & Hc).
        { intros c Hc. apply F_deriv. apply Hs. unfold Rmin, Rmax. destruct (Rle_dec phi lat); lra. }
        rewrite E, Rabs_mult, <- Rmult_assoc. apply Rmult_le_compat_r; [apply Rabs_pos|]. apply Slope. unfold Rmin, Rmax. destruct (Rle_dec phi lat); lra.
    Qed.
  End Point.

  Lemma atan2_nonpos y x : y <= 0 -> 0 <= x -> - (PI / 2) <= atan2 y x <= 0.
  Proof.
    intros Hy Hx. split; [apply atan2_right; assumption|]. pose proof PI_RGT_0. unfold atan2. destruct (Rlt_dec 0 x).
    - destruct Hy as [Hy| -> ]; [|replace (0 / x) with 0 by (field; lra); rewrite atan_0; lra]. left. rewrite <- atan_0. apply atan_increasing.
      apply Rmult_lt_reg_r with x; [assumption|]. replace (y / x * x) with y by (field; lra). lra.
    - destruct (Rlt_dec x 0); [lra|]. destruct (Rlt_dec 0 y); [lra|]. destruct (Rlt_dec y 0); lra.
  Qed.
  Lemma recover lat lon h : - (PI / 2) <= lat <= PI / 2 -> - (a * m2) < h ->
    let p := latlon a finv lat lon h in
    let k := B / (a * m2 + h) in
    let '(ac, hyp, lat3) := compute_latitude a finv p in
    Rabs (lat3 - lat) <= PI / 2 * (k * k * k * k) /\
    Rabs (height_from (vx p) (vy p) ac hyp - h) <= B * (k + 1) * ((PI / 2 * (k * k * k)) * (PI / 2 * (k * k * k))).
  Proof.
    intros Hl Hh. cbv zeta. pose proof PI_RGT_0 as Hpi. pose proof m2_range as Hm2. pose proof (aC_ge lat) as Hac.
    set (m := a * m2 + h) in *. assert (Hm : 0 < m) by (unfold m; lra).
    assert (Hac2 : a * m2 <= aC lat) by nra.
    destruct (fixed_ok lat lon h Hl ltac:(lra)) as (Hfix & Hr & Hheight). set (p := latlon a finv lat lon h) in *.
    set (R0 := sqrt (vx p * vx p + vy p * vy p)) in *. set (z := vz p) in *.
    assert (HR : 0 <= R0) by apply sqrt_pos.
    assert (C : 0 <= cos lat) by (apply cos_ge_0; lra).
    assert (Ez : z = (m2 * aC lat + h) * sin lat) by (unfold z, p; rewrite latlon_eq; reflexivity).
    assert (Hmz : m <= m2 * aC lat + h) by (unfold m; nra).
    assert (Hmm : m * m <= R0 * R0 + z * z).
    { rewrite Hr, Ez. assert (m <= aC lat + h) by nra. pose proof (sc2 lat) as S1. set (u := m2 * aC lat + h) in *. set (v := aC lat + h) in *. set (s := sin lat) in *. set (c := cos lat) in *.
      assert (m * m <= u * u) by nra. assert (m * m <= v * v) by nra. pose proof (Rle_0_sqr s). pose proof (Rle_0_sqr c). unfold Rsqr in *.
      replace (m * m) with (m * m * (s * s) + m * m * (c * c)) by (rewrite <- Rmult_plus_distr_l, S1; ring). nra. }
    (* the region of latitudes on one side of the equator *)
    set (I := fun c => if Rle_dec 0 lat then 0 <= c <= PI / 2 else - (PI / 2) <= c <= 0).
    assert (Isin : forall c, I c -> 0 <= z * sin c).
    { intros c. unfold I. rewrite Ez. destruct (Rle_dec 0 lat) as [P|P]; intros Hc.
      - assert (0 <= sin lat) by (apply sin_ge_0; lra). assert (0 <= sin c) by (apply sin_ge_0; lra). assert (0 < m2 * aC lat + h) by lra. apply Rmult_le_pos; [apply Rmult_le_pos; lra|assumption].
      - assert (0 <= sin (- lat)) by (apply sin_ge_0; lra). assert (0 <= sin (- c)) by (apply sin_ge_0; lra). rewrite sin_neg in *. assert (0 < m2 * aC lat + h) by lra.
        replace ((m2 * aC lat + h) * sin lat * sin c) with ((m2 * aC lat + h) * (- sin lat) * (- sin c)) by ring. apply Rmult_le_pos; [apply Rmult_le_pos; lra|assumption]. }
    assert (IG : forall c, I c -> I (G R0 z c)).
    { intros c Hc. assert (Hz : 0 <= z * lat).
      { rewrite Ez. destruct (Rle_dec 0 lat) as [P|P].
        - assert (0 <= sin lat) by (apply sin_ge_0; lra). assert (0 <= (m2 * aC lat + h) * sin lat) by (apply Rmult_le_pos; lra). nra.
        - assert (0 <= sin (- lat)) by (apply sin_ge_0; lra). rewrite sin_neg in *. assert (0 <= (m2 * aC lat + h) * - sin lat) by (apply Rmult_le_pos; lra). nra. }
      pose proof (aC_ge c). assert (He : 0 < e) by (rewrite e_m2; lra). unfold G, H. unfold I in *. destruct (Rle_dec 0 lat) as [P|P].
      - assert (0 <= sin c) by (apply sin_ge_0; lra). assert (0 <= z).
        { destruct P as [P|P]; [nra|]. rewrite Ez, <- P, sin_0. lra. }
        assert (0 <= aC c * (e * sin c)) by (apply Rmult_le_pos; [lra|apply Rmult_le_pos; lra]).
        split; [apply atan2_nonneg; lra|apply atan2_right; assumption].
      - assert (0 <= sin (- c)) by (apply sin_ge_0; lra). rewrite sin_neg in *. assert (z <= 0) by nra.
        assert (0 <= aC c * (e * - sin c)) by (apply Rmult_le_pos; [lra|apply Rmult_le_pos; lra]). apply atan2_nonpos; [lra|assumption]. }
    assert (Ilat : I lat) by (unfold I; destruct (Rle_dec 0 lat); lra).
    assert (I0 : I 0) by (unfold I; destruct (Rle_dec 0 lat); lra).
    assert (Ibet : forall u v c, I u -> I v -> Rmin u v <= c <= Rmax u v -> I c).
    { intros u v c. unfold I, Rmin, Rmax. destruct (Rle_dec 0 lat), (Rle_dec u v); lra. }
    assert (Gfix : G R0 z lat = lat).
    { rewrite round_eq in Hfix. fold R0 in Hfix. injection Hfix as _ E. exact E. }
    assert (Step : forall c, I c -> Rabs (G R0 z c - lat) <= B / m * Rabs (c - lat)).
    { intros c Hc. rewrite <- Gfix at 1. apply (G_lip R0 z m HR Hm Hmm). intros d Hd. apply Isin. apply (Ibet lat c); assumption. }
    assert (HK : 0 < B / m) by (apply Rdiv_lt_0_compat; [apply B_pos|assumption]). set (k := B / m) in *.
    unfold compute_latitude. cbv zeta. fold z. rewrite !round_eq. cbv zeta beta. fold R0. 
    assert (E0 : atan2 z R0 = G R0 z 0) by (unfold G, H; rewrite sin_0, !Rmult_0_r, Rplus_0_r; reflexivity).
    rewrite E0. fold (G R0 z (G R0 z 0)). fold (G R0 z (G R0 z (G R0 z 0))). fold (G R0 z (G R0 z (G R0 z (G R0 z 0)))).
    set (l0 := G R0 z 0). set (l1 := G R0 z l0). set (l2 := G R0 z l1). set (l3 := G R0 z l2).
    assert (J0 : I l0) by (apply IG; assumption). assert (J1 : I l1) by (apply IG; assumption). assert (J2 : I l2) by (apply IG; assumption).
    assert (B0 : Rabs (0 - lat) <= PI / 2) by (apply Rabs_le; lra).
    assert (D0 : Rabs (l0 - lat) <= k * (PI / 2)). { eapply Rle_trans; [apply Step; assumption|]. apply Rmult_le_compat_l; lra. }
    assert (D1 : Rabs (l1 - lat) <= k * (k * (PI / 2))). { eapply Rle_trans; [apply Step; assumption|]. apply Rmult_le_compat_l; lra. }
    assert (D2 : Rabs (l2 - lat) <= k * (k * (k * (PI / 2)))). { eapply Rle_trans; [apply Step; assumption|]. apply Rmult_le_compat_l; lra. }
    assert (D3 : Rabs (l3 - lat) <= k * (k * (k * (k * (PI / 2))))). { eapply Rle_trans; [apply Step; assumption|]. apply Rmult_le_compat_l; lra. }
    split; [lra|].
    change (height_from (vx p) (vy p) (aC l2) (z + H l2)) with (F R0 z l2).
    assert (Fl : F R0 z lat = h).
    { unfold F. rewrite <- Hheight. unfold height_from. fold R0. f_equal. rewrite round_eq in Hfix. injection Hfix as E _. rewrite E. reflexivity. }
    rewrite <- Fl. eapply Rle_trans; [apply (F_quad R0 z m HR Hm Hmm lat l2 Gfix)|].
    - intros c Hc. apply Isin. apply (Ibet l2 lat); assumption.
    - fold k. pose proof B_pos. apply Rmult_le_compat_l; [nra|]. pose proof (Rabs_pos (l2 - lat)). apply Rmult_le_compat; lra.
  Qed.
End Geodetic.

(** * Numbers *)
Definition wgs84_radius : R := 6378137.
Definition wgs84_finv : R := 298257223563 / 1000000000.
Lemma wgs84_numbers : 669437 / 10 ^ 8 <= e2 wgs84_finv <= 669439 / 10 ^ 8 /\ 99330561 / 10 ^ 8 <= omf2 wgs84_finv <= 99330563 / 10 ^ 8.
Proof.
  assert (E : omf2 wgs84_finv = 1 - e2 wgs84_finv) by (apply e_omf2; unfold wgs84_finv; lra). rewrite E.
  assert (N : 33528106 / 10 ^ 10 <= 1 / wgs84_finv <= 33528107 / 10 ^ 10) by (unfold wgs84_finv; split; lra).
  assert (669437 / 10 ^ 8 <= e2 wgs84_finv <= 669439 / 10 ^ 8); [|lra]. unfold e2. set (f := 1 / wgs84_finv) in *. clearbody f. split; nra.
Qed.
Lemma recover_wgs84 lat lon h : - (PI / 2) <= lat <= PI / 2 -> -10000 <= h ->
  let p := latlon wgs84_radius wgs84_finv lat lon h in
  let '(ac, hyp, lat3) := compute_latitude wgs84_radius wgs84_finv p in
  Rabs (lat3 - lat) <= 5 / 10 ^ 9 /\ Rabs (height_from (vx p) (vy p) ac hyp - h) <= 2 / 10 ^ 8.
Proof.
  intros Hl Hh. cbv zeta. destruct wgs84_numbers as [[E1 E2] [M1 M2]].
  assert (Hfl : 1 < wgs84_finv) by (unfold wgs84_finv; lra). assert (Har : 0 < wgs84_radius) by (unfold wgs84_radius; lra).
  pose proof (recover wgs84_radius wgs84_finv Har Hfl lat lon h Hl) as X. cbv zeta in X.
  set (m2 := omf2 wgs84_finv) in *. assert (Hm : - (wgs84_radius * m2) < h) by (unfold wgs84_radius; lra). specialize (X Hm).
  pose proof PI_4 as P4. pose proof PI_RGT_0 as P0.
  assert (HB : 0 < B wgs84_radius wgs84_finv <= 43280).
  { split; [apply B_pos; assumption|]. unfold B. fold m2. apply Rmult_le_reg_r with (m2 * m2); [nra|].
    replace (wgs84_radius * e2 wgs84_finv / (m2 * m2) * (m2 * m2)) with (wgs84_radius * e2 wgs84_finv) by (field; lra). unfold wgs84_radius. nra. }
  set (b := B wgs84_radius wgs84_finv) in *. set (k := b / (wgs84_radius * m2 + h)) in *.
  assert (Hk : 0 < k <= 685 / 10 ^ 5).
  { assert (D : 6325400 <= wgs84_radius * m2 + h) by (unfold wgs84_radius; lra). unfold k. split; [apply Rdiv_lt_0_compat; lra|].
    apply Rmult_le_reg_r with (wgs84_radius * m2 + h); [lra|]. replace (b / (wgs84_radius * m2 + h) * (wgs84_radius * m2 + h)) with b by (field; lra). nra. }
  destruct (compute_latitude _ _ _) as [[ac hyp] lat3]. destruct X as [X1 X2]. clearbody k b.
  assert (K2 : 0 < k * k <= 46923 / 10 ^ 9) by (split; nra). assert (K3 : 0 < k * k * k <= 32143 / 10 ^ 11) by (split; nra). assert (K4 : 0 < k * k * k * k <= 2202 / 10 ^ 12) by (split; nra).
  split.
  - eapply Rle_trans; [exact X1|]. nra.
  - eapply Rle_trans; [exact X2|]. set (q := PI / 2 * (k * k * k)). assert (Q : 0 < q <= 64286 / 10 ^ 11) by (unfold q; split; nra).
    assert (Q2 : 0 < q * q <= 41328 / 10 ^ 17) by (split; nra). assert (Bk : 0 < b * (k + 1) <= 43580) by (split; nra). set (u := b * (k + 1)) in *. set (v := q * q) in *. clearbody u v. nra.
Qed.
Lemma bias_close : let E := mxm bias (transp bias) in
  Rabs (vx (r1 E) - 1) <= 1 / 10 ^ 14 /\ Rabs (vy (r2 E) - 1) <= 1 / 10 ^ 14 /\ Rabs (vz (r3 E) - 1) <= 1 / 10 ^ 14 /\
  Rabs (vy (r1 E)) <= 1 / 10 ^ 14 /\ Rabs (vz (r1 E)) <= 1 / 10 ^ 14 /\ Rabs (vz (r2 E)) <= 1 / 10 ^ 14.
Proof.
  cbv zeta. unfold bias. set (x := - (166170 / 10 ^ 7) * ASEC2RAD). set (y := - (68192 / 10 ^ 7) * ASEC2RAD). set (d := - (1460 / 10 ^ 5) * ASEC2RAD).
  assert (Hx : - (81 / 10 ^ 9) <= x <= - (80 / 10 ^ 9)) by (unfold x, ASEC2RAD; lra).
  assert (Hy : - (34 / 10 ^ 9) <= y <= - (33 / 10 ^ 9)) by (unfold y, ASEC2RAD; lra).
  assert (Hd : - (71 / 10 ^ 9) <= d <= - (70 / 10 ^ 9)) by (unfold d, ASEC2RAD; lra).
  clearbody x y d.
  assert (X2 : 0 <= x * x <= 66 / 10 ^ 16) by (split; nra). assert (Y2 : 0 <= y * y <= 12 / 10 ^ 16) by (split; nra). assert (D2 : 0 <= d * d <= 51 / 10 ^ 16) by (split; nra).
  assert (XY : 0 <= x * y <= 28 / 10 ^ 16) by (split; nra). assert (XD : 0 <= x * d <= 58 / 10 ^ 16) by (split; nra). assert (YD : 0 <= y * d <= 25 / 10 ^ 16) by (split; nra).
  assert (Sq : forall u, 0 <= u <= 1 / 10 ^ 13 -> 0 <= u * u <= 1 / 10 ^ 15) by (intros; split; nra).
  assert (Tr : forall u w, - (1 / 10 ^ 6) <= u <= 0 -> - (1 / 10 ^ 13) <= w <= 1 / 10 ^ 13 -> - (1 / 10 ^ 16) <= u * w <= 1 / 10 ^ 16) by (intros; split; nra).
  pose proof (Sq (d * d + x * x) ltac:(lra)) as S1. pose proof (Sq (d * d + y * y) ltac:(lra)) as S2. pose proof (Sq (y * y + x * x) ltac:(lra)) as S3.
  pose proof (Tr d (x * x - y * y) ltac:(lra) ltac:(lra)) as T1. pose proof (Tr x (y * y - d * d) ltac:(lra) ltac:(lra)) as T2. pose proof (Tr y (x * x - d * d) ltac:(lra) ltac:(lra)) as T3.
  clear Sq Tr.
  repeat split; apply Rabs_le; cbn; unfold dot; cbn.
  - replace (_ - 1) with ((d * d + x * x) * (d * d + x * x) / 4) by (field_simplify; reflexivity || field). lra.
  - replace (_ - 1) with ((d * d + y * y) * (d * d + y * y) / 4) by (field_simplify; reflexivity || field). lra.
  - replace (_ - 1) with ((y * y + x * x) * (y * y + x * x) / 4) by (field_simplify; reflexivity || field). lra.
  - match goal with |- _ <= ?t <= _ => replace t with (d * (x * x - y * y) / 2 + x * y) by field end. lra.
  - match goal with |- _ <= ?t <= _ => replace t with (x * (y * y - d * d) / 2 + y * d) by field end. lra.
  - match goal with |- _ <= ?t <= _ => replace t with (y * (x * x - d * d) / 2 - x * d) by field end. lra.
Qed.
