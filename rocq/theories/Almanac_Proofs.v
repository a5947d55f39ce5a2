From Coq Require Import Reals ZArith List Bool Lra Lia Psatz.
From Verif Require Import Real_Math Real_Math_Proofs Vector_Model Vector_Proofs Vector_Proofs2 Geo_Model Geo_Spec Geo_Proofs Geo_Proofs2 Float64 Almanac_Model Almanac_Spec.
Import ListNotations.
Open Scope R_scope.

(** * Hour angles *)
Lemma altitude_sin lat dec ha : - (PI / 2) <= altitude_at lat dec ha <= PI / 2 /\
  sin (altitude_at lat dec ha) = sin lat * sin dec + cos lat * cos dec * cos ha.
Proof.
  unfold altitude_at. destruct (altaz lat 0 (from_spherical 1 dec (0 - ha))) as [[alt az] r] eqn:E. apply altaz_ok in E as (Er & Ha & _ & Ep).
  assert (L : vlength (from_spherical 1 dec (0 - ha)) = 1).
  { unfold from_spherical, vlength. cbn. pose proof (sc2 dec). pose proof (sc2 (0 - ha)).
    match goal with |- sqrt ?x = 1 => replace x with 1; [apply sqrt_1|] end.
    transitivity (cos dec * cos dec * (sin (0 - ha) * sin (0 - ha) + cos (0 - ha) * cos (0 - ha)) + sin dec * sin dec); [rewrite H0; lra|ring]. }
  rewrite L in Er. subst r. split; [assumption|].
  assert (D : dot (up lat 0) (from_spherical 1 dec (0 - ha)) = sin alt).
  { rewrite Ep. destruct (vec_e lat 0) as (Eu & En & Ee). rewrite R_latlon_rows in Eu, En, Ee. injection Eu as _ _ U. injection En as _ _ N. injection Ee as _ _ E0.
    transitivity (cos alt * cos az * dot (up lat 0) (north lat 0) + cos alt * sin az * dot (up lat 0) (east 0) + sin alt * dot (up lat 0) (up lat 0)); [unfold dot; cbn; ring|]. rewrite U, N, E0. ring. }
  rewrite <- D. unfold up, from_spherical, dot. cbn. rewrite cos_0, sin_0. replace (cos (0 - ha)) with (cos ha) by (rewrite Rminus_0_l, cos_neg; reflexivity). ring.
Qed.
Lemma clip_bounds x : -1 <= clip x (-1) 1 <= 1.
Proof. unfold clip, Rmin, Rmax. destruct (Rle_dec x (-1)); destruct (Rle_dec _ 1); lra. Qed.
Lemma setting_range lat dec h : 0 <= setting_hour_angle lat dec h <= PI.
Proof. unfold setting_hour_angle. apply acos_bound. Qed.
Lemma cos_setting lat dec h : cos (setting_hour_angle lat dec h) = clip ((sin h - sin lat * sin dec) / (cos lat * cos dec)) (-1) 1.
Proof. unfold setting_hour_angle. apply cos_acos, clip_bounds. Qed.
Lemma cc_pos lat dec : - (PI / 2) < lat < PI / 2 -> - (PI / 2) < dec < PI / 2 -> 0 < cos lat * cos dec.
Proof. intros. apply Rmult_lt_0_compat; apply cos_gt_0; lra. Qed.
Lemma sin_inj a b : - (PI / 2) <= a <= PI / 2 -> - (PI / 2) <= b <= PI / 2 -> sin a < sin b -> a < b.
Proof. intros Ha Hb Hs. destruct (Rlt_dec a b); [assumption|]. assert (sin b <= sin a) by (apply sin_incr_1; lra). lra. Qed.
Lemma sin_inj_eq a b : - (PI / 2) <= a <= PI / 2 -> - (PI / 2) <= b <= PI / 2 -> sin a = sin b -> a = b.
Proof.
  intros Ha Hb Hs. destruct (Rtotal_order a b) as [L|[L|L]]; [|assumption|].
  - assert (sin a < sin b) by (apply sin_increasing_1; lra). lra.
  - assert (sin b < sin a) by (apply sin_increasing_1; lra). lra.
Qed.
Lemma cos_abs x : cos (Rabs x) = cos x.
Proof. unfold Rabs. destruct (Rcase_abs x); [apply cos_neg|reflexivity]. Qed.
(** The body is above the altitude exactly within the hour angle on each side. *)
Lemma setting_sides lat dec h ha : - (PI / 2) < lat < PI / 2 -> - (PI / 2) < dec < PI / 2 -> - (PI / 2) <= h <= PI / 2 -> - PI <= ha <= PI ->
  (Rabs ha < setting_hour_angle lat dec h -> h < altitude_at lat dec ha) /\
  (setting_hour_angle lat dec h < Rabs ha -> altitude_at lat dec ha < h).
Proof.
  intros Hl Hd Hh Hha. pose proof (cc_pos lat dec Hl Hd) as CC. pose proof (setting_range lat dec h) as SR. destruct (altitude_sin lat dec ha) as [HA HS].
  pose proof (cos_setting lat dec h) as C. set (H := setting_hour_angle lat dec h) in *. set (q := (sin h - sin lat * sin dec) / (cos lat * cos dec)) in *.
  assert (Hq : sin h = sin lat * sin dec + cos lat * cos dec * q) by (unfold q; field; split; intros E; rewrite E in CC; lra).
  assert (Hab : 0 <= Rabs ha <= PI) by (split; [apply Rabs_pos|apply Rabs_le; lra]). rewrite <- (cos_abs ha) in HS. set (x := Rabs ha) in *.
  split; intros L.
  - apply sin_inj; [assumption|assumption|]. rewrite HS, Hq. apply Rplus_lt_compat_l, Rmult_lt_compat_l; [assumption|].
    assert (cos H < cos x) by (apply cos_decreasing_1; lra). rewrite C in H0. unfold clip, Rmin, Rmax in H0. pose proof (COS_bound x).
    destruct (Rle_dec q (-1)); destruct (Rle_dec _ 1); lra.
  - apply sin_inj; [assumption|assumption|]. rewrite HS, Hq. apply Rplus_lt_compat_l, Rmult_lt_compat_l; [assumption|].
    assert (cos x < cos H) by (apply cos_decreasing_1; lra). rewrite C in H0. unfold clip, Rmin, Rmax in H0. pose proof (COS_bound x).
    destruct (Rle_dec q (-1)); destruct (Rle_dec _ 1); lra.
Qed.
Lemma setting_exact lat dec h : - (PI / 2) < lat < PI / 2 -> - (PI / 2) < dec < PI / 2 -> - (PI / 2) <= h <= PI / 2 ->
  (exists ha, altitude_at lat dec ha = h) ->
  altitude_at lat dec (setting_hour_angle lat dec h) = h /\ altitude_at lat dec (rising_hour_angle lat dec h) = h.
Proof.
  intros Hl Hd Hh [ha Hha]. pose proof (cc_pos lat dec Hl Hd) as CC. destruct (altitude_sin lat dec ha) as [_ HS]. rewrite Hha in HS.
  pose proof (cos_setting lat dec h) as C. set (q := (sin h - sin lat * sin dec) / (cos lat * cos dec)) in *.
  assert (Q : q = cos ha) by (unfold q; rewrite HS; field; split; intros E; rewrite E in CC; lra).
  assert (C2 : cos (setting_hour_angle lat dec h) = cos ha).
  { rewrite C, Q. pose proof (COS_bound ha). unfold clip, Rmin, Rmax. destruct (Rle_dec (cos ha) (-1)); destruct (Rle_dec _ 1); lra. }
  unfold rising_hour_angle.
  destruct (altitude_sin lat dec (setting_hour_angle lat dec h)) as [A1 S1]. destruct (altitude_sin lat dec (- setting_hour_angle lat dec h)) as [A2 S2].
  rewrite cos_neg in S2. rewrite C2 in S1, S2. split; apply sin_inj_eq; lra.
Qed.
Lemma rising_sides lat dec h ha : - (PI / 2) < lat < PI / 2 -> - (PI / 2) < dec < PI / 2 -> - (PI / 2) <= h <= PI / 2 -> - PI <= ha <= 0 ->
  (ha < rising_hour_angle lat dec h -> altitude_at lat dec ha < h) /\
  (rising_hour_angle lat dec h < ha -> h < altitude_at lat dec ha).
Proof.
  intros Hl Hd Hh Ha. pose proof PI_RGT_0. destruct (setting_sides lat dec h ha Hl Hd Hh ltac:(lra)) as [H1 H2]. unfold rising_hour_angle. rewrite Rabs_left1 in H1, H2 by lra. split; intros L; [apply H2|apply H1]; lra.
Qed.
Lemma setting_clipped lat dec h : - (PI / 2) < lat < PI / 2 -> - (PI / 2) < dec < PI / 2 -> - (PI / 2) <= h <= PI / 2 ->
  ((forall ha, h < altitude_at lat dec ha) -> setting_hour_angle lat dec h = PI) /\
  ((forall ha, altitude_at lat dec ha < h) -> setting_hour_angle lat dec h = 0).
Proof.
  intros Hl Hd Hh. pose proof PI_RGT_0. pose proof (setting_range lat dec h) as SR. split; intros All.
  - destruct (Req_dec (setting_hour_angle lat dec h) PI) as [E|N]; [assumption|]. exfalso.
    destruct (setting_sides lat dec h PI Hl Hd Hh ltac:(lra)) as [_ H2]. rewrite Rabs_right in H2 by lra. specialize (All PI). lra.
  - destruct (Req_dec (setting_hour_angle lat dec h) 0) as [E|N]; [assumption|]. exfalso.
    destruct (setting_sides lat dec h 0 Hl Hd Hh ltac:(lra)) as [H1 _]. rewrite Rabs_R0 in H1. specialize (All 0). lra.
Qed.

(** * The parabola *)
Lemma q_rising a b c : c < 0 -> 0 <= a + b + c ->
  exists x, q_root a b c 1 = Some x /\ 0 < x <= 1 /\ a * (x * x) + b * x + c = 0.
Proof.
  intros Hc Hs.
  assert (HD : 0 <= b * b - 4 * a * c).
  { destruct (Rle_dec 0 a); [nra|]. assert (b >= - a - c) by lra. assert ((a - c) * (a - c) >= 0) by (apply Rle_ge, Rle_0_sqr). nra. }
  unfold q_root. rewrite Rmax_left by assumption. rewrite Rmult_1_l.
  pose proof (sqrt_pos (b * b - 4 * a * c)) as P. pose proof (sqrt_sqrt _ HD) as S1. set (w := sqrt (b * b - 4 * a * c)) in *.
  assert (Hd : -(2 * c) <= b + w).
  { destruct (Rle_dec (- (2 * c)) b); [lra|]. assert (0 < - (2 * c) - b) by lra.
    assert ((- (2 * c) - b) * (- (2 * c) - b) <= w * w). { rewrite S1. nra. }
    assert (- (2 * c) - b <= w) by nra. lra. }
  destruct (Req_EM_T (b + w) 0) as [E|E]; [lra|]. exists (- (2 * c) / (b + w)). split; [reflexivity|].
  assert (Hx : - (2 * c) / (b + w) * (b + w) = - (2 * c)) by (field; assumption). set (x := - (2 * c) / (b + w)) in *. clearbody x.
  split; [split|].
  - apply Rmult_lt_reg_r with (b + w); lra.
  - apply Rmult_le_reg_r with (b + w); lra.
  - assert (E2 : (b + w) * (b + w) * (a * (x * x) + b * x + c) = 0).
    { transitivity (a * ((x * (b + w)) * (x * (b + w))) + b * (b + w) * (x * (b + w)) + c * ((b + w) * (b + w))); [ring|]. rewrite Hx. nra. }
    apply Rmult_integral in E2 as [E2|E2]; [|assumption]. nra.
Qed.
Lemma q_neg a b c : q_root (- a) (- b) (- c) 1 = q_root a b c (-1).
Proof.
  unfold q_root. replace (- b * - b - 4 * - a * - c) with (b * b - 4 * a * c) by ring. set (w := sqrt _).
  destruct (Req_EM_T (- b + 1 * w) 0), (Req_EM_T (b + -1 * w) 0); try lra; [reflexivity|]. f_equal. field. split; lra.
Qed.
Lemma intersection_ok y0 y1 v0 v1 : y0 <> 0 -> y0 * y1 <= 0 ->
  exists x, intersection y0 y1 v0 v1 = Some x /\ 0 < x <= 1 /\
    let parabola s := (y1 - y0 - v0) * (s * s) + v0 * s + y0 in
    parabola x = 0 /\ parabola 0 = y0 /\ parabola 1 = y1.
Proof.
  intros N H. unfold intersection. cbv zeta. destruct (Rlt_dec y1 y0) as [L|L].
  - replace (1 - 2 * 1) with (-1) by ring. rewrite <- q_neg. destruct (q_rising (- (y1 - y0 - v0)) (- v0) (- y0)) as (x & E & B & P); [nra|nra|].
    exists x. split; [assumption|]. split; [assumption|]. split; [lra|]. split; ring.
  - replace (1 - 2 * 0) with 1 by ring. destruct (q_rising (y1 - y0 - v0) v0 y0) as (x & E & B & P); [nra|nra|].
    exists x. split; [assumption|]. split; [assumption|]. split; [lra|]. split; ring.
Qed.
(** Exactly on the target with no speed away from it: 0/0. *)
Lemma intersection_touch y1 v : 0 < y1 -> v <= 0 -> intersection 0 y1 v 0 = None.
Proof.
  intros H1 H2. unfold intersection. destruct (Rlt_dec y1 0); [lra|]. unfold q_root. replace (v * v - 4 * (y1 - 0 - v) * 0) with (v * v) by ring. rewrite Rmax_left by nra.
  replace (sqrt (v * v)) with (- v). 2: { replace (v * v) with ((- v) * (- v)) by ring. rewrite sqrt_square; lra. }
  destruct (Req_EM_T (v + (1 - 2 * 0) * - v) 0) as [|N]; [reflexivity|]. exfalso. apply N. ring.
Qed.

(** * Codes *)
Lemma code_range x m n : (0 < n)%Z -> (0 <= code_of x m n < n)%Z.
Proof. intros. apply Z.mod_pos_bound. assumption. Qed.
Lemma codes_range slon mlon : (0 <= season slon < 4)%Z /\ (0 <= moon_phase_code mlon slon < 4)%Z /\ (0 <= solar_term slon < 24)%Z.
Proof. split; [|split]; apply code_range; reflexivity. Qed.
Lemma code_ok x m n : 0 < m -> (0 < n)%Z -> exists k : Z, IZR (code_of x m n) * m <= x + IZR k * (IZR n * m) < (IZR (code_of x m n) + 1) * m.
Proof.
  intros Hm Hn. unfold code_of. set (f := rfloor (x / m)). pose proof (rfloor_bounds (x / m)) as [B1 B2]. fold f in B1, B2.
  exists (- (f / n))%Z. pose proof (Z.div_mod f n ltac:(lia)) as D. assert (E : IZR f = IZR n * IZR (f / n) + IZR (f mod n)) by (rewrite <- mult_IZR, <- plus_IZR; f_equal; exact D).
  rewrite opp_IZR. assert (Hx : x / m * m = x) by (field; lra). set (u := x / m) in *.
  replace (x + - IZR (f / n) * (IZR n * m)) with ((u - IZR n * IZR (f / n)) * m) by (rewrite <- Hx at 1; ring). split; [apply Rmult_le_compat_r; lra|apply Rmult_lt_compat_r; lra].
Qed.
Lemma code_in_range x m n : 0 < m -> (0 < n)%Z -> 0 <= x < IZR n * m -> IZR (code_of x m n) * m <= x < (IZR (code_of x m n) + 1) * m.
Proof.
  intros Hm Hn Hx. destruct (code_ok x m n Hm Hn) as [k Hk]. pose proof (code_range x m n Hn) as [C1 C2]. set (c := code_of x m n) in *.
  assert (0 <= IZR c) by (apply IZR_le; assumption). assert (IZR c + 1 <= IZR n) by (rewrite <- plus_IZR; apply IZR_le; lia).
  assert (Hn' : 1 <= IZR n) by (apply IZR_le; lia). assert (P : 0 < IZR n * m) by (apply Rmult_lt_0_compat; lra).
  assert (k = 0%Z).
  { assert (L : (IZR c + 1) * m <= IZR n * m) by (apply Rmult_le_compat_r; lra). assert (0 <= IZR c * m) by (apply Rmult_le_pos; lra).
    assert (K1 : IZR k < 1). { apply Rmult_lt_reg_r with (IZR n * m); lra. } assert (K2 : -1 < IZR k). { apply Rmult_lt_reg_r with (IZR n * m); lra. }
    apply lt_IZR in K1, K2. lia. }
  subst k. lra.
Qed.
Lemma rfloor_0_2 x : 0 <= x < 2 -> (rfloor x = 0 \/ rfloor x = 1)%Z /\ (rfloor x = 0%Z <-> x < 1).
Proof.
  intros H. destruct (Rlt_dec x 1) as [L|L].
  - rewrite (rfloor_unique x 0) by lra. split; [auto|split; auto].
  - rewrite (rfloor_unique x 1) by lra. split; [auto|split; [lia|lra]].
Qed.
Lemma opposition_ok slon tlon : (opposition_code slon tlon = 0 \/ opposition_code slon tlon = 1)%Z /\
  (opposition_code slon tlon = 0%Z <-> rmod (slon - tlon) tau < PI).
Proof.
  unfold opposition_code. pose proof PI_RGT_0 as Hp. pose proof (rmod_bounds ((slon - tlon) / PI) 2 ltac:(lra)) as B. destruct (rfloor_0_2 _ B) as [H1 H2]. split; [assumption|].
  rewrite H2. replace (rmod (slon - tlon) tau) with (PI * rmod ((slon - tlon) / PI) 2).
  - split; intros; [|apply Rmult_lt_reg_l with PI; lra]. set (u := rmod _ 2) in *. assert (PI * u < PI * 1) by (apply Rmult_lt_compat_l; lra). lra.
  - unfold rmod, tau. replace ((slon - tlon) / PI / 2) with ((slon - tlon) / (2 * PI)) by (field; lra). field. lra.
Qed.
Lemma opposition_float : exists slon tlon, fleb (of_Z 0) slon = true /\ fltb slon (of_Z 6) = true /\ fltb slon tlon = true /\ fltb tlon (of_Z 6) = true /\
  float_opposition_code slon tlon = 2%Z.
Proof. exists (of_Z 1), (fl 4503599627370497 (-52)). repeat split; reflexivity. Qed.
Lemma twilight_ok x : (0 <= twilight x <= 4)%Z /\
  ((1 <= twilight x)%Z <-> -18 <= x) /\ ((2 <= twilight x)%Z <-> -12 <= x) /\ ((3 <= twilight x)%Z <-> -6 <= x) /\ (twilight x = 4%Z <-> is_sun_up x = true).
Proof.
  unfold twilight, is_sun_up. destruct (Rle_dec (-18) x), (Rle_dec (-12) x), (Rle_dec (-6) x), (Rle_dec (- (8333 / 10000)) x); try lra; repeat split; intros; try lia; try lra; try reflexivity; try discriminate.
Qed.
Lemma twilight_mono x y : x <= y -> (twilight x <= twilight y)%Z.
Proof.
  intros H. unfold twilight. destruct (Rle_dec (-18) x), (Rle_dec (-12) x), (Rle_dec (-6) x), (Rle_dec (- (8333 / 10000)) x), (Rle_dec (-18) y), (Rle_dec (-12) y), (Rle_dec (-6) y), (Rle_dec (- (8333 / 10000)) y); try lra; lia.
Qed.

(** * Eclipses *)
Lemma eclipse_radii es me : es <> vzero -> me <> vzero -> 17371 / 10 <= vlength me -> let e := eclipse_angles es me in
  0 < e_moon e /\ e_umbra e < e_penumbra e /\ 0 <= e_closest e <= PI.
Proof.
  intros H1 H2 H3. pose proof (vlength_ne es H1). pose proof (vlength_ne me H2). cbn. split; [|split].
  - set (u := 17371 / 10 / vlength me). assert (U : 0 < u <= 1).
    { unfold u. split; [apply Rdiv_lt_0_compat; lra|]. apply Rmult_le_reg_r with (vlength me); [lra|]. replace (17371 / 10 / vlength me * vlength me) with (17371 / 10) by (field; lra). lra. }
    pose proof PI_RGT_0. apply sin_inj; [lra|apply asin_bound|]. rewrite sin_0, sin_asin; lra.
  - assert (0 < 696340 / vlength es) by (apply Rdiv_lt_0_compat; lra). lra.
  - apply angle_ok; assumption.
Qed.

Lemma nested es me : es <> vzero -> me <> vzero -> 17371 / 10 <= vlength me -> let e := eclipse_angles es me in
  (is_total e = true -> is_partial e = true) /\ (is_partial e = true -> is_penumbral e = true) /\
  (is_total e = true <-> 1 < umbral_magnitude e) /\ (is_partial e = true <-> 0 < umbral_magnitude e) /\ (is_penumbral e = true <-> 0 < penumbral_magnitude e).
Proof.
  intros H1 H2 H3. pose proof (eclipse_radii es me H1 H2 H3) as (M & U & _). cbv zeta in *. set (e := eclipse_angles es me) in *.
  unfold is_total, is_partial, is_penumbral, umbral_magnitude, penumbral_magnitude.
  assert (D : forall x, x / (2 * e_moon e) * (2 * e_moon e) = x) by (intros; field; lra).
  pose proof (D (e_umbra e + e_moon e - e_closest e)) as D1. pose proof (D (e_penumbra e + e_moon e - e_closest e)) as D2.
  set (um := (e_umbra e + e_moon e - e_closest e) / (2 * e_moon e)) in *. set (pm := (e_penumbra e + e_moon e - e_closest e) / (2 * e_moon e)) in *.
  destruct (Rlt_dec (e_closest e) (e_penumbra e + e_moon e)), (Rlt_dec (e_closest e) (e_umbra e + e_moon e)), (Rlt_dec (e_closest e) (e_umbra e - e_moon e)); try lra.
  all: repeat split; intros; try reflexivity; try discriminate; try (apply Rmult_lt_reg_r with (2 * e_moon e); lra).
  all: exfalso.
  all: try (assert (1 * (2 * e_moon e) < um * (2 * e_moon e)) by (apply Rmult_lt_compat_r; lra); lra).
  all: try (assert (0 * (2 * e_moon e) < um * (2 * e_moon e)) by (apply Rmult_lt_compat_r; lra); lra).
  all: try (assert (0 * (2 * e_moon e) < pm * (2 * e_moon e)) by (apply Rmult_lt_compat_r; lra); lra).
Qed.
(** The reported list: the candidates in the penumbra, in order, each with one code. *)
Lemma eclipses_ok cs : Forall outside_the_moon cs ->
  map fst (lunar_eclipses cs) = filter is_penumbral (map (fun c => eclipse_angles (fst c) (snd c)) cs) /\
  Forall (fun p => let '(e, code) := p in
    (code = 0%Z /\ is_partial e = false \/ code = 1%Z /\ is_partial e = true /\ is_total e = false \/ code = 2%Z /\ is_total e = true) /\
    is_penumbral e = true /\ (is_total e = true -> is_partial e = true)) (lunar_eclipses cs).
Proof.
  intros H. unfold lunar_eclipses. split.
  - rewrite map_map. cbn. apply map_id.
  - apply Forall_map, Forall_forall. intros e He. apply filter_In in He as [Hi Hp]. apply in_map_iff in Hi as ([es me] & <- & Hc).
    rewrite Forall_forall in H. destruct (H _ Hc) as (G1 & G2 & G3). cbn [fst snd] in *. destruct (nested es me G1 G2 G3) as (N1 & N2 & _). cbv zeta in *. set (e := eclipse_angles es me) in *.
    split; [|split; assumption]. unfold eclipse_code. destruct (is_total e) eqn:T; [rewrite N1 by reflexivity; right; right; auto|]. destruct (is_partial e); [right; left; auto|left; auto].
Qed.

Lemma named_sectors mlon slon : 0 <= mlon < tau -> 0 <= slon < tau ->
  IZR (season slon) * (PI / 2) <= slon < (IZR (season slon) + 1) * (PI / 2) /\
  IZR (solar_term slon) * (PI / 12) <= slon < (IZR (solar_term slon) + 1) * (PI / 12) /\
  IZR (moon_phase_code mlon slon) * (PI / 2) <= moon_phase mlon slon < (IZR (moon_phase_code mlon slon) + 1) * (PI / 2) /\
  (moon_phase mlon slon = mlon - slon \/ moon_phase mlon slon = mlon - slon + tau).
Proof.
  intros Hm Hs. pose proof PI_RGT_0 as P.
  assert (T : tau = 2 * PI) by reflexivity.
  assert (P4 : tau / 4 = PI / 2) by (rewrite T; field). assert (P24 : tau / 24 = PI / 12) by (rewrite T; field).
  split; [|split; [|split]].
  - unfold season. rewrite P4. apply code_in_range; [lra|lia|lra].
  - unfold solar_term. rewrite P24. apply code_in_range; [lra|lia|lra].
  - unfold moon_phase_code. rewrite P4. destruct (code_ok (mlon - slon) (PI / 2) 4) as [k Hk]; [lra|lia|].
    destruct (codes_range slon mlon) as [_ [R _]]. unfold moon_phase_code in R. rewrite P4 in R.
    set (c := code_of (mlon - slon) (PI / 2) 4) in *.
    assert (E : moon_phase mlon slon = mlon - slon + IZR k * (4 * (PI / 2))).
    { unfold moon_phase. apply (rmod_unique _ tau _ (- k)); [apply tau_pos| |rewrite opp_IZR, T; field].
      assert (0 <= IZR c <= 3) by (split; apply IZR_le; lia). rewrite T. nra. }
    rewrite E. exact Hk.
  - destruct (Rle_lt_dec slon mlon).
    + left. unfold moon_phase. apply rmod_id. lra.
    + right. unfold moon_phase. apply (rmod_unique _ tau _ (-1)); [apply tau_pos|lra|ring].
Qed.
