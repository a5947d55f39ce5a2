From Coq Require Import Reals Lra Lia Psatz ZArith.
From Verif Require Import Real_Math Real_Math_Proofs Vector_Model Vector_Proofs Vector_Proofs2 Geo_Model Geo_Spec Geo_Proofs Light_Model Light_Spec Light_Proofs.
Open Scope R_scope.

Lemma deriv_line a b x : derivable_pt_lim (fun t => a + t * b) x b.
Proof. intros eps He. exists (mkposreal 1 Rlt_0_1). intros h h0 _. replace ((a + (x + h) * b - (a + x * b)) / h - b) with 0 by (field; assumption). rewrite Rabs_R0. exact He. Qed.
Lemma deriv_ext f g x l : (forall t, f t = g t) -> derivable_pt_lim f x l -> derivable_pt_lim g x l.
Proof. intros E H eps He. destruct (H eps He) as [delta HD]. exists delta. intros h h0 hb. rewrite <- !E. apply HD; assumption. Qed.

(** * Stars *)
Lemma star_place ra dec plx : star_position ra dec plx = from_spherical (star_distance plx) dec ra.
Proof. unfold star_position, from_spherical. apply vec_ext; cbn; ring. Qed.
Lemma star_velocity_parts ra dec pr pd plx rv :
  let v := star_velocity ra dec pr pd plx rv in
  dot v (east ra) = pr / (star_parallax plx * (36525 / 100)) * doppler rv /\
  dot v (north dec ra) = pd / (star_parallax plx * (36525 / 100)) * doppler rv /\
  dot v (up dec ra) = rv * DAY_S / AU_KM * doppler rv.
Proof.
  unfold star_velocity, dot, east, north, up. cbn. set (a := pr / _ * _). set (b := pd / _ * _). set (c := rv * _ / _ * _).
  pose proof (sc2 ra) as R1. pose proof (sc2 dec) as D1. set (sr := sin ra) in *. set (cr := cos ra) in *. set (sd := sin dec) in *. set (cd := cos dec) in *. clearbody a b c sr cr sd cd.
  assert (X : cr * cr = 1 - sr * sr) by lra. assert (Y : cd * cd = 1 - sd * sd) by lra. repeat split.
  - transitivity (a * (sr * sr + cr * cr)); [ring|rewrite R1; ring].
  - transitivity (b * (sd * sd * (sr * sr + cr * cr) + cd * cd) + c * (cd * sd - cd * sd * (sr * sr + cr * cr))); [ring|rewrite R1, Y; ring].
  - transitivity (b * (cd * sd - cd * sd * (sr * sr + cr * cr)) + c * (cd * cd * (sr * sr + cr * cr) + sd * sd)); [ring|rewrite R1, Y; ring].
Qed.

(** Rates of the coordinates of a uniform motion. *)
Lemma motion_rates ra dec dist p v r' d' l' : uniform_motion ra dec dist p v ->
  derivable_pt_lim ra 0 r' -> derivable_pt_lim dec 0 d' -> derivable_pt_lim dist 0 l' ->
  l' = dot v (up (dec 0) (ra 0)) /\ dist 0 * d' = dot v (north (dec 0) (ra 0)) /\ dist 0 * cos (dec 0) * r' = dot v (east (ra 0)).
Proof.
  intros U Hr Hd Hl.
  assert (Cr : derivable_pt_lim (fun t => cos (ra t)) 0 (- sin (ra 0) * r')) by (apply (derivable_pt_lim_comp ra cos); [assumption|apply derivable_pt_lim_cos]).
  assert (Sr : derivable_pt_lim (fun t => sin (ra t)) 0 (cos (ra 0) * r')) by (apply (derivable_pt_lim_comp ra sin); [assumption|apply derivable_pt_lim_sin]).
  assert (Cd : derivable_pt_lim (fun t => cos (dec t)) 0 (- sin (dec 0) * d')) by (apply (derivable_pt_lim_comp dec cos); [assumption|apply derivable_pt_lim_cos]).
  assert (Sd : derivable_pt_lim (fun t => sin (dec t)) 0 (cos (dec 0) * d')) by (apply (derivable_pt_lim_comp dec sin); [assumption|apply derivable_pt_lim_sin]).
  assert (Rxy : derivable_pt_lim (fun t => dist t * cos (dec t)) 0 (l' * cos (dec 0) + dist 0 * (- sin (dec 0) * d'))) by (apply (derivable_pt_lim_mult dist (fun t => cos (dec t))); assumption).
  assert (X : derivable_pt_lim (fun t => dist t * cos (dec t) * cos (ra t)) 0 ((l' * cos (dec 0) + dist 0 * (- sin (dec 0) * d')) * cos (ra 0) + dist 0 * cos (dec 0) * (- sin (ra 0) * r'))) by (apply (derivable_pt_lim_mult (fun t => dist t * cos (dec t)) (fun t => cos (ra t))); assumption).
  assert (Y : derivable_pt_lim (fun t => dist t * cos (dec t) * sin (ra t)) 0 ((l' * cos (dec 0) + dist 0 * (- sin (dec 0) * d')) * sin (ra 0) + dist 0 * cos (dec 0) * (cos (ra 0) * r'))) by (apply (derivable_pt_lim_mult (fun t => dist t * cos (dec t)) (fun t => sin (ra t))); assumption).
  assert (Z : derivable_pt_lim (fun t => dist t * sin (dec t)) 0 (l' * sin (dec 0) + dist 0 * (cos (dec 0) * d'))) by (apply (derivable_pt_lim_mult dist (fun t => sin (dec t))); assumption).
  assert (X' : vx v = (l' * cos (dec 0) + dist 0 * (- sin (dec 0) * d')) * cos (ra 0) + dist 0 * cos (dec 0) * (- sin (ra 0) * r')).
  { apply (uniqueness_limite (fun t => vx p + t * vx v) 0); [apply deriv_line|]. apply (deriv_ext _ _ _ _ (fun t => f_equal vx (U t))). exact X. }
  assert (Y' : vy v = (l' * cos (dec 0) + dist 0 * (- sin (dec 0) * d')) * sin (ra 0) + dist 0 * cos (dec 0) * (cos (ra 0) * r')).
  { apply (uniqueness_limite (fun t => vy p + t * vy v) 0); [apply deriv_line|]. apply (deriv_ext _ _ _ _ (fun t => f_equal vy (U t))). exact Y. }
  assert (Z' : vz v = l' * sin (dec 0) + dist 0 * (cos (dec 0) * d')).
  { apply (uniqueness_limite (fun t => vz p + t * vz v) 0); [apply deriv_line|]. apply (deriv_ext _ _ _ _ (fun t => f_equal vz (U t))). exact Z. }
  clear - X' Y' Z'. unfold dot, up, north, east. cbn. rewrite X', Y', Z'. pose proof (sc2 (ra 0)) as R1. pose proof (sc2 (dec 0)) as D1.
  set (sr := sin (ra 0)) in *. set (cr := cos (ra 0)) in *. set (sd := sin (dec 0)) in *. set (cd := cos (dec 0)) in *. set (D := dist 0). clearbody sr cr sd cd D.
  assert (XX : cr * cr = 1 - sr * sr) by lra. assert (YY : cd * cd = 1 - sd * sd) by lra. repeat split.
  - symmetry. transitivity (l' * (cd * cd * (sr * sr + cr * cr) + sd * sd) + D * d' * cd * sd * (1 - (sr * sr + cr * cr))); [ring|rewrite R1, YY; ring].
  - symmetry. transitivity (D * d' * (sd * sd * (sr * sr + cr * cr) + cd * cd) + l' * cd * sd * (1 - (sr * sr + cr * cr))); [ring|rewrite R1, YY; ring].
  - symmetry. transitivity (D * cd * r' * (sr * sr + cr * cr)); [ring|rewrite R1; ring].
Qed.
Definition mas : R := ASEC2RAD / 10 ^ 3.
Lemma star_rates ra dec dist a d pr pd plx rv r' d' l' : 0 < plx -> sin (plx * mas) <> 0 ->
  uniform_motion ra dec dist (star_position a d plx) (star_velocity a d pr pd plx rv) ->
  ra 0 = a -> dec 0 = d -> dist 0 = star_distance plx ->
  derivable_pt_lim ra 0 r' -> derivable_pt_lim dec 0 d' -> derivable_pt_lim dist 0 l' ->
  let shrink := sin (plx * mas) / (plx * mas) in
  d' * (36525 / 100) = pd * mas * doppler rv * shrink /\
  cos d * r' * (36525 / 100) = pr * mas * doppler rv * shrink /\
  l' = rv * DAY_S / AU_KM * doppler rv.
Proof.
  intros Hp Hs U Ha Hd Hl Dr Dd Dl shrink. destruct (motion_rates _ _ _ _ _ _ _ _ U Dr Dd Dl) as (A & B & Cc). rewrite Ha, Hd, Hl in *.
  destruct (star_velocity_parts a d pr pd plx rv) as (E1 & E2 & E3). rewrite E1 in Cc. rewrite E2 in B. rewrite E3 in A. split; [|split; [|exact A]].
  - assert (Sp : star_parallax plx = plx) by (unfold star_parallax; destruct (Rle_dec plx 0); [lra|reflexivity]). unfold star_distance in B. rewrite Sp in B.
    replace (plx * (1 / 10 ^ 3) * ASEC2RAD) with (plx * mas) in B by (unfold mas; field; lra). unfold shrink. set (s := sin (plx * mas)) in *. assert (Hm : 0 < mas) by (unfold mas, ASEC2RAD; lra). set (k := doppler rv) in *. clearbody s k.
    apply (f_equal (fun x => x * s * (36525 / 100))) in B. transitivity (1 / s * d' * s * (36525 / 100)); [field; assumption|]. rewrite B. field. lra.
  - assert (Sp : star_parallax plx = plx) by (unfold star_parallax; destruct (Rle_dec plx 0); [lra|reflexivity]). unfold star_distance in Cc. rewrite Sp in Cc.
    replace (plx * (1 / 10 ^ 3) * ASEC2RAD) with (plx * mas) in Cc by (unfold mas; field; lra). unfold shrink. set (s := sin (plx * mas)) in *. assert (Hm : 0 < mas) by (unfold mas, ASEC2RAD; lra). set (k := doppler rv) in *. set (cd := cos d) in *. clearbody s k cd.
    apply (f_equal (fun x => x * s * (36525 / 100))) in Cc. transitivity (1 / s * cd * r' * s * (36525 / 100)); [field; assumption|]. rewrite Cc. field. lra.
Qed.
Lemma sinc_bound x : 0 < x <= 1 -> 1 - x * x / 6 <= sin x / x <= 1.
Proof.
  intros Hx. assert (sin x <= x) by (apply Rlt_le, sin_lt_x; lra). pose proof (pre_sin_bound x 0 ltac:(lra) ltac:(lra)) as [L _]. unfold sin_approx, sin_term in L. cbn in L.
  assert (E : sin x / x * x = sin x) by (field; lra). split; apply Rmult_le_reg_r with x; try lra; rewrite ?E; nra.
Qed.
(** A star that crosses the sky: the hypotheses can be met. *)
Lemma crossing d v : 0 < d -> uniform_motion (fun t => atan (v * t / d)) (fun _ => 0) (fun t => sqrt (d * d + v * t * (v * t))) (V3 d 0 0) (V3 0 v 0).
Proof.
  intros Hd t. unfold from_spherical. rewrite cos_0, sin_0, cos_atan, sin_atan. unfold Rsqr.
  set (x := v * t / d). assert (E : d * d + v * t * (v * t) = d * d * (1 + x * x)) by (unfold x; field; lra). rewrite E, sqrt_mult, sqrt_square by nra.
  assert (0 < sqrt (1 + x * x)) by (apply sqrt_lt_R0; nra). apply vec_ext; cbn; field_simplify; try lra; unfold x; field; lra.
Qed.

(** * The velocity of an observed star *)
Lemma star_vector_rate p v epoch o w t : vderiv (fun s => fst (fst (star_observe p v epoch s (vadd o (smul s w)) w))) t
  (vsub (smul (1 + light_time_difference p w) v) w).
Proof.
  assert (L : forall s, light_time_difference p (vadd o (smul s w)) = light_time_difference p o + s * light_time_difference p w).
  { intros s. unfold light_time_difference. rewrite dot_add_r, dot_smul_r. unfold Rdiv. ring. }
  set (a := light_time_difference p o) in *. set (b := light_time_difference p w) in *.
  unfold star_observe. cbn [fst]. repeat split; cbn.
  - apply (deriv_ext (fun s => (vx p + (a - epoch) * vx v - vx o) + s * ((1 + b) * vx v - vx w))); [intros s; rewrite L; ring|apply deriv_line].
  - apply (deriv_ext (fun s => (vy p + (a - epoch) * vy v - vy o) + s * ((1 + b) * vy v - vy w))); [intros s; rewrite L; ring|apply deriv_line].
  - apply (deriv_ext (fun s => (vz p + (a - epoch) * vz v - vz o) + s * ((1 + b) * vz v - vz w))); [intros s; rewrite L; ring|apply deriv_line].
Qed.
Lemma star_velocity_reversed p epoch o w t : w <> vzero ->
  exists rate, vderiv (fun s => fst (fst (star_observe p vzero epoch s (vadd o (smul s w)) w))) t rate /\
  snd (fst (star_observe p vzero epoch t (vadd o (smul t w)) w)) = vopp rate /\
  snd (fst (star_observe p vzero epoch t (vadd o (smul t w)) w)) <> rate.
Proof.
  intros Hw. exists (vsub (smul (1 + light_time_difference p w) vzero) w). split; [apply star_vector_rate|]. cbn. split.
  - apply vec_ext; cbn; ring.
  - intros E. apply Hw. injection E as E1 E2 E3. apply vec_ext; cbn in *; nra.
Qed.
