(** Comets and minor planets from their rows. *)
From Coq Require Import Reals Lra Lia Psatz ZArith List Bool String.
From Coquelicot Require Import Coquelicot.
From Verif Require Import Cal_Model Cal_Spec Time_Spec Time_Proofs Time_Proofs2 Real_Math Real_Math_Proofs Vector_Model Vector_Proofs Vector_Proofs2 Geo_Model Geo_Spec Geo_Proofs Geo_Proofs2 Frames_Model Kepler_Model Kepler_Spec Kepler_Proofs Kepler_Proofs2 Kepler_Proofs3 Kepler_Proofs4 Kepler_Proofs5 Kepler_Proofs6 Kepler_Proofs7 Kepler_Proofs8 Kepler_Proofs9 Elements_Model Elements_Proofs Elements_Proofs2 Elements_Proofs3 Elements_Proofs4 Mpc_Model Mpc_Spec Mpc_Proofs.
Open Scope R_scope.

Lemma convert_pos : 0 < CONVERT_GM. Proof. unfold CONVERT_GM, DAY_S, AU_KM. repeat apply Rdiv_lt_0_compat; lra. Qed.
Lemma periapsis_inv p e i Om w t gm o : from_periapsis p e i Om w t gm = Some o ->
  (o_position o, o_velocity o) = elements_vec p e (DEG2RAD * i) (DEG2RAD * Om) (DEG2RAD * w) 0 (gm * CONVERT_GM) /\ o_epoch o = t /\ mu_au3_d2 o = gm * CONVERT_GM.
Proof.
  unfold from_periapsis, with_state. destruct (ele_to_vec _ _ _ _ _ _ _) as [[x y]|] eqn:E; [|discriminate]. intros H. injection H as <-. apply ele_to_vec_inv in E. cbn [o_position o_velocity o_epoch mu_au3_d2]. rewrite E. auto.
Qed.
Lemma comet_inv q e i Om w T gm o : 0 <= e -> comet_orbit q e i Om w T gm = Some o ->
  (o_position o, o_velocity o) = elements_vec (q * (1 + e)) e (DEG2RAD * i) (DEG2RAD * Om) (DEG2RAD * w) 0 (gm * CONVERT_GM) /\ o_epoch o = T /\ mu_au3_d2 o = gm * CONVERT_GM.
Proof. intros He. unfold comet_orbit. destruct (comet_p_eq q e He) as [-> _]. apply periapsis_inv. Qed.

Section Comet.
Variables (q e i Om w T gm : R) (o : orbit) (P V : R -> vec).
Hypothesis q_pos : 0 < q.
Hypothesis e_pos : 0 <= e.
Hypothesis gm_pos : 0 < gm.
Hypothesis Row : comet_orbit q e i Om w T gm = Some o.
Hypothesis N : newtonian (gm * CONVERT_GM) P V.
Hypothesis P0 : P (o_epoch o) = o_position o.
Hypothesis V0 : V (o_epoch o) = o_velocity o.
Let mu := gm * CONVERT_GM.
Let I' := DEG2RAD * i.
Let Om' := DEG2RAD * Om.
Let w' := DEG2RAD * w.
Lemma comet_start : (P T, V T) = elements_vec (q * (1 + e)) e I' Om' w' 0 mu /\ 0 < q * (1 + e) /\ 0 < mu.
Proof.
  destruct (comet_inv q e i Om w T gm o e_pos Row) as (E & Et & _). rewrite Et in P0, V0. rewrite P0, V0. split; [exact E|]. split; [nra|]. apply Rmult_lt_0_compat; [exact gm_pos|exact convert_pos].
Qed.
Lemma comet_elliptic t : e < 1 -> let a := q / (1 - e) in
  (exists E, elliptic_mean_anomaly e E = daily_motion a mu * (t - T)) /\ forall E, elliptic_mean_anomaly e E = daily_motion a mu * (t - T) -> P t = on_ellipse a e I' Om' w' E.
Proof.
  intros L a. destruct comet_start as (S & Pp & Mp). assert (Ep : q * (1 + e) = a * (1 - e * e)) by (unfold a; field; lra). split.
  - apply (anomaly_elliptic_at (q * (1 + e)) e I' Om' w' mu T Pp Mp a t); [lra|assumption].
  - intros E K. apply (motion_elliptic (q * (1 + e)) e I' Om' w' mu T P V Pp Mp N S a t E); [lra|assumption|assumption].
Qed.
Lemma comet_hyperbolic t : 1 < e -> let a := q / (e - 1) in
  (exists F, hyperbolic_mean_anomaly e F = daily_motion a mu * (t - T)) /\ forall F, hyperbolic_mean_anomaly e F = daily_motion a mu * (t - T) -> P t = on_hyperbola a e I' Om' w' F.
Proof.
  intros L a. destruct comet_start as (S & Pp & Mp). assert (Ep : q * (1 + e) = a * (e * e - 1)) by (unfold a; field; lra). split.
  - apply (anomaly_hyperbolic_at (q * (1 + e)) e I' Om' w' mu T Pp Mp a t); [lra|assumption].
  - intros E K. apply (motion_hyperbolic (q * (1 + e)) e I' Om' w' mu T P V Pp Mp N S a t E); [lra|assumption|assumption].
Qed.
Lemma comet_parabolic t : e = 1 ->
  (exists v, cos (v / 2) <> 0 /\ parabolic_time q mu v = t - T) /\ forall v, cos (v / 2) <> 0 -> parabolic_time q mu v = t - T -> P t = on_parabola q I' Om' w' v.
Proof.
  intros L. destruct comet_start as (S & Pp & Mp). assert (Ep : q * (1 + e) = q * 2) by (rewrite L; ring). split.
  - apply (anomaly_parabolic_at (q * (1 + e)) e I' Om' w' mu T Pp Mp q t); assumption.
  - intros v Hc K. apply (motion_parabolic (q * (1 + e)) e I' Om' w' mu T P V Pp Mp N S q t v); assumption.
Qed.
End Comet.

(** ** Minor planets *)
Lemma mpcorb_inv a e i Om w M T gm o : mpcorb_orbit a e i Om w M T gm = Some o -> exists v, anomaly_of e (a * (1 - e * e)) (gm * CONVERT_GM) (DEG2RAD * M) = Some v /\
  (o_position o, o_velocity o) = elements_vec (a * (1 - e * e)) e (DEG2RAD * i) (DEG2RAD * Om) (DEG2RAD * w) v (gm * CONVERT_GM) /\ o_epoch o = T /\ mu_au3_d2 o = gm * CONVERT_GM.
Proof.
  unfold mpcorb_orbit, from_mean_anomaly, with_state. destruct (anomaly_of _ _ _ _) as [v|]; [|discriminate]. destruct (ele_to_vec _ _ _ _ _ _ _) as [[x y]|] eqn:E; [|discriminate]. intros H. injection H as <-. apply ele_to_vec_inv in E. cbn [o_position o_velocity o_epoch mu_au3_d2]. exists v. rewrite E. auto.
Qed.
Lemma minor_planet_place a e i Om w M T gm o P V : 0 < a -> 0 < e <= 1 - 1 / 10 ^ 13 -> 0 < gm -> mpcorb_orbit a e i Om w M T gm = Some o ->
  newtonian (gm * CONVERT_GM) P V -> P (o_epoch o) = o_position o -> V (o_epoch o) = o_velocity o ->
  exists E0 (k : Z), Rabs (elliptic_mean_anomaly e E0 - (DEG2RAD * M + tau * IZR k)) <= 5 / 10 ^ 14 /\
    (cos (E0 / 2) <> 0 -> forall t, let n := daily_motion a (gm * CONVERT_GM) in
      (exists E, elliptic_mean_anomaly e E = elliptic_mean_anomaly e E0 + n * (t - T)) /\
      forall E, elliptic_mean_anomaly e E = elliptic_mean_anomaly e E0 + n * (t - T) -> P t = on_ellipse a e (DEG2RAD * i) (DEG2RAD * Om) (DEG2RAD * w) E).
Proof.
  intros Ha He Hg Row N P0 V0. destruct (mpcorb_inv a e i Om w M T gm o Row) as (v & Av & Ev & Et & _). destruct (anomaly_elliptic e _ _ _ v He Av) as (E0 & k & B & Sn). exists E0, k. split; [exact B|].
  intros Hc t n. specialize (Sn Hc). set (mu := gm * CONVERT_GM) in *. assert (Mp : 0 < mu) by (apply Rmult_lt_0_compat; [exact Hg|exact convert_pos]).
  assert (He' : 0 <= e < 1) by lra. assert (Q1 : 0 < 1 - e * e) by nra. assert (Pp : 0 < a * (1 - e * e)) by (apply Rmult_lt_0_compat; assumption).
  rewrite Et in P0, V0. pose proof (peri_time _ e _ _ _ mu P V T v (E0 / sqrt (1 - e)) Pp ltac:(lra) Mp N ltac:(rewrite P0, V0; exact Ev) (seen_of_elliptic e E0 v He' Sn)) as S. cbv zeta in S.
  set (tp := T - Kx (a * (1 - e * e)) e mu (E0 / sqrt (1 - e))) in *. destruct (pace_elliptic (a * (1 - e * e)) e mu Pp He' Mp) as [Np _]. replace (a * (1 - e * e) / (1 - e * e)) with a in Np by (field; lra). fold (daily_motion a mu) in Np. fold n in Np.
  assert (Et' : n * (t - tp) = elliptic_mean_anomaly e E0 + n * (t - T)).
  { unfold tp. rewrite (Kx_elliptic _ e mu E0 Pp He' Mp). replace (a * (1 - e * e) / (1 - e * e)) with a by (field; lra). fold (daily_motion a mu). fold n. field. lra. }
  rewrite <- Et'. split.
  - apply (anomaly_elliptic_at (a * (1 - e * e)) e (DEG2RAD * i) (DEG2RAD * Om) (DEG2RAD * w) mu tp Pp Mp a t); [lra|reflexivity].
  - intros E K. apply (motion_elliptic (a * (1 - e * e)) e (DEG2RAD * i) (DEG2RAD * Om) (DEG2RAD * w) mu tp P V Pp Mp N S a t E); [lra|reflexivity|assumption].
Qed.
Lemma minor_planet_accepted a e i Om w M T gm : 0 < e <= 85 / 100 -> e <> PI / 4 -> 0 <= i -> DEG2RAD * i <= PI -> mpcorb_orbit a e i Om w M T gm <> None.
Proof.
  intros He Hq Hi Hp. unfold mpcorb_orbit, from_mean_anomaly, with_state. destruct (anomaly_found e (a * (1 - e * e)) (gm * CONVERT_GM) (DEG2RAD * M) He Hq) as (v & -> & _). unfold ele_to_vec.
  destruct (Rlt_dec 1 e); [lra|]. destruct (Rle_dec 0 (DEG2RAD * i)) as [L|L]; [|exfalso; apply L; unfold DEG2RAD; nra]. destruct (Rle_dec (DEG2RAD * i) PI); [|lra]. discriminate.
Qed.
Lemma comet_accepted q e i Om w T gm : 0 <= e -> 0 <= i -> DEG2RAD * i <= PI -> comet_orbit q e i Om w T gm <> None.
Proof.
  intros He Hi Hp. unfold comet_orbit, from_periapsis, with_state. unfold ele_to_vec. assert (Hi' : 0 <= DEG2RAD * i) by (unfold DEG2RAD; nra). set (p := if Req_EM_T e 1 then _ else _). clearbody p.
  destruct (Rlt_dec 1 e) as [G|G].
  - destruct (Rlt_dec (acos (-1 / e)) 0) as [L|_]; [pose proof (acos_bound (-1 / e)); lra|]. destruct (Rle_dec 0 (DEG2RAD * i)); [|lra]. destruct (Rle_dec (DEG2RAD * i) PI); [discriminate|lra].
  - destruct (Rle_dec 0 (DEG2RAD * i)); [|lra]. destruct (Rle_dec (DEG2RAD * i) PI); [discriminate|lra].
Qed.

(** ** The place that [at] returns *)
Lemma ecliptic_back v : exists d, Rabs d <= 1 / 10 ^ 15 /\ mxv (spice_matrix "ECLIPJ2000"%string) (mxv to_equator v) = vadd v (smul d (V3 0 (vy v) (vz v))).
Proof.
  exists (0.91748206206918181 * 0.91748206206918181 + 0.39777715593191371 * 0.39777715593191371 - 1). split; [apply Rabs_le; lra|].
  unfold to_equator. change (spice_matrix "ECLIPJ2000"%string) with (M3 (V3 1 0 0) (V3 0 0.91748206206918181 0.39777715593191371) (V3 0 (- 0.39777715593191371) 0.91748206206918181)).
  replace (-0.39777715593191371) with (- (0.39777715593191371)) by lra. generalize 0.91748206206918181 0.39777715593191371. intros c s. destruct v as [x y z]. apply vec_ext; unfold mxv, transp, dot, vadd, smul; cbn; ring.
Qed.
Lemma flat_length v : vlength (V3 0 (vy v) (vz v)) <= vlength v.
Proof. unfold vlength. apply sqrt_le_1_alt. unfold dot. cbn [vx vy vz]. nra. Qed.
Lemma at_follows fuel bound o P V : 0 < mu_au3_d2 o -> cross (o_position o) (o_velocity o) <> vzero -> (1064 <= fuel)%nat ->
  newtonian (mu_au3_d2 o) P V -> P (o_epoch o) = o_position o -> V (o_epoch o) = o_velocity o -> forall t,
    2 * reach (o_position o) (o_velocity o) (mu_au3_d2 o) (t - o_epoch o) <= bound -> drift (o_position o) (o_velocity o) (mu_au3_d2 o) (2 * reach (o_position o) (o_velocity o) (mu_au3_d2 o) (t - o_epoch o)) <= pace (o_position o) (o_velocity o) (mu_au3_d2 o) / 2 ->
    exists p v, orbit_at (Some to_equator) fuel bound o t = Some (p, v) /\
      let s := position_slack (o_position o) (o_velocity o) (mu_au3_d2 o) (t - o_epoch o) in
      vlength (vsub (mxv (spice_matrix "ECLIPJ2000"%string) p) (P t)) <= s + 1 / 10 ^ 15 * (vlength (P t) + s).
Proof.
  intros Hm Hc Hf N P0 V0 t B D. destruct (stumpff_follows fuel bound _ _ (o_epoch o) _ P V Hm Hc Hf N P0 V0 t B D) as (p & v & E & L & _).
  exists (mxv to_equator p), (mxv to_equator v). unfold orbit_at. rewrite E. split; [reflexivity|]. cbv zeta. set (s := position_slack _ _ _ _) in *. clearbody s.
  destruct (ecliptic_back p) as (d & Bd & ->). set (f := V3 0 (vy p) (vz p)). replace (vsub (vadd p (smul d f)) (P t)) with (vadd (vsub p (P t)) (smul d f)) by (apply vec_ext; cbn; ring).
  eapply Rle_trans; [apply triangle|]. rewrite smul_length. pose proof (flat_length p) as F. fold f in F.
  assert (Lp : vlength p <= vlength (P t) + s). { replace p with (vadd (P t) (vsub p (P t))) at 1 by (apply vec_ext; cbn; ring). eapply Rle_trans; [apply triangle|]. lra. }
  assert (Rabs d * vlength f <= 1 / 10 ^ 15 * (vlength (P t) + s)); [|lra]. apply Rmult_le_compat; [apply Rabs_pos|apply vlength_pos|exact Bd|lra].
Qed.

(** ** The date of perihelion *)
Lemma day_with_fraction cut y m d f : 0 <= f < 1 -> julian_day_real y m (IZR d + f) cut = IZR (julian_day y m d cut) + f.
Proof.
  intros B. unfold julian_day_real, julian_day. cbv zeta. set (g := (_ + 4716 - _)%Z). clearbody g. set (F := ((153 * _ + 2) / 5)%Z). clearbody F. set (A := (1461 * g / 4)%Z). clearbody A. set (C := (38 - _)%Z). clearbody C.
  assert (EJ : IZR A + (IZR d + f) - 1402 + IZR F = IZR (A + d - 1402 + F) + f) by (rewrite !plus_IZR, minus_IZR, plus_IZR; ring). rewrite EJ. clear EJ. set (J := (A + d - 1402 + F)%Z). clearbody J. rewrite plus_IZR, mult_IZR.
  destruct cut as [c|]; [|rewrite Rmult_1_r; ring]. destruct (Rle_dec (IZR c) (IZR J + f)) as [L|L].
  - assert (L' : (c <= J)%Z). { assert (H : IZR c < IZR (J + 1)) by (rewrite plus_IZR; lra). apply lt_IZR in H. lia. } apply Z.leb_le in L'. rewrite L'. cbn [b2z]. ring.
  - assert (L' : (c <=? J)%Z = false). { apply Z.leb_gt. apply lt_IZR. lra. } rewrite L'. cbn [b2z]. ring.
Qed.
Lemma perihelion_date cut y m d f : good_cutoff cut -> exists_under cut (y, m, d) -> 0 <= f < 1 -> tt_of_day cut y m (IZR d + f) = IZR (civil_day_number cut (y, m, d)) - 1 / 2 + f.
Proof. intros Hc He Hf. unfold tt_of_day. rewrite (day_with_fraction cut y m d f Hf), (civil_is_julian_day cut y m d Hc He). ring. Qed.

(** ** The elements come back *)
Lemma elements_scaled k s p e i Om w v mu : 0 < k -> 0 < s -> 0 < p -> 0 < 1 + e * cos v -> 0 < mu ->
  elements_vec (k * p) e i Om w v (mu * k ^ 3 / s ^ 2) = (smul k (fst (elements_vec p e i Om w v mu)), smul (k / s) (snd (elements_vec p e i Om w v mu))).
Proof.
  intros Hk Hs Hp Hd Hm. unfold elements_vec. cbv zeta. cbn [fst snd].
  assert (Eh : sqrt (k * p * (mu * k ^ 3 / s ^ 2)) = k ^ 2 / s * sqrt (p * mu)).
  { replace (k * p * (mu * k ^ 3 / s ^ 2)) with ((k ^ 2 / s) * (k ^ 2 / s) * (p * mu)) by (field; lra). rewrite sqrt_mult_alt by (assert (0 < k ^ 2 / s) by (apply Rdiv_lt_0_compat; nra); nra). rewrite sqrt_square; [reflexivity|]. apply Rlt_le, Rdiv_lt_0_compat; nra. }
  rewrite Eh. set (h := sqrt (p * mu)). clearbody h. clear Eh. f_equal; apply vec_ext; cbn [smul vx vy vz]; field; repeat split; lra.
Qed.
Lemma elements_return p e i Om w v gm o : 0 < p -> tiny < e -> 0 < i < PI -> 0 < 1 + e * cos v -> 0 < gm ->
  (o_position o, o_velocity o) = elements_vec p e i Om w v (gm * CONVERT_GM) -> mu_au3_d2 o = gm * CONVERT_GM ->
  exists el, elements_at_epoch o = Some el /\ el_p el = AU_KM * p /\ el_e el = e /\ el_i el = i /\
    same_angle (el_Om el) Om /\ same_angle (el_w el) w /\ same_angle (el_v el) v /\ 0 <= el_Om el < tau /\ 0 <= el_w el < tau.
Proof.
  intros Hp He Hi Hd Hg E Em. assert (Hk : 0 < AU_KM) by (unfold AU_KM; lra). assert (Hs : 0 < DAY_S) by (unfold DAY_S; lra). pose proof convert_pos as Hc.
  pose proof (elements_scaled AU_KM DAY_S p e i Om w v (gm * CONVERT_GM) Hk Hs Hp Hd ltac:(apply Rmult_lt_0_compat; assumption)) as S. rewrite <- E in S. cbn [fst snd] in S.
  assert (Eg : gm * CONVERT_GM * AU_KM ^ 3 / DAY_S ^ 2 = gm) by (unfold CONVERT_GM; field; lra). rewrite Eg in S.
  unfold elements_at_epoch. rewrite Em. replace (gm * CONVERT_GM / CONVERT_GM) with gm by (field; lra). fold (km (o_position o)) (km_per_s (o_velocity o)) in S. 
  assert (Hkp : 0 < AU_KM * p) by (apply Rmult_lt_0_compat; assumption). pose proof (elements_back (AU_KM * p) e i Om w v gm Hkp He Hi Hd Hg) as K. rewrite S in K. cbn [fst snd] in K. rewrite K. eexists. split; [reflexivity|]. cbn [el_p el_e el_i el_Om el_w el_v].
  pose proof tau_pos as T. repeat split; try apply rmod_same_angle; try (apply rmod_bounds; assumption).
  unfold reported_v. destruct (Rlt_dec e (1 - tiny)); [apply rmod_same_angle|apply normpi_same_angle].
Qed.
Lemma comet_elements q e i Om w T gm o : 0 < q -> tiny < e -> 0 < DEG2RAD * i < PI -> 0 < gm -> comet_orbit q e i Om w T gm = Some o ->
  exists el, elements_at_epoch o = Some el /\ el_p el = AU_KM * (q * (1 + e)) /\ el_e el = e /\ el_i el = DEG2RAD * i /\
    same_angle (el_Om el) (DEG2RAD * Om) /\ same_angle (el_w el) (DEG2RAD * w) /\ same_angle (el_v el) 0 /\ 0 <= el_Om el < tau /\ 0 <= el_w el < tau.
Proof.
  intros Hq He Hi Hg Row. assert (He' : 0 < e) by (unfold tiny in He; lra). destruct (comet_inv q e i Om w T gm o ltac:(lra) Row) as (E & _ & Em).
  apply (elements_return (q * (1 + e)) e (DEG2RAD * i) (DEG2RAD * Om) (DEG2RAD * w) 0 gm o); try assumption; [nra|rewrite cos_0; lra].
Qed.
Lemma minor_planet_elements a e i Om w M T gm o : 0 < a -> tiny < e <= 1 - 1 / 10 ^ 13 -> 0 < DEG2RAD * i < PI -> 0 < gm -> mpcorb_orbit a e i Om w M T gm = Some o ->
  exists el, elements_at_epoch o = Some el /\ el_p el = AU_KM * (a * (1 - e * e)) /\ el_e el = e /\ el_i el = DEG2RAD * i /\
    same_angle (el_Om el) (DEG2RAD * Om) /\ same_angle (el_w el) (DEG2RAD * w) /\ 0 <= el_Om el < tau /\ 0 <= el_w el < tau.
Proof.
  intros Ha He Hi Hg Row. assert (He' : 0 < e) by (unfold tiny in He; lra). destruct (mpcorb_inv a e i Om w M T gm o Row) as (v & _ & E & _ & Em).
  assert (Hp : 0 < a * (1 - e * e)) by (apply Rmult_lt_0_compat; nra). assert (Hd : 0 < 1 + e * cos v) by (pose proof (COS_bound v); nra).
  destruct (elements_return (a * (1 - e * e)) e (DEG2RAD * i) (DEG2RAD * Om) (DEG2RAD * w) v gm o Hp ltac:(lra) Hi Hd Hg E Em) as (el & H1 & H2 & H3 & H4 & H5 & H6 & _ & H7 & H8). exists el. auto 10.
Qed.

(** ** Statements in the words of the specification *)
Lemma mass_units gm : au3_per_day2 gm = gm * CONVERT_GM.
Proof. unfold au3_per_day2, CONVERT_GM, DAY_S, AU_KM. assert (149597870.7 = 1495978707 / 10) as -> by lra. field. Qed.
Lemma comet_ellipse q e i Om w T gm o P V : 0 < q -> 0 <= e < 1 -> 0 < gm -> comet_orbit q e i Om w T gm = Some o ->
  newtonian (au3_per_day2 gm) P V -> P (o_epoch o) = o_position o -> V (o_epoch o) = o_velocity o -> forall t, let a := q / (1 - e) in let M := daily_motion a (au3_per_day2 gm) * (t - T) in
  (exists E, elliptic_mean_anomaly e E = M) /\ forall E, elliptic_mean_anomaly e E = M -> P t = on_ellipse a e (DEG2RAD * i) (DEG2RAD * Om) (DEG2RAD * w) E.
Proof. intros Hq He Hg Row N P0 V0 t. rewrite mass_units in *. cbv zeta. apply (comet_elliptic q e i Om w T gm o P V Hq ltac:(lra) Hg Row N P0 V0 t). lra. Qed.
Lemma comet_hyperbola q e i Om w T gm o P V : 0 < q -> 1 < e -> 0 < gm -> comet_orbit q e i Om w T gm = Some o ->
  newtonian (au3_per_day2 gm) P V -> P (o_epoch o) = o_position o -> V (o_epoch o) = o_velocity o -> forall t, let a := q / (e - 1) in let M := daily_motion a (au3_per_day2 gm) * (t - T) in
  (exists F, hyperbolic_mean_anomaly e F = M) /\ forall F, hyperbolic_mean_anomaly e F = M -> P t = on_hyperbola a e (DEG2RAD * i) (DEG2RAD * Om) (DEG2RAD * w) F.
Proof. intros Hq He Hg Row N P0 V0 t. rewrite mass_units in *. cbv zeta. apply (comet_hyperbolic q e i Om w T gm o P V Hq ltac:(lra) Hg Row N P0 V0 t). lra. Qed.
Lemma comet_parabola q i Om w T gm o P V : 0 < q -> 0 < gm -> comet_orbit q 1 i Om w T gm = Some o ->
  newtonian (au3_per_day2 gm) P V -> P (o_epoch o) = o_position o -> V (o_epoch o) = o_velocity o -> forall t,
  (exists v, cos (v / 2) <> 0 /\ parabolic_time q (au3_per_day2 gm) v = t - T) /\ forall v, cos (v / 2) <> 0 -> parabolic_time q (au3_per_day2 gm) v = t - T -> P t = on_parabola q (DEG2RAD * i) (DEG2RAD * Om) (DEG2RAD * w) v.
Proof. intros Hq Hg Row N P0 V0 t. rewrite mass_units in *. apply (comet_parabolic q 1 i Om w T gm o P V Hq ltac:(lra) Hg Row N P0 V0 t). reflexivity. Qed.
Lemma minor_planet_ellipse a e i Om w M T gm o P V : 0 < a -> 0 < e <= 1 - 1 / 10 ^ 13 -> 0 < gm -> mpcorb_orbit a e i Om w M T gm = Some o ->
  newtonian (au3_per_day2 gm) P V -> P (o_epoch o) = o_position o -> V (o_epoch o) = o_velocity o ->
  exists E0 (k : Z), Rabs (elliptic_mean_anomaly e E0 - (DEG2RAD * M + tau * IZR k)) <= 5 / 10 ^ 14 /\
    (cos (E0 / 2) <> 0 -> forall t, let M' := elliptic_mean_anomaly e E0 + daily_motion a (au3_per_day2 gm) * (t - T) in
      (exists E, elliptic_mean_anomaly e E = M') /\
      forall E, elliptic_mean_anomaly e E = M' -> P t = on_ellipse a e (DEG2RAD * i) (DEG2RAD * Om) (DEG2RAD * w) E).
Proof. rewrite mass_units. exact (minor_planet_place a e i Om w M T gm o P V). Qed.
Lemma kept_epoch_mass : (forall q e i Om w T gm o, 0 <= e -> comet_orbit q e i Om w T gm = Some o -> o_epoch o = T /\ mu_au3_d2 o = au3_per_day2 gm) /\
  (forall a e i Om w M T gm o, mpcorb_orbit a e i Om w M T gm = Some o -> o_epoch o = T /\ mu_au3_d2 o = au3_per_day2 gm).
Proof.
  split.
  - intros q e i Om w T gm o He Row. rewrite mass_units. apply (comet_inv q e i Om w T gm o He Row).
  - intros a e i Om w M T gm o Row. rewrite mass_units. destruct (mpcorb_inv a e i Om w M T gm o Row) as (v & _ & _ & H). exact H.
Qed.
Lemma row_date cut y m d f q e i Om w gm : good_cutoff cut -> exists_under cut (y, m, d) -> 0 <= f < 1 ->
  comet_of_row cut y m (IZR d + f) q e i Om w gm = comet_orbit q e i Om w (IZR (civil_day_number cut (y, m, d)) - 1 / 2 + f) gm.
Proof. intros Hc He Hf. unfold comet_of_row. rewrite (perihelion_date cut y m d f Hc He Hf). reflexivity. Qed.
(** Such motions exist. *)
Lemma comet_moves q e T gm : 0 < q -> 0 <= e -> 0 < gm -> exists o P V, comet_orbit q e 0 0 0 T gm = Some o /\ newtonian (au3_per_day2 gm) P V /\ P (o_epoch o) = o_position o /\ V (o_epoch o) = o_velocity o.
Proof.
  intros Hq He Hg. destruct (comet_orbit q e 0 0 0 T gm) as [o|] eqn:E; [|exfalso; apply (comet_accepted q e 0 0 0 T gm He); [lra|rewrite Rmult_0_r; apply Rlt_le, PI_RGT_0|exact E]].
  destruct (comet_inv q e 0 0 0 T gm o He E) as (S & _ & _). assert (Hp : 0 < q * (1 + e)) by nra. assert (Hd : 0 < 1 + e * cos 0) by (rewrite cos_0; lra). assert (Hm : 0 < gm * CONVERT_GM) by (apply Rmult_lt_0_compat; [exact Hg|exact convert_pos]).
  pose proof (state_momentum (q * (1 + e)) e (DEG2RAD * 0) (DEG2RAD * 0) (DEG2RAD * 0) 0 (gm * CONVERT_GM) Hp Hd) as K. rewrite <- S in K. cbn [fst snd] in K.
  assert (Hx : cross (o_position o) (o_velocity o) <> vzero).
  { rewrite K. intros Z. apply (f_equal vz) in Z. unfold pole in Z. cbn [smul vz vzero] in Z. rewrite Rmult_0_r, cos_0 in Z. assert (0 < sqrt (q * (1 + e) * (gm * CONVERT_GM))) by (apply sqrt_lt_R0, Rmult_lt_0_compat; assumption). lra. }
  destruct (motion_exists _ _ (o_epoch o) (gm * CONVERT_GM) Hm Hx) as (P & V & N & P0 & V0). exists o, P, V. rewrite mass_units. auto.
Qed.
Lemma minor_planet_moves a e M T gm : 0 < a -> 0 < e <= 85 / 100 -> e <> PI / 4 -> 0 < gm -> exists o P V, mpcorb_orbit a e 0 0 0 M T gm = Some o /\ newtonian (au3_per_day2 gm) P V /\ P (o_epoch o) = o_position o /\ V (o_epoch o) = o_velocity o.
Proof.
  intros Ha He Hq Hg. destruct (mpcorb_orbit a e 0 0 0 M T gm) as [o|] eqn:E; [|exfalso; apply (minor_planet_accepted a e 0 0 0 M T gm He Hq); [lra|rewrite Rmult_0_r; apply Rlt_le, PI_RGT_0|exact E]].
  destruct (mpcorb_inv a e 0 0 0 M T gm o E) as (v & _ & S & _ & _). assert (Hp : 0 < a * (1 - e * e)) by (apply Rmult_lt_0_compat; nra). assert (Hd : 0 < 1 + e * cos v) by (pose proof (COS_bound v); nra). assert (Hm : 0 < gm * CONVERT_GM) by (apply Rmult_lt_0_compat; [exact Hg|exact convert_pos]).
  pose proof (state_momentum (a * (1 - e * e)) e (DEG2RAD * 0) (DEG2RAD * 0) (DEG2RAD * 0) v (gm * CONVERT_GM) Hp Hd) as K. rewrite <- S in K. cbn [fst snd] in K.
  assert (Hx : cross (o_position o) (o_velocity o) <> vzero).
  { rewrite K. intros Z. apply (f_equal vz) in Z. unfold pole in Z. cbn [smul vz vzero] in Z. rewrite Rmult_0_r, cos_0 in Z. assert (0 < sqrt (a * (1 - e * e) * (gm * CONVERT_GM))) by (apply sqrt_lt_R0, Rmult_lt_0_compat; assumption). lra. }
  destruct (motion_exists _ _ (o_epoch o) (gm * CONVERT_GM) Hm Hx) as (P & V & N & P0 & V0). exists o, P, V. rewrite mass_units. auto.
Qed.
