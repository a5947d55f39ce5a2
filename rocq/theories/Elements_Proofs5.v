From Coq Require Import Reals Lra Lia Psatz ZArith List Bool.
From Verif Require Import Real_Math Real_Math_Proofs Vector_Model Vector_Proofs Vector_Proofs2 Geo_Model Geo_Spec Geo_Proofs Geo_Proofs2 Kepler_Model Kepler_Spec Kepler_Proofs Kepler_Proofs2 Kepler_Proofs3 Elements_Model Elements_Spec Elements_Proofs3 Elements_Proofs4.
Import ListNotations.
Open Scope R_scope.

(** * Another frame *)
Lemma mxv_smul M k v : mxv M (smul k v) = smul k (mxv M v). Proof. apply vec_ext; cbn; unfold dot; cbn; ring. Qed.
Lemma mxv_add M a b : mxv M (vadd a b) = vadd (mxv M a) (mxv M b). Proof. apply vec_ext; cbn; unfold dot; cbn; ring. Qed.
Lemma mxv_sub M a b : mxv M (vsub a b) = vsub (mxv M a) (mxv M b). Proof. apply vec_ext; cbn; unfold dot; cbn; ring. Qed.
Lemma dot_zero_vec x : dot x x = 0 -> x = vzero.
Proof. unfold dot. destruct x as [a b c]. cbn. intros S. assert (a = 0 /\ b = 0 /\ c = 0) as (-> & -> & ->) by (repeat split; nra). reflexivity. Qed.
Section Turn.
Variable M : mat.
Hypothesis Rot : rotation M.
Lemma turn_cross a b : cross (mxv M a) (mxv M b) = mxv M (cross a b).
Proof.
  destruct Rot as [O D]. set (x := vsub (cross (mxv M a) (mxv M b)) (mxv M (cross a b))).
  assert (Z : forall c, dot x (mxv M c) = 0).
  { intros c. transitivity (dot (cross (mxv M a) (mxv M b)) (mxv M c) - dot (mxv M (cross a b)) (mxv M c)); [unfold x, dot; cbn; ring|].
    rewrite (orth_dot M _ _ O). replace (dot (cross (mxv M a) (mxv M b)) (mxv M c)) with (det M * dot (cross a b) c) by (unfold det, dot, cross; cbn; unfold dot; cbn; ring). rewrite D. ring. }
  assert (B : mxv M (mxv (transp M) x) = x).
  { destruct O as [O1 _]. clearbody x. transitivity (mxv (mxm M (transp M)) x); [apply vec_ext; unfold mxv, mxm, transp, dot; cbn [vx vy vz r1 r2 r3]; ring|]. rewrite O1. apply vec_ext; cbn; unfold dot; cbn; ring. }
  specialize (Z (mxv (transp M) x)). rewrite B in Z. apply dot_zero_vec in Z. unfold x in Z. apply (f_equal vx) in Z as Z1. apply (f_equal vy) in Z as Z2. apply (f_equal vz) in Z as Z3. unfold vsub in Z1, Z2, Z3. cbn [vx vy vz vzero] in Z1, Z2, Z3. apply vec_ext; lra.
Qed.
Lemma turn_length a : vlength (mxv M a) = vlength a. Proof. apply orth_length. apply Rot. Qed.
Lemma turn_dot a b : dot (mxv M a) (mxv M b) = dot a b. Proof. apply orth_dot. apply Rot. Qed.
Lemma turn_laplace pos vel mu : laplace (mxv M pos) (mxv M vel) mu = mxv M (laplace pos vel mu).
Proof. unfold laplace. rewrite turn_length, !turn_cross, mxv_sub, !mxv_smul. reflexivity. Qed.
Lemma turn_zero a : mxv M a = vzero -> a = vzero.
Proof. intros H. apply dot_zero_vec. rewrite <- turn_dot, H. unfold dot. cbn. ring. Qed.
Lemma turned pos vel mu el : osculating pos vel mu = Some el -> cross pos vel <> vzero -> tiny < el_e el ->
  exists el', osculating (mxv M pos) (mxv M vel) mu = Some el' /\ same_orbit el el' /\
    pole (el_i el') (el_Om el') = mxv M (pole (el_i el) (el_Om el)) /\
    along (el_i el') (el_Om el') (el_w el') = mxv M (along (el_i el) (el_Om el) (el_w el)) /\
    ele_to_vec (el_p el') (el_e el') (el_i el') (el_Om el') (el_w el') (el_v el') mu = Some (mxv M pos, mxv M vel).
Proof.
  intros El Hn T. destruct (osculating_base pos vel mu el El Hn) as (Hm & Hp & Ep & He & Ee).
  assert (Hn' : cross (mxv M pos) (mxv M vel) <> vzero) by (rewrite turn_cross; intros Z; apply Hn, turn_zero, Z).
  destruct (state_back_full pos vel mu Hm Hn) as (e0 & E0 & B0 & F0); [right; rewrite <- Ee; assumption|]. rewrite El in E0. injection E0 as <-.
  destruct (state_back_full (mxv M pos) (mxv M vel) mu Hm Hn') as (el' & E' & B' & F'); [right; rewrite turn_laplace, turn_length, <- Ee; assumption|].
  exists el'. split; [assumption|]. pose proof E' as E2. rewrite (osculating_eq _ _ mu Hm Hn'), turn_cross, turn_laplace in E2. pose proof El as E1. rewrite (osculating_eq _ _ mu Hm Hn) in E1.
  assert (Sm : same_orbit el el').
  { assert (X : el = Elements (semi_latus_rectum (cross pos vel) mu) (vlength (laplace pos vel mu)) (inclination (cross pos vel)) (longitude_of_ascending_node (inclination (cross pos vel)) (cross pos vel)) (argument_of_periapsis (node_vector (cross pos vel)) (laplace pos vel mu) pos vel) (true_anomaly (laplace pos vel mu) pos vel (node_vector (cross pos vel)))) by congruence.
    rewrite X in T |- *. clear X E1. assert (X : el' = Elements (semi_latus_rectum (mxv M (cross pos vel)) mu) (vlength (mxv M (laplace pos vel mu))) (inclination (mxv M (cross pos vel))) (longitude_of_ascending_node (inclination (mxv M (cross pos vel))) (mxv M (cross pos vel))) (argument_of_periapsis (node_vector (mxv M (cross pos vel))) (mxv M (laplace pos vel mu)) (mxv M pos) (mxv M vel)) (true_anomaly (mxv M (laplace pos vel mu)) (mxv M pos) (mxv M vel) (node_vector (mxv M (cross pos vel))))) by congruence.
    rewrite X. cbn [el_e] in T. unfold same_orbit. cbn [el_p el_e el_v]. split; [unfold semi_latus_rectum; rewrite turn_length; reflexivity|]. split; [apply turn_length|].
    unfold true_anomaly. rewrite turn_length, turn_dot, (angle_rotated M) by apply Rot. destruct (Rlt_dec tiny (vlength (laplace pos vel mu))); [reflexivity|lra]. }
  split; [exact Sm|]. destruct Sm as (Sp & Se & Sv). apply ele_to_vec_inv in B0. rename B0 into Q0.
  assert (Hp' : 0 < el_p el') by (rewrite Sp; assumption).
  pose proof (state_momentum _ _ (el_i el) (el_Om el) (el_w el) _ mu Hp F0) as M0. pose proof (state_momentum _ _ (el_i el') (el_Om el') (el_w el') _ mu Hp' F') as M1.
  pose proof (state_laplace _ _ (el_i el) (el_Om el) (el_w el) _ mu Hp Hm F0) as L0. pose proof (state_laplace _ _ (el_i el') (el_Om el') (el_w el') _ mu Hp' Hm F') as L1.
  pose proof B' as Q1. apply ele_to_vec_inv in Q1. rewrite Q0 in M0, L0. rewrite Q1 in M1, L1. cbn [fst snd] in M0, M1, L0, L1. rewrite turn_cross, M0, mxv_smul, Sp in M1. rewrite turn_laplace, L0, mxv_smul, Se in L1.
  assert (Inv : forall k a b, k <> 0 -> smul k a = smul k b -> a = b). { intros k a b Hk H. apply (f_equal (smul (/ k))) in H. assert (I : forall x, smul (/ k) (smul k x) = x) by (intros x; apply vec_ext; cbn; field; assumption). rewrite !I in H. exact H. }
  split; [|split; [|exact B']]; symmetry.
  - apply (Inv (sqrt (el_p el * mu))); [apply Rgt_not_eq, sqrt_lt_R0; nra|exact M1].
  - apply (Inv (el_e el)); [unfold tiny in T; lra|exact L1].
Qed.
End Turn.
Lemma km_turn M v : km (mxv M v) = mxv M (km v). Proof. unfold km. symmetry. apply mxv_smul. Qed.
Lemma km_per_s_turn M v : km_per_s (mxv M v) = mxv M (km_per_s v). Proof. unfold km_per_s. symmetry. apply mxv_smul. Qed.
Lemma in_frame s M gm el mu : rotation M -> osculating_elements_of s None gm = Some (el, mu) -> cross (km (s_xyz s)) (km_per_s (s_velocity s)) <> vzero -> tiny < el_e el ->
  exists el', osculating_elements_of s (Some M) gm = Some (el', mu) /\ same_orbit el el' /\
    pole (el_i el') (el_Om el') = mxv M (pole (el_i el) (el_Om el)) /\ along (el_i el') (el_Om el') (el_w el') = mxv M (along (el_i el) (el_Om el) (el_w el)) /\
    ele_to_vec (el_p el') (el_e el') (el_i el') (el_Om el') (el_w el') (el_v el') mu = Some (km (mxv M (s_xyz s)), km_per_s (mxv M (s_velocity s))).
Proof.
  intros Rot H Hn T. unfold osculating_elements_of in *. destruct (match gm with Some gm => Some gm | None => gm_of (s_center s) (s_target s) end) as [g|]; [|discriminate].
  destruct (osculating (km (s_xyz s)) (km_per_s (s_velocity s)) g) as [e0|] eqn:E; [|discriminate]. injection H as <- <-.
  destruct (turned M Rot _ _ g e0 E Hn T) as (el' & E' & Q). exists el'. rewrite km_turn, km_per_s_turn, E'. auto.
Qed.
(** What depends on the shape and the anomaly only. *)
Lemma same_orbit_same el el' mu : same_orbit el el' -> a_of el' = a_of el /\ b_of el' = b_of el /\ q_of el' = q_of el /\ Q_of el' = Q_of el /\
  eccentric_anomaly_el el' = eccentric_anomaly_el el /\ mean_anomaly el' = mean_anomaly el /\ mean_motion_per_day el' mu = mean_motion_per_day el mu /\
  period_in_days el' mu = period_in_days el mu /\ days_since_periapsis el' mu = days_since_periapsis el mu.
Proof.
  intros (A & B & C). unfold days_since_periapsis, period_in_days, mean_motion_per_day, mean_anomaly, eccentric_anomaly_el, a_of, b_of, q_of, Q_of. rewrite A, B, C. repeat split; reflexivity.
Qed.

(** * The mass *)
Lemma dict_in d k x : dict_get d k = Some x -> In (k, x) d.
Proof. induction d as [|[c y] d IH]; [discriminate|]. cbn. destruct (Z.eqb_spec c k) as [->|]; [intros H; injection H as ->; auto|auto]. Qed.
Lemma table_positive k x : dict_get GM_dict k = Some x -> 0 < x.
Proof.
  intros H. apply dict_in in H. assert (F : Forall (fun r => 0 < snd r) GM_dict) by (unfold GM_dict; repeat (constructor; [cbn [snd]; lra|]); constructor). rewrite Forall_forall in F. apply (F _ H).
Qed.
Lemma get0_pos k : 0 <= get0 k. Proof. unfold get0. destruct (dict_get GM_dict k) eqn:E; [apply table_positive in E|]; lra. Qed.
Lemma gm_two c t : (c < 0 \/ 9 < c)%Z -> gm_of (Code c) (Code t) = if Rlt_dec 0 (get0 c + get0 t) then Some (get0 c + get0 t) else None.
Proof.
  intros Hc. unfold gm_of. assert (B : (0 <=? c)%Z && (c <=? 9)%Z = false). { apply andb_false_iff. destruct Hc; [left; apply Z.leb_gt; lia|right; apply Z.leb_gt; lia]. } rewrite B.
  pose proof (get0_pos c). pose proof (get0_pos t). destruct (Req_EM_T (get0 c + get0 t) 0), (Rlt_dec 0 (get0 c + get0 t)); try reflexivity; lra.
Qed.
Lemma gm_symmetric c t : (c < 0 \/ 9 < c)%Z -> (t < 0 \/ 9 < t)%Z -> gm_of (Code c) (Code t) = gm_of (Code t) (Code c).
Proof. intros Hc Ht. rewrite (gm_two c t Hc), (gm_two t c Ht), (Rplus_comm (get0 t)). reflexivity. Qed.
Lemma gm_system c t : (0 <= c <= 9)%Z -> gm_of (Code c) t = dict_get GM_dict c /\ dict_get GM_dict c <> None.
Proof.
  intros Hc. assert (S : exists x, dict_get GM_dict c = Some x).
  { assert (c = 0 \/ c = 1 \/ c = 2 \/ c = 3 \/ c = 4 \/ c = 5 \/ c = 6 \/ c = 7 \/ c = 8 \/ c = 9)%Z as X by lia. repeat (destruct X as [->|X]; [eexists; reflexivity|]). subst. eexists. reflexivity. }
  destruct S as [x Hx]. unfold gm_of, get0. rewrite Hx. assert (B : (0 <=? c)%Z && (c <=? 9)%Z = true) by (apply andb_true_iff; split; apply Z.leb_le; lia). rewrite B. pose proof (table_positive _ _ Hx). destruct (Req_EM_T x 0); [lra|]. split; [reflexivity|discriminate].
Qed.
Lemma gm_object t : gm_of Object t = None. Proof. reflexivity. Qed.
Lemma gm_satellite c x : (9 < c)%Z -> dict_get GM_dict c = Some x -> gm_of (Code c) Object = Some x.
Proof. intros Hc Hx. unfold gm_of, get0. rewrite Hx. assert (B : (0 <=? c)%Z && (c <=? 9)%Z = false) by (apply andb_false_iff; right; apply Z.leb_gt; lia). rewrite B, Rplus_0_r. pose proof (table_positive _ _ Hx). destruct (Req_EM_T x 0); [lra|reflexivity]. Qed.
Lemma systems c : (0 <= c <= 9)%Z -> Rabs (get0 c - fold_right Rplus 0 (map get0 (members c))) <= 15 / 10 ^ 4 * get0 c /\
  ((c <= 8)%Z -> Rabs (get0 c - fold_right Rplus 0 (map get0 (members c))) <= 15 / 10 ^ 7 * get0 c).
Proof.
  intros Hc. assert (c = 0 \/ c = 1 \/ c = 2 \/ c = 3 \/ c = 4 \/ c = 5 \/ c = 6 \/ c = 7 \/ c = 8 \/ c = 9)%Z as X by lia.
  repeat (destruct X as [->|X]; [cbn [members map fold_right]; unfold get0; cbn [dict_get GM_dict Z.eqb Pos.eqb]; split; [|intros _]; apply Rabs_le; lra|]). subst.
  cbn [members map fold_right]; unfold get0; cbn [dict_get GM_dict Z.eqb Pos.eqb]; split; [apply Rabs_le; lra|lia].
Qed.
Lemma not_symmetric : exists x y, gm_of (Code 3) (Code 399) = Some x /\ gm_of (Code 399) (Code 3) = Some y /\ 1.9 * x < y.
Proof.
  assert (E : gm_of (Code 399) (Code 3) = Some (get0 399 + get0 3)). { rewrite gm_two by lia. unfold get0. cbn [dict_get GM_dict Z.eqb Pos.eqb]. destruct (Rlt_dec _ _); [reflexivity|lra]. }
  destruct (gm_system 3 (Code 399) ltac:(lia)) as [E3 _]. eexists _, _. split; [rewrite E3; reflexivity|]. split; [exact E|]. unfold get0. cbn [dict_get GM_dict Z.eqb Pos.eqb]. lra.
Qed.
