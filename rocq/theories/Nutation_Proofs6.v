(** Complementary terms, units, and the deprecated [earth_tilt]. *)
From Coq Require Import Reals ZArith List Lra Lia Psatz.
From Verif Require Import Real_Math Real_Math_Proofs Vector_Model Geo_Model Spin_Model Spin_Spec Spin_Proofs Kepler_Proofs4 Pi_Bounds
  Nutation_Model Nutation_Spec Nutation_Data Nutation_Proofs Nutation_Proofs3 Nutation_Proofs4 Nutation_Proofs5.
Import ListNotations.
Open Scope R_scope.

Lemma ct_turn p m t q : q * 1296000 = m -> same_mod tau (p * arcsecond + rmod (q * t) 1 * tau) ((p + m * t) * (PI / 648000)).
Proof.
  intros <-. destruct (rmod_shift (q * t) 1) as [k ->]. exists k. unfold arcsecond, tau. field.
Qed.
Lemma ct_arguments_ok t : Forall2 (same_mod tau) (map (fun x => rmod x tau) (ct_arguments t)) (iers_arguments t).
Proof.
  unfold ct_arguments, iers_arguments. cbn [map app].
  do 5 (apply Forall2_cons; [eapply sm_trans; [apply sm_rmod|]; eapply sm_trans; [eapply ct_turn; reflexivity|]; apply sm_eq; cbn [polynomial]; f_equal; lra|]).
  do 9 (apply Forall2_cons; [eapply sm_trans; [apply sm_rmod|]; apply sm_eq; cbn [polynomial]; lra|]). apply Forall2_nil.
Qed.
Lemma rdot_total ns a ss cs : length ss = length ns -> length cs = length ns ->
  rdot (map sin (map (fun n => row_dot n a) ns)) ss + rdot (map cos (map (fun n => row_dot n a) ns)) cs
  = total (fun r => let '(n, (U, V)) := r in U * sin (angle n a) + V * cos (angle n a)) (combine ns (combine ss cs)).
Proof.
  revert ss cs. induction ns as [|n ns IH]; intros [|s ss] [|c cs]; try discriminate; intros L1 L2; [unfold total; cbn; ring|].
  injection L1 as L1. injection L2 as L2. cbn [combine]. rewrite total_cons, <- IH by assumption. cbn [map rdot]. rewrite row_dot_angle. ring.
Qed.
Lemma total_mod a b rows : Forall2 (same_mod tau) a b ->
  total (fun r : list Z * (R * R) => let '(n, (U, V)) := r in U * sin (angle n a) + V * cos (angle n a)) rows
  = total (fun r => let '(n, (U, V)) := r in U * sin (angle n b) + V * cos (angle n b)) rows.
Proof. intros H. apply total_ext. intros (n, (U, V)) _. destruct (sm_cos _ _ (angle_mod tau n a b H)) as [-> ->]. reflexivity. Qed.
Lemma c_terms_ok T jd : c_matching T -> complementary_terms T jd = iers_terms T ((jd - 2451545) / 36525) * (PI / 648000).
Proof.
  intros [M1 M2]. unfold complementary_terms, iers_terms. change T0 with 2451545. set (t := (jd - 2451545) / 36525). cbv zeta.
  rewrite Rplus_assoc, rdot_total by assumption. rewrite (total_mod _ _ _ (ct_arguments_ok t)), row_dot_angle.
  destruct (sm_cos _ _ (angle_mod tau (ke1 T) _ _ (ct_arguments_ok t))) as [-> ->]. unfold arcsecond.
  set (s := sin _). set (tot := total _ _). clearbody s tot. replace 0.87e-6 with (87 / 10 ^ 8) by lra. ring.
Qed.
Lemma same_arguments t : Forall2 (fun x y => Rabs (x - y) <= 2 / 10 ^ 6 * (PI / 648000)) (firstn 5 (iers_arguments t)) (arguments 5 t).
Proof.
  unfold iers_arguments, arguments, simon_1994. cbn [map app firstn].
  assert (K : forall x y r, x - y = r -> Rabs r <= 2 / 10 ^ 6 -> Rabs (x * (PI / 648000) - y * (PI / 648000)) <= 2 / 10 ^ 6 * (PI / 648000)).
  { intros x y r E H. replace (x * (PI / 648000) - y * (PI / 648000)) with (r * (PI / 648000)) by (rewrite <- E; ring).
    rewrite Rabs_mult, (Rabs_right (PI / 648000)) by (pose proof PI_RGT_0; lra). apply Rmult_le_compat_r; [pose proof PI_RGT_0; lra|exact H]. }
  repeat (apply Forall2_cons; [cbn [polynomial]; eapply (K _ _ _ eq_refl); apply Rabs_le; lra|]). apply Forall2_nil.
Qed.
Lemma skyfield_c_matching : c_matching skyfield_c_tables.
Proof. split; reflexivity. Qed.
Lemma c_terms_small jd : Rabs (complementary_terms skyfield_c_tables jd) <= (0.00275 + 0.87e-6 * Rabs ((jd - 2451545) / 36525)) * (PI / 648000).
Proof.
  rewrite c_terms_ok by exact skyfield_c_matching. set (t := (jd - 2451545) / 36525). rewrite Rabs_mult, (Rabs_right (PI / 648000)) by (pose proof PI_RGT_0; lra).
  apply Rmult_le_compat_r; [pose proof PI_RGT_0; lra|]. unfold iers_terms.
  set (tot := total _ _). assert (B : Rabs tot <= 275 / 10 ^ 5).
  { unfold tot. eapply Rle_trans; [apply total_abs|].
    eapply Rle_trans; [apply (total_le _ _ (fun r : list Z * (R * R) => Rabs (fst (snd r)) + Rabs (snd (snd r))))|].
    - intros (n, (U, V)) _. cbn [fst snd]. eapply Rle_trans; [apply Rabs_triang|]. apply Rplus_le_compat; apply mul_le_1; [apply sin_1|apply cos_1].
    - cbn [ke0_t se0_t_0 se0_t_1 skyfield_c_tables].
      replace (combine ke0_data (combine (map (fun z => IZR z / 10 ^ 8) se0_0_data) (map (fun z => IZR z / 10 ^ 8) se0_1_data)))
        with (map (fun r : list Z * (Z * Z) => (fst r, (IZR (fst (snd r)) / 10 ^ 8, IZR (snd (snd r)) / 10 ^ 8))) (combine ke0_data (combine se0_0_data se0_1_data))) by reflexivity.
      assert (E : forall l : list (list Z * (Z * Z)), total (fun r : list Z * (R * R) => Rabs (fst (snd r)) + Rabs (snd (snd r)))
        (map (fun r : list Z * (Z * Z) => (fst r, (IZR (fst (snd r)) / 10 ^ 8, IZR (snd (snd r)) / 10 ^ 8))) l) = / 10 ^ 8 * IZR (ztotal (fun r => zpsize (snd r)) l)).
      { induction l as [|(n, (a, b)) l IH]; [unfold total; cbn; ring|]. cbn [map]. rewrite total_cons, IH. unfold zpsize. cbn [fst snd ztotal fold_right].
        rewrite !plus_IZR, !abs_IZR. unfold Rdiv. rewrite !Rabs_mult, (Rabs_right (/ 10 ^ 8)) by lra. unfold ztotal. ring. }
      rewrite E. match goal with |- _ * IZR ?z <= _ => let v := eval vm_compute in z in replace z with v by (vm_compute; reflexivity) end. lra. }
  clearbody tot. set (s := sin _). assert (S1 : Rabs s <= 1) by apply sin_1. clearbody s.
  assert (Q : Rabs (87 / 10 ^ 8 * t * s) <= 87 / 10 ^ 8 * Rabs t).
  { eapply Rle_trans; [apply mul_le_1; exact S1|]. rewrite Rabs_mult, (Rabs_right (87 / 10 ^ 8)) by lra. lra. }
  unfold Rminus. eapply Rle_trans; [apply Rabs_triang|]. rewrite Rabs_Ropp. lra.
Qed.

(** Units. *)
Lemma setter_ok angles : set_nutation_angles angles = in_radians angles.
Proof. destruct angles as (x, y). unfold set_nutation_angles, in_radians, TENTH_USEC_2_RAD. cbn [fst snd]. f_equal; unfold Rdiv; ring. Qed.
Lemma radians_ok angles : in_radians angles = (fst angles * (PI / 180 / 3600) / 10 ^ 7, snd angles * (PI / 180 / 3600) / 10 ^ 7).
Proof. destruct angles as (x, y). unfold in_radians, TENTH_USEC_2_RAD, arcsecond. cbn [fst snd]. f_equal; lra. Qed.
Lemma tilt_ok t : let '(mean, tru, eqeq, dpsi, deps) := earth_tilt t in
  mean = mean_obliquity (tdb_of t) / 3600 /\ tru = mean + deps / 3600 /\ same_mod 24 (gast t - gmst t) (eqeq / 3600) /\
  dpsi * (PI / 648000) = d_psi t /\ deps * (PI / 648000) = d_eps t.
Proof.
  unfold earth_tilt. assert (P : PI <> 0) by (pose proof PI_RGT_0; lra). split; [|split; [|split; [|split]]].
  - unfold mean_obliquity_radians, arcsecond, degree. field. exact P.
  - unfold arcsecond, degree. field. exact P.
  - eapply sm_trans; [apply gast_ok|]. apply sm_eq. unfold mean_obliquity_radians, arcsecond. field. exact P.
  - unfold arcsecond. field. exact P.
  - unfold arcsecond. field. exact P.
Qed.
Lemma fast_sidereal t t' x x' y y' : same_but_nutation t t' -> years_1995_2020 (tt_of t) ->
  iau2000b skyfield_tables (tt_of t) = Some (x, y) -> iau2000a skyfield_tables (tt_of t) 5 687 687 = Some (x', y') ->
  d_psi t = fst (in_radians (x, y)) -> d_psi t' = fst (in_radians (x', y')) ->
  exists dt, same_mod 24 (gast t - gast t') dt /\ Rabs (dt * 3600) <= / 1000.
Proof.
  intros (W & U & TD & CT) Y B A D D'. exists ((d_psi t - d_psi t') * cos (mean_obliquity (tdb_of t) * (PI / 648000)) * (12 / PI)). split.
  - pose proof (gast_ok t) as G. pose proof (gast_ok t') as G'.
    assert (E : gmst t = gmst t') by (unfold gmst; rewrite W, U, TD; reflexivity).
    assert (E2 : tdb_of t = tdb_of t') by (unfold tdb_of; rewrite W, TD; reflexivity).
    pose proof (sm_minus _ _ _ _ _ G G') as H. rewrite <- E, <- E2, CT in H.
    replace (gast t - gmst t - (gast t' - gmst t)) with (gast t - gast t') in H by ring.
    eapply sm_trans; [exact H|]. apply sm_eq. ring.
  - assert (SI : forall (u v : R * R), Some u = Some v -> fst u = fst v) by (intros u v E; injection E as ->; reflexivity).
    rewrite (iau2000b_ok _ _ skyfield_matching) in B. apply SI in B. cbn [fst] in B.
    change 687%Z with (Z.of_nat 687) in A. rewrite (iau2000a_ok _ _ 5 5 687 687 skyfield_matching) in A by (lia || now left). apply SI in A. cbn [fst] in A.
    pose proof (b_near_a (tt_of t) Y) as [N _]. unfold b_vs_a in N. cbn [fst] in N. rewrite A, B in N. clear A B.
    rewrite D, D', !radians_ok. cbn [fst]. rename x into p.
    set (c := cos _). assert (C1 : Rabs c <= 1) by apply cos_1. clearbody c.
    replace ((p * (PI / 180 / 3600) / 10 ^ 7 - x' * (PI / 180 / 3600) / 10 ^ 7) * c * (12 / PI) * 3600) with ((p - x') / (15 * 10 ^ 7) * c)
      by (field; pose proof PI_RGT_0; lra).
    eapply Rle_trans; [apply mul_le_1; exact C1|]. unfold Rdiv. rewrite Rabs_mult, (Rabs_right (/ (15 * 10 ^ 7))) by lra. unfold mas in N. lra.
Qed.
(** One term of the polynomials cannot be asked for. *)
Lemma one_term : exists a, fundamental_arguments (/ 10 ^ 6) 1 = Some a /\ ~ Forall2 (same_mod tau) a (arguments 1 (/ 10 ^ 6)).
Proof.
  destruct (arguments_one (/ 10 ^ 6)) as (a & E & H). exists a. split; [exact E|]. intros F.
  unfold arguments, simon_1994 in H, F. cbn [map firstn polynomial] in H, F.
  inversion H as [|x0' y0 ? ? H0 H1]; subst. inversion F as [|? ? ? ? F0 F1]; subst.
  destruct (sm_trans _ _ _ _ (sm_sym _ _ _ F0) H0) as [k Hk]. unfold tau in Hk. pose proof PI_RGT_0 as P.
  assert (G : - 17179159232178 / 10 ^ 10 - 318792 / 10 ^ 16 - 51635 / 10 ^ 24 + 24470 / 10 ^ 32 = 1296000 * IZR k).
  { apply (Rmult_eq_reg_r (PI / 648000)); [|lra]. lra. }
  assert (K1 : (-1 < k)%Z) by (apply lt_IZR; lra). assert (K2 : (k < 0)%Z) by (apply lt_IZR; lra). lia.
Qed.
Lemma some_pair (u v : R * R) : Some u = Some v -> u = v. Proof. intros E. injection E as ->. reflexivity. Qed.
Lemma shortened_results T jd k l l' p p' x y x' y' : matching T -> (2 <= k <= 5)%nat -> (l <= l')%nat -> (p <= p')%nat ->
  iau2000a T jd (Z.of_nat k) (Z.of_nat l) (Z.of_nat p) = Some (x, y) ->
  iau2000a T jd (Z.of_nat k) (Z.of_nat l') (Z.of_nat p') = Some (x', y') ->
  let t := (jd - 2451545) / 36525 in
  Rabs (x' - x) <= total (size t) (between l l' (lunisolar_longitude T)) + total psize (between p p' (planetary_longitude T)) /\
  Rabs (y' - y) <= total (size t) (between l l' (lunisolar_obliquity T)) + total psize (between p p' (planetary_obliquity T)).
Proof.
  intros M K Hl Hp E E'. rewrite (iau2000a_ok T jd k _ l p M K (or_introl eq_refl)) in E. rewrite (iau2000a_ok T jd k _ l' p' M K (or_introl eq_refl)) in E'.
  apply some_pair in E. apply some_pair in E'. pose proof (shortened T jd k l l' p p' M Hl Hp) as H. rewrite E, E' in H. exact H.
Qed.
Lemma full_ok jd : iau2000a skyfield_tables jd 5 687 687 = Some (published skyfield_tables jd 5 687 687).
Proof. exact (iau2000a_ok skyfield_tables jd 5 5 687 687 skyfield_matching ltac:(lia) (or_introl eq_refl)). Qed.
Lemma fast_near jd x y x' y' : years_1995_2020 jd ->
  iau2000b skyfield_tables jd = Some (x, y) -> iau2000a skyfield_tables jd 5 687 687 = Some (x', y') ->
  Rabs (x - x') <= 12.43 * mas /\ Rabs (y - y') <= 4.72 * mas.
Proof.
  intros Y B A. rewrite (iau2000b_ok _ _ skyfield_matching) in B. rewrite full_ok in A. apply some_pair in B. apply some_pair in A.
  pose proof (b_near_a jd Y) as N. unfold b_vs_a in N. rewrite A in N. cbn [fst snd] in N.
  pose proof (f_equal fst B) as B1. pose proof (f_equal snd B) as B2. cbn [fst snd] in B1, B2. rewrite B1, B2 in N. exact N.
Qed.
Lemma fast_far : exists jd x y x' y', years_1995_2020 jd /\
  iau2000b skyfield_tables jd = Some (x, y) /\ iau2000a skyfield_tables jd 5 687 687 = Some (x', y') /\ Rabs (x - x') > 2 * mas.
Proof.
  exists 2450895. do 4 eexists. split; [unfold years_1995_2020; lra|]. split; [apply (iau2000b_ok _ _ skyfield_matching)|].
  split; [rewrite full_ok; f_equal; apply surjective_pairing|]. pose proof b_far_from_a as F. unfold b_vs_a in F. cbn [fst] in F.
  unfold mas in *. rewrite Rabs_left; lra.
Qed.
