(** The motion of the equinox along the equator, and sidereal time (C149). *)
From Coq Require Import Reals ZArith List Lra Lia Psatz.
From Coquelicot Require Import Coquelicot.
From Verif Require Import Real_Math Real_Math_Proofs Vector_Model Geo_Model Spin_Model Frames_Spec Frames_Proofs Precession_Spec Taylor_Models Precession_Proofs.
Import ListNotations.
Open Scope R_scope.

Lemma first_row_derivative (e : R) (p o c : R -> R) (t p' o' c' : R) (d : vec) : is_derive p t p' -> is_derive o t o' -> is_derive c t c' ->
  vderiv (fun t => r1 (precession_of_angles e (p t) (o t) (c t))) t d ->
  dot d (r2 (precession_of_angles e (p t) (o t) (c t))) = c' - p' * cos (o t).
Proof.
  intros P O C (D1 & D2 & D3). unfold precession_of_angles in *. cbv zeta in *. cbn [r1 r2 vx vy vz] in *.
  assert (XP : ex_derive p t) by (eexists; exact P). assert (XO : ex_derive o t) by (eexists; exact O). assert (XC : ex_derive c t) by (eexists; exact C).
  apply is_derive_Reals in D1. apply is_derive_Reals in D2. apply is_derive_Reals in D3.
  apply is_derive_unique in D1. apply is_derive_unique in D2. apply is_derive_unique in D3.
  apply is_derive_unique in P. apply is_derive_unique in O. apply is_derive_unique in C.
  rewrite <- P, <- C.
  set (sa := sin e) in *. set (ca := cos e) in *. assert (RA : sa * sa = 1 - ca * ca) by (unfold sa, ca; pose proof (sin2_cos2 e) as Q; unfold Rsqr in Q; lra).
  clearbody sa ca.
  unfold dot. rewrite <- D1, <- D2, <- D3.
  erewrite (is_derive_unique (fun t0 => cos (c t0) * cos (- p t0) - _)); [|auto_derive; [tauto|reflexivity]].
  erewrite (is_derive_unique (fun t0 => cos (c t0) * sin (- p t0) * ca + _ - _)); [|auto_derive; [tauto|reflexivity]].
  erewrite (is_derive_unique (fun t0 => cos (c t0) * sin (- p t0) * sa + _ + _)); [|auto_derive; [tauto|reflexivity]].
  rewrite !cos_neg, !sin_neg. cbn [vx vy vz].
  assert (RP : sin (p t) * sin (p t) = 1 - cos (p t) * cos (p t)) by (pose proof (sin2_cos2 (p t)) as Q; unfold Rsqr in Q; lra).
  assert (RO : sin (o t) * sin (o t) = 1 - cos (o t) * cos (o t)) by (pose proof (sin2_cos2 (o t)) as Q; unfold Rsqr in Q; lra).
  assert (RC : sin (c t) * sin (c t) = 1 - cos (c t) * cos (c t)) by (pose proof (sin2_cos2 (c t)) as Q; unfold Rsqr in Q; lra).
  change (Derive (fun x => p x) t) with (Derive p t). change (Derive (fun x => o x) t) with (Derive o t). change (Derive (fun x => c x) t) with (Derive c t).
  revert RP RO RC. generalize (sin (p t)) (cos (p t)) (sin (o t)) (cos (o t)) (sin (c t)) (cos (c t)) (Derive p t) (Derive o t) (Derive c t). clear - RA. intros.
  ring [RA RP RO RC].
Qed.

Definition excess (t : R) : R := arcsec (0.014506 + ((((- (0.0000000368) * t - 0.000029956) * t - 0.00000044) * t + 1.3915817) * t + 4612.156534) * t).
Definition excess' (t : R) : R := arcsec (4612.156534 + 2 * 1.3915817 * t - 3 * 0.00000044 * t ^ 2 - 4 * 0.000029956 * t ^ 3 - 5 * 0.0000000368 * t ^ 4).
Definition psia' (t : R) : R := 5038.481507 - 2 * 1.0790069 * t - 3 * 0.00114045 * t ^ 2 + 4 * 0.000132851 * t ^ 3 - 5 * 0.0000000951 * t ^ 4.
Definition omegaa' (t : R) : R := - 0.025754 + 2 * 0.0512623 * t - 3 * 0.00772503 * t ^ 2 - 4 * 0.000000467 * t ^ 3 + 5 * 0.0000003337 * t ^ 4.
Definition chia' (t : R) : R := 10.556403 - 2 * 2.3814292 * t - 3 * 0.00121197 * t ^ 2 + 4 * 0.000170663 * t ^ 3 - 5 * 0.0000000560 * t ^ 4.
Lemma excess_d t : derivable_pt_lim excess t (excess' t).
Proof. apply is_derive_Reals. unfold excess, arcsec. auto_derive; [exact I|]. unfold excess', arcsec. lra. Qed.
Lemma psia_d k t : is_derive (fun t => psia_arcsec t * k) t (psia' t * k).
Proof. unfold psia_arcsec. auto_derive; [exact I|]. unfold psia'. lra. Qed.
Lemma omegaa_d k t : is_derive (fun t => omegaa_arcsec t * k) t (omegaa' t * k).
Proof. unfold omegaa_arcsec, eps0_arcsec. auto_derive; [exact I|]. unfold omegaa'. lra. Qed.
Lemma chia_d k t : is_derive (fun t => chia_arcsec t * k) t (chia' t * k).
Proof. unfold chia_arcsec. auto_derive; [exact I|]. unfold chia'. lra. Qed.
Definition rate_ex : ex := Minus (Minus (Minus (TT (TT (Poly [50384815070000; -215801380000; -3421350000; 5314040000; -47550000]%Z 10000000000) ASC) (Cos (TT (Poly [843814060000000; -2575400000; 51262300000; -77250300000; -46700000; 333700000]%Z 10000000000) ASC))) (TT (Poly [105564030000; -476285840000; -3635910000; 6826520000; -28000000]%Z 10000000000) ASC)) (TT (Poly [46121565340000; 278316340000; -1320000; -1198240000; -18400000]%Z 10000000000) Arcsec)) (TT (Poly [39]%Z 10000) Arcsec).
Lemma rate_check : all_below 12 [] [([rate_ex], 24240, 10000000000000)]%Z = true.
Proof. vm_compute. reflexivity. Qed.
Lemma rates_ten s : psia' (10 * s) = peval [50384815070000; -215801380000; -3421350000; 5314040000; -47550000]%Z s / 10000000000 /\ chia' (10 * s) = peval [105564030000; -476285840000; -3635910000; 6826520000; -28000000]%Z s / 10000000000 /\ excess' (10 * s) = peval [46121565340000; 278316340000; -1320000; -1198240000; -18400000]%Z s / 10000000000 * (PI / 648000).
Proof. unfold psia', chia', excess', arcsec. cbn [peval]. repeat split; [lra|lra|]. apply (f_equal (fun x => x * (PI / 648000))). lra. Qed.

Lemma rate_near s : Rabs s <= 1 -> Rabs (psia' (10 * s) * ASEC2RAD * cos (omegaa_arcsec (10 * s) * ASEC2RAD) - chia' (10 * s) * ASEC2RAD - excess' (10 * s) - 39 / 10000 * (PI / 648000)) <= arcsec 0.0005.
Proof.
  intros S. pose proof (all_below_ok 12 [] [([rate_ex], 24240, 10000000000000)]%Z _ _ _ s S rate_check (or_introl eq_refl) eq_refl _ (or_introl eq_refl)) as H.
  destruct (rates_ten s) as (-> & -> & ->). destruct (angles_ten s) as (_ & -> & _).
  replace ASEC2RAD with (peval [4848136811095359935899141]%Z s / 1000000000000000000000000000000) by (unfold ASEC2RAD; cbn [peval]; field).
  replace (39 / 10000) with (peval [39]%Z s / 10000) by (cbn [peval]; field).
  apply Rle_trans with (1 := H). unfold arcsec. pose proof Pi_Bounds.pi_bounds. lra.
Qed.
Lemma sidereal_is w u d : exists k, sidereal_time w u d = 24 * (earth_rotation_angle w u + excess ((w - T0 + d) / 36525) / (2 * PI) + IZR k).
Proof.
  unfold sidereal_time. cbv zeta. set (th := earth_rotation_angle w u). set (t := (w - T0 + d) / 36525).
  destruct (rmod_shift ((0.014506 + ((((- (0.0000000368) * t - 0.000029956) * t - 0.00000044) * t + 1.3915817) * t + 4612.156534) * t) / 54000 + th * 24) 24) as [k ->].
  exists k. unfold excess, arcsec. set (x := 0.014506 + _). clearbody x th. field. exact PI_neq0.
Qed.
Lemma equinox_rate : forall t d, Rabs t <= 10 -> vderiv (fun t => r1 (compute_precession (T0 + 36525 * t))) t d ->
  arcsec 0.0034 <= - (excess' t + dot d (r2 (compute_precession (T0 + 36525 * t)))) <= arcsec 0.0044.
Proof.
  intros t d Ht D.
  assert (E : forall t, compute_precession (T0 + 36525 * t) = precession_of_angles (eps0_arcsec * ASEC2RAD) (psia_arcsec t * ASEC2RAD) (omegaa_arcsec t * ASEC2RAD) (chia_arcsec t * ASEC2RAD)).
  { intros x. unfold compute_precession. replace ((T0 + 36525 * x - T0) / 36525) with x by field. reflexivity. }
  assert (D' : vderiv (fun t => r1 (precession_of_angles (eps0_arcsec * ASEC2RAD) (psia_arcsec t * ASEC2RAD) (omegaa_arcsec t * ASEC2RAD) (chia_arcsec t * ASEC2RAD))) t d).
  { destruct D as (D1 & D2 & D3). repeat split; (eapply is_derive_Reals, is_derive_ext; [|apply is_derive_Reals; eassumption]; intros x; cbv beta; rewrite E; reflexivity). }
  rewrite E. rewrite (first_row_derivative _ _ _ _ t _ _ _ d (psia_d ASEC2RAD t) (omegaa_d ASEC2RAD t) (chia_d ASEC2RAD t) D').
  pose proof (rate_near (t / 10)) as N. replace (10 * (t / 10)) with t in N by field.
  assert (S : Rabs (t / 10) <= 1). { unfold Rdiv. rewrite Rabs_mult, (Rabs_pos_eq (/ 10)) by lra. lra. }
  specialize (N S). apply Rabs_def2_le in N. unfold arcsec in *. lra.
Qed.
Lemma sidereal_follows : exists F F' : R -> R,
  (forall w u d, exists k, sidereal_time w u d = 24 * (earth_rotation_angle w u + F ((w - T0 + d) / 36525) / (2 * PI) + IZR k)) /\
  (forall t, derivable_pt_lim F t (F' t)) /\
  (forall t d, Rabs t <= 10 -> vderiv (fun t => r1 (compute_precession (T0 + 36525 * t))) t d ->
     arcsec 0.0034 <= - (F' t + dot d (r2 (compute_precession (T0 + 36525 * t)))) <= arcsec 0.0044).
Proof. exists excess, excess'. split; [exact sidereal_is|]. split; [exact excess_d|exact equinox_rate]. Qed.
Lemma equinox_moves t : exists d, vderiv (fun t => r1 (compute_precession (T0 + 36525 * t))) t d.
Proof.
  pose proof (psia_d ASEC2RAD t) as P. pose proof (omegaa_d ASEC2RAD t) as O. pose proof (chia_d ASEC2RAD t) as C.
  set (p := fun t => psia_arcsec t * ASEC2RAD) in *. set (o := fun t => omegaa_arcsec t * ASEC2RAD) in *. set (c := fun t => chia_arcsec t * ASEC2RAD) in *.
  assert (XP : ex_derive p t) by (eexists; exact P). assert (XO : ex_derive o t) by (eexists; exact O). assert (XC : ex_derive c t) by (eexists; exact C). set (e := eps0_arcsec * ASEC2RAD).
  assert (E : forall t, r1 (compute_precession (T0 + 36525 * t)) = r1 (precession_of_angles e (p t) (o t) (c t))).
  { intros x. unfold compute_precession. replace ((T0 + 36525 * x - T0) / 36525) with x by field. reflexivity. }
  clearbody p o c e. eexists (V3 _ _ _). unfold precession_of_angles in E. cbv zeta in E. cbn [r1] in E.
  repeat split; cbn [vx vy vz]; apply is_derive_Reals; (eapply is_derive_ext; [intros x; rewrite E; cbn [vx vy vz]; reflexivity|]); auto_derive; try tauto; reflexivity.
Qed.
