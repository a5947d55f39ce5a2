(** C107-C112: nutation. *)
From Coq Require Import Reals ZArith List Lra Lia.
From Verif Require Import Real_Math Vector_Model Geo_Model Spin_Model Spin_Spec Nutation_Data Nutation_Model Nutation_Spec
  Nutation_Proofs Nutation_Proofs2 Nutation_Proofs3 Nutation_Proofs4 Nutation_Proofs5 Nutation_Proofs6.
Import ListNotations.
Open Scope R_scope.

(** * C107 *)
Theorem C107_nutation_is_the_published_series : forall T jd k l p, matching T -> (2 <= k <= 5)%nat ->
  iau2000a T jd (Z.of_nat k) (Z.of_nat l) (Z.of_nat p) = Some (published T jd k l p).
Proof. exact (fun T jd k l p M K => iau2000a_ok T jd k (Z.of_nat k) l p M K (or_introl eq_refl)). Qed.
Print Assumptions C107_nutation_is_the_published_series.
Theorem C107_skyfield_nutation : forall jd,
  iau2000a skyfield_tables jd 5 687 687 = Some (published skyfield_tables jd 5 687 687) /\
  iau2000b skyfield_tables jd = Some (fst (published skyfield_tables jd 2 77 0) - 1350, snd (published skyfield_tables jd 2 77 0) + 3880).
Proof.
  exact (fun jd => conj (iau2000a_ok skyfield_tables jd 5 5 687 687 skyfield_matching ltac:(lia) (or_introl eq_refl)) (iau2000b_ok skyfield_tables jd skyfield_matching)).
Qed.
Print Assumptions C107_skyfield_nutation.
Example C107_ex : let T := Tables [[0;0;0;0;1]%Z] [(-172064161, -174666, 33386)%Z] [(92052331, 9086, 15377)%Z] [] [] [] in
  matching T /\ published T 2451545 5 678 687 =
  (-172064161 * sin (450160398036 / 10 ^ 6 * (PI / 648000)) + 33386 * cos (450160398036 / 10 ^ 6 * (PI / 648000)),
   92052331 * cos (450160398036 / 10 ^ 6 * (PI / 648000)) + 15377 * sin (450160398036 / 10 ^ 6 * (PI / 648000))).
Proof.
  cbv zeta. split; [repeat split|].
  assert (A : angle [0;0;0;0;1]%Z (arguments 5 ((2451545 - 2451545) / 36525)) = 450160398036 / 10 ^ 6 * (PI / 648000)).
  { unfold arguments, simon_1994, angle. cbn [map firstn polynomial combine fst snd fold_right]. lra. }
  unfold published. cbn [nals_t lunisolar_longitude lunisolar_obliquity napl_t planetary_longitude planetary_obliquity firstn combine].
  unfold sine_series, cosine_series, planet_series, total. cbn [map fold_right]. rewrite A. f_equal; lra.
Qed.

(** * C108 *)
Theorem C108_arguments_cut_after_so_many_terms_partial : forall t k, (2 <= k <= 5)%nat ->
  exists a, fundamental_arguments t (Z.of_nat k) = Some a /\ Forall2 (same_mod tau) a (arguments k t).
Proof. exact arguments_ok. Qed.
Print Assumptions C108_arguments_cut_after_so_many_terms_partial.
Theorem C108_arguments_are_reduced : forall t k a, fundamental_arguments t k = Some a -> Forall (fun x => - tau < x < tau) a /\ length a = 5%nat.
Proof. exact arguments_reduced. Qed.
Print Assumptions C108_arguments_are_reduced.
Theorem C108_one_term_is_five : forall t, exists a, fundamental_arguments t 1 = Some a /\ Forall2 (same_mod tau) a (arguments 5 t).
Proof. exact arguments_one. Qed.
Print Assumptions C108_one_term_is_five.
Theorem C108_one_term_refuted : exists t a, fundamental_arguments t 1 = Some a /\ ~ Forall2 (same_mod tau) a (arguments 1 t).
Proof. exact (ex_intro _ _ one_term). Qed.
Print Assumptions C108_one_term_refuted.
Example C108_ex : (2 <= 4 <= 5)%nat /\ exists a, fundamental_arguments 0 4 = Some a.
Proof. split; [lia|]. destruct (arguments_ok 0 4 ltac:(lia)) as (a & H & _). exists a. exact H. Qed.

(** * C109 *)
Theorem C109_arrays_date_by_date : forall T jds terms l p, jds <> [] ->
  iau2000a_m T jds terms l p = unzip_options (map (fun jd => iau2000a T jd terms l p) jds).
Proof. exact array_ok. Qed.
Print Assumptions C109_arrays_date_by_date.
Example C109_ex : [2451545; 2450895] <> ([] : list R) /\ exists x, iau2000a_m skyfield_tables [2451545; 2450895] 5 687 687 = Some x.
Proof.
  split; [discriminate|]. rewrite array_ok by discriminate. cbn [map].
  pose proof (C107_skyfield_nutation 2451545) as [-> _]. pose proof (C107_skyfield_nutation 2450895) as [-> _].
  destruct (published skyfield_tables 2451545 5 687 687), (published skyfield_tables 2450895 5 687 687). eexists. reflexivity.
Qed.

(** * C110 *)
Theorem C110_shortened_series : forall T jd k l l' p p' x y x' y', matching T -> (2 <= k <= 5)%nat -> (l <= l')%nat -> (p <= p')%nat ->
  iau2000a T jd (Z.of_nat k) (Z.of_nat l) (Z.of_nat p) = Some (x, y) ->
  iau2000a T jd (Z.of_nat k) (Z.of_nat l') (Z.of_nat p') = Some (x', y') ->
  let t := (jd - 2451545) / 36525 in
  Rabs (x' - x) <= total (size t) (between l l' (lunisolar_longitude T)) + total psize (between p p' (planetary_longitude T)) /\
  Rabs (y' - y) <= total (size t) (between l l' (lunisolar_obliquity T)) + total psize (between p p' (planetary_obliquity T)).
Proof. exact shortened_results. Qed.
Print Assumptions C110_shortened_series.
Example C110_ex : total psize (between 1 2 [(3, -4); (-5, 6); (7, 8)]%Z) = 11 /\ matching skyfield_tables.
Proof.
  split; [|exact skyfield_matching]. unfold total, between, psize. cbn [firstn skipn map fold_right fst snd].
  rewrite (Rabs_left (-5)), (Rabs_right 6) by lra. lra.
Qed.

(** * C111 *)
Theorem C111_fast_nutation_partial : forall jd x y x' y', years_1995_2020 jd ->
  iau2000b skyfield_tables jd = Some (x, y) -> iau2000a skyfield_tables jd 5 687 687 = Some (x', y') ->
  Rabs (x - x') <= 12.43 * mas /\ Rabs (y - y') <= 4.72 * mas.
Proof. exact fast_near. Qed.
Print Assumptions C111_fast_nutation_partial.
Theorem C111_fast_nutation_refuted : exists jd x y x' y', years_1995_2020 jd /\
  iau2000b skyfield_tables jd = Some (x, y) /\ iau2000a skyfield_tables jd 5 687 687 = Some (x', y') /\
  Rabs (x - x') > 2 * mas.
Proof. exact fast_far. Qed.
Print Assumptions C111_fast_nutation_refuted.
Theorem C111_sidereal_time_of_fast_nutation : forall t t' x x' y y', same_but_nutation t t' -> years_1995_2020 (tt_of t) ->
  iau2000b skyfield_tables (tt_of t) = Some (x, y) -> iau2000a skyfield_tables (tt_of t) 5 687 687 = Some (x', y') ->
  d_psi t = fst (in_radians (x, y)) -> d_psi t' = fst (in_radians (x', y')) ->
  exists dt, same_mod 24 (gast t - gast t') dt /\ Rabs (dt * 3600) <= / 1000.
Proof. exact fast_sidereal. Qed.
Print Assumptions C111_sidereal_time_of_fast_nutation.
Example C111_ex : years_1995_2020 2450895 /\ exists x y, iau2000b skyfield_tables 2450895 = Some (x, y).
Proof. split; [unfold years_1995_2020; lra|]. pose proof (C107_skyfield_nutation 2450895) as [_ ->]. eexists. eexists. reflexivity. Qed.

(** * C112 *)
Theorem C112_complementary_terms : forall T jd, c_matching T ->
  complementary_terms T jd = iers_terms T ((jd - 2451545) / 36525) * (PI / 648000).
Proof. exact c_terms_ok. Qed.
Print Assumptions C112_complementary_terms.
Theorem C112_same_arguments_as_nutation : forall t,
  Forall2 (fun x y => Rabs (x - y) <= 2 / 10 ^ 6 * (PI / 648000)) (firstn 5 (iers_arguments t)) (arguments 5 t).
Proof. exact same_arguments. Qed.
Print Assumptions C112_same_arguments_as_nutation.
Theorem C112_complementary_terms_are_small : forall jd,
  Rabs (complementary_terms skyfield_c_tables jd) <= (0.00275 + 0.87e-6 * Rabs ((jd - 2451545) / 36525)) * (PI / 648000).
Proof. exact c_terms_small. Qed.
Print Assumptions C112_complementary_terms_are_small.
Theorem C112_units_of_nutation : forall angles, set_nutation_angles angles = in_radians angles /\
  in_radians angles = (fst angles * (PI / 180 / 3600) / 10 ^ 7, snd angles * (PI / 180 / 3600) / 10 ^ 7).
Proof. exact (fun angles => conj (setter_ok angles) (radians_ok angles)). Qed.
Print Assumptions C112_units_of_nutation.
Theorem C112_earth_tilt : forall t, let '(mean, tru, eqeq, dpsi, deps) := earth_tilt t in
  mean = mean_obliquity (tdb_of t) / 3600 /\ tru = mean + deps / 3600 /\ same_mod 24 (gast t - gmst t) (eqeq / 3600) /\
  dpsi * (PI / 648000) = d_psi t /\ deps * (PI / 648000) = d_eps t.
Proof. exact tilt_ok. Qed.
Print Assumptions C112_earth_tilt.
Example C112_ex : c_matching skyfield_c_tables /\ length (ke0_t skyfield_c_tables) = 33%nat.
Proof. split; [exact skyfield_c_matching|reflexivity]. Qed.
