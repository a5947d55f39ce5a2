(** IAU 2000B against IAU 2000A between 1995 and 2020. *)
From Coq Require Import Reals ZArith List Lra Lia Psatz.
From Verif Require Import Real_Math Real_Math_Proofs Vector_Model Geo_Model Spin_Model Spin_Spec Spin_Proofs Kepler_Proofs4 Pi_Bounds
  Nutation_Model Nutation_Spec Nutation_Data Nutation_Proofs Nutation_Proofs3.
Import ListNotations.
Open Scope R_scope.

Lemma iau2000b_ok T jd : matching T -> iau2000b T jd = Some (fst (published T jd 2 77 0) - 1350, snd (published T jd 2 77 0) + 3880).
Proof.
  intros M. unfold iau2000b. change 77%Z with (Z.of_nat 77). change 0%Z with (Z.of_nat 0). rewrite (iau2000a_ok T jd 2 2 77 0 M) by (lia || now left).
  destruct (published T jd 2 77 0) as (x, y). cbn [fst snd]. f_equal. f_equal; lra.
Qed.
Lemma Rabs_le_both x a : Rabs x <= a -> - a <= x <= a.
Proof. intros H. pose proof (Rle_abs x). pose proof (Rle_abs (- x)) as H2. rewrite Rabs_Ropp in H2. lra. Qed.
(** The omitted coefficients, in ten-thousandths of an arcsecond, up to [t = 1/5]. *)
Definition cut (d : list Z) : list R := map (fun z => IZR z * (48482 / 10 ^ 14)) d.
Lemma pow_small t b n : Rabs t <= b -> Rabs (t ^ n) <= b ^ n.
Proof. intros H. rewrite <- RPow_abs. apply pow_incr. split; [apply Rabs_pos|exact H]. Qed.
Lemma cut_one t b c2 c3 c4 e c0 c1 z : 0 <= b -> Rabs t <= b -> Rabs c2 * b ^ 2 + Rabs c3 * b ^ 3 + Rabs c4 * b ^ 4 <= e -> e = IZR z / 10 ^ 4 ->
  Rabs (polynomial [c0; c1; c2; c3; c4] t * (PI / 648000) - polynomial [c0; c1] t * (PI / 648000)) <= IZR z * (48482 / 10 ^ 14).
Proof.
  intros Hb Ht He Ez. cbn [polynomial].
  replace (_ - _) with ((c2 * t ^ 2 + (c3 * t ^ 3 + c4 * t ^ 4)) * (PI / 648000)) by ring.
  rewrite Rabs_mult. rewrite (Rabs_right (PI / 648000)) by (pose proof PI_RGT_0; lra).
  assert (X : Rabs (c2 * t ^ 2 + (c3 * t ^ 3 + c4 * t ^ 4)) <= e).
  { eapply Rle_trans; [|exact He]. eapply Rle_trans; [apply Rabs_triang|]. rewrite Rplus_assoc. apply Rplus_le_compat.
    - rewrite Rabs_mult. apply Rmult_le_compat_l; [apply Rabs_pos|]. now apply pow_small.
    - eapply Rle_trans; [apply Rabs_triang|]. apply Rplus_le_compat; rewrite Rabs_mult; (apply Rmult_le_compat_l; [apply Rabs_pos|]); now apply pow_small. }
  assert (PIB : 0 <= PI / 648000 <= 48482 / 10 ^ 10) by (pose proof pi_bounds; lra).
  pose proof (Rabs_pos (c2 * t ^ 2 + (c3 * t ^ 3 + c4 * t ^ 4))). subst e. nra.
Qed.
Ltac abs_num := repeat match goal with |- context [Rabs (- ?x)] => rewrite (Rabs_Ropp x) end;
  repeat match goal with |- context [Rabs ?x] => rewrite (Rabs_right x) by lra end.
Lemma cut_args t : Rabs t <= 1 / 5 ->
  Forall2 (fun p x => Rabs (fst p - snd p) <= x) (combine (arguments 5 t) (arguments 2 t)) (cut [12756; 222; 5101; 2549; 2990]%Z).
Proof.
  intros H. unfold arguments, simon_1994, cut. cbn [map combine firstn].
  repeat (apply Forall2_cons; [cbn [fst snd]; (eapply (cut_one t (1 / 5)); [lra|exact H| |reflexivity]); abs_num; lra|]). apply Forall2_nil.
Qed.
Definition zbend (d n : list Z) : Z := ztotal (fun p => (Z.abs (fst p) * snd p)%Z) (combine n d).
Lemma bend_z n d : bend n (cut d) = IZR (zbend d n) * (48482 / 10 ^ 14).
Proof.
  revert d. induction n as [|k n IH]; intros [|z d]; try (unfold bend, total, zbend, cut; cbn; ring).
  change (cut (z :: d)) with (IZR z * (48482 / 10 ^ 14) :: cut d). rewrite bend_cons, IH. unfold zbend. cbn [combine ztotal fold_right fst snd].
  rewrite plus_IZR, mult_IZR, abs_IZR. unfold ztotal. ring.
Qed.
Lemma zsize_pos r : (0 <= zsize r)%Z. Proof. destruct r as ((A, A'), B). unfold zsize. lia. Qed.
Lemma bend_total t d rows : Rabs t <= 1 / 5 -> Forall (fun z => (0 <= z)%Z) d ->
  total (fun r => size t (snd r) * bend (fst r) (cut d)) rows <= IZR (ztotal (fun r => (zsize (snd r) * zbend d (fst r))%Z) rows) * (48482 / 10 ^ 14) / 5.
Proof.
  intros H Hd. rewrite <- ztotal_IZR.
  replace (total (fun x => IZR (zsize (snd x) * zbend d (fst x))) rows * (48482 / 10 ^ 14) / 5)
    with (/ 5 * (48482 / 10 ^ 14) * total (fun x => IZR (zsize (snd x) * zbend d (fst x))) rows) by (unfold Rdiv; ring).
  rewrite <- total_scale. apply total_le.
  intros (n, c) _. cbn [fst snd]. rewrite bend_z, mult_IZR. pose proof (size_z t c H).
  assert (Z0 : (0 <= zbend d n)%Z).
  { clear -Hd. unfold zbend. revert n. induction Hd as [|z d Hz Hd IH]; intros [|k n]; cbn; try lia. specialize (IH n). unfold ztotal in IH. nia. }
  assert (0 <= IZR (zbend d n) * (48482 / 10 ^ 14)).
  { apply Rmult_le_pos; [apply IZR_le; exact Z0|lra]. }
  replace (/ 5 * (48482 / 10 ^ 14) * (IZR (zsize c) * IZR (zbend d n))) with (/ 5 * IZR (zsize c) * (IZR (zbend d n) * (48482 / 10 ^ 14))) by (unfold Rdiv; ring).
  now apply Rmult_le_compat_r.
Qed.

Definition b_vs_a (jd : R) : R * R :=
  (fst (published skyfield_tables jd 2 77 0) - 1350 - fst (published skyfield_tables jd 5 687 687),
   snd (published skyfield_tables jd 2 77 0) + 3880 - snd (published skyfield_tables jd 5 687 687)).
Lemma b_near_a jd : years_1995_2020 jd -> Rabs (fst (b_vs_a jd)) <= 12.43 * mas /\ Rabs (snd (b_vs_a jd)) <= 4.72 * mas.
Proof.
  intros Hy. set (t := (jd - 2451545) / 36525).
  assert (Ht : Rabs t <= 1 / 5) by (unfold t, years_1995_2020 in *; apply Rabs_le; lra).
  pose proof (shortened skyfield_tables jd 5 77 687 0 687 skyfield_matching ltac:(lia) ltac:(lia)) as S. cbv zeta in S. fold t in S.
  destruct S as [S1 S2]. rewrite total_psize in S1, S2.
  pose proof (series_bend t _ _ _ (combine (firstn 77 nals_data) (firstn 77 lunisolar_longitude_data)) (cut_args t Ht) eq_refl) as [B1 _].
  pose proof (series_bend t _ _ _ (combine (firstn 77 nals_data) (firstn 77 lunisolar_obliquity_data)) (cut_args t Ht) eq_refl) as [_ B2].
  assert (D : Forall (fun z => (0 <= z)%Z) [12756; 222; 5101; 2549; 2990]%Z) by (repeat constructor; lia).
  pose proof (total_size t (between 77 687 (lunisolar_longitude skyfield_tables)) Ht) as T1.
  pose proof (total_size t (between 77 687 (lunisolar_obliquity skyfield_tables)) Ht) as T2.
  pose proof (Rle_trans _ _ _ B1 (bend_total t _ _ Ht D)) as C1. pose proof (Rle_trans _ _ _ B2 (bend_total t _ _ Ht D)) as C2. clear B1 B2.
  match type of C1 with _ <= IZR ?z * _ / _ => let v := eval vm_compute in z in replace z with v in C1 by (vm_compute; reflexivity) end.
  match type of C2 with _ <= IZR ?z * _ / _ => let v := eval vm_compute in z in replace z with v in C2 by (vm_compute; reflexivity) end.
  match type of T1 with _ <= IZR ?z / _ => let v := eval vm_compute in z in replace z with v in T1 by (vm_compute; reflexivity) end.
  match type of T2 with _ <= IZR ?z / _ => let v := eval vm_compute in z in replace z with v in T2 by (vm_compute; reflexivity) end.
  match type of S1 with _ <= _ + IZR ?z => let v := eval vm_compute in z in replace z with v in S1 by (vm_compute; reflexivity) end.
  match type of S2 with _ <= _ + IZR ?z => let v := eval vm_compute in z in replace z with v in S2 by (vm_compute; reflexivity) end.
  assert (E1 : fst (published skyfield_tables jd 5 77 0) - fst (published skyfield_tables jd 2 77 0)
    = sine_series t (arguments 5 t) (combine (firstn 77 nals_data) (firstn 77 lunisolar_longitude_data))
      - sine_series t (arguments 2 t) (combine (firstn 77 nals_data) (firstn 77 lunisolar_longitude_data))).
  { unfold published. fold t. cbn [fst nals_t skyfield_tables lunisolar_longitude]. ring. }
  assert (E2 : snd (published skyfield_tables jd 5 77 0) - snd (published skyfield_tables jd 2 77 0)
    = cosine_series t (arguments 5 t) (combine (firstn 77 nals_data) (firstn 77 lunisolar_obliquity_data))
      - cosine_series t (arguments 2 t) (combine (firstn 77 nals_data) (firstn 77 lunisolar_obliquity_data))).
  { unfold published. fold t. cbn [snd nals_t skyfield_tables lunisolar_obliquity]. ring. }
  rewrite <- E1 in C1. rewrite <- E2 in C2. clear E1 E2.
  unfold b_vs_a. cbn [fst snd]. revert S1 S2 T1 T2 C1 C2.
  generalize (published skyfield_tables jd 2 77 0) (published skyfield_tables jd 5 77 0) (published skyfield_tables jd 5 687 687).
  intros (x, y) (x1, y1) (x2, y2). cbn [fst snd]. generalize (total (size t) (between 77 687 (lunisolar_longitude skyfield_tables))).
  generalize (total (size t) (between 77 687 (lunisolar_obliquity skyfield_tables))). unfold mas. intros p q S1 S2 T1 T2 C1 C2.
  apply Rabs_le_both in C1. apply Rabs_le_both in C2. apply Rabs_le_both in S1. apply Rabs_le_both in S2.
  split; apply Rabs_le; lra.
Qed.
