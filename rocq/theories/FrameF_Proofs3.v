(** The frame bias in floats, and the rotations from the axes of the sky. *)
From Coq Require Import ZArith Reals Lia Lra Psatz Bool.
From Coq.Floats Require Import SpecFloat.
From Flocq Require Import Core BinarySingleNaN.
From Verif Require Import Float64 Float64_Proofs Float_Time_Proofs Float_Time_Proofs4 CalF_Proofs2 SexaF_Proofs2 Real_Math Vector_Model Vector_Proofs Vector_Proofs2 Geo_Model Geo_Proofs Frames_Proofs Wrap_Spec SepF_Model SepF_Spec SepF_Proofs SepF_Proofs2 SepF_Proofs3 SphF_Spec SphF_Proofs3 RotF_Model RotF_Spec RotF_Proofs RotF_Proofs2 RotF_Proofs3 RotF_Proofs4 AltF_Model AltF_Proofs AltF_Proofs2 FrameF_Model FrameF_Spec FrameF_Proofs FrameF_Proofs2.
Open Scope R_scope.

Lemma fl_is m n : (Z.abs m <= 2 ^ 53)%Z -> forall e : BinNums.Z, (-1074 <= - e <= 900)%Z -> (0 < e)%Z -> IZR (2 ^ e) = IZR n -> exists b : bf, fl m (- e) = B2SF b /\ is_finite b = true /\ B2R b = IZR m / IZR n.
Proof.
  intros Hm e He Pe E. destruct (fl_bf m (- e) (conj Hm He)) as (b & Eb & Fb & V). exists b. split; [exact Eb|]. split; [exact Fb|]. rewrite V. unfold F2R. cbn [Fnum Fexp]. rewrite bpow_opp, <- E. unfold Rdiv. f_equal. f_equal. rewrite (IZR_Zpower radix2) by lia. reflexivity.
Qed.
Definition A1 : R := 6087054036884166 / 75557863725914323419136.
Definition A2 : R := 4995948593406813 / 151115727451828646838272.
Definition A3 : R := 5348196963261048 / 75557863725914323419136.
Lemma val_of r m e n : (Z.abs m <= 2 ^ 53)%Z -> (-1074 <= - e <= 900)%Z -> (0 < e)%Z -> IZR (2 ^ e) = IZR n -> r = fl m (- e) -> val r = IZR m / IZR n.
Proof. intros Hm He Pe E ->. destruct (fl_is m n Hm e He Pe E) as (b & -> & _ & V). unfold val. rewrite SF2R_B2SF. exact V. Qed.
Lemma near_of r m e n x k : (Z.abs m <= 2 ^ 53)%Z -> (-1074 <= - e <= 900)%Z -> (0 < e)%Z -> IZR (2 ^ e) = IZR n -> r = fl m (- e) -> Rabs (IZR m / IZR n - x) <= k -> near x k r.
Proof. intros Hm He Pe E -> B. destruct (fl_is m n Hm e He Pe E) as (b & Eb & Fb & V). exists b. split; [exact Eb|]. split; [exact Fb|]. rewrite V. exact B. Qed.
Lemma xi0_val : val xi0 = - A1.
Proof. rewrite (val_of xi0 (-6087054036884166) 76 75557863725914323419136); [unfold A1; lra|lia|lia|lia|reflexivity|vm_compute; reflexivity]. Qed.
Lemma eta0_val : val eta0 = - A2.
Proof. rewrite (val_of eta0 (-4995948593406813) 77 151115727451828646838272); [unfold A2; lra|lia|lia|lia|reflexivity|vm_compute; reflexivity]. Qed.
Lemma da0_val : val da0 = - A3.
Proof. rewrite (val_of da0 (-5348196963261048) 76 75557863725914323419136); [unfold A3; lra|lia|lia|lia|reflexivity|vm_compute; reflexivity]. Qed.

Lemma box a1 a2 b1 b2 a b : a1 <= a <= a2 -> b1 <= b <= b2 -> 0 <= a1 -> 0 <= b1 -> a1 * b1 <= a * b <= a2 * b2.
Proof. intros. split; apply Rmult_le_compat; lra. Qed.
Lemma tiny x : 0 < x <= / 10 ^ 7 -> x - / 10 ^ 20 <= sin x <= x /\ 1 - x * x / 2 <= cos x <= 1 - x * x / 2 + / 10 ^ 20 /\ 0 < x * x <= / 10 ^ 14.
Proof.
  intros H. assert (P2 : 0 < x * x <= / 10 ^ 14). { split; [apply Rmult_lt_0_compat; lra|]. replace (/ 10 ^ 14) with (/ 10 ^ 7 * / 10 ^ 7) by lra. apply Rmult_le_compat; lra. }
  assert (P3 : 0 < x * x * x <= / 10 ^ 21). { split; [apply Rmult_lt_0_compat; lra|]. replace (/ 10 ^ 21) with (/ 10 ^ 14 * / 10 ^ 7) by lra. apply Rmult_le_compat; lra. }
  assert (P4 : 0 < x * x * x * x <= x * x * x * / 10 ^ 7). { split; [apply Rmult_lt_0_compat; lra|]. apply Rmult_le_compat_l; lra. }
  assert (P5 : 0 < x * x * x * (x * x) <= x * x * x * / 10 ^ 14). { split; [apply Rmult_lt_0_compat; lra|]. apply Rmult_le_compat_l; lra. }
  destruct (sin_at0 x ltac:(lra)) as [S1 S2]. destruct (cos_at0 x ltac:(lra)) as [C1 C2].
  replace (x ^ 3) with (x * x * x) in * by ring. replace (x ^ 5) with (x * x * x * (x * x)) in * by ring. replace (x ^ 2) with (x * x) in * by ring. replace (x ^ 4) with (x * x * x * x) in * by ring.
  repeat split; lra.
Qed.
Lemma bias_entries : let sh := sin A2 in let ch := cos A2 in let sx := sin A1 in let cx := cos A1 in let sd := sin A3 in let cd := cos A3 in
  exact_bias = M3 (V3 (cx * cd) (- (cx * sd)) sx) (V3 (ch * sd - sh * (sx * cd)) (ch * cd + sh * (sx * sd)) (sh * cx)) (V3 (- (sh * sd) - ch * (sx * cd)) (- (sh * cd) + ch * (sx * sd)) (ch * cx)).
Proof.
  intros sh ch sx cx sd cd. unfold exact_bias. rewrite eta0_val, xi0_val, da0_val, !Ropp_involutive. unfold mxm, rot_x, rot_y, rot_z, dot. cbn [r1 r2 r3 vx vy vz]. rewrite cos_neg, sin_neg. fold sh ch sx cx sd cd. unfold transp. cbn [r1 r2 r3 vx vy vz]. f_equal; f_equal; ring.
Qed.
Lemma close_to x m n b : IZR m / IZR n - b <= x <= IZR m / IZR n + b -> Rabs (IZR m / IZR n - x) <= b.
Proof. intros H. apply Rabs_le. lra. Qed.
Lemma bias_written : written bias64 14 bias_turns.
Proof.
  assert (N1 : 0 < A1 <= / 10 ^ 7) by (unfold A1; lra). assert (N2 : 0 < A2 <= / 10 ^ 7) by (unfold A2; lra). assert (N3 : 0 < A3 <= / 10 ^ 7) by (unfold A3; lra).
  destruct (tiny _ N1) as (S1 & C1 & Q1). destruct (tiny _ N2) as (S2 & C2 & Q2). destruct (tiny _ N3) as (S3 & C3 & Q3).
  assert (Z1 : 80561489389e-18 <= sin A1 <= 80561489390e-18) by (unfold A1 in *; lra). assert (Z2 : 33060414542e-18 <= sin A2 <= 33060414543e-18) by (unfold A2 in *; lra). assert (Z3 : 70782797441e-18 <= sin A3 <= 70782797442e-18) by (unfold A3 in *; lra).
  assert (Y1 : 1 - 33e-16 <= cos A1 <= 1 - 32e-16) by (unfold A1 in *; lra). assert (Y2 : 1 - 6e-16 <= cos A2 <= 1 - 5e-16) by (unfold A2 in *; lra). assert (Y3 : 1 - 26e-16 <= cos A3 <= 1 - 25e-16) by (unfold A3 in *; lra).
  pose proof (box _ _ _ _ _ _ Z2 Z3 ltac:(lra) ltac:(lra)) as S23. pose proof (box _ _ _ _ _ _ Z1 Z3 ltac:(lra) ltac:(lra)) as S13. pose proof (box _ _ _ _ _ _ Z1 Y3 ltac:(lra) ltac:(lra)) as S1C3.
  pose proof (box _ _ _ _ _ _ Y1 Y3 ltac:(lra) ltac:(lra)) as C1C3. pose proof (box _ _ _ _ _ _ Y1 Z3 ltac:(lra) ltac:(lra)) as C1S3. pose proof (box _ _ _ _ _ _ Y2 Z3 ltac:(lra) ltac:(lra)) as C2S3. pose proof (box _ _ _ _ _ _ Z2 S1C3 ltac:(lra) ltac:(lra)) as T1.
  pose proof (box _ _ _ _ _ _ Y2 Y3 ltac:(lra) ltac:(lra)) as C2C3. pose proof (box _ _ _ _ _ _ Z2 S13 ltac:(lra) ltac:(lra)) as T2. pose proof (box _ _ _ _ _ _ Z2 Y1 ltac:(lra) ltac:(lra)) as S2C1. pose proof (box _ _ _ _ _ _ Y2 S1C3 ltac:(lra) ltac:(lra)) as T3.
  pose proof (box _ _ _ _ _ _ Z2 Y3 ltac:(lra) ltac:(lra)) as S2C3. pose proof (box _ _ _ _ _ _ Y2 S13 ltac:(lra) ltac:(lra)) as T4. pose proof (box _ _ _ _ _ _ Y2 Y1 ltac:(lra) ltac:(lra)) as C2C1.
  apply (written_by _ exact_bias); [exact bias_exact|..]; rewrite bias_entries; cbn [r1 r2 r3 vx vy vz]; replace (4 * INR 14) with 56 by (cbn [INR]; ring); unfold eps.
  - apply (near_of _ 9007199254740940 53 9007199254740992); [lia|lia|lia|reflexivity|vm_compute; reflexivity|apply close_to; lra].
  - apply (near_of _ (-5348196963261048) 76 75557863725914323419136); [lia|lia|lia|reflexivity|vm_compute; reflexivity|apply close_to; lra].
  - apply (near_of _ 6087054036884166 76 75557863725914323419136); [lia|lia|lia|reflexivity|vm_compute; reflexivity|apply close_to; lra].
  - apply (near_of _ 5348196963261048 76 75557863725914323419136); [lia|lia|lia|reflexivity|vm_compute; reflexivity|apply close_to; lra].
  - apply (near_of _ 9007199254740965 53 9007199254740992); [lia|lia|lia|reflexivity|vm_compute; reflexivity|apply close_to; lra].
  - apply (near_of _ 4995948593406813 77 151115727451828646838272); [lia|lia|lia|reflexivity|vm_compute; reflexivity|apply close_to; lra].
  - apply (near_of _ (-6087054036884166) 76 75557863725914323419136); [lia|lia|lia|reflexivity|vm_compute; reflexivity|apply close_to; lra].
  - apply (near_of _ (-4995948593406813) 77 151115727451828646838272); [lia|lia|lia|reflexivity|vm_compute; reflexivity|apply close_to; lra].
  - apply (near_of _ 9007199254740958 53 9007199254740992); [lia|lia|lia|reflexivity|vm_compute; reflexivity|apply close_to; lra].
Qed.

(** ** The rotations *)
Lemma horizon_number lat lon : number (horizon_turns lat lon) = 2%nat. Proof. reflexivity. Qed.
Lemma M_number fsin fcos t : number (M_turns fsin fcos t) = 40%nat. Proof. reflexivity. Qed.
Lemma itrs_number fsin fcos t : (number (itrs_turns fsin fcos t) <= 47)%nat.
Proof. unfold itrs_turns. destruct (a_pole t) as [[[y x] s]|]; cbn [number polar_turns]; rewrite M_number; cbn; lia. Qed.
Lemma altaz_number fsin fcos lat lon t : (number (altaz_turns fsin fcos lat lon t) <= 49)%nat.
Proof. unfold altaz_turns. cbn [number]. rewrite horizon_number. pose proof (itrs_number fsin fcos t). lia. Qed.
Lemma ecliptic_number fsin fcos t : number (ecliptic_turns fsin fcos t) = 41%nat. Proof. reflexivity. Qed.

Lemma M_carried fsin fcos t v : carried (M_turns fsin fcos t) false v = exact_M t v.
Proof. unfold M_turns, exact_M. rewrite bias_exact, precession_exact, nutation_exact. reflexivity. Qed.
Lemma turn_z a v : carried (Turn Z a) false v = mxv (rot_z (val a)) v.
Proof. destruct v as [x y z]. cbn [carried]. unfold val, turn, mxv, rot_z, dot. cbn [r1 r2 r3 vx vy vz]. f_equal; ring. Qed.
Lemma turn_x a v : carried (Turn X a) false v = mxv (rot_x (val a)) v.
Proof. destruct v as [x y z]. cbn [carried]. unfold val, turn, mxv, rot_x, dot. cbn [r1 r2 r3 vx vy vz]. f_equal; ring. Qed.
Lemma turn_y a v : carried (Turn Y a) false v = mxv (rot_y (val a)) v.
Proof. destruct v as [x y z]. cbn [carried]. unfold val, turn, mxv, rot_y, dot. cbn [r1 r2 r3 vx vy vz]. f_equal; ring. Qed.
Lemma itrs_carried fsin fcos t v : carried (itrs_turns fsin fcos t) false v = exact_itrs t v.
Proof.
  unfold itrs_turns, exact_itrs. destruct (a_pole t) as [[[y x] s]|].
  - rewrite <- (M_carried fsin fcos), <- turn_z, <- turn_z, <- turn_y, <- turn_x. reflexivity.
  - rewrite <- (M_carried fsin fcos), <- turn_z. reflexivity.
Qed.
Lemma altaz_carried fsin fcos lat lon t v : carried (altaz_turns fsin fcos lat lon t) false v = exact_altaz lat lon t v.
Proof. unfold exact_altaz, val. rewrite <- horizon_exact, <- (itrs_carried fsin fcos). reflexivity. Qed.
Lemma ecliptic_carried fsin fcos t v : carried (ecliptic_turns fsin fcos t) false v = exact_ecliptic t v.
Proof. unfold exact_ecliptic. rewrite <- (M_carried fsin fcos), <- val_neg, <- turn_x. reflexivity. Qed.

Section Library.
Variables (fsin fcos : b64 -> b64).
Hypotheses (Gs : good_function fsin sin) (Gc : good_function fcos cos).
Lemma M_usual t : usual_date t -> usual_angles (M_turns fsin fcos t).
Proof.
  intros (H1 & H2 & H3 & H4 & H5 & H6 & H7 & _). unfold M_turns. cbn [usual_angles]. split; [apply nutation_written; assumption|]. split; [apply precession_written; assumption|]. exact bias_written.
Qed.
Lemma itrs_usual t : usual_date t -> usual_angles (itrs_turns fsin fcos t).
Proof.
  intros H. pose proof (M_usual t H) as U. destruct H as (_ & _ & _ & _ & _ & _ & _ & G & P). unfold itrs_turns. destruct (a_pole t) as [[[y x] s]|].
  - cbn [usual_angles polar_turns]. destruct P as (Py & Px & Ps). split; [split; [exact Py|split; [exact Px|exact Ps]]|]. split; [exact G|exact U].
  - cbn [usual_angles]. split; [exact G|exact U].
Qed.
Lemma altaz_usual lat lon t : usual lat -> usual lon -> usual_date t -> usual_angles (altaz_turns fsin fcos lat lon t).
Proof. intros A O H. split; [split; [exact A|apply usual_opp; exact O]|apply itrs_usual; exact H]. Qed.
Lemma ecliptic_usual t : usual_date t -> usual_angles (ecliptic_turns fsin fcos t).
Proof. intros H. split; [apply usual_opp; apply H|apply M_usual; exact H]. Qed.
End Library.

Lemma more_turns k n x : (k <= n)%nat -> 0 <= x -> x * INR k / 2 ^ 53 <= x * INR n / 2 ^ 53.
Proof. intros H X. apply le_INR in H. apply Rmult_le_compat_r; [lra|]. apply Rmult_le_compat_l; assumption. Qed.
Lemma few n : (n <= 49)%nat -> (Z.of_nat n <= 1000000)%Z. Proof. lia. Qed.

(** A frame of [n] turns at most: vector, and direction. *)
Lemma in_frame s c d d9 t n e p v : good_function s sin -> good_function c cos -> good_dot3 d -> good_dot9 d9 -> usual_angles t -> (number t <= n)%nat -> (n <= 49)%nat -> (forall u, carried t false u = e u) ->
  stands_for p v -> ordinary v -> exists w, stands_for (mxv64 d (turns64 s c d d9 t) p) w /\ vlength (vsub w (e v)) <= 15 * INR n / 2 ^ 53 * vlength v.
Proof.
  intros Gs Gc Gd G9 U N L E S O. destruct (rotated_ok s c d d9 Gs Gc Gd G9 t p v U (few (number t) ltac:(lia)) S O) as (w & W & B). exists w. split; [exact W|]. rewrite <- E. apply Rle_trans with (1 := B). apply Rmult_le_compat_r; [apply vlength_pos|]. apply more_turns; [exact N|lra].
Qed.
Lemma direction_in_frame f h s c d d9 t n e p v lat lon : good_direction f -> good_hypot h -> good_function s sin -> good_function c cos -> good_dot3 d -> good_dot9 d9 -> usual_angles t -> (number t <= n)%nat -> (n <= 49)%nat -> (forall u, carried t false u = e u) ->
  stands_for p v -> / 2 ^ 199 <= vlength v <= 2 ^ 199 -> placed (e v) (vlength v) lat lon ->
  exists (r th ph : bf) (k : BinNums.Z), frame_latlon64 f h s c d d9 t p = (B2SF r, B2SF th, B2SF ph) /\ is_finite r = true /\ is_finite th = true /\ is_finite ph = true /\
    Rabs (B2R r - vlength v) <= 19 * INR n / 2 ^ 53 * vlength v /\ Rabs (B2R th - lat) <= 56 * INR n / 2 ^ 53 /\ Rabs (B2R ph - lon - 2 * PI * IZR k) * cos lat <= 201 * INR n / 2 ^ 53 /\ 0 <= B2R ph <= tau_float.
Proof.
  intros Gf Gh Gs Gc Gd G9 U N L E S O P. rewrite <- E in P. destruct (frame_ok f h s c d d9 t p v lat lon Gf Gh Gs Gc Gd G9 U (few (number t) ltac:(lia)) S O P) as (r & th & ph & k & Eq & F1 & F2 & F3 & B1 & B2 & B3 & B4).
  exists r, th, ph, k. split; [exact Eq|]. split; [exact F1|]. split; [exact F2|]. split; [exact F3|]. split; [|split; [|split; [|exact B4]]].
  - apply Rle_trans with (1 := B1). apply Rmult_le_compat_r; [apply vlength_pos|]. apply more_turns; [exact N|lra].
  - apply Rle_trans with (1 := B2). apply more_turns; [exact N|lra].
  - apply Rle_trans with (1 := B3). apply more_turns; [exact N|lra].
Qed.
(** ** A date *)
Definition some_date : angles := Angles (of_Z 1) (of_Z 2) (of_Z 1) (of_Z 3) (of_Z 1) (of_Z 1) (of_Z 2) (of_Z (-5)) (Some (of_Z 1, of_Z 2, of_Z 3)).
Lemma some_date_usual : usual_date some_date.
Proof. unfold usual_date, some_date. cbn [a_eps0 a_psia a_omegaa a_chia a_mean a_true a_psi a_gast a_pole]. repeat split; apply usual_Z; lia. Qed.

(** ** In numbers *)
Lemma itrs_ok : forall s c d d9, good_function s sin -> good_function c cos -> good_dot3 d -> good_dot9 d9 -> forall t p v, usual_date t -> stands_for p v -> ordinary v ->
  exists w, stands_for (mxv64 d (turns64 s c d d9 (itrs_turns s c t)) p) w /\ vlength (vsub w (exact_itrs t v)) <= 705 / 2 ^ 53 * vlength v.
Proof.
  intros s c d d9 Gs Gc Gd G9 t p v U S O. replace 705 with (15 * INR 47) by (rewrite INR_IZR_INZ; cbn [Z.of_nat Pos.of_succ_nat Pos.succ]; lra). apply in_frame; try assumption; [apply itrs_usual; assumption|apply itrs_number|lia|apply itrs_carried].
Qed.
Lemma altaz_ok : forall f h s c d d9 lat lon t p v alt az, good_direction f -> good_hypot h -> good_function s sin -> good_function c cos -> good_dot3 d -> good_dot9 d9 -> usual lat -> usual lon -> usual_date t ->
  stands_for p v -> / 2 ^ 199 <= vlength v <= 2 ^ 199 -> placed (exact_altaz lat lon t v) (vlength v) alt az ->
  exists (r th ph : bf) (k : BinNums.Z), frame_latlon64 f h s c d d9 (altaz_turns s c lat lon t) p = (B2SF r, B2SF th, B2SF ph) /\ is_finite r = true /\ is_finite th = true /\ is_finite ph = true /\
    Rabs (B2R r - vlength v) <= 931 / 2 ^ 53 * vlength v /\ Rabs (B2R th - alt) <= 2744 / 2 ^ 53 /\ Rabs (B2R ph - az - 2 * PI * IZR k) * cos alt <= 9849 / 2 ^ 53 /\ 0 <= B2R ph <= tau_float.
Proof.
  intros f h s c d d9 lat lon t p v alt az Gf Gh Gs Gc Gd G9 A B U S O P.
  assert (N : INR 49 = 49) by (rewrite INR_IZR_INZ; reflexivity). replace 931 with (19 * INR 49) by (rewrite N; lra). replace 2744 with (56 * INR 49) by (rewrite N; lra). replace 9849 with (201 * INR 49) by (rewrite N; lra).
  apply (direction_in_frame f h s c d d9 _ 49 (exact_altaz lat lon t) p v alt az); try assumption; [apply altaz_usual; assumption|apply altaz_number|lia|intros u; apply altaz_carried].
Qed.
Lemma ecliptic_ok : forall f h s c d d9 t p v lat lon, good_direction f -> good_hypot h -> good_function s sin -> good_function c cos -> good_dot3 d -> good_dot9 d9 -> usual_date t ->
  stands_for p v -> / 2 ^ 199 <= vlength v <= 2 ^ 199 -> placed (exact_ecliptic t v) (vlength v) lat lon ->
  exists (r th ph : bf) (k : BinNums.Z), frame_latlon64 f h s c d d9 (ecliptic_turns s c t) p = (B2SF r, B2SF th, B2SF ph) /\ is_finite r = true /\ is_finite th = true /\ is_finite ph = true /\
    Rabs (B2R r - vlength v) <= 779 / 2 ^ 53 * vlength v /\ Rabs (B2R th - lat) <= 2296 / 2 ^ 53 /\ Rabs (B2R ph - lon - 2 * PI * IZR k) * cos lat <= 8241 / 2 ^ 53 /\ 0 <= B2R ph <= tau_float.
Proof.
  intros f h s c d d9 t p v lat lon Gf Gh Gs Gc Gd G9 U S O P.
  assert (N : INR 41 = 41) by (rewrite INR_IZR_INZ; reflexivity). replace 779 with (19 * INR 41) by (rewrite N; lra). replace 2296 with (56 * INR 41) by (rewrite N; lra). replace 8241 with (201 * INR 41) by (rewrite N; lra).
  apply (direction_in_frame f h s c d d9 _ 41 (exact_ecliptic t) p v lat lon); try assumption; [apply ecliptic_usual; assumption|rewrite ecliptic_number; lia|lia|intros u; apply ecliptic_carried].
Qed.
Lemma lengths_kept : forall lat lon t v, vlength (exact_itrs t v) = vlength v /\ vlength (exact_altaz lat lon t v) = vlength v /\ vlength (exact_ecliptic t v) = vlength v.
Proof. intros lat lon t v. rewrite <- (itrs_carried fneg fneg), <- (altaz_carried fneg fneg), <- (ecliptic_carried fneg fneg), !carried_length. auto. Qed.
Lemma bias_close : exists A, fstands bias64 A /\ close 14 (mxv A (V3 1 0 0)) (mxv exact_bias (V3 1 0 0)) /\ close 14 (mxv A (V3 0 1 0)) (mxv exact_bias (V3 0 1 0)) /\ close 14 (mxv A (V3 0 0 1)) (mxv exact_bias (V3 0 0 1)).
Proof. destruct bias_written as (A & H). exists A. rewrite !bias_exact. exact H. Qed.
