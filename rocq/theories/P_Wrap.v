(** C166: angles wrapped into one turn, in binary64. *)
From Coq Require Import ZArith Reals Lra Lia.
From Flocq Require Import Core BinarySingleNaN.
From Verif Require Import Float64 Float64_Proofs Measure_Model Float_Time_Proofs4 Wrap_Model Wrap_Spec Wrap_Proofs Wrap_Proofs2.
Open Scope R_scope.

(** The full claim, that a wrapped angle is less than one turn, is false: see
    [C166_wrapped_refuted]. *)
Theorem C166_wrapped_partial : forall x m : bf, is_finite x = true -> is_finite m = true -> 0 < B2R m <= bpow radix2 900 ->
  wrapped (B2R x) (B2R m) (frem (B2SF x) (B2SF m)).
Proof. exact frem_correct. Qed.
Print Assumptions C166_wrapped_partial.
Theorem C166_turns_partial :
  (forall a : bf, is_finite a = true -> folded 0 tau_float (/ 2 ^ 51) (B2R a) (longitude64 (B2SF a))) /\
  (forall a : bf, is_finite a = true -> folded 0 tau_float (/ 2 ^ 51) (- B2R a) (other_side64 (B2SF a))) /\
  (forall mlon slon : bf, within (-7) 7 mlon -> within (-7) 7 slon -> folded 0 tau_float (/ 2 ^ 49) (B2R mlon - B2R slon) (moon_phase64 (B2SF mlon) (B2SF slon))) /\
  (forall w v : bf, within (-7) 7 w -> within (-7) 7 v -> folded 0 tau_float (/ 2 ^ 49) (B2R w + B2R v) (sum_of_angles64 (B2SF w) (B2SF v))).
Proof. exact all_folded. Qed.
Print Assumptions C166_turns_partial.
Theorem C166_sidereal_partial :
  (forall th jd fr : bf, is_finite th = true -> is_finite jd = true -> within (-1) 1 fr -> folded 0 1 (/ 2 ^ 50) (B2R th + B2R jd + B2R fr) (era64 (B2SF th) (B2SF jd) (B2SF fr))) /\
  (forall st theta : bf, within (-54000) 54000 st -> within 0 1 theta -> folded 0 24 (/ 2 ^ 46) (B2R st / 54000 + B2R theta * 24) (gmst64 (B2SF st) (B2SF theta))) /\
  (forall gmst eq : bf, within 0 24 gmst -> within (-1) 1 eq -> folded 0 24 (/ 2 ^ 46) (B2R gmst + B2R eq / tau_float * 24) (gast64 (B2SF gmst) (B2SF eq))) /\
  (forall gast lon sprime : bf, within 0 24 gast -> within (-24) 24 lon -> within (-54000) 54000 sprime -> folded 0 24 (/ 2 ^ 46) (B2R gast + B2R lon + B2R sprime / 54000) (lst64 (B2SF gast) (B2SF lon) (B2SF sprime))).
Proof. exact sidereal_folded. Qed.
Print Assumptions C166_sidereal_partial.
Theorem C166_signed_partial :
  (forall a : bf, within (-4) 4 a -> folded (- pi_float) tau_float (/ 2 ^ 49) (B2R a) (geographic_longitude64 (B2SF a))) /\
  (forall a : bf, within (-100) 100 a -> folded (- pi_float) tau_float (/ 2 ^ 46) (B2R a) (normpi64 (B2SF a))) /\
  (forall lon sub : bf, within (-7) 7 lon -> within (-7) 7 sub -> folded (- pi_float) tau_float (/ 2 ^ 45) (B2R lon - B2R sub) (hour_angle64 (B2SF lon) (B2SF sub))).
Proof. exact signed_folded. Qed.
Print Assumptions C166_signed_partial.
(** Which angles give less than one turn. *)
Theorem C166_below_partial : forall a : bf, is_finite a = true -> 0 <= B2R a \/ - tau_float < B2R a <= - / 2 ^ 50 ->
  exists b : bf, longitude64 (B2SF a) = B2SF b /\ 0 <= B2R b < tau_float.
Proof. exact below_turn. Qed.
Print Assumptions C166_below_partial.
(** Just below zero the result is the whole turn, not zero. *)
Theorem C166_whole_turn_partial : forall a : bf, is_finite a = true -> - / 2 ^ 51 < B2R a < 0 -> longitude64 (B2SF a) = tau64.
Proof. exact full_circle. Qed.
Print Assumptions C166_whole_turn_partial.
Theorem C166_wrapped_refuted : ~ (forall a : bf, is_finite a = true -> exists b : bf, longitude64 (B2SF a) = B2SF b /\ 0 <= B2R b < tau_float).
Proof. exact wrapped_refuted. Qed.
Print Assumptions C166_wrapped_refuted.
(** The end of the range is reached by a right ascension of 24 hours, an azimuth of
    360 degrees, a phase of the Moon, both sidereal times and the rotation angle. *)
Example C166_reached : longitude64 (fl (-1) (-60)) = tau64 /\ fdiv (fmul tau64 (of_Z 24)) tau64 = of_Z 24 /\ fdiv (fmul tau64 (of_Z 360)) tau64 = of_Z 360 /\
  moon_phase64 (of_Z 1) (fl (2 ^ 52 + 1) (-52)) = tau64 /\ lst64 (of_Z 0) (fl (-1) (-60)) (of_Z 0) = of_Z 24 /\ gast64 (of_Z 0) (fl (-1) (-60)) = of_Z 24 /\ era64 (of_Z 0) (of_Z 0) (fl (-1) (-60)) = of_Z 1.
Proof. exact turns_reached. Qed.
(** The ranges of the inputs are met. *)
Example C166_ex : exists a b c : bf, within (-4) 4 a /\ B2R a = 3 /\ within (-7) 7 b /\ B2R b = -3 / 2 /\ within (-54000) 54000 c /\ B2R c = 40000.
Proof.
  destruct (of_Z_bf 3) as (a & _ & Fa & Va); [unfold Float_Time_Proofs.fits; lia|]. destruct (of_Z_bf 40000) as (c & _ & Fc & Vc); [unfold Float_Time_Proofs.fits; lia|]. destruct (fl_bf (-3) (-1)) as (b & _ & Fb & Vb); [split; lia|].
  assert (E : B2R b = -3 / 2) by (rewrite Vb, F2R_neg; change (IZR (Z.pow_pos 2 1)) with 2; lra). exists a, b, c. unfold within. repeat split; try assumption; lra.
Qed.
(** An hour angle of two radians west, from a longitude of one and a half radians and a
    sublongitude of five and a quarter, is folded to the signed range. *)
Example C166_hour_angle_ex : fltb (fl 2 0) (hour_angle64 (fl 3 (-1)) (fl 21 (-2))) = true /\ fltb (hour_angle64 (fl 3 (-1)) (fl 21 (-2))) (fl 3 0) = true.
Proof. vm_compute. auto. Qed.
