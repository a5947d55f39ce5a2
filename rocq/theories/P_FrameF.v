(** C175: from the axes of the sky to the Earth, the horizon and the ecliptic in binary64. *)
From Coq Require Import ZArith Reals.
From Flocq Require Import Core BinarySingleNaN.
From Verif Require Import Float64 Float64_Proofs Real_Math Vector_Model Geo_Model Wrap_Spec SepF_Model SepF_Spec SepF_Proofs3 SphF_Spec SphF_Proofs3 RotF_Model RotF_Spec RotF_Proofs4 AltF_Model AltF_Proofs FrameF_Model FrameF_Spec FrameF_Proofs3.
Open Scope R_scope.

(** The vector of a target in the axes of the Earth. *)
Theorem C175_itrs : forall s c d d9, good_function s sin -> good_function c cos -> good_dot3 d -> good_dot9 d9 -> forall t p v, usual_date t -> stands_for p v -> ordinary v ->
  exists w, stands_for (mxv64 d (turns64 s c d d9 (itrs_turns s c t)) p) w /\ vlength (vsub w (exact_itrs t v)) <= 705 / 2 ^ 53 * vlength v.
Proof. exact itrs_ok. Qed.
Print Assumptions C175_itrs.
(** Its distance, altitude and azimuth for an observer. *)
Theorem C175_altaz : forall f h s c d d9 lat lon t p v alt az, good_direction f -> good_hypot h -> good_function s sin -> good_function c cos -> good_dot3 d -> good_dot9 d9 -> usual lat -> usual lon -> usual_date t ->
  stands_for p v -> / 2 ^ 199 <= vlength v <= 2 ^ 199 -> placed (exact_altaz lat lon t v) (vlength v) alt az ->
  exists (r th ph : bf) (k : BinNums.Z), frame_latlon64 f h s c d d9 (altaz_turns s c lat lon t) p = (B2SF r, B2SF th, B2SF ph) /\ is_finite r = true /\ is_finite th = true /\ is_finite ph = true /\
    Rabs (B2R r - vlength v) <= 931 / 2 ^ 53 * vlength v /\ Rabs (B2R th - alt) <= 2744 / 2 ^ 53 /\ Rabs (B2R ph - az - 2 * PI * IZR k) * cos alt <= 9849 / 2 ^ 53 /\ 0 <= B2R ph <= tau_float.
Proof. exact altaz_ok. Qed.
Print Assumptions C175_altaz.
(** Its distance, latitude and longitude on the ecliptic of date. *)
Theorem C175_ecliptic : forall f h s c d d9 t p v lat lon, good_direction f -> good_hypot h -> good_function s sin -> good_function c cos -> good_dot3 d -> good_dot9 d9 -> usual_date t ->
  stands_for p v -> / 2 ^ 199 <= vlength v <= 2 ^ 199 -> placed (exact_ecliptic t v) (vlength v) lat lon ->
  exists (r th ph : bf) (k : BinNums.Z), frame_latlon64 f h s c d d9 (ecliptic_turns s c t) p = (B2SF r, B2SF th, B2SF ph) /\ is_finite r = true /\ is_finite th = true /\ is_finite ph = true /\
    Rabs (B2R r - vlength v) <= 779 / 2 ^ 53 * vlength v /\ Rabs (B2R th - lat) <= 2296 / 2 ^ 53 /\ Rabs (B2R ph - lon - 2 * PI * IZR k) * cos lat <= 8241 / 2 ^ 53 /\ 0 <= B2R ph <= tau_float.
Proof. exact ecliptic_ok. Qed.
Print Assumptions C175_ecliptic.
(** The exact rotations keep lengths: the matrices of nutation, precession and bias are
    rotations, so the bounds are on directions as much as on vectors. *)
Theorem C175_rotations : forall lat lon t v, vlength (exact_itrs t v) = vlength v /\ vlength (exact_altaz lat lon t v) = vlength v /\ vlength (exact_ecliptic t v) = vlength v.
Proof. exact lengths_kept. Qed.
Print Assumptions C175_rotations.
(** The matrix of the frame bias, whose entries the code writes out to second order, is
    within 56 roundings of a rotation in every entry. *)
Theorem C175_bias : exists A, fstands bias64 A /\ close 14 (mxv A (V3 1 0 0)) (mxv exact_bias (V3 1 0 0)) /\ close 14 (mxv A (V3 0 1 0)) (mxv exact_bias (V3 0 1 0)) /\ close 14 (mxv A (V3 0 0 1)) (mxv exact_bias (V3 0 0 1)).
Proof. exact bias_close. Qed.
Print Assumptions C175_bias.
Example C175_library_ex : (exists f, good_direction f) /\ (exists h, good_hypot h) /\ (exists s, good_function s sin) /\ (exists c, good_function c cos) /\ good_dot3 dot_left /\ good_dot9 dot9_left.
Proof. exact (conj some_direction (conj some_hypot (conj some_sin (conj some_cos (conj dot_left_good dot9_left_good))))). Qed.
Example C175_date_ex : usual_date some_date. Proof. exact some_date_usual. Qed.
Example C175_vectors_ex : exists p q u v, stands_for p u /\ stands_for q v /\ ordinary u /\ ordinary v /\ vlength (vsub u v) <> 0. Proof. exact unit_vectors. Qed.
Example C175_placed_ex : forall w, exists lat lon, placed w (vlength w) lat lon. Proof. exact placed_somewhere. Qed.
