(** C174: directions in a reference frame in binary64. *)
From Coq Require Import ZArith Reals.
From Flocq Require Import Core BinarySingleNaN.
From Verif Require Import Float64 Float64_Proofs Vector_Model Wrap_Spec SepF_Model SepF_Spec SepF_Proofs3 SphF_Spec SphF_Proofs3 RotF_Model RotF_Spec RotF_Proofs4 AltF_Model AltF_Proofs AltF_Proofs2.
Open Scope R_scope.

(** The floats that come back are the distance, the latitude and the longitude of the
    exactly rotated vector, up to a few roundings per elementary turn; for the longitude
    this is measured along the parallel, up to whole turns. *)
Theorem C174_frame_latlon : forall f h s c d d9 t p v lat lon, good_direction f -> good_hypot h -> good_function s sin -> good_function c cos -> good_dot3 d -> good_dot9 d9 -> usual_angles t -> (Z.of_nat (number t) <= 1000000)%Z ->
  stands_for p v -> / 2 ^ 199 <= vlength v <= 2 ^ 199 -> placed (carried t false v) (vlength v) lat lon ->
  exists (r th ph : bf) (k : BinNums.Z), frame_latlon64 f h s c d d9 t p = (B2SF r, B2SF th, B2SF ph) /\ is_finite r = true /\ is_finite th = true /\ is_finite ph = true /\
    Rabs (B2R r - vlength v) <= 19 * INR (number t) / 2 ^ 53 * vlength v /\
    Rabs (B2R th - lat) <= 56 * INR (number t) / 2 ^ 53 /\
    Rabs (B2R ph - lon - 2 * PI * IZR k) * cos lat <= 201 * INR (number t) / 2 ^ 53 /\ 0 <= B2R ph <= tau_float.
Proof. exact frame_ok. Qed.
Print Assumptions C174_frame_latlon.
(** Every vector has a latitude and a longitude to compare with. *)
Theorem C174_placed : forall w, exists lat lon, placed w (vlength w) lat lon.
Proof. exact placed_somewhere. Qed.
Print Assumptions C174_placed.
Example C174_library_ex : (exists f, good_direction f) /\ (exists h, good_hypot h) /\ (exists s, good_function s sin) /\ (exists c, good_function c cos) /\ good_dot3 dot_left /\ good_dot9 dot9_left.
Proof. exact (conj some_direction (conj some_hypot (conj some_sin (conj some_cos (conj dot_left_good dot9_left_good))))). Qed.
Example C174_ex : usual_angles (horizon_turns (of_Z 1) (of_Z 2)) /\ number (horizon_turns (of_Z 1) (of_Z 2)) = 2%nat. Proof. exact (conj horizon_usual eq_refl). Qed.
Example C174_vectors_ex : exists p q u v, stands_for p u /\ stands_for q v /\ ordinary u /\ ordinary v /\ vlength (vsub u v) <> 0. Proof. exact unit_vectors. Qed.
