(** C170: spherical coordinates in binary64. *)
From Coq Require Import ZArith Reals.
From Coq.Floats Require Import SpecFloat.
From Flocq Require Import Core BinarySingleNaN.
From Verif Require Import Float64 Float64_Proofs Vector_Model Geo_Model Wrap_Model Wrap_Spec SepF_Model SepF_Spec SepF_Proofs3 SphF_Model SphF_Spec SphF_Proofs3.
Open Scope R_scope.

(** The floats that come back are, to a quarter of a nanoarcsecond, the latitude and a
    longitude of the vector, and its length; the longitude is in one turn. *)
Theorem C170_coordinates : forall f h p w, good_direction f -> good_hypot h -> stands_for p w -> ordinary w ->
  exists (r th ph : b64) (lat lon : R), to_spherical64 f h p = (r, th, ph) /\ placed w (vlength w) lat lon /\
    near (vlength w) (3 / 2 ^ 53 * vlength w) r /\ near lat (/ 2 ^ 50) th /\ near lon (3 / 2 ^ 51) ph /\ in_one_turn ph.
Proof. exact coordinates_ok. Qed.
Print Assumptions C170_coordinates.
(** A distance, latitude and longitude survive the way to a vector and back, up to half a
    nanoarcsecond and whole turns of the longitude, from pole to pole. *)
Theorem C170_round_trip : forall f h s c (r theta phi : bf), good_direction f -> good_hypot h -> good_function s sin -> good_function c cos ->
  is_finite r = true -> is_finite theta = true -> is_finite phi = true -> / 2 ^ 199 <= B2R r <= 2 ^ 199 -> Rabs (B2R theta) <= pi_float / 2 -> Rabs (B2R phi) <= 7 ->
  exists (r' th' ph' : b64) (n : Z), to_spherical64 f h (from_spherical64 s c (B2SF r) (B2SF theta) (B2SF phi)) = (r', th', ph') /\
    near (B2R r) (9 / 2 ^ 53 * B2R r) r' /\ near (B2R theta) (15 / 2 ^ 53) th' /\ near (B2R phi + 2 * PI * IZR n) (19 / 2 ^ 53) ph' /\ in_one_turn ph'.
Proof. exact round_trip_ok. Qed.
Print Assumptions C170_round_trip.
Example C170_half_nanoarcsecond : 19 / 2 ^ 53 < / 2 * (/ 10 ^ 9 / 3600 * (PI / 180)). Proof. exact below_nanoarcsecond. Qed.
(** Library functions that do what is asked, a vector, and the pole itself. *)
Example C170_library_ex : (exists f, good_direction f) /\ (exists h, good_hypot h) /\ (exists s, good_function s sin) /\ (exists c, good_function c cos).
Proof. exact (conj some_direction (conj some_hypot (conj some_sin some_cos))). Qed.
Example C170_ex : exists p q u v, stands_for p u /\ stands_for q v /\ ordinary u /\ ordinary v /\ vlength (vsub u v) <> 0. Proof. exact unit_vectors. Qed.
Example C170_pole_ex : exists r theta phi : bf, is_finite r = true /\ is_finite theta = true /\ is_finite phi = true /\ / 2 ^ 199 <= B2R r <= 2 ^ 199 /\ Rabs (B2R theta) <= pi_float / 2 /\ Rabs (B2R phi) <= 7 /\ B2R r = 1 /\ B2R theta = pi_float / 2 /\ B2R phi = 2.
Proof. exact pole_case. Qed.
