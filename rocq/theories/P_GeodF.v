(** * C176: places on the Earth in binary64 *)
From Coq Require Import ZArith Reals Lra.
From Flocq Require Import Core BinarySingleNaN.
From Verif Require Import Float64 Float64_Proofs Wrap_Spec Real_Math Vector_Model Geo_Model SepF_Model SepF_Spec SphF_Spec SphF_Proofs3 FrameF_Spec GeodF_Model GeodF_Spec GeodF_Proofs2 GeodF_Proofs5.
Open Scope R_scope.

(** From latitude, longitude and elevation to the vector. *)
Theorem C176_place : forall fsin fcos g a finv lat lon (h : bf), good_function fsin sin -> good_function fcos cos -> ellipsoid g a finv -> usual lat -> usual lon -> is_finite h = true -> Rabs (B2R h) <= 2 ^ 90 ->
  let v := latlon a finv (val lat) (val lon) (B2R h) in let p := latlon64 fsin fcos g lat lon (B2SF h) in let s := a + Rabs (B2R h) in
  near (vx v) (20 / 2 ^ 53 * s) (fx p) /\ near (vy v) (20 / 2 ^ 53 * s) (fy p) /\ near (vz v) (23 / 2 ^ 53 * s) (fz p).
Proof. exact place_near. Qed.
Print Assumptions C176_place.
(** From a vector to latitude, longitude and height, beside the same steps in real
    numbers. *)
Theorem C176_geographic : forall fatan fsin g a finv p w, good_direction fatan -> good_function fsin sin -> ellipsoid g a finv -> stands_for p w -> a <= 1.1 * vlength w -> vlength w <= 2 ^ 90 ->
  let '(lat, lon, height) := geographic64 fatan fsin g p in let '(ac, hyp, lat3) := compute_latitude a finv w in
  near lat3 (8 / 2 ^ 53) lat /\ near (height_from (vx w) (vy w) ac hyp) (11 / 2 ^ 53 * vlength w) height /\ exists theta, direction (vx w) (vy w) theta /\ same_longitude theta (23 / 2 ^ 53) lon.
Proof. exact geographic_ok. Qed.
Print Assumptions C176_geographic.
(** There and back. *)
Theorem C176_there_and_back : forall fatan fsin fcos g a finv lat lon (h : bf), good_direction fatan -> good_function fsin sin -> good_function fcos cos -> ellipsoid g a finv -> usual lat -> usual lon -> is_finite h = true ->
  - (PI / 2) <= val lat <= PI / 2 -> - (a / 100) <= B2R h <= 2 ^ 89 -> a <= 2 ^ 88 ->
  let '(lat', lon', height) := geographic64 fatan fsin g (latlon64 fsin fcos g lat lon (B2SF h)) in
  near (val lat) (5 / 10 ^ 9) lat' /\ near (B2R h) (114 / 2 ^ 53 * (a + Rabs (B2R h))) height /\ (/ 2 ^ 30 <= cos (val lat) -> same_longitude (val lon) ((43 / cos (val lat) + 23) / 2 ^ 53) lon').
Proof. exact back_ok. Qed.
Print Assumptions C176_there_and_back.
(** The two ellipsoids of the library. *)
Theorem C176_wgs84 : exists a finv, ellipsoid wgs84_64 a finv /\ Rabs (a - 6378137 / 149597870700) <= 3 / 2 ^ 67 /\ Rabs (finv - 298257223563 / 10 ^ 9) <= / 2 ^ 45.
Proof. exact wgs84_ok. Qed.
Print Assumptions C176_wgs84.
Theorem C176_iers2010 : exists a finv, ellipsoid iers2010_64 a finv /\ Rabs (a - 63781366 / 1495978707000) <= 3 / 2 ^ 67 /\ Rabs (finv - 29825642 / 10 ^ 5) <= / 2 ^ 45.
Proof. exact iers2010_ok. Qed.
Print Assumptions C176_iers2010.
(** Some functions and some place meet the conditions. *)
Example C176_functions : (exists f, good_direction f) /\ (exists s, good_function s sin) /\ (exists c, good_function c cos).
Proof. exact (conj some_direction (conj some_sin some_cos)). Qed.
Example C176_somewhere : exists a finv lat lon (h : bf), ellipsoid wgs84_64 a finv /\ usual lat /\ usual lon /\ is_finite h = true /\ - (PI / 2) <= val lat <= PI / 2 /\ val lat = 1 /\ - (a / 100) <= B2R h <= 2 ^ 89 /\ a <= 2 ^ 88 /\ / 2 ^ 30 <= cos (val lat).
Proof. exact somewhere. Qed.
Example C176_vector : exists a finv p w, ellipsoid wgs84_64 a finv /\ stands_for p w /\ a <= 1.1 * vlength w /\ vlength w <= 2 ^ 90.
Proof. exact some_vector. Qed.
