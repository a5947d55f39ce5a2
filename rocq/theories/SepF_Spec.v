(** Vocabulary for lengths and angles of vectors of floats. *)
From Coq Require Import ZArith Reals.
From Flocq Require Import Core BinarySingleNaN.
From Verif Require Import Float64 Float64_Proofs Real_Math Vector_Model Geo_Model SepF_Model.
Open Scope R_scope.

(** The floats of [p] are finite and stand for the vector [w]. *)
Definition stands_for (p : fvec) (w : vec) : Prop :=
  exists a b c : bf, p = F3 (B2SF a) (B2SF b) (B2SF c) /\ is_finite a = true /\ is_finite b = true /\ is_finite c = true /\ w = V3 (B2R a) (B2R b) (B2R c).
(** A finite float within [err] of [x]. *)
Definition near (x err : R) (r : b64) : Prop := exists b : bf, r = B2SF b /\ is_finite b = true /\ Rabs (B2R b - x) <= err.
(** An [arctan2] that is off by one unit in the last place of 1 at most. *)
Definition good_arctan2 (f : b64 -> b64 -> b64) : Prop :=
  forall y x : bf, is_finite y = true -> is_finite x = true -> 0 <= B2R y -> 0 <= B2R x -> near (atan2 (B2R y) (B2R x)) (/ 2 ^ 52) (f (B2SF y) (B2SF x)).
(** [theta] is the angle between the two vectors. *)
Definition angle_of (u v : vec) (theta : R) : Prop := 0 <= theta <= PI /\ vlength u * vlength v * cos theta = dot u v.
(** The length is far from the limits of the number format. *)
Definition ordinary (w : vec) : Prop := / 2 ^ 200 <= vlength w <= 2 ^ 200.
(** The opposite vector. *)
Definition fopp (p : fvec) : fvec := F3 (fneg (fx p)) (fneg (fy p)) (fneg (fz p)).
