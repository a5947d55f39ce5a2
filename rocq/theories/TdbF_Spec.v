(** Vocabulary for TDB. *)
From Coq Require Import ZArith Reals.
From Flocq Require Import Core BinarySingleNaN.
From Verif Require Import Float64 Float64_Proofs.
Open Scope R_scope.

(** USNO Circular 179, equation 2.6: seconds, from centuries. *)
Definition tdb_circular_179 (T : R) : R :=
  1657 / 10 ^ 6 * sin (6283076 / 10 ^ 4 * T + 62401 / 10 ^ 4)
  + 22 / 10 ^ 6 * sin (5753385 / 10 ^ 4 * T + 4297 / 10 ^ 3)
  + 14 / 10 ^ 6 * sin (12566152 / 10 ^ 4 * T + 61969 / 10 ^ 4)
  + 5 / 10 ^ 6 * sin (6069777 / 10 ^ 4 * T + 40212 / 10 ^ 4)
  + 5 / 10 ^ 6 * sin (529691 / 10 ^ 4 * T + 4444 / 10 ^ 4)
  + 2 / 10 ^ 6 * sin (213299 / 10 ^ 4 * T + 55431 / 10 ^ 4)
  + 1 / 10 ^ 5 * T * sin (6283076 / 10 ^ 4 * T + 4249 / 10 ^ 3).
(** A sine good to 2^-52 for angles of up to 20000 radians. *)
Definition good_sine (s : b64 -> b64) : Prop :=
  forall x : bf, is_finite x = true -> Rabs (B2R x) <= 20000 -> exists y : bf, s (B2SF x) = B2SF y /\ is_finite y = true /\ Rabs (B2R y - sin (B2R x)) <= / 2 ^ 52.
