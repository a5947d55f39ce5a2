(** Vocabulary for spherical coordinates in floats. *)
From Coq Require Import ZArith Reals.
From Flocq Require Import Core BinarySingleNaN.
From Verif Require Import Float64 Float64_Proofs Vector_Model Wrap_Spec SepF_Spec.
Open Scope R_scope.

(** [theta] is the direction of the point (x, y) of the plane, in half a turn either way;
    any angle will do for the origin. *)
Definition direction (x y theta : R) : Prop :=
  - PI <= theta <= PI /\ x = sqrt (x * x + y * y) * cos theta /\ y = sqrt (x * x + y * y) * sin theta.
(** An [arctan2] that is off by [2^-51] at most: the last place of a result near pi. It may
    answer half a turn with either sign. *)
Definition good_direction (f : b64 -> b64 -> b64) : Prop :=
  forall y x : bf, is_finite y = true -> is_finite x = true -> exists theta, direction (B2R x) (B2R y) theta /\ near theta (/ 2 ^ 51) (f (B2SF y) (B2SF x)).
(** A [hypot] that is off by one unit in the last place at most. *)
Definition good_hypot (h : b64 -> b64 -> b64) : Prop :=
  forall x y : bf, is_finite x = true -> is_finite y = true -> Rabs (B2R x) <= 2 ^ 200 -> Rabs (B2R y) <= 2 ^ 200 ->
    exists b : bf, h (B2SF x) (B2SF y) = B2SF b /\ is_finite b = true /\ 0 <= B2R b /\
      Rabs (B2R b - sqrt (B2R x * B2R x + B2R y * B2R y)) <= sqrt (B2R x * B2R x + B2R y * B2R y) / 2 ^ 52 + / 2 ^ 900.
(** A [sin] or [cos] that is off by one unit in the last place at most, for angles of
    about one turn. *)
Definition good_function (g : b64 -> b64) (F : R -> R) : Prop :=
  forall x : bf, is_finite x = true -> Rabs (B2R x) <= 7 -> near (F (B2R x)) (Rabs (F (B2R x)) / 2 ^ 52 + / 2 ^ 900) (g (B2SF x)).
(** The vector of length [r] at the latitude [lat] and longitude [lon]. *)
Definition placed (w : vec) (r lat lon : R) : Prop :=
  - (PI / 2) <= lat <= PI / 2 /\ w = V3 (r * cos lat * cos lon) (r * cos lat * sin lon) (r * sin lat).
(** A finite float from zero to the float [tau], both included. *)
Definition in_one_turn (r : b64) : Prop := exists b : bf, r = B2SF b /\ is_finite b = true /\ 0 <= B2R b <= tau_float.
