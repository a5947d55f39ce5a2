(** Vocabulary for places on an ellipsoid in floats. *)
From Coq Require Import ZArith Reals.
From Flocq Require Import Core BinarySingleNaN.
From Verif Require Import Float64 Float64_Proofs Wrap_Spec Real_Math Vector_Model Geo_Model Geo_Spec SepF_Model SepF_Spec GeodF_Model.
Open Scope R_scope.

(** An ellipsoid about as flat as the Earth, of any ordinary size; [a] and [finv] are the
    values of its floats. *)
Definition ellipsoid (g : geoid64) (a finv : R) : Prop :=
  exists r f : bf, g = Geoid64 (B2SF r) (B2SF f) /\ is_finite r = true /\ is_finite f = true /\ a = B2R r /\ finv = B2R f /\ / 2 ^ 90 <= a <= 2 ^ 90 /\ 290 <= finv <= 310.
(** A finite float between half a turn west and half a turn east, within [err] of [lon] up
    to whole turns. *)
Definition same_longitude (lon err : R) (r : b64) : Prop :=
  exists b : bf, r = B2SF b /\ is_finite b = true /\ - pi_float <= B2R b <= pi_float /\ exists n : Z, Rabs (B2R b - lon - 2 * PI * IZR n) <= err.
