(** Vocabulary for UT1 in binary64. *)
From Coq Require Import ZArith Reals.
From Flocq Require Import Core BinarySingleNaN.
From Verif Require Import Float64 Float64_Proofs Float_Time_Model.
Open Scope R_scope.

(** The float function [delta_t] gives the real one [DT], in seconds, to within [err]
    between the dates [lo] and [hi]. [DT] is below 10000 seconds there and drifts by at
    most a fiftieth of a second a day. *)
Definition tracks (delta_t : b64 -> b64) (DT : R -> R) (err lo hi : R) : Prop :=
  0 <= err <= 1 /\ - 4194303 <= lo /\ hi <= 4194303 /\ (forall x, lo <= x <= hi -> Rabs (DT x) <= 10000) /\
  (forall x x', lo <= x <= hi -> lo <= x' <= hi -> Rabs (DT x - DT x') <= / 50 * Rabs (x - x')) /\
  (forall x : bf, is_finite x = true -> lo <= B2R x <= hi -> exists v : bf, delta_t (B2SF x) = B2SF v /\ is_finite v = true /\ Rabs (B2R v - DT (B2R x)) <= err).
(** A time with the given two parts, of ordinary size. *)
Definition parts (t : time64) (w f : bf) : Prop :=
  whole64 t = B2SF w /\ fraction64 t = B2SF f /\ is_finite w = true /\ is_finite f = true /\ Rabs (B2R f) <= 1.
