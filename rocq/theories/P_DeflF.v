(** C178: the deflection of light in binary64. *)
From Coq Require Import ZArith Reals.
From Flocq Require Import Core BinarySingleNaN.
From Verif Require Import Float64 Float64_Proofs Real_Math Vector_Model Geo_Model Light_Model Light_Spec SepF_Model SepF_Spec AberF_Model AberF_Spec DeflF_Model DeflF_Spec DeflF_Proofs3.
Open Scope R_scope.

(** The deflection, for a target that is not in line with the mass. *)
Theorem C178_deflection : forall p e u v (rm : bf), stands_for p u -> stands_for e v -> plain u -> plain v -> plain (vadd u v) -> is_finite rm = true -> 1 <= B2R rm <= 2 ^ 30 -> / 2 ^ 40 <= openness u v -> Rabs (alignment u v) <= 99999999999 / 10 ^ 11 - 18 / 2 ^ 53 ->
  exists d, compute_deflection u v (B2R rm) = Some d /\ near_vector d (141 / 2 ^ 53 * (strength v (B2R rm) * vlength u / (openness u v * sqrt (openness u v)))) (compute_deflection64 p e (B2SF rm)).
Proof. exact bent_ok. Qed.
Print Assumptions C178_deflection.
(** Outside the limb of a mass no heavier than the Sun, half an au away or more. *)
Theorem C178_limb : forall p e u v (rm : bf), stands_for p u -> stands_for e v -> plain u -> plain v -> plain (vadd u v) -> is_finite rm = true -> 1 <= B2R rm <= 2 ^ 30 -> / 2 <= vlength v -> / 100000 <= openness u v -> Rabs (alignment u v) <= 99999999999 / 10 ^ 11 - 18 / 2 ^ 53 ->
  exists d, compute_deflection u v (B2R rm) = Some d /\ near_vector d (2 / 10 ^ 14 * vlength u) (compute_deflection64 p e (B2SF rm)).
Proof. exact limb_ok. Qed.
Print Assumptions C178_limb.
(** A target in line with the mass, before or behind: no deflection at all. *)
Theorem C178_in_line : forall p e u v (rm : bf), stands_for p u -> stands_for e v -> plain u -> plain v -> plain (vadd u v) -> is_finite rm = true -> 1 <= B2R rm <= 2 ^ 30 -> / 2 ^ 40 <= openness u v -> 99999999999 / 10 ^ 11 + 18 / 2 ^ 53 <= Rabs (alignment u v) ->
  compute_deflection u v (B2R rm) = Some vzero /\ stands_for (compute_deflection64 p e (B2SF rm)) vzero.
Proof. exact straight_ok. Qed.
Print Assumptions C178_in_line.
Example C178_bent_ex : exists p e u v (rm : bf), stands_for p u /\ stands_for e v /\ plain u /\ plain v /\ plain (vadd u v) /\ is_finite rm = true /\ 1 <= B2R rm <= 2 ^ 30 /\ / 2 <= vlength v /\ / 100000 <= openness u v /\ Rabs (alignment u v) <= 99999999999 / 10 ^ 11 - 18 / 2 ^ 53. Proof. exact some_bent. Qed.
Example C178_in_line_ex : exists p e u v (rm : bf), stands_for p u /\ stands_for e v /\ plain u /\ plain v /\ plain (vadd u v) /\ is_finite rm = true /\ 1 <= B2R rm <= 2 ^ 30 /\ / 2 ^ 40 <= openness u v /\ 99999999999 / 10 ^ 11 + 18 / 2 ^ 53 <= Rabs (alignment u v). Proof. exact some_straight. Qed.
