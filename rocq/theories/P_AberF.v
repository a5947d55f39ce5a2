(** C177: the aberration of light in binary64. *)
From Coq Require Import ZArith Reals.
From Flocq Require Import Core BinarySingleNaN.
From Verif Require Import Float64 Float64_Proofs Real_Math Vector_Model Geo_Model Light_Model Light_Spec SepF_Model SepF_Spec RotF_Spec RotF_Proofs4 AberF_Model AberF_Spec AberF_Proofs3.
Open Scope R_scope.

(** The apparent position, for a light time that fits the distance to one part in a
    thousand. *)
Theorem C177_aberration : forall p v u w lt T, stands_for p u -> stands_for v w -> far_enough u -> slow_enough w -> Rabs (T * C_AUDAY - vlength u) <= / 1000 * vlength u -> near T (6 / 2 ^ 53 * T) lt ->
  near_vector (add_aberration u w T) (7 / 2 ^ 53 * vlength u) (add_aberration64 p v lt).
Proof. exact aberration_ok. Qed.
Print Assumptions C177_aberration.
(** With the light time of the vector: the Lorentz transformation of its direction. *)
Theorem C177_lorentz : forall p v u w, stands_for p u -> stands_for v w -> far_enough u -> slow_enough w ->
  near_vector (smul (vlength u) (seen_from (smul (/ C_AUDAY) w) (unit_of u))) (7 / 2 ^ 53 * vlength u) (add_aberration64 p v (light_time64 p)).
Proof. exact lorentz_ok. Qed.
Print Assumptions C177_lorentz.
(** An observer at rest sees the position itself, to the last bit. *)
Theorem C177_at_rest : forall p v u (lt : bf), stands_for p u -> stands_for v vzero -> is_finite lt = true -> Rabs (B2R lt) <= 2 ^ 100 -> vlength u <= 2 ^ 400 -> stands_for (add_aberration64 p v (B2SF lt)) u.
Proof. exact rest_ok. Qed.
Print Assumptions C177_at_rest.
(** When the light passed closest to a body. *)
Theorem C177_closest : forall dot3 p d u w, good_dot3 dot3 -> stands_for p u -> stands_for d w -> far_enough u -> far_enough w ->
  near (light_time_difference u w) (17 / 2 ^ 53 * (vlength w / C_AUDAY)) (light_time_difference64 dot3 p d).
Proof. exact closest_ok. Qed.
Print Assumptions C177_closest.
Example C177_observer_ex : exists p v u w, stands_for p u /\ stands_for v w /\ far_enough u /\ slow_enough w /\ w <> vzero. Proof. exact some_observer. Qed.
Example C177_library_ex : good_dot3 dot_left. Proof. exact dot_left_good. Qed.
