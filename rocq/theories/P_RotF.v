(** C173: rotation matrices in binary64. *)
From Coq Require Import ZArith Reals.
From Flocq Require Import Core BinarySingleNaN.
From Verif Require Import Float64 Float64_Proofs Real_Math Vector_Model Geo_Model SepF_Model SepF_Spec SepF_Proofs3 SphF_Spec SphF_Proofs3 RotF_Model RotF_Spec RotF_Proofs3 RotF_Proofs4.
Open Scope R_scope.

(** A matrix made of [n] elementary turns, multiplied, transposed and flipped in any way,
    turns a vector to where exact arithmetic does, up to [15 n] roundings of its length. *)
Theorem C173_rotated : forall s c d d9, good_function s sin -> good_function c cos -> good_dot3 d -> good_dot9 d9 -> forall t p v, usual_angles t -> (Z.of_nat (number t) <= 1000000)%Z -> stands_for p v -> ordinary v ->
  exists w, stands_for (mxv64 d (turns64 s c d d9 t) p) w /\ vlength (vsub w (carried t false v)) <= 15 * INR (number t) / 2 ^ 53 * vlength v.
Proof. exact rotated_ok. Qed.
Print Assumptions C173_rotated.
(** The transposed matrix takes the vector back. *)
Theorem C173_there_and_back : forall s c d d9, good_function s sin -> good_function c cos -> good_dot3 d -> good_dot9 d9 -> forall t p v, usual_angles t -> (Z.of_nat (number t) <= 1000000)%Z -> stands_for p v -> ordinary v ->
  exists w, stands_for (mxv64 d (turns64 s c d d9 (Back t)) (mxv64 d (turns64 s c d d9 t) p)) w /\ vlength (vsub w v) <= 30 * INR (number t) / 2 ^ 53 * vlength v.
Proof. exact there_and_back. Qed.
Print Assumptions C173_there_and_back.
(** The separation of two bodies, computed in floats from turned vectors, is that of the
    bodies, in whichever frame. *)
Theorem C173_separation : forall s c d d9, good_function s sin -> good_function c cos -> good_dot3 d -> good_dot9 d9 -> forall f t p q u v, good_arctan2 f -> usual_angles t -> (Z.of_nat (number t) <= 1000000)%Z ->
  stands_for p u -> stands_for q v -> / 2 ^ 199 <= vlength u <= 2 ^ 199 -> / 2 ^ 199 <= vlength v <= 2 ^ 199 ->
  near (angle_between u v) (110 * INR (number t) / 2 ^ 53) (angle_between64 f (mxv64 d (turns64 s c d d9 t) p) (mxv64 d (turns64 s c d d9 t) q)).
Proof. exact separation_kept. Qed.
Print Assumptions C173_separation.
(** The turns of the code are those of the exact model: the axes of the horizon of a
    place, and those of a planet. *)
Theorem C173_horizon : forall lat lon v, carried (horizon_turns lat lon) false v = mxv (R_latlon (SF2R radix2 lat) (SF2R radix2 lon)) v.
Proof. exact horizon_exact. Qed.
Print Assumptions C173_horizon.
Theorem C173_body : forall ra dec w v, carried (body_turns ra dec w) false v = mxv (mxm (rot_z (- SF2R radix2 w)) (mxm (rot_x (- SF2R radix2 dec)) (rot_z (- SF2R radix2 ra)))) v.
Proof. exact body_exact. Qed.
Print Assumptions C173_body.
Example C173_library_ex : (exists s, good_function s sin) /\ (exists c, good_function c cos) /\ good_dot3 dot_left /\ good_dot9 dot9_left. Proof. exact (conj some_sin (conj some_cos (conj dot_left_good dot9_left_good))). Qed.
Example C173_ex : usual_angles (horizon_turns (of_Z 1) (of_Z 2)) /\ number (horizon_turns (of_Z 1) (of_Z 2)) = 2%nat. Proof. exact (conj horizon_usual eq_refl). Qed.
Example C173_vectors_ex : exists p q u v, stands_for p u /\ stands_for q v /\ ordinary u /\ ordinary v /\ vlength (vsub u v) <> 0. Proof. exact unit_vectors. Qed.
