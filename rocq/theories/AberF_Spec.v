(** Vocabulary for the aberration of light in floats. *)
From Coq Require Import ZArith Reals.
From Flocq Require Import Core BinarySingleNaN.
From Verif Require Import Float64 Float64_Proofs Vector_Model SepF_Model SepF_Spec.
Open Scope R_scope.

(** Every coordinate of [p] is a finite float within [err] of that of [w]. *)
Definition near_vector (w : vec) (err : R) (p : fvec) : Prop := near (vx w) err (fx p) /\ near (vy w) err (fy p) /\ near (vz w) err (fz p).
(** A distance in au: from the size of an atom to beyond the visible universe. *)
Definition far_enough (w : vec) : Prop := / 2 ^ 80 <= vlength w <= 2 ^ 80.
(** A velocity in au a day: 1 au a day is 1731 kilometres a second. *)
Definition slow_enough (w : vec) : Prop := / 2 ^ 60 <= vlength w <= 1.
