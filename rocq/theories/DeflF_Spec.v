(** Vocabulary for the deflection of light in floats. *)
From Coq Require Import ZArith Reals.
From Flocq Require Import Core BinarySingleNaN.
From Verif Require Import Float64 Float64_Proofs Real_Math Vector_Model Geo_Model Light_Model Light_Spec SepF_Model SepF_Spec.
Open Scope R_scope.

(** A distance in au from the size of a speck of dust to a hundred times the visible
    universe. *)
Definition plain (w : vec) : Prop := / 2 ^ 50 <= vlength w <= 2 ^ 50.
(** Twice the Schwarzschild radius of the mass over its distance from the observer; one
    plus the cosine between the ways from the mass to the target and to the observer; and
    the cosine between the target and the way from the mass. *)
Definition strength (e : vec) (rmass : R) : R := 2 * GS / (C * C * vlength e * AU_M * rmass).
Definition openness (u e : vec) : R := 1 + dot (unit_of (vadd u e)) (unit_of e).
Definition alignment (u e : vec) : R := dot (unit_of e) (unit_of u).
