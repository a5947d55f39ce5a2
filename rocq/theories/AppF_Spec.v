(** Vocabulary for apparent places in floats. *)
From Coq Require Import ZArith Reals List.
From Flocq Require Import Core BinarySingleNaN.
From Verif Require Import Float64 Float64_Proofs Real_Math Vector_Model Geo_Model Light_Model Light_Spec SepF_Model SepF_Spec DeflF_Spec.
Import ListNotations.
Open Scope R_scope.

(** The path of a ray by a list of masses: each shifts the position it is given. *)
Fixpoint bend (u : vec) (bodies : list (vec * R)) : option vec :=
  match bodies with
  | [] => Some u
  | (e, rm) :: bodies => match compute_deflection u e rm with Some d => bend (vadd u d) bodies | None => None end
  end.
(** The list of floats stands for the list of reals. *)
Definition body_for (f : fvec * b64) (b : vec * R) : Prop :=
  stands_for (fst f) (fst b) /\ exists rm : bf, snd f = B2SF rm /\ is_finite rm = true /\ snd b = B2R rm.
(** A mass that bends the ray but little: the ways from the mass to the target and to the
    observer are three seconds of arc or more from opposite, the target is not in line with
    the mass to within 1.3 seconds of arc, nor very near the mass. *)
Definition mild (u e : vec) (rm : R) : Prop :=
  / 2 ^ 49 <= vlength u <= 2 ^ 49 /\ plain e /\ / 2 ^ 49 <= vlength (vadd u e) <= 2 ^ 49 /\ 1 <= rm <= 2 ^ 30 /\
  / 10 ^ 10 <= openness u e /\ Rabs (alignment u e) <= 1 - 2 / 10 ^ 11 /\
  vlength u <= 10 ^ 5 * vlength (vadd u e) /\
  strength e rm * (1 + vlength u / vlength (vadd u e)) <= openness u e / 500.
(** What one mass adds to the error, in units of 1/2^53 of the distance. *)
Definition blur (u e : vec) (rm : R) : R := 270 * (strength e rm / (openness u e * sqrt (openness u e))) + 2.
(** Every mass of the list is mild where the ray has got to, and the error, starting from
    [r], ends as [r']. *)
Fixpoint mild_path (u : vec) (bodies : list (vec * R)) (r r' : R) : Prop :=
  r <= 4096 /\
  match bodies with
  | [] => r' = r
  | (e, rm) :: bodies => mild u e rm /\ forall d, compute_deflection u e rm = Some d -> mild_path (vadd u d) bodies (1.05 * r + blur u e rm) r'
  end.
(** The same with no mass adding more than 272 units. *)
Fixpoint gentle_path (u : vec) (bodies : list (vec * R)) : Prop :=
  match bodies with
  | [] => True
  | (e, rm) :: bodies => mild u e rm /\ strength e rm <= openness u e * sqrt (openness u e) /\ forall d, compute_deflection u e rm = Some d -> gentle_path (vadd u d) bodies
  end.
