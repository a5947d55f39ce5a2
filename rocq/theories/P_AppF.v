(** C179: apparent places in binary64. *)
From Coq Require Import ZArith Reals List.
From Flocq Require Import Core BinarySingleNaN.
From Verif Require Import Float64 Float64_Proofs Real_Math Vector_Model Geo_Model Light_Model Light_Spec SepF_Model SepF_Spec AberF_Model AberF_Spec DeflF_Model DeflF_Spec AppF_Model AppF_Spec AppF_Proofs4.
Import ListNotations.
Open Scope R_scope.

(** The apparent position, for any number of masses: the errors of all the deflections
    together reach the result multiplied by at most 1.02. *)
Theorem C179_apparent : forall p fs vf lt u bodies w T r', stands_for p u -> Forall2 body_for fs bodies -> stands_for vf w -> mild_path u bodies 0 r' -> slow_enough w -> near T (6 / 2 ^ 53 * T) lt ->
  (forall v, bend u bodies = Some v -> plain v /\ Rabs (T * C_AUDAY - vlength v) <= / 2000 * vlength v) ->
  exists v, bend u bodies = Some v /\ near_vector (add_aberration v w T) ((7.1 + 1.02 * r') / 2 ^ 53 * vlength v) (apparent64 p vf lt fs).
Proof. exact apparent_ok. Qed.
Print Assumptions C179_apparent.
(** Up to four masses, the Sun, Jupiter, Saturn and the Earth, say. *)
Theorem C179_four : forall p fs vf lt u bodies w T, (length bodies <= 4)%nat -> stands_for p u -> Forall2 body_for fs bodies -> stands_for vf w -> gentle_path u bodies -> slow_enough w -> near T (6 / 2 ^ 53 * T) lt ->
  (forall v, bend u bodies = Some v -> plain v /\ Rabs (T * C_AUDAY - vlength v) <= / 2000 * vlength v) ->
  exists v, bend u bodies = Some v /\ near_vector (add_aberration v w T) (14 / 10 ^ 14 * vlength v) (apparent64 p vf lt fs).
Proof. exact four_ok. Qed.
Print Assumptions C179_four.
(** [apparent] of the model over the reals takes such a path, with the masses of its
    deflectors, and then corrects for aberration. *)
Theorem C179_path : forall ephemeris t observer velocity u T codes a, apparent ephemeris t observer velocity None u T codes = Position a ->
  exists bodies v, Forall2 (fun code b => rmass_of code = Some (snd b)) codes bodies /\ bend u bodies = Some v /\ a = add_aberration v velocity T.
Proof. exact apparent_path. Qed.
Print Assumptions C179_path.
Example C179_path_ex : exists p fs vf lt u bodies w T, bodies <> [] /\ (length bodies <= 4)%nat /\ stands_for p u /\ Forall2 body_for fs bodies /\ stands_for vf w /\ gentle_path u bodies /\ slow_enough w /\ near T (6 / 2 ^ 53 * T) lt /\
  (forall v, bend u bodies = Some v -> plain v /\ Rabs (T * C_AUDAY - vlength v) <= / 2000 * vlength v). Proof. exact some_path. Qed.
