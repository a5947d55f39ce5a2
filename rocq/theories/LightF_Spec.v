(** Vocabulary for the correction for light travel time in floats. *)
From Coq Require Import ZArith Reals List Bool.
From Flocq Require Import Core BinarySingleNaN.
From Verif Require Import Float64 Float64_Proofs Vector_Model Vector_Spec SepF_Model SepF_Spec LightF_Model.
Open Scope R_scope.

(** The speed of light in astronomical units per day. *)
Definition light_speed : R := 299792458 * 86400 / 149597870700.
(** The sight is one of a body on the path [X] from the place [o]: at most 100 light days
    away and slower than a hundredth of the speed of light, and the code places it within
    [10^-11] au (1.5 metres) of the path for the 103 days before the observation. *)
Definition watched (x : sight64) (path : (R -> vec) * vec * R) : Prop :=
  let '(X, o, t) := path in
  slower (/ 100 * light_speed) X /\ vlength (vsub (X t) o) <= 100 * light_speed /\ stands_for (observer64 x) o /\
  (exists b : bf, fraction64 x = B2SF b /\ is_finite b = true /\ B2R b = t /\ Rabs t <= 2) /\
  (forall s : bf, is_finite s = true -> t - 103 <= B2R s <= t -> exists w, stands_for (target64 x (B2SF s)) w /\ vlength (vsub w (X (B2R s))) <= / 10 ^ 11).
(** The answer is the body as the light left it that arrives now: [tau] is the exact
    light time, matched to 17 nanoseconds, and the vector is right to [1.5 10^-11] au. *)
Definition seen_right (path : (R -> vec) * vec * R) (answer : fvec * b64) : Prop :=
  let '(X, o, t) := path in
  exists (tau : R) (w : vec), 0 <= tau /\ vlength (vsub (X (t - tau)) o) = light_speed * tau /\ near tau (2 / 10 ^ 13) (snd answer) /\
    stands_for (fst answer) w /\ vlength (vsub w (vsub (X (t - tau)) o)) <= 15 / 10 ^ 12.
(** A coordinate of the target is not a number, whenever the body is asked for. *)
Definition undefined (x : sight64) : Prop := forall s, fx (target64 x s) = SpecFloat.S754_nan.
