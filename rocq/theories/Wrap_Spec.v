(** Vocabulary for wrapped angles. *)
From Coq Require Import ZArith Reals.
From Flocq Require Import Core BinarySingleNaN.
From Verif Require Import Float64 Float64_Proofs.
Open Scope R_scope.

(** The remainder in the real numbers. *)
Definition remainder (x m : R) : R := x - m * IZR (Zfloor (x / m)).
(** A float [r] that is the wrapped value of the real number [x]: between 0 and [m],
    both included, and nearest to the remainder; for [x] that is not negative it is
    the remainder itself, and less than [m]. *)
Definition wrapped (x m : R) (r : b64) : Prop :=
  exists b : bf, r = B2SF b /\ is_finite b = true /\ 0 <= B2R b <= m /\ B2R b = rnd (remainder x m) /\ (0 <= x -> B2R b = remainder x m /\ B2R b < m).
(** A finite float of moderate size. *)
Definition moderate (x : b64) : Prop := exists b : bf, x = B2SF b /\ is_finite b = true /\ Rabs (B2R b) <= bpow radix2 900.
(** A float [r] that is [x] less whole multiples of [m], in the closed range from [lo]
    to [lo + m], to within [err]. *)
Definition folded (lo m err x : R) (r : b64) : Prop :=
  exists (b : bf) (n : Z), r = B2SF b /\ is_finite b = true /\ lo <= B2R b <= lo + m /\ Rabs (B2R b - (x - m * IZR n)) <= err.
(** The floats [tau] and [pi]. *)
Definition tau_float : R := 7074237752028440 / 2 ^ 50.
Definition pi_float : R := tau_float / 2.
(** A finite float [x] in the closed interval. *)
Definition within (lo hi : R) (x : bf) : Prop := is_finite x = true /\ lo <= B2R x <= hi.
