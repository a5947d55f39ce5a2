(** Vocabulary for the angles of precession. *)
From Coq Require Import Reals.
From Flocq Require Import Core BinarySingleNaN.
From Verif Require Import Float64 Float64_Proofs.
Open Scope R_scope.

(** Capitaine and others, 2003, equations 4, 37 and 39: arcseconds, from centuries of TDB. *)
Definition psi_2003 (T : R) : R := 5038481507 / 10 ^ 6 * T - 10790069 / 10 ^ 7 * T ^ 2 - 114045 / 10 ^ 8 * T ^ 3 + 132851 / 10 ^ 9 * T ^ 4 - 951 / 10 ^ 10 * T ^ 5.
Definition omega_2003 (T : R) : R := 84381406 / 10 ^ 3 - 25754 / 10 ^ 6 * T + 512623 / 10 ^ 7 * T ^ 2 - 772503 / 10 ^ 8 * T ^ 3 - 467 / 10 ^ 9 * T ^ 4 + 3337 / 10 ^ 10 * T ^ 5.
Definition chi_2003 (T : R) : R := 10556403 / 10 ^ 6 * T - 23814292 / 10 ^ 7 * T ^ 2 - 121197 / 10 ^ 8 * T ^ 3 + 170663 / 10 ^ 9 * T ^ 4 - 56 / 10 ^ 9 * T ^ 5.
(** An arcsecond in radians, to 25 digits. *)
Definition arcsecond_25 : R := 4848136811095359935899141 / 10 ^ 30.
(** A finite float within [e] of a real number. *)
Definition near_angle (e : R) (x : b64) (v : R) : Prop := exists b : bf, x = B2SF b /\ is_finite b = true /\ Rabs (B2R b - v) <= e.
