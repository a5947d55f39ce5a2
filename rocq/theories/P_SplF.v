(** C181: splines in binary64. *)
From Coq Require Import ZArith Reals List Bool Lia Lra.
From Flocq Require Import Core BinarySingleNaN.
From Verif Require Import Float64 Float64_Proofs SexaF_Proofs2 Curve_Model Curve_Spec SplF_Model SplF_Spec SplF_Proofs SplF_Proofs2.
Import ListNotations.
Open Scope R_scope.

(** Anywhere on the curve, the value is the real curve's to within rounding and the step
    between rows; [eps] is 2^-53. *)
Theorem C181_curve : forall n A J ratio a rest (x : bf), table_ok n A J ratio a rest -> fair x -> B2R (blo a) <= B2R x <= B2R (bhi (last rest a)) ->
  exists v : bf, splines64 (map row64_of (a :: rest)) (B2SF x) = B2SF v /\ is_finite v = true /\
    Rabs (B2R v - splines (map real_row (a :: rest)) (B2R x)) <= J + INR n * INR n * (4 + (INR (length rest) + 7) * (1 + ratio)) * (eps * A).
Proof. exact curve_close. Qed.
Print Assumptions C181_curve.
(** Away from the upper end of the row it is rounding alone. *)
Theorem C181_inside : forall n A J ratio a rest (x : bf), table_ok n A J ratio a rest -> fair x -> B2R (blo a) <= B2R x <= B2R (bhi (last rest a)) ->
  (forall c, In c (a :: rest) -> B2R (blo c) <= B2R x < B2R (bhi c) -> (INR (length rest) + 7) * eps * (B2R (bhi c) - B2R (blo c)) < B2R (bhi c) - B2R x) ->
  exists v : bf, splines64 (map row64_of (a :: rest)) (B2SF x) = B2SF v /\ is_finite v = true /\ Rabs (B2R v - splines (map real_row (a :: rest)) (B2R x)) <= 4 * (INR n * INR n) * (eps * A).
Proof. exact curve_inside. Qed.
Print Assumptions C181_inside.
(** A line that bends, at a date in its second row. *)
Example C181_ex : exists (a b : brow) (x : bf), map row64_of [a; b] = [Row64 (of_Z 0) (of_Z 1) [of_Z 1; of_Z 0]; Row64 (of_Z 1) (of_Z 3) [of_Z (-2); of_Z 1]] /\ B2SF x = of_Z 2 /\
  table_ok 2 2 0 1 a [b] /\ fair x /\ B2R (blo a) <= B2R x <= B2R (bhi (last [b] a)) /\
  (forall c, In c [a; b] -> B2R (blo c) <= B2R x < B2R (bhi c) -> (INR (length [b]) + 7) * eps * (B2R (bhi c) - B2R (blo c)) < B2R (bhi c) - B2R x).
Proof. exact bent_line. Qed.
(** The step cannot be left out of the bound: a date before the start of a row can be
    given that row, here with the value 1 in place of 0. *)
Theorem C181_next_row_too_early : exists (a b : brow) (x : bf), B2SF x = fl (-1) (-100) /\ table_ok 1 1 1 1 a [b] /\ fair x /\ B2R (blo a) <= B2R x <= B2R (bhi (last [b] a)) /\ B2R x < B2R (blo b) /\
  splines64 (map row64_of [a; b]) (B2SF x) = of_Z 1 /\ splines (map real_row [a; b]) (B2R x) = 0.
Proof. exact step_taken. Qed.
Print Assumptions C181_next_row_too_early.
