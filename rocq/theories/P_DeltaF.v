(** C182: Delta T in binary64. *)
From Coq Require Import ZArith Reals List Bool Lia Lra.
From Flocq Require Import Core BinarySingleNaN.
From Verif Require Import Float64 Float64_Proofs SexaF_Proofs2 Curve_Model Curve_Spec SplF_Model SplF_Spec Ut1F_Model DeltaF_Model DeltaF_Spec DeltaF_Proofs DeltaF_Proofs2.
Import ListNotations.
Open Scope R_scope.

(** From the first to the last date of the daily table, Delta T is the value between its
    neighbours in the table, to within 13 parts in 2^53 of the largest value. *)
Theorem C182_table : forall curve Y (p : node) (rest : list node) (x : bf), fair x -> daily_ok Y p rest -> B2R (fst p) <= B2R x <= B2R (fst (last rest p)) ->
  exists v : bf, delta_t64 (map row64_of curve) (floats (dates (p :: rest))) (floats (values (p :: rest))) (B2SF x) = B2SF v /\ is_finite v = true /\
    Rabs (B2R v - delta_t (map real_row curve) (reals (dates (p :: rest))) (reals (values (p :: rest))) (B2R x)) <= 13 * (eps * Y).
Proof. exact table_value. Qed.
Print Assumptions C182_table.
(** Before and after, it is the long-term curve at a year that is off by at most 2^-37 of
    a year, a quarter of a millisecond, with the rounding of C181. *)
Theorem C182_curve : forall n A J ratio a more (p : node) (rest : list node) (x : bf), table_ok n A J ratio a more -> is_finite x = true -> Rabs (B2R x) <= 8388608 -> is_finite (fst p) = true -> is_finite (fst (last rest p)) = true ->
  B2R x < B2R (fst p) \/ B2R (fst (last rest p)) < B2R x -> B2R (blo a) + bpow radix2 (-37) <= year_of (B2R x) <= B2R (bhi (last more a)) - bpow radix2 (-37) ->
  exists v year : bf, delta_t64 (map row64_of (a :: more)) (floats (dates (p :: rest))) (floats (values (p :: rest))) (B2SF x) = B2SF v /\ is_finite v = true /\ Rabs (B2R year - year_of (B2R x)) <= bpow radix2 (-37) /\
    Rabs (B2R v - splines (map real_row (a :: more)) (B2R year)) <= J + INR n * INR n * (4 + (INR (length more) + 7) * (1 + ratio)) * (eps * A).
Proof. exact outside_value. Qed.
Print Assumptions C182_curve.
(** A time given by its UT1 has a TT that is ahead by the table's Delta T at that TT, to
    1.02 nanoseconds, a day or more inside a table that drifts by a fiftieth of a second
    a day or less. *)
Theorem C182_ut1 : forall curve (p : node) (rest : list node) (jd : bf), daily_ok 10000 p rest -> gentle (/ 50) (p :: rest) -> - 4194303 <= B2R (fst p) -> B2R (fst (last rest p)) <= 4194303 -> is_finite jd = true -> B2R (fst p) + 1 <= B2R jd <= B2R (fst (last rest p)) - 1 ->
  exists f z : bf, ut1_jd64 (delta_t64 (map row64_of curve) (floats (dates (p :: rest))) (floats (values (p :: rest)))) (B2SF jd) = UT (B2SF jd) (B2SF f) (B2SF z) /\ is_finite f = true /\ B2R z = 0 /\
    Rabs (86400 * B2R f - delta_t (map real_row curve) (reals (dates (p :: rest))) (reals (values (p :: rest))) (B2R jd + B2R f)) <= 102 / 100000000000.
Proof. exact ut1_daily. Qed.
Print Assumptions C182_ut1.
(** A table of two days, a date inside and a date after. *)
Example C182_ex : exists (p q : node) (jd x : bf), floats (dates [p; q]) = [of_Z 2451545; of_Z 2451645] /\ floats (values [p; q]) = [of_Z 64; of_Z 65] /\ B2SF jd = fl 4903189 (-1) /\ B2SF x = of_Z 2451700 /\
  daily_ok 10000 p [q] /\ gentle (/ 50) [p; q] /\ - 4194303 <= B2R (fst p) /\ B2R (fst (last [q] p)) <= 4194303 /\ is_finite jd = true /\ B2R (fst p) + 1 <= B2R jd <= B2R (fst (last [q] p)) - 1 /\ fair jd /\
  is_finite x = true /\ Rabs (B2R x) <= 8388608 /\ (B2R x < B2R (fst p) \/ B2R (fst (last [q] p)) < B2R x).
Proof. exact little_table. Qed.
