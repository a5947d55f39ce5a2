(** C189: TDB in binary64. *)
From Coq Require Import ZArith Reals.
From Flocq Require Import Core BinarySingleNaN.
From Verif Require Import Float64 Float64_Proofs Float_Time_Model SexaF_Proofs2 Spin_Spec Wrap_Spec EraF_Proofs ObliqF_Spec TdbF_Model TdbF_Spec TdbF_Proofs.
Open Scope R_scope.

(** With a sine good to 2^-52, TDB less TT is the series of Circular 179 to 15 femtoseconds
    and never more than 1.8 milliseconds. *)
Theorem C189_tdb_minus_tt : forall (s : b64 -> b64) (w f : bf), good_sine s -> is_finite w = true -> within (-1) 1 f -> Rabs (B2R w - 2451545) <= 262000 ->
  exists v : bf, tdb_minus_tt64 s (B2SF w) (B2SF f) = B2SF v /\ is_finite v = true /\ Rabs (B2R v - tdb_circular_179 (centuries (B2R w + B2R f))) <= 15 / 10 ^ 15 /\ Rabs (tdb_circular_179 (centuries (B2R w + B2R f))) <= 18 / 10 ^ 4.
Proof. exact tdb_terms_close. Qed.
Print Assumptions C189_tdb_minus_tt.
(** The fraction of TDB is the fraction of TT with that series added, in days, to 1.2e-16:
    about ten picoseconds. *)
Theorem C189_tdb_fraction : forall (s : b64 -> b64) (t : time64) (w f : bf), good_sine s -> whole64 t = B2SF w -> fraction64 t = B2SF f -> is_finite w = true -> within (-1) 1 f -> Rabs (B2R w - 2451545) <= 262000 ->
  exists v : bf, tdb_fraction64 s t = B2SF v /\ is_finite v = true /\ Rabs (B2R v - (B2R f + tdb_circular_179 (centuries (B2R w + B2R f)) / 86400)) <= 12 / 10 ^ 17.
Proof. exact tdb_fraction_of_time. Qed.
Print Assumptions C189_tdb_fraction.
(** The hypotheses hold at JD 2460000.25, with the sine rounded to nearest. *)
Example C189_ex : exists (s : b64 -> b64) (w f : bf), good_sine s /\ is_finite w = true /\ within (-1) 1 f /\ B2R w = 2460000 /\ B2R f = 1 / 4 /\ Rabs (B2R w - 2451545) <= 262000.
Proof. exact tdb_example. Qed.
Print Assumptions C189_ex.
