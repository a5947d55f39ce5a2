(** C190: from TDB to TT and back in binary64. *)
From Coq Require Import ZArith Reals.
From Flocq Require Import Core BinarySingleNaN.
From Verif Require Import Float64 Float64_Proofs Float_Time_Model SexaF_Proofs2 Spin_Spec Wrap_Spec EraF_Proofs TdbF_Model TdbF_Spec TdbF_Model2 TdbF_Proofs2.
Open Scope R_scope.

(** The fraction of TT of a time given by its TDB is the fraction given, less the series of
    Circular 179, to 1.2e-16 days. *)
Theorem C190_tt_of_tdb : forall (s : b64 -> b64) (w f : bf), good_sine s -> is_finite w = true -> within (-1) 1 f -> Rabs (B2R w - 2451545) <= 262000 ->
  exists v : bf, tt_of_tdb64 s (B2SF w) (B2SF f) = B2SF v /\ is_finite v = true /\ Rabs (B2R v - (B2R f - tdb_circular_179 (centuries (B2R w + B2R f)) / 86400)) <= 12 / 10 ^ 17.
Proof. exact tt_of_tdb_close. Qed.
Print Assumptions C190_tt_of_tdb.
(** The fraction of TDB computed from that TT is the one given, to 2.5e-16 days: 22
    picoseconds. *)
Theorem C190_round_trip : forall (s : b64 -> b64) (t : time64) (w f : bf), good_sine s -> is_finite w = true -> within (- (9 / 10)) (9 / 10) f -> Rabs (B2R w - 2451545) <= 262000 ->
  whole64 t = B2SF w -> fraction64 t = tt_of_tdb64 s (B2SF w) (B2SF f) ->
  exists v : bf, tdb_fraction64 s t = B2SF v /\ is_finite v = true /\ Rabs (B2R v - B2R f) <= 25 / 10 ^ 17.
Proof. exact tdb_round_trip. Qed.
Print Assumptions C190_round_trip.
(** The hypotheses hold at JD 2460000.25 TDB. *)
Example C190_ex : exists (s : b64 -> b64) (t : time64) (w f : bf), good_sine s /\ is_finite w = true /\ within (- (9 / 10)) (9 / 10) f /\ B2R w = 2460000 /\ B2R f = 1 / 4 /\ Rabs (B2R w - 2451545) <= 262000 /\ whole64 t = B2SF w /\ fraction64 t = tt_of_tdb64 s (B2SF w) (B2SF f).
Proof. exact round_trip_example. Qed.
Print Assumptions C190_ex.
