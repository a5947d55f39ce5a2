(** C183: UT1, Julian years and the pole, in binary64. *)
From Coq Require Import ZArith Reals List Bool Lia Lra.
From Flocq Require Import Core BinarySingleNaN.
From Verif Require Import Float64 Float64_Proofs SexaF_Proofs2 Float_Time_Model Curve_Model SplF_Spec Ut1F_Model DeltaF_Model DeltaF_Spec DeltaF_Proofs DeltaF_Proofs2 ReadF_Model ReadF_Spec ReadF_Proofs.
Import ListNotations.
Open Scope R_scope.

(** The fraction of a time's UT1 is its TT fraction less Delta T, to 20 picoseconds beyond
    the error of the Delta T function. *)
Theorem C183_ut1_fraction : forall dt DT err lo hi t w f, tracks dt DT err lo hi -> parts t w f -> lo + 1 <= B2R w + B2R f <= hi - 1 ->
  exists u : bf, ut1_fraction_of64 dt t = B2SF u /\ is_finite u = true /\ Rabs (86400 * B2R u - (86400 * B2R f - DT (B2R w + B2R f))) <= err + 2 / 100000000000 /\ Rabs (B2R u - B2R f) <= / 8.
Proof. exact fraction_value. Qed.
Print Assumptions C183_ut1_fraction.
(** As a single float, UT1 is good to 20.2 microseconds. *)
Theorem C183_ut1 : forall dt DT err lo hi t w f, tracks dt DT err lo hi -> parts t w f -> lo + 1 <= B2R w + B2R f <= hi - 1 ->
  exists j : bf, ut1_of64 dt t = B2SF j /\ is_finite j = true /\ Rabs (86400 * B2R j - (86400 * (B2R w + B2R f) - DT (B2R w + B2R f))) <= err + 202 / 10000000 /\ Rabs (B2R j - (B2R w + B2R f)) <= / 4.
Proof. exact ut1_value. Qed.
Print Assumptions C183_ut1.
(** The time made from that UT1 is the same time to 20.3 microseconds. *)
Theorem C183_round_trip : forall dt DT err lo hi t w f, tracks dt DT err lo hi -> parts t w f -> lo + 2 <= B2R w + B2R f <= hi - 2 ->
  exists j f' : bf, ut1_whole (ut1_jd64 dt (ut1_of64 dt t)) = B2SF j /\ ut1_tt_fraction (ut1_jd64 dt (ut1_of64 dt t)) = B2SF f' /\ is_finite j = true /\ is_finite f' = true /\
    Rabs (86400 * (B2R j + B2R f') - 86400 * (B2R w + B2R f)) <= 21 / 10 * err + 203 / 10000000.
Proof. exact ut1_round_trip. Qed.
Print Assumptions C183_round_trip.
(** DUT1 is 32.184 seconds and the leap seconds less Delta T, to 10 picoseconds. *)
Theorem C183_dut1 : forall ts dt DT err lo hi t w f (n : Z), tracks dt DT err lo hi -> parts t w f -> lo + 1 <= B2R w + B2R f <= hi - 1 -> leap_seconds64 ts t = of_Z n -> (-900 <= n <= 900)%Z ->
  exists d : bf, dut1_64 ts dt t = B2SF d /\ is_finite d = true /\ Rabs (B2R d - (32184 / 1000 + IZR n - DT (B2R w + B2R f))) <= err + / 100000000000.
Proof. exact dut1_value. Qed.
Print Assumptions C183_dut1.
(** The Julian year is 2000 at noon TT on 2000 January 1 and grows by one in 365.25 days,
    to 2^-37 of a year, a quarter of a millisecond. *)
Theorem C183_julian_year : forall t w f, parts t w f -> Rabs (B2R w) <= 8388608 -> exists y : bf, julian_year64 t = B2SF y /\ is_finite y = true /\ Rabs (B2R y - (2000 + (B2R w + B2R f - 2451545) / (36525 / 100))) <= bpow radix2 (-37).
Proof. exact julian_year_value. Qed.
Print Assumptions C183_julian_year.
(** An angle of the pole is the table's at the time's TT as a float, the first or last
    value outside the table, to within 13 parts in 2^53 of the largest. *)
Theorem C183_pole : forall Y (p : node) (rest : list node) t w f, daily_ok Y p rest -> parts t w f -> Rabs (B2R w + B2R f) < 4194304 ->
  exists v x : bf, pole64 (floats (dates (p :: rest))) (floats (values (p :: rest))) t = B2SF v /\ is_finite v = true /\ tt64 t = B2SF x /\ Rabs (B2R x - (B2R w + B2R f)) <= / 4294967296 /\
    Rabs (B2R v - interp (B2R x) (combine (reals (dates (p :: rest))) (reals (values (p :: rest))))) <= 13 * (eps * Y).
Proof. exact pole_value. Qed.
Print Assumptions C183_pole.
(** All this holds with the daily table, with an error of 20 picoseconds. *)
Theorem C183_daily_table : forall curve (p : node) (rest : list node), daily_ok 10000 p rest -> gentle (/ 50) (p :: rest) -> - 4194303 <= B2R (fst p) -> B2R (fst (last rest p)) <= 4194303 ->
  tracks (delta_t64 (map row64_of curve) (floats (dates (p :: rest))) (floats (values (p :: rest)))) (delta_t (map real_row curve) (reals (dates (p :: rest))) (reals (values (p :: rest)))) (/ 50000000000) (B2R (fst p)) (B2R (fst (last rest p))).
Proof. exact daily_tracks. Qed.
Print Assumptions C183_daily_table.
(** A steady Delta T and a date in 2000, with one leap second known. *)
Example C183_ex : tracks (fun _ => of_Z 64) (fun _ => 64) 0 2000000 3000000 /\ exists (w f : bf) (t : time64), t = tt_jd64 (of_Z 2451545) (fl 1 (-1)) /\ parts t w f /\ 2000002 <= B2R w + B2R f <= 2999998 /\ Rabs (B2R w) <= 8388608 /\
  leap_seconds64 (build_tables64 [of_Z 2441317] [of_Z 10] None) t = of_Z 10.
Proof. exact steady_tracks. Qed.
