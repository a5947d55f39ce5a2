(** C180: times given by a UT1 date, in binary64. *)
From Coq Require Import ZArith Reals List Bool Lia Lra.
From Coq.Floats Require Import SpecFloat.
From Flocq Require Import Core BinarySingleNaN.
From Verif Require Import Float64 Float64_Proofs Float_Time_Model Cal_Model Cal_Spec Time_Spec CalF_Model CalF_Spec Ut1F_Model Ut1F_Proofs.
Open Scope Z_scope.

(** The full statement would have a UT1 date read back as closely as a TT or TAI date
    does (C162: 2^-33 of a second). It comes back within 20.2 microseconds. *)
Theorem C180_read_back_partial : forall delta_t cut y m d h mi (s : bf), good_cutoff cut -> exists_under cut (y, m, d) -> 1 <= civil_day_number cut (y, m, d) <= 4194302 -> time_of_day h mi -> is_finite s = true -> (0 <= B2R s < 60)%R ->
  exists y' m' d' h' mi' (q : bf), ut1_calendar64 (ut1_date64 delta_t cut y m d (of_Z h) (of_Z mi) (B2SF s)) cut = (y', m', d', h', mi', B2SF q) /\ exists_under cut (y', m', d') /\ time_of_day h' mi' /\
    is_finite q = true /\ (0 <= B2R q < 60)%R /\ (Rabs (seconds_of cut y' m' d' h' mi' (B2R q) - seconds_of cut y m d h mi (B2R s)) <= 202 / 10000000)%R.
Proof. exact ut1_read_back. Qed.
Print Assumptions C180_read_back_partial.
(** Whole seconds are printed as they were given. *)
Theorem C180_whole_seconds : forall delta_t cut y m d h mi s, good_cutoff cut -> exists_under cut (y, m, d) -> 1 <= civil_day_number cut (y, m, d) <= 4194302 -> time_of_day h mi -> 0 <= s <= 59 ->
  exists wd yd, ut1_strftime64 half_second (ut1_date64 delta_t cut y m d (of_Z h) (of_Z mi) (of_Z s)) cut = (y, m, d, h, mi, s, wd, yd).
Proof. exact ut1_seconds. Qed.
Print Assumptions C180_whole_seconds.
(** The time's TT is ahead of its UT1 by Delta T at that TT, to a nanosecond beyond the
    error of the Delta T function, as the comment at timelib.py 380 has it, where Delta T
    is below 10000 seconds and drifts by at most a fiftieth of a second a day. *)
Theorem C180_delta_t : forall (delta_t : b64 -> b64) (DT : R -> R) (err lo hi : R) (jd : bf), is_finite jd = true -> (0 <= err <= 1)%R -> (- 4194303 <= lo)%R -> (hi <= 4194303)%R ->
  (forall x, lo <= x <= hi -> Rabs (DT x) <= 10000)%R -> (forall x x', lo <= x <= hi -> lo <= x' <= hi -> Rabs (DT x - DT x') <= / 50 * Rabs (x - x'))%R ->
  (forall x : bf, is_finite x = true -> (lo <= B2R x <= hi)%R -> exists v : bf, delta_t (B2SF x) = B2SF v /\ is_finite v = true /\ (Rabs (B2R v - DT (B2R x)) <= err)%R) ->
  (lo + 1 <= B2R jd <= hi - 1)%R ->
  exists f z : bf, ut1_jd64 delta_t (B2SF jd) = UT (B2SF jd) (B2SF f) (B2SF z) /\ is_finite f = true /\ is_finite z = true /\ B2R z = 0%R /\
    (Rabs (86400 * B2R f - DT (B2R jd + B2R f)) <= 1000001 / 1000000 * err + / 1000000000)%R.
Proof. exact ut1_delta_t. Qed.
Print Assumptions C180_delta_t.
(** 2026-11-15 17:04:59, with the reform of 1582; and a steady Delta T. *)
Example C180_ex : good_cutoff (Some 2299161) /\ exists_under (Some 2299161) (2026, 11, 15) /\ 1 <= civil_day_number (Some 2299161) (2026, 11, 15) <= 4194302 /\ time_of_day 17 4 /\
  (let t := ut1_date64 (fun _ => of_Z 64) (Some 2299161) 2026 11 15 (of_Z 17) (of_Z 4) (of_Z 59) in ut1_strftime64 half_second t (Some 2299161) = (2026, 11, 15, 17, 4, 59, 6, 319)).
Proof. vm_compute. repeat split; try discriminate; right; split; congruence. Qed.
Example C180_ex_delta_t : (forall x, 2000000 <= x <= 3000000 -> Rabs ((fun _ => 64) x) <= 10000)%R /\ (forall x x', 2000000 <= x <= 3000000 -> 2000000 <= x' <= 3000000 -> Rabs ((fun _ => 64) x - (fun _ => 64) x') <= / 50 * Rabs (x - x'))%R /\
  (forall x : bf, is_finite x = true -> (2000000 <= B2R x <= 3000000)%R -> exists v : bf, (fun _ => of_Z 64) (B2SF x) = B2SF v /\ is_finite v = true /\ (Rabs (B2R v - (fun _ => 64) (B2R x)) <= 0)%R) /\
  exists j : bf, fl 4903089 (-1) = B2SF j /\ is_finite j = true /\ (2000001 <= B2R j <= 2999999)%R.
Proof. exact steady_delta_t. Qed.
(** Findings. The second after midnight reads back 5.4 microseconds early. *)
Theorem C180_exact_refuted : ~ (forall delta_t cut y m d h mi (s : bf), good_cutoff cut -> exists_under cut (y, m, d) -> 1 <= civil_day_number cut (y, m, d) <= 4194302 -> time_of_day h mi -> is_finite s = true -> (0 <= B2R s < 60)%R ->
  exists y' m' d' h' mi' (q : bf), ut1_calendar64 (ut1_date64 delta_t cut y m d (of_Z h) (of_Z mi) (B2SF s)) cut = (y', m', d', h', mi', B2SF q) /\ exists_under cut (y', m', d') /\ time_of_day h' mi' /\
    is_finite q = true /\ (0 <= B2R q < 60)%R /\ (Rabs (seconds_of cut y' m' d' h' mi' (B2R q) - seconds_of cut y m d h mi (B2R s)) <= 5 / 1000000)%R).
Proof. exact ut1_exact_fails. Qed.
Print Assumptions C180_exact_refuted.
(** With [%f] it is printed as 00:00:00.999994. *)
Theorem C180_microseconds_refuted : ~ (forall delta_t cut y m d h mi s, good_cutoff cut -> exists_under cut (y, m, d) -> 1 <= civil_day_number cut (y, m, d) <= 4194302 -> time_of_day h mi -> 0 <= s <= 59 ->
  ut1_micro64 (ut1_date64 delta_t cut y m d (of_Z h) (of_Z mi) (of_Z s)) cut = (y, m, d, h, mi, s, 0)).
Proof. exact ut1_micro_fails. Qed.
Print Assumptions C180_microseconds_refuted.
