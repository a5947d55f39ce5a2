(** Vocabulary for calendar dates in binary64. *)
From Coq Require Import ZArith Reals.
From Flocq Require Import Core BinarySingleNaN.
From Verif Require Import Float64 Float64_Proofs Cal_Spec.
Open Scope R_scope.

(** Seconds from the midnight that begins Julian day number 0 to a date and time of day. *)
Definition seconds_of (cut : option Z) (year month day hour minute : Z) (second : R) : R :=
  86400 * IZR (civil_day_number cut (year, month, day)) + IZR (3600 * hour + 60 * minute) + second.
(** The same for a Julian date in two parts. *)
Definition seconds_of_jd (whole fraction : R) : R := 86400 * (whole + fraction + 1 / 2).
Definition time_of_day (hour minute : Z) : Prop := (0 <= hour <= 23)%Z /\ (0 <= minute <= 59)%Z.
(** The parts of a time: a Julian date from 0 to 2^40, or a midnight within a
    billion days of Julian date 0; and a fraction from half a day before to two and a
    half days after. *)
Definition usual_whole (w : bf) : Prop :=
  is_finite w = true /\ ((Bsign w = false /\ B2R w < bpow radix2 40) \/ exists n, (Z.abs n <= 10 ^ 9)%Z /\ B2R w = IZR n - 1 / 2).
Definition usual_fraction (f : bf) : Prop := is_finite f = true /\ - (1 / 2) <= B2R f <= 5 / 2 - / 1000.
