(** Vocabulary for the fundamental arguments of nutation. *)
From Coq Require Import ZArith Reals List.
From Flocq Require Import Core BinarySingleNaN.
From Verif Require Import Float64 Float64_Proofs PrecF_Spec.
Import ListNotations.
Open Scope R_scope.

(** Simon and others, 1994: arcseconds, from centuries of TDB. *)
Definition moon_anomaly (T : R) : R := (485868249036 / 10 ^ 6) + (17179159232178 / 10 ^ 4) * T + (318792 / 10 ^ 4) * T ^ 2 + (51635 / 10 ^ 6) * T ^ 3 + (- (2447 / 10 ^ 7)) * T ^ 4.
Definition sun_anomaly (T : R) : R := (128710479305 / 10 ^ 5) + (1295965810481 / 10 ^ 4) * T + (- (5532 / 10 ^ 4)) * T ^ 2 + (136 / 10 ^ 6) * T ^ 3 + (- (1149 / 10 ^ 8)) * T ^ 4.
Definition latitude_argument (T : R) : R := (335779526232 / 10 ^ 6) + (17395272628478 / 10 ^ 4) * T + (- (127512 / 10 ^ 4)) * T ^ 2 + (- (1037 / 10 ^ 6)) * T ^ 3 + (417 / 10 ^ 8) * T ^ 4.
Definition elongation (T : R) : R := (107226070369 / 10 ^ 5) + (1602961601209 / 10 ^ 3) * T + (- (63706 / 10 ^ 4)) * T ^ 2 + (6593 / 10 ^ 6) * T ^ 3 + (- (3169 / 10 ^ 8)) * T ^ 4.
Definition node (T : R) : R := (450160398036 / 10 ^ 6) + (- (69628905431 / 10 ^ 4)) * T + (74722 / 10 ^ 4) * T ^ 2 + (7702 / 10 ^ 6) * T ^ 3 + (- (5939 / 10 ^ 8)) * T ^ 4.
(** The order in which the code returns them. *)
Definition mean_arguments : list (R -> R) := [moon_anomaly; sun_anomaly; latitude_argument; elongation; node].
(** A finite float [x], an angle of at most a turn either way, that is [v] arcseconds less
    whole turns to within [e] radians. *)
Definition angle_up_to_turns (e : R) (v : R) (x : b64) : Prop :=
  exists (b : bf) (n : Z), x = B2SF b /\ is_finite b = true /\ Rabs (B2R b) <= 62831854 / 10 ^ 7 /\ Rabs (B2R b - (v - 1296000 * IZR n) * arcsecond_25) <= e.
