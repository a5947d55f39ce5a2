(** Vocabulary for sexagesimal angles in binary64. *)
From Coq Require Import ZArith Reals.
From Coq.Floats Require Import SpecFloat.
From Flocq Require Import Core BinarySingleNaN.
From Verif Require Import Float64 Float64_Proofs.
Open Scope R_scope.

(** The float [x] is finite, its sign bit is [s] and its magnitude [a]. *)
Definition reads (s : bool) (a : R) (x : b64) : Prop :=
  exists b : bf, x = B2SF b /\ is_finite b = true /\ Bsign b = s /\ B2R b = if s then - a else a.
(** The finite float [x] is the number [a]. *)
Definition is_number (x : b64) (a : R) : Prop := exists b : bf, x = B2SF b /\ is_finite b = true /\ B2R b = a.
(** The float nearest to [a]: half way between two, the even one. *)
Definition is_nearest (x : b64) (a : R) : Prop := is_number x (round radix2 (SpecFloat.fexp 53 1024) ZnearestE a).
(** Sign, units, minutes, seconds and fraction as so many units of the last place. *)
Definition printed (fields : Z * Z * Z * Z * Z) (places : nat) : Z :=
  let '(s, u, m, sec, f) := fields in (s * (((u * 60 + m) * 60 + sec) * 10 ^ Z.of_nat places + f))%Z.
Definition well_formed (fields : Z * Z * Z * Z * Z) (places : nat) : Prop :=
  let '(s, u, m, sec, f) := fields in
  (0 <= u /\ 0 <= m < 60 /\ 0 <= sec < 60 /\ 0 <= f < 10 ^ Z.of_nat places)%Z /\
  (s = 1 \/ s = -1 \/ (s = 0 /\ u = 0 /\ m = 0 /\ sec = 0 /\ f = 0))%Z.
(** How many units of the last place there are in a degree or hour. *)
Definition per_unit (places : nat) : Z := (10 ^ Z.of_nat places * 3600)%Z.
