(** Model in binary64 of a time given by its TDB. The function [sin] of NumPy is a parameter. *)
From Coq Require Import ZArith.
From Verif Require Import Float64 Float_Time_Model TdbF_Model.
Open Scope Z_scope.

(** timelib.py 349: the fraction of TT that [Timescale.tdb_jd] stores, from the whole
    and fractional parts of the TDB date. *)
Definition tt_of_tdb64 (sin : b64 -> b64) (whole fraction : b64) : b64 :=
  fsub fraction (fdiv (tdb_minus_tt64 sin whole fraction) DAY_S64).
