(** Model in binary64 of apparent sidereal time. The function [cos] of NumPy is a parameter. *)
From Coq Require Import ZArith.
From Verif Require Import Float64 Wrap_Model EraF_Model.
Open Scope Z_scope.

(** timelib.py 862, [eq_eq] of [Time.gast], from the nutation in longitude, the mean
    obliquity and the complementary terms. *)
Definition equinoxes64 (cos : b64 -> b64) (d_psi obliquity c_terms : b64) : b64 := fadd (fmul d_psi (cos obliquity)) c_terms.
(** timelib.py 855-863, [Time.gast], with [gmst] from 850-853. *)
Definition apparent_sidereal_time64 (cos : b64 -> b64) (whole ut1_fraction tdb_fraction d_psi obliquity c_terms : b64) : b64 :=
  gast64 (sidereal_time64 whole ut1_fraction tdb_fraction) (equinoxes64 cos d_psi obliquity c_terms).
