(** Model in binary64 of the conversions between a vector and spherical coordinates.
    The functions [arctan2], [hypot], [sin] and [cos] of the mathematical library are
    parameters. *)
From Coq Require Import ZArith.
From Coq.Floats Require Import SpecFloat.
From Verif Require Import Float64 Wrap_Model SepF_Model.

(** functions.py 75-91, [to_spherical]; also the first three results of functions.py
    93-110, [_to_spherical_and_rates]. *)
Definition to_spherical64 (arctan2 hypot : b64 -> b64 -> b64) (xyz : fvec) : b64 * b64 * b64 :=
  let r := length64 xyz in
  let theta := arctan2 (fz xyz) (hypot (fx xyz) (fy xyz)) in
  let phi := longitude64 (arctan2 (fy xyz) (fx xyz)) in
  (r, theta, phi).
(** functions.py 112-125, [from_spherical]. *)
Definition from_spherical64 (sin cos : b64 -> b64) (r theta phi : b64) : fvec :=
  let rxy := fmul r (cos theta) in
  F3 (fmul rxy (cos phi)) (fmul rxy (sin phi)) (fmul r (sin theta)).
