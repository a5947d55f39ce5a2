(** Real-number counterparts of NumPy functions: [arctan2], the remainder of
    floats, and a square root that is nan for negative numbers. *)
From Coq Require Import Reals.
Open Scope R_scope.

(** [numpy.arctan2(y, x)], with 0 at the origin. *)
Definition atan2 (y x : R) : R :=
  if Rlt_dec 0 x then atan (y / x)
  else if Rlt_dec x 0 then (if Rle_dec 0 y then atan (y / x) + PI else atan (y / x) - PI)
  else if Rlt_dec 0 y then PI / 2
  else if Rlt_dec y 0 then - (PI / 2)
  else 0.
(** [floor(x)] and [x % m] for a positive [m]. *)
Definition rfloor (x : R) : Z := Int_part x.
Definition rmod (x m : R) : R := x - m * IZR (rfloor (x / m)).
(** constants.py: [tau]. *)
Definition tau : R := 2 * PI.
