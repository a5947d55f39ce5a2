(** Model in binary64 of lengths of vectors and of the angle between two vectors. The
    function [arctan2] of the mathematical library is a parameter. *)
From Coq Require Import ZArith.
From Coq.Floats Require Import SpecFloat.
From Verif Require Import Float64.
Open Scope Z_scope.

(** The square root of NumPy, correctly rounded. *)
Definition fsqrt : b64 -> b64 := SFsqrt 53 1024.
(** A vector of three floats. *)
Record fvec := F3 { fx : b64; fy : b64; fz : b64 }.
(** functions.py 50-57, [length_of]; [sum(axis=0)] adds from left to right. *)
Definition length64 (p : fvec) : b64 :=
  fsqrt (fadd (fadd (fmul (fx p) (fx p)) (fmul (fy p) (fy p))) (fmul (fz p) (fz p))).
(** A vector times a float, and the sum and difference of two vectors. *)
Definition fscale (p : fvec) (k : b64) : fvec := F3 (fmul (fx p) k) (fmul (fy p) k) (fmul (fz p) k).
Definition fplus (a b : fvec) : fvec := F3 (fadd (fx a) (fx b)) (fadd (fy a) (fy b)) (fadd (fz a) (fz b)).
Definition fminus (a b : fvec) : fvec := F3 (fsub (fx a) (fx b)) (fsub (fy a) (fy b)) (fsub (fz a) (fz b)).
(** functions.py 59-73, [angle_between]; positionlib.py 338-375, [separation_from], for
    the radians of its result. *)
Definition angle_between64 (arctan2 : b64 -> b64 -> b64) (u v : fvec) : b64 :=
  let a := fscale u (length64 v) in
  let b := fscale v (length64 u) in
  fmul (of_Z 2) (arctan2 (length64 (fminus a b)) (length64 (fplus a b))).
