(** Binary64 arithmetic by computation, on the specification floats of the
    standard library (Coq.Floats.SpecFloat), for witnesses that depend on rounding.
    No axioms and no primitive floats are involved. *)
From Coq Require Import ZArith Bool.
From Coq.Floats Require Import SpecFloat.
Open Scope Z_scope.

Definition b64 := spec_float.
Definition fadd : b64 -> b64 -> b64 := SFadd 53 1024.
Definition fsub : b64 -> b64 -> b64 := SFsub 53 1024.
Definition fmul : b64 -> b64 -> b64 := SFmul 53 1024.
Definition fdiv : b64 -> b64 -> b64 := SFdiv 53 1024.
Definition fneg : b64 -> b64 := SFopp.
Definition fabs : b64 -> b64 := SFabs.
(** The float nearest to [m * 2^e]; exact when [m] has at most 53 bits. *)
Definition fl (m e : Z) : b64 := binary_normalize 53 1024 m e false.
Definition of_Z (m : Z) : b64 := fl m 0.
Definition feqb (a b : b64) : bool := SFeqb a b.
Definition fltb (a b : b64) : bool := SFltb a b.
Definition fleb (a b : b64) : bool := SFleb a b.

(** [numpy.floor] and Python's [int] (truncation) of a finite float. *)
Definition ffloorZ (a : b64) : Z :=
  match a with
  | S754_finite s m e =>
      let z := if s then Zneg m else Zpos m in
      if 0 <=? e then z * 2 ^ e else z / 2 ^ (- e)
  | _ => 0
  end.
Definition ftruncZ (a : b64) : Z :=
  match a with
  | S754_finite s m e =>
      let z := if s then Zneg m else Zpos m in
      if 0 <=? e then z * 2 ^ e else Z.quot z (2 ^ (- e))
  | _ => 0
  end.
Definition ffloor (a : b64) : b64 := match a with S754_finite _ _ _ => of_Z (ffloorZ a) | _ => a end.
(** [fmod]: exact, with the sign of the dividend. *)
Definition ffmod (a b : b64) : b64 :=
  match a, b with
  | S754_finite s m e, S754_finite _ m' e' =>
      let k := Z.min e e' in
      let r := Z.rem (Zpos m * 2 ^ (e - k)) (Zpos m' * 2 ^ (e' - k)) in
      if r =? 0 then S754_zero s else fl (if s then - r else r) k
  | S754_zero s, S754_finite _ _ _ => a
  | _, _ => S754_nan
  end.
Definition is_zero (a : b64) : bool := match a with S754_zero _ => true | _ => false end.
Definition is_neg (a : b64) : bool := fltb a (of_Z 0).
(** [npy_divmod] of NumPy (numpy/core/src/npymath), for finite arguments and a
    non-zero divisor; Python's float [divmod] computes the same. *)
Definition fdivmod (a b : b64) : b64 * b64 :=
  let mod0 := ffmod a b in
  let div0 := fdiv (fsub a mod0) b in
  let '(mod_, div) :=
    if is_zero mod0 then (if is_neg b then fneg (fabs mod0) else fabs mod0, div0)
    else if xorb (is_neg b) (is_neg mod0) then (fadd mod0 b, fsub div0 (of_Z 1)) else (mod0, div0) in
  let floordiv :=
    if is_zero div then div
    else let f := ffloor div in if fltb (fl 1 (-1)) (fsub div f) then fadd f (of_Z 1) else f in
  (floordiv, mod_).
