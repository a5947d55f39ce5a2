(** Model of the splitting, printing and reading of sexagesimal angles of
    skyfield/units.py in binary64, for angles of either sign. *)
From Coq Require Import ZArith List Bool Ascii String.
From Coq.Floats Require Import SpecFloat.
From Verif Require Import PyNum Float64 Units_Model.
Import ListNotations.
Open Scope Z_scope.

(** [numpy.sign] of a float. *)
Definition fsign (x : b64) : b64 :=
  if fltb (of_Z 0) x then of_Z 1 else if fltb x (of_Z 0) then of_Z (-1) else if feqb x (of_Z 0) then of_Z 0 else x.
(** [numpy.copysign]: the magnitude of the first, the sign bit of the second. *)
Definition sign_bit (x : b64) : bool :=
  match x with S754_zero s | S754_infinity s | S754_finite s _ _ => s | S754_nan => false end.
Definition fcopysign (x y : b64) : b64 :=
  match x with
  | S754_zero _ => S754_zero (sign_bit y)
  | S754_infinity _ => S754_infinity (sign_bit y)
  | S754_finite _ m e => S754_finite (sign_bit y) m e
  | S754_nan => S754_nan
  end.

(** units.py 460-482, [_sexagesimalize_to_float]. *)
Definition sex_float64 (value : b64) : b64 * b64 * b64 * b64 :=
  let sign := fsign value in
  let n := fabs value in
  let '(minutes, seconds) := fdivmod (fmul n (of_Z 3600)) (of_Z 60) in
  let '(units, minutes) := fdivmod minutes (of_Z 60) in
  (sign, units, minutes, seconds).
(** units.py 363-372 and 402-411, [hms] and [dms] of an angle of so many hours or degrees. *)
Definition dms64 (value : b64) : list b64 :=
  let '(sign, units, minutes, seconds) := sex_float64 value in
  [fmul sign units; fmul sign minutes; fmul sign seconds].

(** units.py 484-505, [_sexagesimalize_to_int]; the whole number obtained is a
    Python integer, split exactly. *)
Definition sex_int64 (value : b64) (places : nat) : Z * Z * Z * Z * Z :=
  let power := 10 ^ Z.of_nat places in
  let n := ftruncZ (fst (fdivmod (fadd (fmul (of_Z (power * 3600)) value) (fl 1 (-1))) (of_Z 1))) in
  let sign := Z.sgn n in
  let '(n, fraction) := (Z.abs n / power, Z.abs n mod power) in
  let '(n, seconds) := (n / 60, n mod 60) in
  let '(n, minutes) := (n / 60, n mod 60) in
  (sign, n, minutes, seconds, fraction).
(** units.py 13-15 and 507-513, [_sfmt] in each of the formats. *)
Definition sfmt64 (f : fmt) (value : b64) (places : nat) : list ascii :=
  match value with
  | S754_nan => text "nan"
  | _ =>
    let '(sgn, h, m, s, fraction) := sex_int64 value places in
    let sign := if sgn <? 0 then text "-" else [] in
    let sign := match f with DSgn => match sign with [] => text "+" | _ => sign end | _ => sign end in
    let '(u, v, w) := match f with HFmt => (text "h ", text "m ", text "s") | _ => (text "deg ", text "' ", ["034"%char]) end in
    (sign ++ padded 2 h ++ u ++ padded 2 m ++ v ++ padded 2 s ++ text "." ++ padded places fraction ++ w)%list
  end.

(** units.py 521-548, [_unsexagesimalize] of a tuple that is not empty. *)
Fixpoint unsex_loop64 (value factor : b64) (components : list b64) : b64 :=
  match components with
  | [] => value
  | component :: r =>
      let factor := fmul factor (of_Z 60) in
      unsex_loop64 (fadd value (fdiv (fcopysign component value) factor)) factor r
  end.
Definition unsex64 (t : list b64) : b64 :=
  match t with [] => S754_nan (* StopIteration *) | value :: r => unsex_loop64 value (of_Z 1) r end.
(** units.py 515-519, [wms]. *)
Definition wms64 (whole minutes seconds : b64) : b64 :=
  fadd (fadd whole (fdiv (fcopysign minutes whole) (of_Z 60))) (fdiv (fcopysign seconds whole) (of_Z 3600)).
