(** Model in binary64 of the deflection of light by a mass. *)
From Coq Require Import ZArith.
From Coq Require Import Floats.SpecFloat.
From Verif Require Import Float64 SepF_Model LightF_Model AberF_Model.
Open Scope Z_scope.

(** constants.py 4, 16 and 26; [AU_M] is an integer, converted without rounding. *)
Definition AU_M64 : b64 := of_Z 149597870700.
Definition C64 : b64 := of_Z 299792458.
Definition GS64 : b64 := fl 8100124512816589 14.
(** [where(x, x, 1.0)]: anything but a zero counts as true. *)
Definition or_one64 (x : b64) : b64 := match x with S754_zero _ => of_Z 1 | _ => x end.
(** relativity.py 125-162, [_compute_deflection]; [flag * fac1] multiplies by 1.0 or 0.0;
    the literal 0.99999999999 is the float nearest to it. *)
Definition deflection_limit64 : b64 := fl 1125899906831365 (-50).
Definition compute_deflection64 (position pe : fvec) (rmass : b64) : fvec :=
  let pq := fplus position pe in
  let pmag := length64 position in
  let qmag := length64 pq in
  let emag := length64 pe in
  let phat := fshrink position (or_one64 pmag) in
  let qhat := fshrink pq (or_one64 qmag) in
  let ehat := fshrink pe (or_one64 emag) in
  let pdotq := dots64 phat qhat in
  let qdote := dots64 qhat ehat in
  let edotp := dots64 ehat phat in
  let flag := if fleb (fabs edotp) deflection_limit64 then of_Z 1 else of_Z 0 in
  let fac1 := fdiv (fmul (of_Z 2) GS64) (fmul (fmul (fmul (fmul C64 C64) emag) AU_M64) rmass) in
  let fac2 := fadd (of_Z 1) qdote in
  let bent := fminus (fscale ehat pdotq) (fscale qhat edotp) in
  fscale (fshrink (fscale bent (fmul flag fac1)) fac2) pmag.
