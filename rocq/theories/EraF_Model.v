(** Model in binary64 of the rotation angle of the Earth and of sidereal time. One date at a time. *)
From Coq Require Import ZArith.
From Verif Require Import Float64 Wrap_Model.
Open Scope Z_scope.

(** earthlib.py 136, the floats nearest to 0.7790572732640 and 0.00273781191135448. *)
Definition era_at_epoch : b64 := fl 7017124091144050 (-53).
Definition era_gain : b64 := fl 6312964456338709 (-61).
(** constants.py 29, [T0 = 2451545.0]. *)
Definition T0_64 : b64 := of_Z 2451545.
(** earthlib.py 129-137, [earth_rotation_angle]. *)
Definition earth_rotation_angle64 (jd_ut1 fraction_ut1 : b64) : b64 :=
  let th := fadd era_at_epoch (fmul era_gain (fadd (fsub jd_ut1 T0_64) fraction_ut1)) in
  era64 th jd_ut1 fraction_ut1.
(** earthlib.py 119-125, [t] and [st] of [sidereal_time]; the literals as floats. *)
Definition centuries64 (whole tdb_fraction : b64) : b64 := fdiv (fadd (fsub whole T0_64) tdb_fraction) (of_Z 36525).
Definition precession_in_ra64 (t : b64) : b64 :=
  let c0 := fl 8362139672913461 (-59) in let c1 := fl 5071119738256054 (-40) in let c2 := fl 6267126825575601 (-52) in
  let c3 := fl 8311365009850576 (-74) in let c4 := fl 8841450647552693 (-68) in let c5 := fl (-5561058770227294) (-77) in
  fadd c0 (fmul (fadd (fmul (fadd (fmul (fsub (fmul (fsub (fmul c5 t) c4) t) c3) t) c2) t) c1) t).
(** earthlib.py 110-127, [sidereal_time], from [whole], [ut1_fraction] and [tdb_fraction]. *)
Definition sidereal_time64 (whole ut1_fraction tdb_fraction : b64) : b64 :=
  gmst64 (precession_in_ra64 (centuries64 whole tdb_fraction)) (earth_rotation_angle64 whole ut1_fraction).
