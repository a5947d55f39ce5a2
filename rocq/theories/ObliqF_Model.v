(** Model in binary64 of the mean obliquity and of the sidereal time of 1982. One date at a time. *)
From Coq Require Import ZArith.
From Verif Require Import Float64 Measure_Model Wrap_Model EraF_Model.
Open Scope Z_scope.

(** nutationlib.py 71-98, [mean_obliquity], in arcseconds; the literals as floats. *)
Definition mean_obliquity64 (jd_tdb : b64) : b64 :=
  let t := fdiv (fsub jd_tdb T0_64) (of_Z 36525) in
  let c0 := fl 5798646066567971 (-36) in let c1 := fl 6591689231738687 (-47) in let c2 := fl 6755197679792438 (-65) in
  let c3 := fl 4619525884658714 (-61) in let c4 := fl 5440166188265831 (-73) in let c5 := fl (-6558422571409363) (-77) in
  fadd (fmul (fsub (fmul (fsub (fmul (fadd (fmul (fsub (fmul c5 t) c4) t) c3) t) c2) t) c1) t) c0.
(** sgp4lib.py 338, [g]; 67310.54841, 8640184.812866, 0.093104 and -6.2e-6 as floats. *)
Definition g_1982 (t : b64) : b64 :=
  let c0 := fl 4625545665548397 (-36) in let c1 := fl 4638663900331919 (-29) in let c2 := fl 6708850235307243 (-56) in let c3 := fl (-7319668048447950) (-70) in
  fadd c0 (fmul (fadd c1 (fmul (fadd c2 (fmul c3 t)) t)) t).
(** sgp4lib.py 339, [dg]. *)
Definition dg_1982 (t : b64) : b64 :=
  let c1 := fl 4638663900331919 (-29) in let c2 := fl 6708850235307243 (-56) in let c3 := fl (-7319668048447950) (-70) in
  fadd c1 (fmul (fadd (fmul c2 (of_Z 2)) (fmul (fmul c3 (of_Z 3)) t)) t).
(** sgp4lib.py 337-342, [theta_GMST1982]. *)
Definition theta_GMST1982_64 (jd_ut1 fraction_ut1 : b64) : b64 * b64 :=
  let t := fdiv (fadd (fsub jd_ut1 T0_64) fraction_ut1) (of_Z 36525) in
  let theta := fmul (frem (fadd (fadd (frem jd_ut1 (of_Z 1)) fraction_ut1) (frem (fdiv (g_1982 t) (of_Z 86400)) (of_Z 1))) (of_Z 1)) tau64 in
  let theta_dot := fmul (fadd (of_Z 1) (fdiv (dg_1982 t) (fmul (of_Z 86400) (of_Z 36525)))) tau64 in
  (theta, theta_dot).
