(** Model in binary64 of the angles of precession. One date at a time. *)
From Coq Require Import ZArith.
From Verif Require Import Float64 EraF_Model.
From Verif Require FrameF_Model.
Open Scope Z_scope.

(** precessionlib.py 24-28, [psia] in arcseconds; the literals as floats. *)
Definition psia64 (t : b64) : b64 :=
  let c0 := fl (-7185552840334452) (-76) in let c1 := fl 4901336793872775 (-65) in let c2 := fl 5259397319715515 (-62) in let c3 := fl 4859415072770194 (-52) in let c4 := fl 5539869003280844 (-40) in
  fmul (fadd (fmul (fsub (fmul (fsub (fmul (fadd (fmul c0 t) c1) t) c2) t) c3) t) c4) t.
(** precessionlib.py 30-34, [omegaa]. *)
Definition omegaa64 (t : b64) : b64 :=
  let c0 := fl 6303414781334402 (-74) in let c1 := fl 8821380590000497 (-74) in let c2 := fl 8906353210733031 (-60) in let c3 := fl 7387676005700946 (-57) in let c4 := fl 7423085107411184 (-58) in let c5 := fl 5798646066567971 (-36) in
  fadd (fmul (fsub (fmul (fadd (fmul (fsub (fmul (fsub (fmul c0 t) c1) t) c2) t) c3) t) c4) t) c5.
(** precessionlib.py 36-40, [chia]. *)
Definition chia64 (t : b64) : b64 :=
  let c0 := fl (-8462480737302404) (-77) in let c1 := fl 6296353367702986 (-65) in let c2 := fl 5589225103753441 (-62) in let c3 := fl 5362501828864609 (-51) in let c4 := fl 5942726577146598 (-49) in
  fmul (fadd (fmul (fsub (fmul (fsub (fmul (fadd (fmul c0 t) c1) t) c2) t) c3) t) c4) t.
(** precessionlib.py 14, [eps0]. *)
Definition eps0_64 : b64 := fl 5798646066567971 (-36).
(** precessionlib.py 14-45, the angles in radians from which [compute_precession] makes its
    matrix; that step is modelled in FrameF_Model. *)
Record precession_angles := PrecAngles { pa_eps0 : b64; pa_psia : b64; pa_omegaa : b64; pa_chia : b64 }.
Definition precession_angles64 (jd_tdb : b64) : precession_angles :=
  let t := fdiv (fsub jd_tdb T0_64) (of_Z 36525) in
  PrecAngles (fmul eps0_64 FrameF_Model.ASEC2RAD64) (fmul (psia64 t) FrameF_Model.ASEC2RAD64) (fmul (omegaa64 t) FrameF_Model.ASEC2RAD64) (fmul (chia64 t) FrameF_Model.ASEC2RAD64).
(** timelib.py 889, [sprime] of [polar_motion_angles], in arcseconds. *)
Definition sprime64 (tdb : b64) : b64 := fdiv (fmul (fl (-6935975771714791) (-67)) (fsub tdb T0_64)) (of_Z 36525).
