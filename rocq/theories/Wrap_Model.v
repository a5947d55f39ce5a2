(** Model in binary64 of the places where an angle is wrapped into one turn with the
    operator [%]. The functions of the mathematical library (arctan2) are parameters:
    a model takes the value that they returned. *)
From Coq Require Import ZArith.
From Coq.Floats Require Import SpecFloat.
From Verif Require Import Float64 Measure_Model.
Open Scope Z_scope.

(** The operator [%] of Python floats and of NumPy arrays of floats. *)
Definition frem (x m : b64) : b64 := snd (fdivmod x m).
(** constants.py 14-15, [pi] and [tau]. *)
Definition pi64 : b64 := fl 7074237752028440 (-51).
(** functions.py 90 and 100, [phi = arctan2(y, x) % tau], from the value of [arctan2];
    the right ascension, azimuth and longitude of positionlib.py. *)
Definition longitude64 (arctan2_y_x : b64) : b64 := frem arctan2_y_x tau64.
(** almanac.py 106, [moon_phase]. *)
Definition moon_phase64 (mlon slon : b64) : b64 := frem (fsub mlon slon) tau64.
(** elementslib.py 97 and 130, [(w+v)%tau] and [(Om + w)%tau]. *)
Definition sum_of_angles64 (w v : b64) : b64 := frem (fadd w v) tau64.
(** elementslib.py 260-274 and 437-466, [-angle%tau]. *)
Definition other_side64 (angle : b64) : b64 := frem (fneg angle) tau64.
(** earthlib.py 127 and timelib.py 863, sidereal times. *)
Definition gmst64 (st theta : b64) : b64 := frem (fadd (fdiv st (of_Z 54000)) (fmul theta (of_Z 24))) (of_Z 24).
Definition gast64 (gmst eq_eq : b64) : b64 := frem (fadd gmst (fmul (fdiv eq_eq tau64) (of_Z 24))) (of_Z 24).
(** toposlib.py 97-98, [lst_hours_at], from [sprime]. *)
Definition lst64 (gast longitude_hours sprime : b64) : b64 := frem (fadd (fadd gast longitude_hours) (fdiv sprime (of_Z 54000))) (of_Z 24).
(** earthlib.py 137, [earth_rotation_angle]. *)
Definition era64 (th jd_ut1 fraction_ut1 : b64) : b64 := frem (fadd (fadd (frem th (of_Z 1)) (frem jd_ut1 (of_Z 1))) fraction_ut1) (of_Z 1).
(** toposlib.py 212, 237 and 257: the geographic longitude. *)
Definition geographic_longitude64 (arctan2_y_x : b64) : b64 := fsub (frem (fsub arctan2_y_x pi64) tau64) pi64.
(** positionlib.py 306-309, the hour angle of [hadec]; elementslib.py 243, [normpi], adds
    the same way. *)
Definition normpi64 (num : b64) : b64 := fsub (frem (fadd num pi64) tau64) pi64.
Definition hour_angle64 (lon sublongitude : b64) : b64 := normpi64 (fsub lon sublongitude).
