(** Model in binary64 of what a [Time] tells about UT1, its Julian year and the pole. One date at a time. *)
From Coq Require Import ZArith List.
From Verif Require Import Float64 Float_Time_Model.
Open Scope Z_scope.

(** timelib.py 842-844, [delta_t]; [delta_t] is [ts.delta_t_function]. *)
Definition delta_t_of64 (delta_t : b64 -> b64) (t : time64) : b64 := delta_t (tt64 t).
(** timelib.py 838-840, [ut1_fraction], of a time that was not given by its UT1. *)
Definition ut1_fraction_of64 (delta_t : b64 -> b64) (t : time64) : b64 := fsub (fraction64 t) (fdiv (delta_t_of64 delta_t t) DAY_S64).
(** timelib.py 879-881, [ut1]. *)
Definition ut1_of64 (delta_t : b64 -> b64) (t : time64) : b64 := fadd (whole64 t) (ut1_fraction_of64 delta_t t).
(** timelib.py 704-708, [_leap_seconds]. *)
Definition leap_seconds64 (ts : timescale64) (t : time64) : b64 := interp64 (fst (tai_seconds64 t)) (combine (leap_tai64 ts) (leap_off64 ts)).
(** timelib.py 846-848, [dut1]. *)
Definition dut1_64 (ts : timescale64) (delta_t : b64 -> b64) (t : time64) : b64 := fsub (fadd c_32_184 (leap_seconds64 ts t)) (delta_t_of64 delta_t t).
(** timelib.py 812-820, [J]. *)
Definition julian_year64 (t : time64) : b64 := fdiv (fadd (fsub (whole64 t) (of_Z 1721045)) (fraction64 t)) (fl 1461 (-2)).
(** timelib.py 891, an angle of [polar_motion_angles] from the dates and a column of the table. *)
Definition pole64 (dates column : list b64) (t : time64) : b64 := interp64 (tt64 t) (combine dates column).
