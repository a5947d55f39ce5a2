(** Model in binary64 of times given by a UT1 date. *)
From Coq Require Import ZArith.
From Verif Require Import Float64 Cal_Model Float_Time_Model CalF_Model.
Open Scope Z_scope.

(** What a [Time] built from UT1 holds: [whole], [tt_fraction] and [ut1_fraction]. *)
Record ut1_time64 := UT { ut1_whole : b64; ut1_tt_fraction : b64; ut1_fraction64 : b64 }.
(** timelib.py 367-388, [ut1_jd], for one date; [delta_t] is [delta_t_function]. *)
Definition ut1_jd64 (delta_t : b64 -> b64) (jd : b64) : ut1_time64 :=
  let delta_t_approx := delta_t jd in
  let tt_approx := fadd jd (fdiv delta_t_approx DAY_S64) in
  let delta_t_approx := delta_t tt_approx in
  UT jd (fdiv delta_t_approx DAY_S64) (fmul (of_Z 0) jd).
(** timelib.py 353-365, [ut1(year, ...)]: the parts are added before [ut1_jd] sees them. *)
Definition ut1_date64 (delta_t : b64 -> b64) (cut : option Z) (year month day : Z) (hour minute second : b64) : ut1_time64 :=
  let '(whole, fraction) := jd_of_date64 cut year month day hour minute second in
  ut1_jd64 delta_t (fadd whole fraction).
(** timelib.py 724-726 and 742-744: [ut1_calendar] and [ut1_strftime]. *)
Definition ut1_calendar64 (t : ut1_time64) (cut : option Z) : Z * Z * Z * Z * Z * b64 := calendar_tuple64 (ut1_whole t) (ut1_fraction64 t) cut.
Definition ut1_strftime64 (offset : b64) (t : ut1_time64) (cut : option Z) : Z * Z * Z * Z * Z * Z * Z * Z := strftime_seconds64 offset (ut1_whole t) (ut1_fraction64 t) cut.
Definition ut1_micro64 (t : ut1_time64) (cut : option Z) : Z * Z * Z * Z * Z * Z * Z := strftime_micro64 (ut1_whole t) (ut1_fraction64 t) cut.
