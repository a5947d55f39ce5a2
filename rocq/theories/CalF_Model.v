(** Model of calendar dates of TT, TAI, TDB and UT1 in binary64: [Timescale._jd],
    [calendar_tuple] and [Timescale._strftime] of skyfield/timelib.py, for one time.
    Every [+ - * /] rounds as IEEE 754 round-to-nearest-even does. *)
From Coq Require Import ZArith List Bool.
From Coq.Floats Require Import SpecFloat.
From Verif Require Import Float64 Cal_Model Float_Time_Model.
Open Scope Z_scope.

(** timelib.py 205-210, [_jd]: the day is given by integers, the time of day by floats. *)
Definition jd_of_date64 (cut : option Z) (year month day : Z) (hour minute second : b64) : b64 * b64 :=
  (fsub (of_Z (julian_day year month day cut)) (fl 1 (-1)),
   fdiv (fadd (fadd second (fmul minute (of_Z 60))) (fmul hour (of_Z 3600))) DAY_S64).
(** timelib.py 301-312 and 280-292: [tt(year, ...)] and [tai(year, ...)]. *)
Definition tt_date64 (cut : option Z) (year month day : Z) (hour minute second : b64) : time64 :=
  let '(whole, fraction) := jd_of_date64 cut year month day hour minute second in
  {| whole64 := whole; fraction64 := fraction; c_tai_fraction64 := None; c_tai_seconds64 := None |}.
Definition tai_date64 (cut : option Z) (year month day : Z) (hour minute second : b64) : time64 :=
  let '(whole, fraction) := jd_of_date64 cut year month day hour minute second in
  {| whole64 := whole; fraction64 := fadd fraction tt_minus_tai64; c_tai_fraction64 := Some fraction; c_tai_seconds64 := None |}.
(** timelib.py 1037-1048, [calendar_tuple]. *)
Definition calendar_tuple64 (jd fraction : b64) (cut : option Z) : Z * Z * Z * Z * Z * b64 :=
  let '(whole1, fraction1) := fdivmod jd (of_Z 1) in
  let '(whole2, fraction) := fdivmod (fadd (fadd fraction1 fraction) (fl 1 (-1))) (of_Z 1) in
  let whole := ftruncZ (fadd whole1 whole2) in
  let '(year, month, day) := compute_calendar_date whole cut in
  let second := fmul fraction (of_Z 86400) in
  let '(minute, second) := fdivmod second (of_Z 60) in
  let minute := ftruncZ minute in
  (year, month, day, minute / 60, minute mod 60, second).
(** timelib.py 1218-1230: the offset for formats whose smallest unit is the second, the
    minute, and for formats with microseconds; the literal 1e-16 is the nearest float. *)
Definition half_second : b64 := fl 1 (-1).
Definition half_minute : b64 := of_Z 30.
Definition tiny_offset : b64 := fl 8112963841460668 (-106).
(** timelib.py 215-262, [_strftime]: the numbers given to [strftime]: the calendar
    tuple, the weekday counted from Monday and the day of the year. *)
Definition strftime_tuple64 (offset jd fraction : b64) (cut : option Z) : Z * Z * Z * Z * Z * b64 * Z * Z :=
  let fraction := fadd fraction (fdiv offset DAY_S64) in
  let '(year, month, day, hour, minute, second) := calendar_tuple64 jd fraction cut in
  let weekday := ftruncZ (fadd (fadd fraction (fl 1 (-1))) jd) mod 7 in
  let start_of_year := julian_day year 1 1 cut in
  let yday := ftruncZ (fsub (fadd (fadd jd fraction) (fl 3 (-1))) (of_Z start_of_year)) in
  (year, month, day, hour, minute, second, weekday, yday).
(** 252-262: without microseconds the second is cut. *)
Definition strftime_seconds64 (offset jd fraction : b64) (cut : option Z) : Z * Z * Z * Z * Z * Z * Z * Z :=
  let '(year, month, day, hour, minute, second, weekday, yday) := strftime_tuple64 offset jd fraction cut in
  (year, month, day, hour, minute, ftruncZ second, weekday, yday).
(** 238-251: second and microsecond of a format with [%f]. *)
Definition strftime_micro64 (jd fraction : b64) (cut : option Z) : Z * Z * Z * Z * Z * Z * Z :=
  let '(year, month, day, hour, minute, second, weekday, yday) := strftime_tuple64 tiny_offset jd fraction cut in
  let second := ftruncZ (fmul second (of_Z 1000000)) in
  (year, month, day, hour, minute, second / 1000000, second mod 1000000).
