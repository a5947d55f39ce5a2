(** Model of the times of Earth satellites: skyfield/sgp4lib.py 87-186. Exact
    arithmetic. The library sgp4 is outside: a [satrec] is what it read from the elements. *)
From Coq Require Import ZArith QArith List.
From Verif Require Import PyNum Cal_Model Time_Model.
Import ListNotations.
Open Scope Q_scope.

(** The attributes of [Satrec] that Skyfield reads. *)
Record satrec := { satnum : Z; epochyr : Z; epochdays : Q; jdsatepoch : Q; jdsatepochF : Q }.
Record satellite := { sat_target : Z; sat_epoch : time; sat_model : satrec }.
(** 111-117, [_setup]. *)
Definition target_of (s : satrec) : Z := (-100000 - satnum s)%Z.
(** 87-109, [__init__], without the name. *)
Definition full_year (two_digit_year : Z) : Z :=
  if (two_digit_year <? 57)%Z then (two_digit_year + 2000)%Z else (two_digit_year + 1900)%Z.
Definition from_lines (ts : timescale) (s : satrec) : satellite :=
  {| sat_target := target_of s;
     sat_epoch := utc_dayq ts (full_year (epochyr s)) 1 (epochdays s) 0 0 0; sat_model := s |}.
(** 119-138, [from_satrec]. *)
Definition from_satrec (ts : timescale) (s : satrec) : satellite :=
  let w := qdiv (jdsatepoch s) 1 in
  let fraction := qmod (jdsatepoch s) 1 in
  let '(year, month, day) := compute_calendar_date w None in
  let day := inject_Z day + (1 # 2) in
  {| sat_target := target_of s;
     sat_epoch := utc_dayq ts year month (day + fraction + jdsatepochF s) 0 0 0; sat_model := s |}.
(** 140-155, [from_omm], after [omm.initialize]. *)
Definition from_omm (ts : timescale) (s : satrec) : satellite :=
  {| sat_target := target_of s; sat_epoch := utc_jd ts (jdsatepoch s) (jdsatepochF s); sat_model := s |}.
(** timelib.py 704-708, [_leap_seconds]. *)
Definition leap_seconds (ts : timescale) (t : time) : Q :=
  interp (fst (tai_seconds t)) (combine (leap_tai ts) (leap_off ts)).
(** 169-186: the two numbers given to [sat.sgp4] by [_position_and_velocity_TEME_km];
    [sgp4] subtracts [jdsatepoch] and [jdsatepochF]. *)
Definition sgp4_time (ts : timescale) (t : time) : Q * Q := (whole t, tai_fraction t - leap_seconds ts t / DAY_S).
Definition minutes_since_epoch (ts : timescale) (s : satellite) (t : time) : Q :=
  let '(jd, fr) := sgp4_time ts t in
  (jd - jdsatepoch (sat_model s)) * 1440 + (fr - jdsatepochF (sat_model s)) * 1440.
