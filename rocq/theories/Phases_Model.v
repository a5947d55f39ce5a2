(** Model of the functions of time that skyfield/almanac.py and almanac_east_asia.py
    build for [find_discrete]. What they read from positions (apparent longitudes,
    right ascensions, latitudes and altitudes) is given as a function of the TT Julian
    date; that the nutation of the time is replaced first (line 78 and others) is in
    Cache_Model. *)
From Coq Require Import Reals QArith Qreals ZArith List Bool.
From Verif Require Import Real_Math Almanac_Model Search_Model.
Import ListNotations.
Open Scope R_scope.

(** A function of time with its attribute [step_days]. *)
Record searchable := Searchable { at_time : Q -> Z; step_days : Q }.
(** almanac.py 65-84, [seasons]. *)
Definition seasons (slon : R -> R) : searchable := Searchable (fun t => season (slon (Q2R t))) 90.
(** almanac.py 108-130, [moon_phases]. *)
Definition moon_phases (mlon slon : R -> R) : searchable :=
  Searchable (fun t => moon_phase_code (mlon (Q2R t)) (slon (Q2R t))) 7.
(** almanac_east_asia.py 119-146, [solar_terms]. *)
Definition solar_terms (slon : R -> R) : searchable := Searchable (fun t => solar_term (slon (Q2R t))) 14.
(** almanac.py 137-155, [moon_nodes]; true counts as 1. *)
Definition moon_nodes (mlat : R -> R) : searchable :=
  Searchable (fun t => if Rlt_dec 0 (mlat (Q2R t)) then 1%Z else 0%Z) 12.
(** almanac.py 162-183, [oppositions_conjunctions]. *)
Definition oppositions_conjunctions (target : Z) (slon tlon : R -> R) : searchable :=
  Searchable (fun t => opposition_code (slon (Q2R t)) (tlon (Q2R t))) (if (target =? 301)%Z then 14 else 40).
(** almanac.py 187-211, [meridian_transits]. *)
Definition meridian_transits (ra1 ra2 : R -> R) : searchable :=
  Searchable (fun t => if west_of_meridian (ra1 (Q2R t)) (ra2 (Q2R t)) then 1%Z else 0%Z) (4 # 10).
(** almanac.py 213-247, [sunrise_sunset]; 257-285, [dark_twilight_day];
    287-308, [risings_and_settings]. Altitudes are in degrees. *)
Definition sunrise_sunset (altitude : R -> R) : searchable :=
  Searchable (fun t => if is_sun_up (altitude (Q2R t)) then 1%Z else 0%Z) (4 # 100).
Definition dark_twilight_day (altitude : R -> R) : searchable :=
  Searchable (fun t => twilight (altitude (Q2R t))) (4 # 100).
Definition risings_and_settings (horizon radius : R) (altitude : R -> R) : searchable :=
  Searchable (fun t => if is_body_up horizon radius (altitude (Q2R t)) then 1%Z else 0%Z) (1 # 4).
(** searchlib.py 8 and 12: [find_discrete(t0, t1, f)] with its defaults. *)
Definition EPSILON : Q := 1 # 86400000.
Definition find_events_of (fuel : nat) (f : searchable) (jd0 jd1 : Q) : outcome (list (Q * Z)) :=
  find_discrete fuel jd0 jd1 (at_time f) (StepDays (step_days f)) EPSILON 12.
