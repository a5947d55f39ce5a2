(** What the epochs of satellites stand for. *)
From Coq Require Import ZArith QArith List Bool.
From Verif Require Import Cal_Spec Time_Model Time_Spec Sat_Model.
Import ListNotations.
Open Scope Q_scope.

(** A Julian date of UTC, which counts days of 86400 seconds, and its TAI instant. *)
Definition utc_moment (ns : list Z) (base : Z) (jd instant : Q) : Prop :=
  exists J x, 0 <= x < 1 /\ jd == inject_Z J - (1 # 2) + x /\ instant == inject_Z (tai_second ns base J 0) + x * 86400.
(** Two digits of a year stand for the year from 1957 to 2056 that ends in them. *)
Definition year_of_digits (yy year : Z) : Prop := (1957 <= year <= 2056 /\ year mod 100 = yy)%Z.
(** Day 1.0 of a year begins with January 1. *)
Definition jd_of_day (year : Z) (days : Q) : Q := inject_Z (day_number Gregorian year 1 1) - (1 # 2) + (days - 1).
(** Calendars that are Gregorian since 1957. *)
Definition modern (cut : option Z) : Prop :=
  match cut with None => True | Some c => (c <= day_number Gregorian 1957 1 1)%Z end.
(** How many leap seconds have ended by an instant. *)
Definition leaps_by (ns : list Z) (base : Z) (instant : Q) : Z :=
  Z.of_nat (length (filter (fun n => Qle_bool (inject_Z (tai_second ns base n 0)) instant) ns)).
