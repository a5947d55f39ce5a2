(** What datetimes of any zone stand for. *)
From Coq Require Import ZArith QArith List Bool.
From Verif Require Import Cal_Spec Time_Model Time_Spec Zone_Model.
Import ListNotations.
Open Scope Z_scope.

(** The TAI instant of a count of UTC microseconds, leap seconds not being counted. *)
Definition instant_of (ns : list Z) (base n : Z) : Q :=
  (inject_Z (tai_second ns base (n / 86400000000) (n mod 86400000000 / 1000000)) + inject_Z (n mod 1000000) / 1000000)%Q.
(** Fields that a Python datetime can have. *)
Definition possible (d : py_datetime) : Prop :=
  1 <= d_year d <= 9999 /\ valid_date Gregorian (d_year d, d_month d, d_day d) = true /\
  0 <= d_hour d <= 23 /\ 0 <= d_minute d <= 59 /\ 0 <= d_second d <= 59 /\ 0 <= d_micro d < 1000000.
(** UTC microseconds of a datetime with a zone: its own count less its offset. *)
Definition stands_for (a : aware) (n : Z) : Prop :=
  match zone_of a with Naive => False | InUtc => n = count (fields a) | At o => n = count (fields a) - o end.
(** Counts within the years 1 to 9999. *)
Definition in_years (n : Z) : Prop :=
  count {| d_year := 1; d_month := 1; d_day := 1; d_hour := 0; d_minute := 0; d_second := 0; d_micro := 0 |} <= n <=
  count {| d_year := 9999; d_month := 12; d_day := 31; d_hour := 23; d_minute := 59; d_second := 59; d_micro := 999999 |}.
(** The day is counted in the Gregorian calendar. *)
Definition gregorian_on (cut : option Z) (n : Z) : Prop :=
  match cut with None => True | Some c => c <= n / 86400000000 end.
(** The count that the fields have in the calendar in force. *)
Definition civil_count (cut : option Z) (d : py_datetime) : Z :=
  86400000000 * civil_day_number cut (d_year d, d_month d, d_day d)
  + 1000000 * (3600 * d_hour d + 60 * d_minute d + d_second d) + d_micro d.
