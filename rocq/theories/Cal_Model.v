(** Model of the calendar arithmetic of skyfield/timelib.py.

    Python's [//], [%] and [divmod] on integers are floor division, as are
    Coq's [Z.div] and [Z.modulo] for the positive divisors used here. *)
From Coq Require Import ZArith.
Open Scope Z_scope.

(** A Python boolean used as an integer (for example [year + 4716 - janfeb]). *)
Definition b2z (b : bool) : Z := if b then 1 else 0.

(** timelib.py 976-998, [julian_day(year, month, day, julian_before)].
    Arguments are integers; [None] is the default [julian_before=None]. *)
Definition julian_day (year month day : Z) (julian_before : option Z) : Z :=
  let y := (month - 1) / 12 in
  let month := (month - 1) mod 12 in
  let year := year + y in
  let month := month + 1 in
  let janfeb := month <=? 2 in
  let g := year + 4716 - b2z janfeb in
  let f := (month + 9) mod 12 in
  let e := 1461 * g / 4 + day - 1402 in
  let J := e + (153 * f + 2) / 5 in
  let mask := match julian_before with
              | None => 1
              | Some c => b2z (c <=? J)
              end in
  J + (38 - (g + 184) / 100 * 3 / 4) * mask.

(** timelib.py 1014-1033, [compute_calendar_date(jd_integer, julian_before)]. *)
Definition compute_calendar_date (jd : Z) (julian_before : option Z) : Z * Z * Z :=
  let use_gregorian := match julian_before with
                       | None => true
                       | Some c => c <=? jd
                       end in
  let f := jd + 1401 in
  let f := f + b2z use_gregorian * ((4 * jd + 274277) / 146097 * 3 / 4 - 38) in
  let e := 4 * f + 3 in
  let g := e mod 1461 / 4 in
  let h := 5 * g + 2 in
  let day := h mod 153 / 5 + 1 in
  let month := (h / 153 + 2) mod 12 + 1 in
  let year := e / 1461 - 4716 + (12 + 2 - month) / 12 in
  (year, month, day).

(** timelib.py constants [GREGORIAN_START] and [GREGORIAN_START_ENGLAND]. *)
Definition GREGORIAN_START : Z := 2299161.
Definition GREGORIAN_START_ENGLAND : Z := 2361222.

(** timelib.py 656, [weekday = jd % 7] for an integer Julian day. *)
Definition weekday_of_jd (jd : Z) : Z := jd mod 7.

(** timelib.py 655 and 657, [yday = jd + 1 - start_of_year]. *)
Definition yday_of_jd (jd : Z) (julian_before : option Z) : Z :=
  let '(year, _, _) := compute_calendar_date jd julian_before in
  jd + 1 - julian_day year 1 1 julian_before.
