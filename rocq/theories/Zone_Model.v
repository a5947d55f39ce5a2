(** Model of skyfield/timelib.py where times meet Python's [datetime] objects: time
    zones, [from_datetime], [from_datetimes], [utc] given datetimes or dates, [now],
    [astimezone] and the exceptions of [utc_datetime]. Exact arithmetic. *)
From Coq Require Import ZArith QArith List Bool.
From Verif Require Import Cal_Model Cal_Spec Time_Model.
Import ListNotations.
Open Scope Z_scope.

(** * Python's [datetime] *)
Definition DAY_US : Z := 86400000000.
(** Microseconds from the start of the day with Julian day number 0 to the fields read in
    the proleptic Gregorian calendar, which is the calendar of [datetime]. *)
Definition count (d : py_datetime) : Z :=
  DAY_US * day_number Gregorian (d_year d) (d_month d) (d_day d)
  + 1000000 * (3600 * d_hour d + 60 * d_minute d + d_second d) + d_micro d.
Definition datetime_of (n : Z) : py_datetime :=
  let '(y, m, d) := compute_calendar_date (n / DAY_US) None in
  let s := n mod DAY_US / 1000000 in
  {| d_year := y; d_month := m; d_day := d; d_hour := s / 3600; d_minute := s / 60 mod 60; d_second := s mod 60;
     d_micro := n mod 1000000 |}.
(** [datetime.min] and [datetime.max]. *)
Definition first_count : Z := DAY_US * 1721426.
Definition last_count : Z := DAY_US * 5373485 - 1.
(** What the constructor [datetime(...)] accepts. *)
Definition accepts (d : py_datetime) : bool :=
  (1 <=? d_year d) && (d_year d <=? 9999) && valid_date Gregorian (d_year d, d_month d, d_day d)
  && (0 <=? d_hour d) && (d_hour d <=? 23) && (0 <=? d_minute d) && (d_minute d <=? 59)
  && (0 <=? d_second d) && (d_second d <=? 59) && (0 <=? d_micro d) && (d_micro d <=? 999999).

Inductive complaint := NaiveDatetime | NoValues | NegativeYear (y : Z) | JulianLeapDay (y : Z) | OtherComplaint.
Inductive outcome (A : Type) := Ok (a : A) | ValueError (c : complaint) | OverflowError.
Arguments Ok {A}. Arguments ValueError {A}. Arguments OverflowError {A}.
Definition bind {A B} (r : outcome A) (f : A -> outcome B) : outcome B :=
  match r with Ok a => f a | ValueError c => ValueError c | OverflowError => OverflowError end.
Fixpoint each {A B} (f : A -> outcome B) (l : list A) : outcome (list B) :=
  match l with
  | [] => Ok []
  | a :: r => bind (f a) (fun b => bind (each f r) (fun bs => Ok (b :: bs)))
  end.

(** The [tzinfo] of a datetime: none, Skyfield's own [utc], or a zone, of which only what
    [utcoffset] says for this datetime matters here. *)
Inductive info := Naive | InUtc | At (offset : Z).
Record aware := { fields : py_datetime; zone_of : info }.
(** [dt + delta] raises OverflowError outside of the years that datetimes have. *)
Definition moved (d : py_datetime) (delta : Z) : outcome py_datetime :=
  let n := count d + delta in
  if (first_count <=? n) && (n <=? last_count) then Ok (datetime_of n) else OverflowError.
(** [dt.astimezone(utc)] for a datetime with a zone: [(self - offset)] in UTC. *)
Definition to_utc (d : py_datetime) (offset : Z) : outcome py_datetime := moved d (- offset).

(** A zone: the offset in force at each instant of UTC, in microseconds, and whether the
    object has a method [normalize], as zones of pytz do. *)
Record zone := { offset_at : Z -> Z; has_normalize : bool }.
(** [tz.fromutc(dt)]. *)
Definition from_utc (z : zone) (d : py_datetime) : outcome aware :=
  let o := offset_at z (count d) in bind (moved d o) (fun d => Ok {| fields := d; zone_of := At o |}).
(** [tz.normalize(dt)]: back to UTC and out again. *)
Definition normalize_zone (z : zone) (a : aware) : outcome aware :=
  match zone_of a with
  | At o => bind (to_utc (fields a) o) (from_utc z)
  | _ => ValueError NaiveDatetime
  end.

(** * Skyfield *)
(** timelib.py 1201-1208, [_datetime_to_utc_tuple]. *)
Definition datetime_to_utc (a : aware) : outcome py_datetime :=
  match zone_of a with
  | Naive => ValueError NaiveDatetime
  | InUtc => Ok (fields a)
  | At o => to_utc (fields a) o
  end.
(** timelib.py 133-143, [from_datetime]. *)
Definition from_aware (ts : timescale) (a : aware) : outcome time :=
  bind (datetime_to_utc a) (fun d => Ok (from_datetime ts d)).
(** timelib.py 145-156, [from_datetimes]: the six columns of the tuples; with no tuples at
    all there are no six values to unpack. Elementwise, as in Time_Model. *)
Definition from_datetimes (ts : timescale) (l : list aware) : outcome (list time) :=
  bind (each datetime_to_utc l) (fun ds =>
  match ds with [] => ValueError NoValues | _ => Ok (map (from_datetime ts) ds) end).
(** timelib.py 129-131, [now], where the clock says [n]. *)
Definition now (ts : timescale) (n : Z) : outcome time :=
  from_aware ts {| fields := datetime_of n; zone_of := InUtc |}.
(** timelib.py 158-181, [utc], whose first argument is a datetime, a date or a list of
    datetimes. The other arguments are then ignored. *)
Inductive first_argument := ADatetime (a : aware) | ADate (y m d : Z) | AList (l : list aware).
Definition utc_of (ts : timescale) (x : first_argument) : outcome (list time) :=
  match x with
  | ADatetime a => bind (from_aware ts a) (fun t => Ok [t])
  | ADate y m d =>
      bind (from_aware ts {| fields := {| d_year := y; d_month := m; d_day := d; d_hour := 0; d_minute := 0;
                                          d_second := 0; d_micro := 0 |}; zone_of := InUtc |}) (fun t => Ok [t])
  | AList l => from_datetimes ts l
  end.
(** timelib.py 1262-1270, [_upgrade_datetime_exception]. *)
Definition upgrade (d : py_datetime) : complaint :=
  if d_year d <? 0 then NegativeYear (d_year d)
  else if (d_month d =? 2) && (d_day d =? 29) then JulianLeapDay (d_year d)
  else OtherComplaint.
(** timelib.py 526-570, [utc_datetime_and_leap_second], for one time and for several. *)
Definition make_datetime (d : py_datetime) : outcome py_datetime := if accepts d then Ok d else ValueError (upgrade d).
Definition checked_datetime (ts : timescale) (t : time) : outcome (py_datetime * Z) :=
  let '(d, leap) := utc_datetime ts t in bind (make_datetime d) (fun d => Ok (d, leap)).
Definition checked_datetimes (ts : timescale) (l : list time) : outcome (list (py_datetime * Z)) :=
  bind (each (fun t => make_datetime (fst (utc_datetime ts t))) l) (fun ds =>
  Ok (combine ds (map (fun t => snd (utc_datetime ts t)) l))).
(** timelib.py 459-503, [astimezone_and_leap_second]. *)
Definition into_zone (z : zone) (d : py_datetime) : outcome aware :=
  if has_normalize z then bind (from_utc z d) (normalize_zone z) else from_utc z d.
Definition astimezone (ts : timescale) (t : time) (z : zone) : outcome (aware * Z) :=
  bind (checked_datetime ts t) (fun '(d, leap) => bind (into_zone z d) (fun a => Ok (a, leap))).
Definition astimezones (ts : timescale) (l : list time) (z : zone) : outcome (list (aware * Z)) :=
  bind (checked_datetimes ts l) (fun ds =>
  bind (each (into_zone z) (map fst ds)) (fun r => Ok (combine r (map snd ds)))).
