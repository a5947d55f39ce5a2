(** Model of leap seconds, UTC and the exact part of [Time] in
    skyfield/timelib.py, in exact rational arithmetic. *)
From Coq Require Import ZArith QArith Qround List Bool.
From Verif Require Import PyNum Cal_Model.
Import ListNotations.
Open Scope Q_scope.

(** constants.py 7: [DAY_S]. *)
Definition DAY_S : Q := 86400.
(** timelib.py 75: [tt_minus_tai = array(32.184 / DAY_S)]. *)
Definition tt_minus_tai : Q := (32184 # 1000) / DAY_S.

(** A leap date as stored in the arrays given to [Timescale]: the legacy table
    carries infinities at both ends. *)
Inductive xdate := NegInf | Fin (d : Q) | PosInf.

(** timelib.py 99-127, the part of [Timescale.__init__] that builds the leap
    tables. [leap_dates[-1]] raises IndexError on an empty array: [None].
    The legacy slices are [leap_dates[2:-1]] and [leap_offsets[3:]]. *)
Record timescale := { leap_utc : list Q; leap_off : list Q; leap_tai : list Q;
                      cutoff : option Z }.

Definition fin (x : xdate) : Q := match x with Fin d => d | _ => 0 end.

Definition build_tables (dates : list Q) (offs : list Q) (cut : option Z) : timescale :=
  let u := flat_map (fun d => [d * DAY_S + (-1); d * DAY_S + 0]) dates in
  let o := flat_map (fun k => [k + (-1); k + 0]) offs in
  {| leap_utc := u; leap_off := o;
     leap_tai := map (fun p => fst p + snd p) (combine u o); cutoff := cut |}.

Definition timescale_init (leap_dates : list xdate) (leap_offsets : list Q) (cut : option Z)
  : option timescale :=
  match rev leap_dates with
  | [] => None
  | last :: _ =>
      match last with
      | Fin _ => Some (build_tables (map fin leap_dates) leap_offsets cut)
      | _ => Some (build_tables (map fin (removelast (skipn 2 leap_dates))) (skipn 3 leap_offsets) cut)
      end
  end.

(** io_timescale.py 95-104, the arrays returned by [parse_leap_seconds] for the
    file's columns [mjd] and [offsets]. [offsets[0]] raises on an empty file. *)
Definition parse_leap_seconds (mjd offsets : list Q) : option (list xdate * list Q) :=
  match offsets with
  | [] => None
  | o0 :: _ => Some (NegInf :: map (fun m => Fin (m + (4800001 # 2))) mjd ++ [PosInf],
                     o0 :: o0 :: offsets)
  end.

(** timelib.py 424-430, a scalar [Time]: the pair [whole], [tt_fraction] plus the
    cached attributes that constructors set by hand. *)
Record time := { whole : Q; tt_fraction : Q;
                 c_tai_fraction : option Q; c_tai_seconds : option (Q * Q) }.
Definition mk_time (w f : Q) : time :=
  {| whole := w; tt_fraction := f; c_tai_fraction := None; c_tai_seconds := None |}.

(** timelib.py 181-203, [Timescale._utc]. The day is an integer; hour, minute
    and second are numbers. *)
Definition utc (ts : timescale) (year month day : Z) (hour minute second : Q) : time :=
  let seconds := (inject_Z (julian_day year month day (cutoff ts)) - (1 # 2)) * DAY_S in
  let sfr := qmod seconds 1 in
  let seconds := inject_Z (qdiv seconds 1) in
  let seconds := seconds + interp seconds (combine (leap_utc ts) (leap_off ts)) in
  let more := hour * 3600 + minute * 60 + second in
  let seconds2 := inject_Z (qdiv (sfr + more) 1) in
  let sfr := qmod (sfr + more) 1 in
  let seconds := seconds + seconds2 in
  let w := inject_Z (qdiv seconds DAY_S) in
  let fraction := (qmod seconds DAY_S + sfr) / DAY_S in
  {| whole := w; tt_fraction := fraction + tt_minus_tai;
     c_tai_fraction := Some fraction; c_tai_seconds := Some (seconds, sfr) |}.

(** timelib.py 976-998, [julian_day], with a day that has a fraction. *)
Definition julian_dayq (year month : Z) (day : Q) (julian_before : option Z) : Q :=
  let y := ((month - 1) / 12)%Z in
  let month := ((month - 1) mod 12)%Z in
  let year := (year + y)%Z in
  let month := (month + 1)%Z in
  let janfeb := (month <=? 2)%Z in
  let g := (year + 4716 - b2z janfeb)%Z in
  let f := ((month + 9) mod 12)%Z in
  let e := inject_Z (1461 * g / 4)%Z + day - 1402 in
  let J := e + inject_Z ((153 * f + 2) / 5)%Z in
  let mask := match julian_before with None => 1%Z | Some c => b2z (Qle_bool (inject_Z c) J) end in
  J + inject_Z ((38 - (g + 184) / 100 * 3 / 4) * mask)%Z.
(** timelib.py 181-203, [Timescale._utc], with such a day. *)
Definition utc_dayq (ts : timescale) (year month : Z) (day hour minute second : Q) : time :=
  let seconds := (julian_dayq year month day (cutoff ts) - (1 # 2)) * DAY_S in
  let sfr := qmod seconds 1 in
  let seconds := inject_Z (qdiv seconds 1) in
  let seconds := seconds + interp seconds (combine (leap_utc ts) (leap_off ts)) in
  let more := hour * 3600 + minute * 60 + second in
  let seconds2 := inject_Z (qdiv (sfr + more) 1) in
  let sfr := qmod (sfr + more) 1 in
  let seconds := seconds + seconds2 in
  let w := inject_Z (qdiv seconds DAY_S) in
  let fraction := (qmod seconds DAY_S + sfr) / DAY_S in
  {| whole := w; tt_fraction := fraction + tt_minus_tai;
     c_tai_fraction := Some fraction; c_tai_seconds := Some (seconds, sfr) |}.

(** timelib.py 1210-1216, [_normalize_jd_and_fraction]. *)
Definition normalize (jd : Q) (fraction : option Q) : Q * Q :=
  match fraction with
  | None => (inject_Z (qdiv jd 1), qmod jd 1)
  | Some f => (jd, f)
  end.

(** timelib.py 294-299, [tai_jd]. *)
Definition tai_jd (jd : Q) (fraction : option Q) : time :=
  let '(jd, fraction) := normalize jd fraction in
  {| whole := jd; tt_fraction := fraction + tt_minus_tai;
     c_tai_fraction := Some fraction; c_tai_seconds := None |}.

(** timelib.py 315-318, [tt_jd]. *)
Definition tt_jd (jd : Q) (fraction : option Q) : time :=
  let '(jd, fraction) := normalize jd fraction in mk_time jd fraction.

(** timelib.py 320-329, [Timescale.J]. *)
Definition from_J (year : Q) : time := mk_time (year * (1461 # 4) + 1721045) 0.

(** timelib.py 205-210, [_jd] (scalars), and 278-292, 301-313, [tai] and [tt]. *)
Definition jd_parts (cut : option Z) (year month day : Z) (hour minute second : Q) : Q * Q :=
  (inject_Z (julian_day year month day cut) - (1 # 2),
   (second + minute * 60 + hour * 3600) / DAY_S).
Definition tai_cal (cut : option Z) (year month day : Z) (hour minute second : Q) : time :=
  let '(w, f) := jd_parts cut year month day hour minute second in
  {| whole := w; tt_fraction := f + tt_minus_tai; c_tai_fraction := Some f; c_tai_seconds := None |}.
Definition tt_cal (cut : option Z) (year month day : Z) (hour minute second : Q) : time :=
  let '(w, f) := jd_parts cut year month day hour minute second in mk_time w f.

(** The same with a day that has a fraction. *)
Definition jd_partsq (cut : option Z) (year month : Z) (day hour minute second : Q) : Q * Q :=
  (julian_dayq year month day cut - (1 # 2), (second + minute * 60 + hour * 3600) / DAY_S).
Definition tai_calq (cut : option Z) (year month : Z) (day hour minute second : Q) : time :=
  let '(w, f) := jd_partsq cut year month day hour minute second in
  {| whole := w; tt_fraction := f + tt_minus_tai; c_tai_fraction := Some f; c_tai_seconds := None |}.
Definition tt_calq (cut : option Z) (year month : Z) (day hour minute second : Q) : time :=
  let '(w, f) := jd_partsq cut year month day hour minute second in mk_time w f.

(** timelib.py 263-276, [_utc_jd]. *)
Definition utc_jd (ts : timescale) (w f : Q) : time :=
  let seconds := w * DAY_S in
  let seconds2 := inject_Z (qdiv (f * DAY_S) 1) in
  let fraction_s := qmod (f * DAY_S) 1 in
  let seconds := seconds + seconds2 in
  let seconds := seconds + interp seconds (combine (leap_utc ts) (leap_off ts)) in
  let w := inject_Z (qdiv seconds DAY_S) in
  let fraction := (qmod seconds DAY_S + fraction_s) / DAY_S in
  tai_jd w (Some fraction).

(** timelib.py 829-831, [tai_fraction], and 867-873, [tai] and [tt]. *)
Definition tai_fraction (t : time) : Q :=
  match c_tai_fraction t with Some f => f | None => tt_fraction t - tt_minus_tai end.
Definition tai (t : time) : Q := whole t + tai_fraction t.
Definition tt (t : time) : Q := whole t + tt_fraction t.
(** timelib.py 811-820, [Time.J]. *)
Definition time_J (t : time) : Q := (whole t - 1721045 + tt_fraction t) / (1461 # 4).

(** timelib.py 696-702, [_tai_seconds]. *)
Definition tai_seconds (t : time) : Q * Q :=
  match c_tai_seconds t with
  | Some p => p
  | None =>
      let s := whole t * DAY_S in
      let seconds := inject_Z (qdiv s 1) in
      let fr := qmod s 1 in
      let x := fr + tai_fraction t * DAY_S in
      (seconds + inject_Z (qdiv x 1), qmod x 1)
  end.

(** timelib.py 685-694, [_utc_seconds]. *)
Definition utc_seconds (ts : timescale) (t : time) (offset : Q) : Q * Q * bool :=
  let '(seconds, fr) := tai_seconds t in
  let seconds2 := inject_Z (qdiv (fr + offset) 1) in
  let fr := qmod (fr + offset) 1 in
  let seconds := seconds + seconds2 in
  let tai_minus_utc := interp seconds (combine (leap_tai ts) (leap_off ts)) in
  let is_leap := Qltb 0 (qmod tai_minus_utc 1) in
  let tai_minus_utc := inject_Z (qdiv tai_minus_utc 1) in
  (seconds - tai_minus_utc, fr, is_leap).

(** timelib.py 660-683, [_utc_tuple(offset, return_jd=True)]. The second is
    returned as its integer part and its fraction; the code returns their sum. *)
Record utc_fields := { f_year : Z; f_month : Z; f_day : Z; f_hour : Z; f_minute : Z;
                       f_isec : Z; f_sfr : Q; f_jd : Z }.
Definition f_second (u : utc_fields) : Q := inject_Z (f_isec u) + f_sfr u.
Definition utc_tuple (ts : timescale) (t : time) (offset : Q) : utc_fields :=
  let '(second, sfr, is_leap) := utc_seconds ts t offset in
  let second := qtrunc second in
  let second := (second - b2z is_leap)%Z in
  let jd := ((second + 43200) / 86400)%Z in
  let second := ((second + 43200) mod 86400)%Z in
  let '(year, month, day) := compute_calendar_date jd (cutoff ts) in
  let minute := (second / 60)%Z in
  let second := (second mod 60)%Z in
  let hour := (minute / 60)%Z in
  let minute := (minute mod 60)%Z in
  let second := (second + b2z is_leap)%Z in
  {| f_year := year; f_month := month; f_day := day; f_hour := hour;
     f_minute := minute; f_isec := second; f_sfr := sfr; f_jd := jd |}.

(** timelib.py 822-827, [Time.utc]. *)
Definition time_utc (ts : timescale) (t : time) : utc_fields := utc_tuple ts t 0.

(** timelib.py 504-514, [toordinal]. *)
Definition toordinal (ts : timescale) (t : time) : Q :=
  let '(w, f, _) := utc_seconds ts t 0 in (w - 148731076800 + f) / DAY_S.

(** timelib.py 572-602, [utc_iso(places)]: the numbers handed to the format
    string. ['%d'] truncates. With [places = 0] there is no fraction field. *)
Record iso_fields := { i_year : Z; i_month : Z; i_day : Z; i_hour : Z; i_minute : Z;
                       i_second : Z; i_fraction : Z }.
Definition utc_iso (ts : timescale) (t : time) (places : nat) : iso_fields :=
  match places with
  | O =>
      let u := utc_tuple ts t (1 # 2) in
      {| i_year := f_year u; i_month := f_month u; i_day := f_day u; i_hour := f_hour u;
         i_minute := f_minute u; i_second := qtrunc (f_second u); i_fraction := 0 |}
  | S _ =>
      let power_of_ten := inject_Z (10 ^ Z.of_nat places) in
      let u := utc_tuple ts t ((1 # 2) / power_of_ten) in
      let second := inject_Z (qdiv (f_second u) 1) in
      let fraction := qmod (f_second u) 1 * power_of_ten in
      {| i_year := f_year u; i_month := f_month u; i_day := f_day u; i_hour := f_hour u;
         i_minute := f_minute u; i_second := qtrunc second; i_fraction := qtrunc fraction |}
  end.

(** timelib.py 604-626, [utc_jpl]: era flag, displayed year, and the other
    numbers handed to the format string. *)
Definition utc_jpl (ts : timescale) (t : time) : bool * Z * iso_fields :=
  let u := utc_tuple ts t (5 # 100000) in
  let second := inject_Z (qdiv (f_second u) 1) in
  let fraction := qmod (f_second u) 1 * 10000 in
  let bc := (f_year u <? 1)%Z in
  let year := Z.abs (f_year u - b2z bc) in
  (bc, year,
   {| i_year := f_year u; i_month := f_month u; i_day := f_day u; i_hour := f_hour u;
      i_minute := f_minute u; i_second := qtrunc second; i_fraction := qtrunc fraction |}).

(** timelib.py 526-570, [utc_datetime_and_leap_second]: the arguments given to
    [datetime()] and the leap second flag. [datetime] itself raises for years
    outside 1..9999; that check is not modelled. *)
Record py_datetime := { d_year : Z; d_month : Z; d_day : Z; d_hour : Z; d_minute : Z;
                        d_second : Z; d_micro : Z }.
Definition utc_datetime (ts : timescale) (t : time) : py_datetime * Z :=
  let u := utc_tuple ts t (5 # 10000000) in
  let micro := qtrunc (f_second u * 1000000) in
  let second := (micro / 1000000)%Z in
  let micro := (micro mod 1000000)%Z in
  let leap_second := (second / 60)%Z in
  let second := (second - leap_second)%Z in
  ({| d_year := f_year u; d_month := f_month u; d_day := f_day u; d_hour := f_hour u;
      d_minute := f_minute u; d_second := second; d_micro := micro |}, leap_second).

(** timelib.py 133-143 and 1201-1208, [from_datetime] for a datetime in UTC. *)
Definition from_datetime (ts : timescale) (d : py_datetime) : time :=
  utc ts (d_year d) (d_month d) (d_day d) (inject_Z (d_hour d)) (inject_Z (d_minute d))
      (inject_Z (d_second d) + inject_Z (d_micro d) / 1000000).

(** timelib.py 1037-1048, [calendar_tuple(jd_float, fraction, julian_before)]. *)
Definition calendar_tuple (jd_float fraction : Q) (cut : option Z) : Z * Z * Z * Z * Z * Q :=
  let whole1 := qdiv jd_float 1 in
  let fraction1 := qmod jd_float 1 in
  let whole2 := qdiv (fraction1 + fraction + (1 # 2)) 1 in
  let fraction := qmod (fraction1 + fraction + (1 # 2)) 1 in
  let w := (whole1 + whole2)%Z in
  let '(year, month, day) := compute_calendar_date w cut in
  let second := fraction * 86400 in
  let minute := qdiv second 60 in
  let second := qmod second 60 in
  let hour := (minute / 60)%Z in
  let minute := (minute mod 60)%Z in
  (year, month, day, hour, minute, second).

(** timelib.py 215-234, the weekday expression of [Timescale._strftime]. *)
Definition strftime_weekday (jd fraction : Q) : Z :=
  (qtrunc (fraction + (1 # 2) + jd) mod 7)%Z.
(** timelib.py 236-238, the day-of-year expression; [year] comes from [_cal]. *)
Definition strftime_yday (jd fraction : Q) (year : Z) (cut : option Z) : Z :=
  qtrunc (jd + fraction + (3 # 2) - inject_Z (julian_day year 1 1 cut)).

(** timelib.py 914-947, [__eq__], [__lt__], [__add__] and [__sub__] with a plain
    number of days. *)
Definition time_sub (a b : time) : Q := whole a - whole b + (tt_fraction a - tt_fraction b).
Definition time_eq (a b : time) : bool := Qeq_bool (time_sub a b) 0.
Definition time_lt (a b : time) : bool :=
  Qltb ((tt_fraction a - tt_fraction b) + (whole a - whole b)) 0.
Definition time_add (t : time) (d : Q) : time :=
  tt_jd (whole t + inject_Z (qdiv d 1)) (Some (tt_fraction t + qmod d 1)).
Definition time_minus (t : time) (d : Q) : time :=
  tt_jd (whole t - inject_Z (qdiv d 1)) (Some (tt_fraction t - qmod d 1)).

(** timelib.py 447-457, [__getitem__] on an array of times, here a list: the new
    object keeps [tai_fraction] but not [_tai_seconds]. *)
Definition drop_cache (t : time) : time :=
  {| whole := whole t; tt_fraction := tt_fraction t;
     c_tai_fraction := c_tai_fraction t; c_tai_seconds := None |}.
Definition time_getitem (ts : list time) (i : nat) : option time :=
  option_map drop_cache (nth_error ts i).

(** timelib.py 393-410, [Timescale.linspace]: the i-th of [num] times.
    [numpy.linspace(a, b, num)[i] = a + i * (b - a) / (num - 1)]. *)
Definition linspace_at (a b : Q) (num i : nat) : Q :=
  match num with
  | S (S k) => a + inject_Z (Z.of_nat i) * ((b - a) / inject_Z (Z.of_nat (S k)))
  | _ => a
  end.
Definition time_linspace (t0 t1 : time) (num : nat) : list time :=
  map (fun i => mk_time (linspace_at (whole t0) (whole t1) num i)
                        (linspace_at (tt_fraction t0) (tt_fraction t1) num i)) (seq 0 num).

(** [numpy.searchsorted(a, x, 'right')] on a sorted array: how many entries are [<= x].
    Used in the lookup that the docstring of [parse_leap_seconds] promises
    (io_timescale.py 66-72). *)
Definition xle (d : xdate) (x : Q) : bool :=
  match d with NegInf => true | Fin q => Qle_bool q x | PosInf => false end.
Definition searchsorted_right (a : list xdate) (x : Q) : nat := length (filter (fun d => xle d x) a).
