(** Model of the formatted text of times in skyfield/timelib.py: the choice of
    rounding, the treatment of ['%f'], [utc_strftime] and the [_strftime] of the
    other time scales, in exact rational arithmetic. Text is a list of characters. *)
From Coq Require Import ZArith QArith Qround List Bool String Ascii.
From Verif Require Import PyNum Cal_Model Time_Model.
Import ListNotations.
Open Scope Q_scope.

Definition text := list ascii.
Definition of_string (s : string) : text := list_ascii_of_string s.

(** timelib.py 1196-1199, the flags [[-_0^#EO]] of the four regular expressions. *)
Definition is_flag (c : ascii) : bool :=
  existsb (Ascii.eqb c) ["-"; "_"; "0"; "^"; "#"; "E"; "O"]%char.

(** The end of a match of [[-_0^#EO]*X] at the start of the text, where [X] is a
    class of characters that contains no flag, so that backtracking never helps. *)
Fixpoint flags_then (cls : ascii -> bool) (s : text) : option nat :=
  match s with
  | [] => None
  | c :: r => if is_flag c then option_map S (flags_then cls r)
              else if cls c then Some 1%nat else None
  end.

(** [re.compile(r'%[-_0^#EO]*X').search]: start and end of the leftmost match. *)
Fixpoint search (cls : ascii -> bool) (s : text) : option (nat * nat) :=
  match s with
  | [] => None
  | c :: r =>
      match (if Ascii.eqb c "%" then flags_then cls r else None) with
      | Some k => Some (0%nat, S k)
      | None => option_map (fun ab => (S (fst ab), S (snd ab))) (search cls r)
      end
  end.

Definition one_of (l : list ascii) (c : ascii) : bool := existsb (Ascii.eqb c) l.
(** timelib.py 1196-1199, the four searches. *)
Definition format_uses_milliseconds : text -> option (nat * nat) := search (one_of ["f"]%char).
Definition format_uses_seconds : text -> option (nat * nat) := search (one_of ["S"; "T"; "X"; "c"]%char).
Definition format_uses_minutes : text -> option (nat * nat) := search (one_of ["M"; "R"]%char).
Definition format_uses_day_of_year : text -> option (nat * nat) := search (one_of ["j"]%char).

(** timelib.py 1218-1230, [_strftime_offset_seconds]; the Python 2 error is left out. *)
Definition strftime_offset_seconds (format : text) : Q * option (nat * nat) :=
  let uses_ms := format_uses_milliseconds format in
  (match uses_ms with
   | Some _ => 1 # 10000000000000000
   | None => match format_uses_seconds format with
             | Some _ => 1 # 2
             | None => match format_uses_minutes format with
                       | Some _ => 30
                       | None => 0
                       end
             end
   end, uses_ms).

(** The [struct_time] given to [time.strftime]; [tm_zone] is empty unless set. *)
Record tm := { tm_year : Z; tm_mon : Z; tm_mday : Z; tm_hour : Z; tm_min : Z; tm_sec : Z;
               tm_wday : Z; tm_yday : Z; tm_zone : text }.

(** Python's [time.strftime]: the text is read from left to right; a percent sign,
    flags and one more character are a directive, and anything else stands for
    itself. What a directive prints is the parameter [show]. Field widths such as
    ['%3d'], which only some C libraries know, are left out. *)
Inductive piece := Lit (c : ascii) | Dir (flags : text) (c : ascii).
Fixpoint parse (pending : option text) (s : text) : list piece :=
  match s with
  | [] => match pending with None => [] | Some fl => Lit "%" :: map Lit (rev fl) end
  | c :: r =>
      match pending with
      | None => if Ascii.eqb c "%" then parse (Some []) r else Lit c :: parse None r
      | Some fl => if is_flag c then parse (Some (c :: fl)) r else Dir (rev fl) c :: parse None r
      end
  end.
Definition printer := tm -> text -> ascii -> text.
Definition c_strftime (show : printer) (format : text) (t : tm) : text :=
  flat_map (fun p => match p with Lit c => [c] | Dir fl c => show t fl c end) (parse None format).

(** ['%06d' % u], for [0 <= u < 10**6]. *)
Definition digit (d : Z) : ascii := ascii_of_nat (48 + Z.to_nat d).
Definition six_digits (u : Z) : text :=
  map (fun p => digit (u / p mod 10)) [100000; 10000; 1000; 100; 10; 1]%Z.

(** timelib.py 1240 and 240: [format[:ms.start()] + '%Z' + format[ms.end():]]. *)
Definition put_zone (format : text) (m : nat * nat) : text :=
  firstn (fst m) format ++ ["%"; "Z"]%char ++ skipn (snd m) format.

(** timelib.py 1232-1256, [_strftime] for one time, with [seconds_bump] as [None]
    (timelib.py 239-261 is the same code). *)
Definition strftime (show : printer) (format : text) (year month day hour minute : Z) (second : Q)
    (weekday yday : Z) (uses_ms : option (nat * nat)) : text :=
  match uses_ms with
  | Some m =>
      let second := qtrunc (second * 1000000) in
      let usec := (second mod 1000000)%Z in
      let second := (second / 1000000)%Z in
      c_strftime show (put_zone format m)
        {| tm_year := year; tm_mon := month; tm_mday := day; tm_hour := hour; tm_min := minute;
           tm_sec := second; tm_wday := weekday; tm_yday := yday; tm_zone := six_digits usec |}
  | None =>
      c_strftime show format
        {| tm_year := year; tm_mon := month; tm_mday := day; tm_hour := hour; tm_min := minute;
           tm_sec := qtrunc second; tm_wday := weekday; tm_yday := yday; tm_zone := [] |}
  end.

(** timelib.py 652-658, [Time.utc_strftime] for one time. *)
Definition utc_strftime (show : printer) (ts : timescale) (t : time) (format : text) : text :=
  let '(offset, uses_ms) := strftime_offset_seconds format in
  let u := utc_tuple ts t offset in
  let start_of_year := julian_day (f_year u) 1 1 (cutoff ts) in
  strftime show format (f_year u) (f_month u) (f_day u) (f_hour u) (f_minute u) (f_second u)
    (f_jd u mod 7) (f_jd u + 1 - start_of_year) uses_ms.

(** timelib.py 215-261, [Timescale._strftime] for one time, and 212-213, [_cal]. *)
Definition scale_strftime (show : printer) (cut : option Z) (format : text) (jd fraction : Q) : text :=
  let '(offset, ms) := strftime_offset_seconds format in
  let fraction := fraction + offset / DAY_S in
  let '(year, month, day, hour, minute, second) := calendar_tuple jd fraction cut in
  let weekday := strftime_weekday jd fraction in
  let yday := match format_uses_day_of_year format with
              | Some _ => strftime_yday jd fraction year cut
              | None => 0%Z
              end in
  strftime show format year month day hour minute second weekday yday ms.

(** timelib.py 712-744, the calendar and text of the scales TAI and TT. TDB and UT1
    differ in the fraction, which other files model. *)
Definition tai_calendar (ts : timescale) (t : time) := calendar_tuple (whole t) (tai_fraction t) (cutoff ts).
Definition tt_calendar (ts : timescale) (t : time) := calendar_tuple (whole t) (tt_fraction t) (cutoff ts).
Definition tai_strftime (show : printer) (ts : timescale) (t : time) (format : text) : text :=
  scale_strftime show (cutoff ts) format (whole t) (tai_fraction t).
Definition tt_strftime (show : printer) (ts : timescale) (t : time) (format : text) : text :=
  scale_strftime show (cutoff ts) format (whole t) (tt_fraction t).
