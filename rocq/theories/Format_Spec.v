(** What the text of a time should be, written from the documentation of
    [strftime]: every directive of the format is replaced by what it stands for,
    and the time is rounded to the smallest unit shown. *)
From Coq Require Import ZArith QArith List Bool String Ascii.
From Verif Require Import Cal_Spec Time_Model Time_Spec Format_Model.
Import ListNotations.
Open Scope Z_scope.

(** A format as a list of pieces, and the text that the programmer writes for it. *)
Definition write_piece (p : piece) : text :=
  match p with Lit c => [c] | Dir fl c => "%"%char :: fl ++ [c] end.
Definition write (ps : list piece) : text := flat_map write_piece ps.

(** The flags and modifiers of the C library. *)
Definition strftime_flag (c : ascii) : bool := if in_dec ascii_dec c ["^"; "#"; "-"; "_"; "0"; "E"; "O"]%char then true else false.
(** Literal characters are not percent signs; directives have flags and a letter. *)
Definition proper (p : piece) : Prop :=
  match p with
  | Lit c => c <> "%"%char
  | Dir fl c => Forall (fun f => strftime_flag f = true) fl /\ strftime_flag c = false
  end.

(** The directive letters of a format. *)
Definition letter (p : piece) : list ascii := match p with Lit _ => [] | Dir _ c => [c] end.
Definition letters (ps : list piece) : list ascii := flat_map letter ps.
Definition shows_one_of (l : list ascii) (ps : list piece) : Prop := exists c, In c l /\ In c (letters ps).

(** The smallest unit that a format shows. *)
Inductive unit_shown := Microsecond | Second | Minute | Longer.
Definition smallest_unit (ps : list piece) (u : unit_shown) : Prop :=
  let micro := shows_one_of ["f"]%char ps in
  let second := shows_one_of ["S"; "T"; "X"; "c"; "r"]%char ps in
  let minute := shows_one_of ["M"; "R"]%char ps in
  match u with
  | Microsecond => micro
  | Second => ~ micro /\ second
  | Minute => ~ micro /\ ~ second /\ minute
  | Longer => ~ micro /\ ~ second /\ ~ minute
  end.

(** The expected text: literals unchanged, ['%%'] a percent sign, ['%f'] six digits,
    other directives as the C library prints them. *)
Definition expected (show : tm -> text -> ascii -> text) (t : tm) (usec : Z) (ps : list piece) : text :=
  flat_map (fun p => match p with
                     | Lit c => [c]
                     | Dir fl c => if Ascii.eqb c "%" then ["%"%char]
                                   else if Ascii.eqb c "f" then six_digits usec else show t fl c
                     end) ps.

(** What a C library does with a few directives. *)
Definition standard (show : tm -> text -> ascii -> text) : Prop :=
  (forall t fl, show t fl "%"%char = ["%"%char]) /\
  (forall t, show t [] "Z"%char = tm_zone t) /\
  (* the zone matters to no other directive but %z *)
  (forall t fl c z, c <> "Z"%char -> c <> "z"%char ->
     show {| tm_year := tm_year t; tm_mon := tm_mon t; tm_mday := tm_mday t; tm_hour := tm_hour t;
             tm_min := tm_min t; tm_sec := tm_sec t; tm_wday := tm_wday t; tm_yday := tm_yday t;
             tm_zone := z |} fl c = show t fl c).

(** The value of a six digit decimal text. *)
Definition value_of (s : text) : Z := fold_left (fun a c => 10 * a + (Z.of_nat (nat_of_ascii c) - 48)) s 0.

(** The clock fields of a struct shown with [P] steps per second. *)
Definition iso_of (t : tm) (fraction : Z) : iso_fields :=
  {| i_year := tm_year t; i_month := tm_mon t; i_day := tm_mday t; i_hour := tm_hour t;
     i_minute := tm_min t; i_second := tm_sec t; i_fraction := fraction |}.

(** Weekday and day of the year of a struct fit its date. *)
Definition day_fields (cut : option Z) (t : tm) : Prop :=
  let J := civil_day_number cut (tm_year t, tm_mon t, tm_mday t) in
  tm_wday t = J mod 7 /\
  (exists_under cut (tm_year t, 1, 1) ->
   tm_yday t = J - civil_day_number cut (tm_year t, 1, 1) + 1).

(** [b] is the instant at which a UTC minute begins. *)
Definition minute_begins (ns : list Z) (base : Z) (J m : Z) (b : Q) : Prop :=
  0 <= m < 1440 /\ (b == inject_Z (tai_second ns base J (60 * m)))%Q.

(** Scales without leap seconds: seconds since Julian date 0.0 of a date and clock. *)
Definition scale_second (cut : option Z) (t : tm) : Z :=
  86400 * civil_day_number cut (tm_year t, tm_mon t, tm_mday t) - 43200
  + 3600 * tm_hour t + 60 * tm_min t + tm_sec t.
Definition clock_in_range (t : tm) : Prop :=
  0 <= tm_hour t < 24 /\ 0 <= tm_min t < 60 /\ 0 <= tm_sec t < 60.

(** How far the shown fields may be from the instant, in each case. *)
Definition shown_minute (cut : option Z) (t : tm) (J m : Z) : Prop :=
  exists_under cut (tm_year t, tm_mon t, tm_mday t) /\
  civil_day_number cut (tm_year t, tm_mon t, tm_mday t) = J /\
  tm_hour t = m / 60 /\ tm_min t = m mod 60.
Definition utc_rounding (ns : list Z) (base : Z) (cut : option Z) (u : unit_shown) (t : tm) (usec : Z)
    (instant : Q) : Prop :=
  match u with
  | Microsecond =>
      exists shown, shows ns base cut 1000000 (iso_of t usec) shown /\
        (shown <= instant + (1 # 10000000000000000) /\
         instant + (1 # 10000000000000000) < shown + (1 # 1000000))%Q
  | Second => exists shown, shows ns base cut 1 (iso_of t 0) shown /\ nearest 1 shown instant
  | Minute =>
      exists J m b, shown_minute cut t J m /\ minute_begins ns base J m b /\
        (b - 30 <= instant /\
         instant < b + (if ends_in_leap ns J && (m =? 1439)%Z then 31 else 30))%Q
  | Longer => exists shown, shows ns base cut 1 (iso_of t 0) shown /\ (shown <= instant < shown + 1)%Q
  end.

Definition scale_rounding (cut : option Z) (u : unit_shown) (t : tm) (usec : Z) (instant : Q) : Prop :=
  let s := inject_Z (scale_second cut t) in
  match u with
  | Microsecond =>
      0 <= usec < 1000000 /\
      (s + inject_Z usec / 1000000 <= instant + (1 # 10000000000000000) /\
       instant + (1 # 10000000000000000) < s + inject_Z usec / 1000000 + (1 # 1000000))%Q
  | Second => (s - (1 # 2) <= instant < s + (1 # 2))%Q
  | Minute => (s - inject_Z (tm_sec t) - 30 <= instant < s - inject_Z (tm_sec t) + 30)%Q
  | Longer => (s <= instant < s + 1)%Q
  end.

(** [%U], the number of the week of the year with Sunday first, as C prints it. Python
    turns a day of the year of 0 into the first day. *)
Definition week_of_year (t : tm) : Z := (Z.max (tm_yday t - 1) 0 + 7 - (tm_wday t + 1) mod 7) / 7.
Definition prints_weeks (show : tm -> text -> ascii -> text) : Prop :=
  forall t, show t [] "U"%char = [digit (week_of_year t / 10); digit (week_of_year t mod 10)].
(** [%r] shows the second. *)
Definition prints_r (show : tm -> text -> ascii -> text) : Prop :=
  forall t t', show t [] "r"%char = show t' [] "r"%char -> tm_sec t = tm_sec t'.

(** Formats that the theorems are about. *)
Definition covered (ps : list piece) : Prop :=
  Forall proper ps /\ ~ In "%"%char (letters ps) /\ ~ In "Z"%char (letters ps) /\ ~ In "z"%char (letters ps) /\
  ~ In "r"%char (letters ps) /\ (count_occ ascii_dec (letters ps) "f"%char <= 1)%nat.

Open Scope Q_scope.
(** A calendar tuple, and a text, that says an instant counted in seconds. *)
Definition tuple_says (cut : option Z) (c : Z * Z * Z * Z * Z * Q) (instant : Q) : Prop :=
  let '(y, m, d, h, mi, s) := c in
  exists_under cut (y, m, d) /\ (0 <= h <= 23)%Z /\ (0 <= mi <= 59)%Z /\ 0 <= s < 60 /\
  instant == inject_Z (86400 * civil_day_number cut (y, m, d) - 43200 + 3600 * h + 60 * mi) + s.
Definition text_says (show : printer) (cut : option Z) (ps : list piece) (s : text) (instant : Q) : Prop :=
  exists f usec, s = expected show f usec ps /\ clock_in_range f /\ exists_under cut (tm_year f, tm_mon f, tm_mday f) /\
    (forall u, smallest_unit ps u -> scale_rounding cut u f usec instant) /\
    (-43200 <= instant -> tm_wday f = (civil_day_number cut (tm_year f, tm_mon f, tm_mday f) mod 7)%Z) /\
    (In "j"%char (letters ps) -> exists_under cut (tm_year f, 1%Z, 1%Z) ->
     tm_yday f = (civil_day_number cut (tm_year f, tm_mon f, tm_mday f) - civil_day_number cut (tm_year f, 1%Z, 1%Z) + 1)%Z).
