(** UTC, written from its definition and independent of the code: a list of
    civil days (given by Julian day number) that begin just after a leap second,
    and the TAI-UTC difference [base] in force before the first of them. *)
From Coq Require Import ZArith QArith List Bool.
From Verif Require Import Cal_Spec Time_Model.
Import ListNotations.
Open Scope Z_scope.

Fixpoint increasing (l : list Z) : Prop :=
  match l with
  | a :: r => match r with b :: _ => a < b | [] => True end /\ increasing r
  | [] => True
  end.

(** Number of leap seconds inserted before day [J] begins. *)
Fixpoint leaps_before (ns : list Z) (J : Z) : Z :=
  match ns with
  | [] => 0
  | n :: r => (if n <=? J then 1 else 0) + leaps_before r J
  end.

(** Day [J] ends in a leap second when the next day is in the list. *)
Definition ends_in_leap (ns : list Z) (J : Z) : bool := existsb (Z.eqb (J + 1)) ns.
Definition day_length (ns : list Z) (J : Z) : Z := 86400 + (if ends_in_leap ns J then 1 else 0).

(** TAI second (counted from Julian date 0.0) of second [sod] of UTC day [J].
    Day [J] begins half a day before the integer Julian date. *)
Definition tai_second (ns : list Z) (base J sod : Z) : Z :=
  86400 * J - 43200 + base + leaps_before ns J + sod.

(** Hour, minute and second shown for a second of the day. *)
Definition clock (sod : Z) : Z * Z * Z :=
  if sod =? 86400 then (23, 59, 60) else (sod / 3600, sod / 60 mod 60, sod mod 60).

(** Valid clock readings on a day that does or does not end in a leap second. *)
Definition valid_clock (leap : bool) (h mi : Z) (s : Q) : Prop :=
  0 <= h <= 23 /\ 0 <= mi <= 59 /\ (0 <= s)%Q /\
  ((s < 60)%Q \/ (leap = true /\ h = 23 /\ mi = 59 /\ (s < 61)%Q)).

(** The arrays a [Timescale] is given for such a leap second history. *)
Definition leap_dates_of (ns : list Z) : list xdate :=
  map (fun n => Fin (inject_Z n - (1 # 2))) ns.
Definition leap_offsets_of (ns : list Z) (base : Z) : list Q :=
  map (fun i => inject_Z (base + 1 + Z.of_nat i)) (seq 0 (length ns)).

Definition timescale_for (ns : list Z) (base : Z) (cut : option Z) (ts : timescale) : Prop :=
  increasing ns /\ timescale_init (leap_dates_of ns) (leap_offsets_of ns base) cut = Some ts.

(** Cutoffs for which calendar dates are unambiguous (see C03). *)
Definition good_cutoff (cut : option Z) : Prop :=
  match cut with None => True | Some c => day_number Gregorian 200 3 1 <= c end.

(** A TAI instant in seconds since Julian date 0.0. *)
Definition tai_instant (t : time) : Q := (tai t * 86400)%Q.

(** Order of displayed UTC: date, then clock. *)
Definition reading := (Z * Z * Z * Z * Z * Q)%type.
Definition reading_of (u : utc_fields) : reading :=
  (f_year u, f_month u, f_day u, f_hour u, f_minute u, f_second u).
Definition reading_lt (a b : reading) : Prop :=
  let '(y1, m1, d1, h1, i1, s1) := a in
  let '(y2, m2, d2, h2, i2, s2) := b in
  date_lt (y1, m1, d1) (y2, m2, d2) \/
  ((y1, m1, d1) = (y2, m2, d2) /\
   (h1 < h2 \/ (h1 = h2 /\ (i1 < i2 \/ (i1 = i2 /\ (s1 < s2)%Q))))).

(** What it means for fields to be the UTC reading of an instant. *)
Definition reads (ns : list Z) (base : Z) (cut : option Z) (instant : Q) (u : utc_fields) : Prop :=
  exists J sod,
    0 <= sod < day_length ns J /\
    f_jd u = J /\
    exists_under cut (f_year u, f_month u, f_day u) /\
    civil_day_number cut (f_year u, f_month u, f_day u) = J /\
    (f_hour u, f_minute u, f_isec u) = clock sod /\
    (0 <= f_sfr u < 1)%Q /\
    (inject_Z (tai_second ns base J sod) + f_sfr u == instant)%Q.

(** Times a program can make with the public constructors and operators. *)
Inductive built (ts : timescale) : time -> Prop :=
| built_utc y m d h mi s : built ts (utc ts y m d h mi s)
| built_tai_jd jd f : built ts (tai_jd jd f)
| built_tt_jd jd f : built ts (tt_jd jd f)
| built_J y : built ts (from_J y)
| built_tai_cal y m d h mi s : built ts (tai_cal (cutoff ts) y m d h mi s)
| built_tt_cal y m d h mi s : built ts (tt_cal (cutoff ts) y m d h mi s)
| built_utcq y m d h mi s : built ts (utc_dayq ts y m d h mi s)
| built_tai_calq y m d h mi s : built ts (tai_calq (cutoff ts) y m d h mi s)
| built_tt_calq y m d h mi s : built ts (tt_calq (cutoff ts) y m d h mi s)
| built_utc_jd w f : built ts (utc_jd ts w f)
| built_from_datetime d : built ts (from_datetime ts d)
| built_add t x : built ts t -> built ts (time_add t x)
| built_minus t x : built ts t -> built ts (time_minus t x)
| built_getitem l i t : (forall u, In u l -> built ts u) -> time_getitem l i = Some t -> built ts t
| built_linspace t0 t1 num t : built ts t0 -> built ts t1 -> In t (time_linspace t0 t1 num) -> built ts t.

(** Printed fields with [P] steps per second show the instant [shown]. *)
Definition shows (ns : list Z) (base : Z) (cut : option Z) (P : Z) (i : iso_fields) (shown : Q) : Prop :=
  exists J sod,
    0 <= sod < day_length ns J /\
    exists_under cut (i_year i, i_month i, i_day i) /\
    civil_day_number cut (i_year i, i_month i, i_day i) = J /\
    (i_hour i, i_minute i, i_second i) = clock sod /\
    0 <= i_fraction i < P /\
    (shown == inject_Z (tai_second ns base J sod) + inject_Z (i_fraction i) / inject_Z P)%Q.

(** [shown] is the nearest multiple of [1/P] seconds, ties going up. *)
Definition nearest (P : Z) (shown instant : Q) : Prop :=
  (exists k : Z, shown * inject_Z P == inject_Z k)%Q /\
  (shown - (1 # 2) / inject_Z P <= instant /\ instant < shown + (1 # 2) / inject_Z P)%Q.

(** The instant lies in an inserted leap second. *)
Definition in_leap_second (ns : list Z) (base : Z) (instant : Q) : Prop :=
  exists n, In n ns /\
    (inject_Z (tai_second ns base n 0 - 1) <= instant)%Q /\ (instant < inject_Z (tai_second ns base n 0))%Q.

(** The TAI-UTC offset in force on a date: that of the last entry of the file
    not after the date, or the first entry's before the file begins. *)
Fixpoint sorted_dates (l : list Q) : Prop :=
  match l with
  | a :: r => match r with b :: _ => (a < b)%Q | [] => True end /\ sorted_dates r
  | [] => True
  end.
Fixpoint offset_in_force (entries : list (Q * Q)) (dflt jd : Q) : Q :=
  match entries with
  | [] => dflt
  | (m, o) :: r => if Qle_bool (m + (4800001 # 2)) jd then offset_in_force r o jd else dflt
  end.
