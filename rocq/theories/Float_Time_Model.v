(** Model of [Time] and [Timescale] of skyfield/timelib.py in binary64
    arithmetic: every [+ - * /] rounds as IEEE 754 round-to-nearest-even does.
    Integer arrays are integers, float arrays are [b64]. *)
From Coq Require Import ZArith List Bool.
From Coq.Floats Require Import SpecFloat.
From Verif Require Import Float64 Cal_Model.
Import ListNotations.
Open Scope Z_scope.

(** constants.py 7, [DAY_S = 86400.0]. *)
Definition DAY_S64 : b64 := of_Z 86400.
(** timelib.py 75, [32.184 / DAY_S]; the literal is the float nearest to 32.184. *)
Definition c_32_184 : b64 := fdiv (of_Z 32184) (of_Z 1000).
Definition tt_minus_tai64 : b64 := fdiv c_32_184 DAY_S64.

(** [numpy.interp(x, xp, fp)] for one finite [x], after NumPy's [arr_interp]
    (numpy/core/src/multiarray/compiled_base.c): the left and right end values
    outside the table, the tabulated value at a node, otherwise
    [slope * (x - xp[j]) + fp[j]]. No fused multiply-add. NaN results, for which
    NumPy retries from the other end, do not arise with finite tables. *)
Fixpoint interp_from64 (x x0 y0 : b64) (rest : list (b64 * b64)) : b64 :=
  match rest with
  | [] => y0
  | (x1, y1) :: r =>
      if fltb x x1 then
        if feqb x0 x then y0
        else fadd (fmul (fdiv (fsub y1 y0) (fsub x1 x0)) (fsub x x0)) y0
      else interp_from64 x x1 y1 r
  end.
Definition interp64 (x : b64) (tbl : list (b64 * b64)) : b64 :=
  match tbl with
  | [] => S754_nan
  | (x0, y0) :: r => if fltb x x0 then y0 else interp_from64 x x0 y0 r
  end.

(** timelib.py 99-127, the leap tables built by [Timescale.__init__]. *)
Record timescale64 := { leap_utc64 : list b64; leap_off64 : list b64; leap_tai64 : list b64;
                        cutoff64 : option Z }.
Definition isinf64 (x : b64) : bool := match x with S754_infinity _ => true | _ => false end.
Definition build_tables64 (dates offs : list b64) (cut : option Z) : timescale64 :=
  let u := flat_map (fun d => [fadd (fmul d DAY_S64) (of_Z (-1)); fadd (fmul d DAY_S64) (of_Z 0)]) dates in
  let o := flat_map (fun k => [fadd k (of_Z (-1)); fadd k (of_Z 0)]) offs in
  {| leap_utc64 := u; leap_off64 := o; leap_tai64 := map (fun p => fadd (fst p) (snd p)) (combine u o);
     cutoff64 := cut |}.
Definition timescale_init64 (dates offs : list b64) (cut : option Z) : option timescale64 :=
  match rev dates with
  | [] => None
  | last :: _ =>
      Some (if isinf64 last then build_tables64 (removelast (skipn 2 dates)) (skipn 3 offs) cut
            else build_tables64 dates offs cut)
  end.

(** timelib.py 424-430, a scalar [Time], with the attributes that constructors
    set by hand. *)
Record time64 := { whole64 : b64; fraction64 : b64;
                   c_tai_fraction64 : option b64; c_tai_seconds64 : option (b64 * b64) }.

(** timelib.py 181-203, [Timescale._utc] for integer year, month and day. *)
Definition utc64 (ts : timescale64) (year month day : Z) (hour minute second : b64) : time64 :=
  let seconds := fmul (fsub (of_Z (julian_day year month day (cutoff64 ts))) (fl 1 (-1))) DAY_S64 in
  let '(seconds, sfr) := fdivmod seconds (of_Z 1) in
  let seconds := fadd seconds (interp64 seconds (combine (leap_utc64 ts) (leap_off64 ts))) in
  let more := fadd (fadd (fmul hour (of_Z 3600)) (fmul minute (of_Z 60))) second in
  let '(seconds2, sfr) := fdivmod (fadd sfr more) (of_Z 1) in
  let seconds := fadd seconds seconds2 in
  let '(whole, fraction) := fdivmod seconds DAY_S64 in
  let fraction := fadd fraction sfr in
  let fraction := fdiv fraction DAY_S64 in
  {| whole64 := whole; fraction64 := fadd fraction tt_minus_tai64;
     c_tai_fraction64 := Some fraction; c_tai_seconds64 := Some (seconds, sfr) |}.

(** timelib.py 294-299 and 315-318, [tai_jd] and [tt_jd] with both parts given. *)
Definition tai_jd64 (jd fraction : b64) : time64 :=
  {| whole64 := jd; fraction64 := fadd fraction tt_minus_tai64;
     c_tai_fraction64 := Some fraction; c_tai_seconds64 := None |}.
Definition tt_jd64 (jd fraction : b64) : time64 :=
  {| whole64 := jd; fraction64 := fraction; c_tai_fraction64 := None; c_tai_seconds64 := None |}.

(** timelib.py 829-831, [tai_fraction]; 867-873, [tai] and [tt]. *)
Definition tai_fraction64 (t : time64) : b64 :=
  match c_tai_fraction64 t with Some f => f | None => fsub (fraction64 t) tt_minus_tai64 end.
Definition tai64 (t : time64) : b64 := fadd (whole64 t) (tai_fraction64 t).
Definition tt64 (t : time64) : b64 := fadd (whole64 t) (fraction64 t).

(** timelib.py 696-702, [_tai_seconds]. *)
Definition tai_seconds64 (t : time64) : b64 * b64 :=
  match c_tai_seconds64 t with
  | Some p => p
  | None =>
      let '(seconds, fr) := fdivmod (fmul (whole64 t) DAY_S64) (of_Z 1) in
      let '(seconds2, fr) := fdivmod (fadd fr (fmul (tai_fraction64 t) DAY_S64)) (of_Z 1) in
      (fadd seconds seconds2, fr)
  end.

(** timelib.py 685-694, [_utc_seconds]. *)
Definition utc_seconds64 (ts : timescale64) (t : time64) (offset : b64) : b64 * b64 * bool :=
  let '(seconds, fr) := tai_seconds64 t in
  let '(seconds2, fr) := fdivmod (fadd fr offset) (of_Z 1) in
  let seconds := fadd seconds seconds2 in
  let tai_minus_utc := interp64 seconds (combine (leap_tai64 ts) (leap_off64 ts)) in
  let '(tai_minus_utc, is_leap) := fdivmod tai_minus_utc (of_Z 1) in
  (fsub seconds tai_minus_utc, fr, fltb (of_Z 0) is_leap).

(** timelib.py 660-683, [_utc_tuple(offset)]; the second is returned as a float. *)
Record utc_fields64 := { g_year : Z; g_month : Z; g_day : Z; g_hour : Z; g_minute : Z; g_second : b64 }.
Definition utc_tuple64 (ts : timescale64) (t : time64) (offset : b64) : utc_fields64 :=
  let '(second, sfr, is_leap) := utc_seconds64 ts t offset in
  let second := ftruncZ second - b2z is_leap in
  let jd := (second + 43200) / 86400 in
  let second := (second + 43200) mod 86400 in
  let '(year, month, day) := compute_calendar_date jd (cutoff64 ts) in
  let minute := second / 60 in
  let second := second mod 60 in
  let hour := minute / 60 in
  let minute := minute mod 60 in
  let second := second + b2z is_leap in
  {| g_year := year; g_month := month; g_day := day; g_hour := hour; g_minute := minute;
     g_second := fadd (of_Z second) sfr |}.
(** timelib.py 822-827, [Time.utc]. *)
Definition time_utc64 (ts : timescale64) (t : time64) : utc_fields64 := utc_tuple64 ts t (of_Z 0).

(** timelib.py 447-457, [__getitem__]: [tai_fraction] is carried along,
    [_tai_seconds] is not. *)
Definition drop_cache64 (t : time64) : time64 :=
  {| whole64 := whole64 t; fraction64 := fraction64 t;
     c_tai_fraction64 := c_tai_fraction64 t; c_tai_seconds64 := None |}.

(** timelib.py 914-947, [__eq__], [__lt__] and [__sub__] of two times. *)
Definition sub64 (a b : time64) : b64 :=
  fadd (fsub (whole64 a) (whole64 b)) (fsub (fraction64 a) (fraction64 b)).
Definition eq64 (a b : time64) : bool := feqb (sub64 a b) (of_Z 0).
Definition lt64 (a b : time64) : bool :=
  fltb (fadd (fsub (fraction64 a) (fraction64 b)) (fsub (whole64 a) (whole64 b))) (of_Z 0).

(** CPython's hash of a float ([_Py_HashDouble], Python/pyhash.c): the number
    modulo the prime [2^61 - 1], with its sign, and -2 in place of -1. Since
    [2^61 = 1] modulo that prime, [m * 2^e] is [m * 2^(e mod 61)]. *)
Definition hash_prime : Z := 2 ^ 61 - 1.
Definition hash_float (x : b64) : Z :=
  match x with
  | S754_finite s m e =>
      let h := (Zpos m * 2 ^ (e mod 61)) mod hash_prime in
      let h := if s then - h else h in
      if h =? -1 then -2 else h
  | S754_infinity s => if s then -314159 else 314159
  | _ => 0
  end.
(** timelib.py 949-954, [__hash__]. *)
Definition hash64 (t : time64) : Z := hash_float (tt64 t).

(** timelib.py 1037-1048, the day number found by [calendar_tuple]. *)
Definition calendar_day64 (jd fraction : b64) : Z :=
  let '(whole1, fraction1) := fdivmod jd (of_Z 1) in
  let '(whole2, _) := fdivmod (fadd (fadd fraction1 fraction) (fl 1 (-1))) (of_Z 1) in
  ftruncZ (fadd whole1 whole2).
(** timelib.py 232, the weekday expression of [_strftime]. *)
Definition strftime_weekday64 (jd fraction : b64) : Z :=
  ftruncZ (fadd (fadd fraction (fl 1 (-1))) jd) mod 7.
