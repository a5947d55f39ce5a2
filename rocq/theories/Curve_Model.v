(** Model of skyfield/curvelib.py, of the Delta T part of timelib.py and of
    data/iers.py, over real numbers. One date at a time. *)
From Coq Require Import Reals ZArith List Bool.
From Verif Require Import Real_Math.
Import ListNotations.
Open Scope R_scope.

(** [numpy.interp(x, xs, ys)] for increasing [xs]: the points are pairs. *)
Fixpoint interp_from (x x0 y0 : R) (rest : list (R * R)) : R :=
  match rest with
  | [] => y0
  | (x1, y1) :: r => if Rlt_dec x x1 then y0 + (x - x0) * ((y1 - y0) / (x1 - x0)) else interp_from x x1 y1 r
  end.
Definition interp (x : R) (pts : list (R * R)) : R :=
  match pts with [] => 0 | (x0, y0) :: r => if Rlt_dec x x0 then y0 else interp_from x x0 y0 r end.
(** The same with [left] and [right] set to nan; [None] is nan. *)
Definition interp_nan (x : R) (pts : list (R * R)) : option R :=
  match pts with
  | [] => None
  | (x0, y0) :: r => if Rlt_dec x x0 then None else if Rlt_dec (fst (last pts (x0, y0))) x then None else Some (interp_from x x0 y0 r)
  end.

(** curvelib.py 8-18: a column of the table of a [Splines]; [co] holds the
    coefficients, highest power first. *)
Record row := Row { lo : R; hi : R; co : list R }.
Definition width (r : row) : R := hi r - lo r.
(** curvelib.py 20-29, [Splines.__call__]. [next] raises StopIteration when there
    is no coefficient at all; here the value is 0. *)
Definition horner (t : R) (cs : list R) : R :=
  match cs with [] => 0 | c :: cs => fold_left (fun value c => value * t + c) cs c end.
Definition row_at (r : row) (x : R) : R := horner ((x - lo r) / width r) (co r).
Definition row_index (rows : list row) (x : R) : nat :=
  Z.to_nat (rfloor (interp x (combine (map lo rows) (map INR (seq 0 (length rows)))))).
Definition no_row : row := Row 0 1 [].
Definition splines (rows : list row) (x : R) : R := row_at (nth (row_index rows x) rows no_row) x.
(** curvelib.py 31-38, [Splines.derivative]. *)
Fixpoint scaled (w : R) (cs : list R) : list R :=
  match cs with
  | [] | [_] => []
  | c :: rest => INR (length rest) * c / w :: scaled w rest
  end.
Definition derivative_row (r : row) : row := Row (lo r) (hi r) (scaled (width r) (co r)).
Definition derivative (rows : list row) : list row := map derivative_row rows.
(** curvelib.py 40-48. *)
Definition build_spline_given_ends (x0 y0 slope0 x1 y1 slope1 : R) : row :=
  let width := x1 - x0 in
  let slope0 := slope0 * width in
  let slope1 := slope1 * width in
  Row x0 x1 [slope0 + slope1 + 2 * y0 - 2 * y1; -2 * slope0 - slope1 - 3 * y0 + 3 * y1; slope0; y0].

(** timelib.py 1088-1089. *)
Definition parabola : row := Row 1825 1925 [0; 325 / 10; 0; -320].
(** [(tt - 1721045.0) / 365.25]. *)
Definition year_of (tt : R) : R := (tt - 1721045) / (36525 / 100).
(** [numpy.searchsorted]: the first index whose element is not below [x]. *)
Fixpoint searchsorted (l : list R) (x : R) : nat :=
  match l with [] => 0%nat | a :: r => if Rlt_dec a x then S (searchsorted r x) else 0%nat end.
(** timelib.py 1158-1159: the slope at the end of the daily table. *)
Definition lookback (dt : list R) : nat := Nat.min 366 (length dt).
Definition end_slope (dt : list R) : R :=
  (last dt 0 - nth (length dt - lookback dt) dt 0) * INR (lookback dt) / 365.
(** timelib.py 1094-1174, [build_delta_t], with the table S15 and the daily table
    as arguments. The result is the table of the long-term curve. [None] is an
    exception: an empty table, a daily table that starts before S15, or a row of
    S15 that is not cubic. *)
Definition build_delta_t (s15 : list row) (tt dt : list R) : option (list row) :=
  match s15, tt, dt with
  | first :: _, tt0 :: _, dt0 :: _ =>
      let p := splines [parabola] in
      let pd := splines (derivative [parabola]) in
      let s := splines s15 in
      let sd := splines (derivative s15) in
      let long_term_parabola_width := width parabola in
      let patch_width := 800 in
      let x1 := lo first in
      let x0 := x1 - patch_width in
      let left := build_spline_given_ends x0 (p x0) (pd x0) x1 (s x1) (sd x1) in
      let x1 := x0 in
      let x0 := x1 - long_term_parabola_width in
      let far_left := build_spline_given_ends x0 (p x0) (pd x0) x1 (p x1) (pd x1) in
      let x := year_of tt0 in
      let i := searchsorted (map lo s15) x in
      match rev (firstn i s15) with
      | Row x0 x1 [a3; a2; a1; a0] :: before =>
          let t := (x - x0) / (x1 - x0) in
          let a1 := a1 + (dt0 - s x) / t in
          let adjusted := Row x0 x1 [a3; a2; a1; a0] in
          let x0 := year_of (last tt 0) in
          let x1 := IZR (rfloor ((x0 + patch_width) / 100)) * 100 in
          let right := build_spline_given_ends x0 (last dt 0) (end_slope dt) x1 (p x1) (pd x1) in
          let x0 := x1 in
          let x1 := x0 + long_term_parabola_width in
          let far_right := build_spline_given_ends x0 (p x0) (pd x0) x1 (p x1) (pd x1) in
          Some (far_left :: left :: rev before ++ [adjusted; right; far_right])
      | _ => None
      end
  | _, _, _ => None
  end.
(** timelib.py 1069-1086, [DeltaT.__call__]. *)
Definition delta_t (curve : list row) (tt dt : list R) (x : R) : R :=
  match interp_nan x (combine tt dt) with Some y => y | None => splines curve (year_of x) end.

(** data/delta_t.npz, Table-S15.2020.txt: lower and upper year, and the coefficients
    in thousandths. Each is the decimal number whose nearest float is stored. *)
Definition s15_thousandths : list (Z * Z * list Z) := ([
   ((-720), (-100), [409160; 776247; -9999586; 20371848]); ((-100), 400, [-503433; 1303151; -5822270; 11557668]); (400, 1000, [1085087; -298291; -5671519; 6535116]);
   (1000, 1150, [-25346; 184811; -753210; 1650393]); (1150, 1300, [-24641; 108771; -459628; 1056647]); (1300, 1500, [-29414; 61953; -421345; 681149]);
   (1500, 1600, [16197; -6572; -192841; 292343]); (1600, 1650, [3018; 10505; -78697; 109127]); (1650, 1720, [-2127; 38333; -68089; 43952]);
   (1720, 1800, [-37939; 41731; 2507; 12068]); (1800, 1810, [1918; -1126; -3481; 18367]); (1810, 1820, [-3812; 4629; 21; 15678]);
   (1820, 1830, [3250; -6806; -2157; 16516]); (1830, 1840, [-96; 2944; -6018; 10804]); (1840, 1850, [-539; 2658; -416; 7634]);
   (1850, 1855, [-883; 261; 1642; 9338]); (1855, 1860, [1558; -2389; -486; 10357]); (1860, 1865, [-2477; 2284; -591; 9040]);
   (1865, 1870, [2720; -5148; -3456; 8255]); (1870, 1875, [-914; 3011; -5593; 2371]); (1875, 1880, [-39; 269; -2314; -1126]);
   (1880, 1885, [563; 152; -1893; -3210]); (1885, 1890, [-1438; 1842; 101; -4388]); (1890, 1895, [1871; -2474; -531; -3884]);
   (1895, 1900, [-232; 3138; 134; -5017]); (1900, 1905, [-1257; 2443; 5715; -1977]); (1905, 1910, [720; -1329; 6828; 4923]);
   (1910, 1915, [-825; 831; 6330; 11142]); (1915, 1920, [262; -1643; 5518; 17479]); (1920, 1925, [8; -856; 3020; 21617]);
   (1925, 1930, [127; -831; 1333; 23789]); (1930, 1935, [142; -449; 52; 24418]); (1935, 1940, [702; -22; -419; 24164]);
   (1940, 1945, [-1106; 2086; 1645; 24426]); (1945, 1950, [614; -1232; 2499; 27050]); (1950, 1953, [-277; 220; 1127; 28932]);
   (1953, 1956, [631; -610; 737; 30002]); (1956, 1959, [-799; 1282; 1409; 30760]); (1959, 1962, [507; -1115; 1577; 32652]);
   (1962, 1965, [199; 406; 868; 33621]); (1965, 1968, [-414; 1002; 2275; 35093]); (1968, 1971, [202; -242; 3035; 37956]);
   (1971, 1974, [-229; 364; 3157; 40951]); (1974, 1977, [172; -323; 3199; 44244]); (1977, 1980, [-192; 193; 3069; 47291]);
   (1980, 1983, [81; -384; 2878; 50361]); (1983, 1986, [-165; -140; 2354; 52936]); (1986, 1989, [448; -637; 1577; 54984]);
   (1989, 1992, [-276; 708; 1648; 56373]); (1992, 1995, [110; -121; 2235; 58453]); (1995, 1998, [-313; 210; 2324; 60678]);
   (1998, 2001, [109; -729; 1804; 62898]); (2001, 2004, [199; -402; 674; 64083]); (2004, 2007, [-17; 194; 466; 64553]);
   (2007, 2010, [-84; 144; 804; 65197]); (2010, 2013, [128; -109; 839; 66061]); (2013, 2016, [-95; 277; 1007; 66920]);
   (2016, 2019, [-139; -7; 1277; 68109])])%Z.
Definition s15_row (r : Z * Z * list Z) : row :=
  let '(a, b, cs) := r in Row (IZR a) (IZR b) (map (fun c => IZR c / 1000) cs).
Definition s15_shipped : list row := map s15_row s15_thousandths.

(** timelib.py 1050-1067, [tdb_minus_tt]; [t] is in centuries from J2000. *)
Definition tdb_terms (t : R) : R :=
  1657 / 10 ^ 6 * sin (6283076 / 10 ^ 4 * t + 62401 / 10 ^ 4)
  + 22 / 10 ^ 6 * sin (5753385 / 10 ^ 4 * t + 42970 / 10 ^ 4)
  + 14 / 10 ^ 6 * sin (12566152 / 10 ^ 4 * t + 61969 / 10 ^ 4)
  + 5 / 10 ^ 6 * sin (6069777 / 10 ^ 4 * t + 40212 / 10 ^ 4)
  + 5 / 10 ^ 6 * sin (529691 / 10 ^ 4 * t + 4444 / 10 ^ 4)
  + 2 / 10 ^ 6 * sin (213299 / 10 ^ 4 * t + 55431 / 10 ^ 4)
  + 10 / 10 ^ 6 * t * sin (6283076 / 10 ^ 4 * t + 42490 / 10 ^ 4).
Definition tdb_minus_tt (jd_tdb fraction_tdb : R) : R := tdb_terms ((jd_tdb - 2451545 + fraction_tdb) / 36525).
(** A [Time] with the fractions that constructors store by hand (timelib.py 424-430). *)
Record rtime := RTime { whole : R; tt_fraction : R; c_tdb_fraction : option R; c_ut1_fraction : option R }.
(** timelib.py 867-881 and 829-848. *)
Definition tt (t : rtime) : R := whole t + tt_fraction t.
Definition tdb_fraction (t : rtime) : R :=
  match c_tdb_fraction t with
  | Some f => f
  | None => tt_fraction t + tdb_minus_tt (whole t) (tt_fraction t) / 86400
  end.
Definition tdb (t : rtime) : R := whole t + tdb_fraction t.
Definition ut1_fraction (delta_t_function : R -> R) (t : rtime) : R :=
  match c_ut1_fraction t with
  | Some f => f
  | None => tt_fraction t - delta_t_function (tt t) / 86400
  end.
Definition ut1 (delta_t_function : R -> R) (t : rtime) : R := whole t + ut1_fraction delta_t_function t.
(** timelib.py 346-351, [tdb_jd]. [_normalize_jd_and_fraction] keeps jd + fraction
    and the model starts after it. *)
Definition tdb_jd (jd fraction : R) : rtime :=
  RTime jd (fraction - tdb_minus_tt jd fraction / 86400) (Some fraction) None.
(** timelib.py 331-344, [tdb], after the calendar date is turned into a Julian date. *)
Definition tdb_calendar (jd : R) : rtime := RTime jd (- tdb_minus_tt jd 0 / 86400) None None.
(** timelib.py 367-387, [ut1_jd]. *)
Definition ut1_jd (delta_t_function : R -> R) (jd : R) : rtime :=
  let ut1 := jd in
  let tt_approx := ut1 in
  let delta_t_approx := delta_t_function tt_approx in
  let tt_approx := ut1 + delta_t_approx / 86400 in
  let delta_t_approx := delta_t_function tt_approx in
  let delta_t_approx := delta_t_approx / 86400 in
  RTime ut1 delta_t_approx None (Some (0 * ut1)).

(** data/iers.py 37-55, [build_timescale_arrays]. [round7] is [round(7)]; its rule
    for ties is not modelled. *)
Definition round7 (x : R) : R := IZR (rfloor (x * 10 ^ 7 + 1 / 2)) / 10 ^ 7.
Fixpoint diff (l : list R) : list R :=
  match l with a :: ((b :: _) as r) => (b - a) :: diff r | _ => [] end.
Fixpoint cumsum_from (acc : R) (m : list bool) : list R :=
  match m with [] => [] | b :: r => let acc := acc + (if b then 1 else 0) in acc :: cumsum_from acc r end.
Definition Rgtb (a b : R) : bool := if Rlt_dec b a then true else false.
Definition mask_of (dut1 : list R) : list bool := false :: map (fun d => Rgtb d (9 / 10)) (diff dut1).
Fixpoint masked {A} (l : list A) (m : list bool) : list A :=
  match l, m with a :: l, b :: m => if b then a :: masked l m else masked l m | _, _ => [] end.
Definition build_timescale_arrays (utc_mjd dut1 : list R) : list R * list R * list R * list R :=
  let leap_second_mask := mask_of dut1 in
  let tt_minus_utc := map (fun n => n + 32184 / 1000 + 12) (cumsum_from 0 leap_second_mask) in
  let daily_tt := map (fun p => fst p + snd p / 86400 + 4800001 / 2) (combine utc_mjd tt_minus_utc) in
  let daily_delta_t := map (fun p => round7 (fst p - snd p)) (combine tt_minus_utc dut1) in
  let leap_dates := masked utc_mjd leap_second_mask in
  let first_leap := match leap_dates with a :: _ => a | [] => 0 end in
  let more_leaps := filter (fun mjd => Rgtb first_leap mjd) [41499; 41683] in
  let leap_dates := map (fun d => d + 4800001 / 2) (more_leaps ++ leap_dates) in
  let leap_offsets := map (fun i => 11 + INR i) (seq 0 (length leap_dates)) in
  (daily_tt, daily_delta_t, leap_dates, leap_offsets).
