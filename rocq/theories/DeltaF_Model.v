(** Model in binary64 of [DeltaT] of skyfield/timelib.py. One date at a time. *)
From Coq Require Import ZArith List.
From Coq.Floats Require Import SpecFloat.
From Verif Require Import Float64 Float_Time_Model SplF_Model.
Import ListNotations.
Open Scope Z_scope.

(** [numpy.interp(x, xp, fp, nan, nan)] for one finite [x], after NumPy's [arr_interp]:
    nan before the first and after the last node. *)
Definition interp_nan64 (x : b64) (tbl : list (b64 * b64)) : b64 :=
  match tbl with
  | [] => S754_nan
  | (x0, y0) :: r => if fltb x x0 then S754_nan else if fltb (fst (last tbl (x0, y0))) x then S754_nan else interp_from64 x x0 y0 r
  end.
Definition isnan64 (x : b64) : bool := match x with S754_nan => true | _ => false end.
(** timelib.py 1084, [(tt - 1721045.0) / 365.25]. *)
Definition year_of64 (tt : b64) : b64 := fdiv (fsub tt (of_Z 1721045)) (fl 1461 (-2)).
(** timelib.py 1069-1086, [DeltaT.__call__], for one date: the daily table is
    [table_tt] and [table_delta_t], the long-term function is the curve [curve]. *)
Definition delta_t64 (curve : list row64) (table_tt table_delta_t : list b64) (tt : b64) : b64 :=
  let delta_t := interp_nan64 tt (combine table_tt table_delta_t) in
  if isnan64 delta_t then splines64 curve (year_of64 tt) else delta_t.
