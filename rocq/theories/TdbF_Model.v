(** Model in binary64 of TDB. One date at a time. The function [sin] of NumPy is a parameter. *)
From Coq Require Import ZArith.
From Verif Require Import Float64 Float_Time_Model EraF_Model.
Open Scope Z_scope.

Section Sine.
Variable sin : b64 -> b64.
(** timelib.py 1061-1066, the shape of a term. *)
Definition tdb_term64 (amplitude rate phase t : b64) : b64 := fmul amplitude (sin (fadd (fmul rate t) phase)).
(** timelib.py 1050-1067, [tdb_minus_tt]; the literals as floats. *)
Definition tdb_minus_tt64 (jd_tdb fraction_tdb : b64) : b64 :=
  let t := fdiv (fadd (fsub jd_tdb T0_64) fraction_tdb) (of_Z 36525) in
  let a0 := tdb_term64 (fl 7641563732534182 (-62)) (fl 5526652096160255 (-43)) (fl 7025728008688658 (-50)) t in
  let a1 := tdb_term64 (fl 6493253913945762 (-68)) (fl 5060730965257617 (-43)) (fl 4837991899702755 (-50)) t in
  let a2 := tdb_term64 (fl 8264141345021879 (-69)) (fl 5526652096160255 (-42)) (fl 6977089132713057 (-50)) t in
  let a3 := tdb_term64 (fl 5902958103587057 (-70)) (fl 5339032311605861 (-43)) (fl 4527468705395560 (-50)) t in
  let a4 := tdb_term64 (fl 5902958103587057 (-70)) (fl 7454738094442204 (-47)) (fl 8005598697613794 (-54)) t in
  let a5 := tdb_term64 (fl 4722366482869645 (-71)) (fl 6003833105740621 (-48)) (fl 6240975773619349 (-50)) t in
  let a6 := tdb_term64 (fmul (fl 5902958103587057 (-69)) t) (fl 5526652096160255 (-43)) (fl 4783948704174309 (-50)) t in
  fadd (fadd (fadd (fadd (fadd (fadd a0 a1) a2) a3) a4) a5) a6.
(** timelib.py 834-836, [tdb_fraction] of a time that was not given by its TDB. *)
Definition tdb_fraction64 (t : time64) : b64 := fadd (fraction64 t) (fdiv (tdb_minus_tt64 (whole64 t) (fraction64 t)) DAY_S64).
End Sine.
