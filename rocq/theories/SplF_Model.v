(** Model of [Splines] of skyfield/curvelib.py in binary64. One date at a time. *)
From Coq Require Import ZArith List.
From Coq.Floats Require Import SpecFloat.
From Verif Require Import Float64 Float_Time_Model.
Import ListNotations.
Open Scope Z_scope.

(** curvelib.py 8-18: a column of the table; [co64] holds the coefficients, highest
    power first. *)
Record row64 := Row64 { lo64 : b64; hi64 : b64; co64 : list b64 }.
Definition width64 (r : row64) : b64 := fsub (hi64 r) (lo64 r).
(** curvelib.py 20-29, [Splines.__call__]. *)
Definition horner64 (t : b64) (cs : list b64) : b64 :=
  match cs with [] => of_Z 0 | c :: cs => fold_left (fun value c => fadd (fmul value t) c) cs c end.
Definition row_at64 (r : row64) (x : b64) : b64 := horner64 (fdiv (fsub x (lo64 r)) (width64 r)) (co64 r).
Definition row_index64 (rows : list row64) (x : b64) : Z :=
  ftruncZ (interp64 x (combine (map lo64 rows) (map (fun k => of_Z (Z.of_nat k)) (seq 0 (length rows))))).
Definition no_row64 : row64 := Row64 (of_Z 0) (of_Z 1) [].
Definition splines64 (rows : list row64) (x : b64) : b64 := row_at64 (nth (Z.to_nat (row_index64 rows x)) rows no_row64) x.
