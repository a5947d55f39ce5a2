(** Python and NumPy primitives on exact rationals.

    A finite float is a rational number. The functions here are the exact
    versions of the float operations; rounding is idealised away. *)
From Coq Require Import ZArith QArith Qround List Bool.
Import ListNotations.
Open Scope Q_scope.

(** [a < b] on numbers. *)
Definition Qltb (a b : Q) : bool := negb (Qle_bool b a).

(** [divmod(x, m)] for positive [m]: floor quotient and remainder. *)
Definition qdiv (x m : Q) : Z := Qfloor (x / m).
Definition qmod (x m : Q) : Q := x - inject_Z (qdiv x m) * m.

(** [x.astype(int)] and [int(x)]: truncation toward zero. *)
Definition qtrunc (x : Q) : Z := Z.quot (Qnum x) (Zpos (Qden x)).

(** [numpy.interp(x, xp, fp)] (skyfield/_compatibility.py 6-10 re-exports it).
    The table is a list of pairs (xp, fp) with increasing xp. Left of the table
    the first fp is returned, right of it the last, otherwise the value is
    [slope * (x - xp[j]) + fp[j]] for the last j with [xp[j] <= x]. NumPy raises
    for an empty table; callers in this model never pass one. *)
Fixpoint interp_from (x x0 y0 : Q) (rest : list (Q * Q)) : Q :=
  match rest with
  | [] => y0
  | (x1, y1) :: r =>
      if Qltb x x1 then (y1 - y0) / (x1 - x0) * (x - x0) + y0
      else interp_from x x1 y1 r
  end.
Definition interp (x : Q) (tbl : list (Q * Q)) : Q :=
  match tbl with
  | [] => 0
  | (x0, y0) :: r => if Qltb x x0 then y0 else interp_from x x0 y0 r
  end.
