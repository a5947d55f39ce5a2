(** Vocabulary for the mean obliquity and the sidereal time of 1982. *)
From Coq Require Import Reals.
Open Scope R_scope.

(** Capitaine and others, 2003, equations 37 and 39: arcseconds, from centuries of TDB. *)
Definition obliquity_2003 (T : R) : R :=
  84381406 / 10 ^ 3 - 46836769 / 10 ^ 6 * T - 1831 / 10 ^ 7 * T ^ 2 + 20034 / 10 ^ 7 * T ^ 3 - 576 / 10 ^ 9 * T ^ 4 - 434 / 10 ^ 10 * T ^ 5.
