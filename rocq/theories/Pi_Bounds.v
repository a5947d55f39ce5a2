(** Pi to nineteen digits, from the series of the standard library. *)
From Coq Require Import Reals Ratan Machin Lra Lia ZArith.
Open Scope R_scope.

Lemma term n : tg_alt PI_2_3_7_tg n = (-1) ^ n * ((2 * (/ 3) ^ (2 * n + 1) + (/ 7) ^ (2 * n + 1)) / IZR (2 * Z.of_nat n + 1)).
Proof.
  unfold tg_alt, PI_2_3_7_tg, Ratan_seq. rewrite INR_IZR_INZ. replace (Z.of_nat (2 * n + 1)) with (2 * Z.of_nat n + 1)%Z by lia. field. apply not_0_IZR. lia.
Qed.
Lemma pi_bounds : 31415926535897932384 / 10 ^ 19 < PI < 31415926535897932385 / 10 ^ 19.
Proof.
  destruct (PI_2_3_7_ineq 10) as [L U]. cbn [sum_f_R0 Nat.mul Nat.add] in L, U.  change (S (2 * 10)) with 21%nat in L. rewrite !term in L, U.
  cbn [Nat.mul Nat.add Z.of_nat Pos.of_succ_nat Pos.succ Z.mul Pos.mul Z.add Pos.add] in L, U. rewrite ?term in L. cbn [Nat.mul Nat.add Z.of_nat Pos.of_succ_nat Pos.succ Z.mul Pos.mul Z.add Pos.add] in L. lra.
Qed.
