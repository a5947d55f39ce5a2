(** The legacy leap-second table in binary64. *)
From Coq Require Import ZArith List Bool Lia.
From Coq.Floats Require Import SpecFloat.
From Flocq Require Import Core BinarySingleNaN.
From Verif Require Import Float64 Float64_Proofs Float_Time_Model Float_Time_Spec Time_Spec Float_Time_Proofs Float_Time_Proofs4.
Import ListNotations.
Open Scope Z_scope.

Lemma finite_date n : Z.abs n < 10 ^ 9 -> isinf64 (fl (2 * n - 1) (-1)) = false.
Proof. intros B. destruct (fl_bf (2 * n - 1) (-1) ltac:(unfold small; lia)) as (x & -> & F & _). destruct x; try discriminate F; reflexivity. Qed.
Lemma legacy64 ns base cut d0 d1 o0 o1 o2 : ns <> [] -> increasing ns -> (forall n, In n ns -> Z.abs n < 10 ^ 9) -> Z.abs base <= 10 ^ 9 ->
  exists ts, timescale64_for ns base cut ts /\ timescale_init64 ([d0; d1] ++ leap_dates64 ns ++ [S754_infinity false]) ([o0; o1; o2] ++ leap_offsets64 ns base) cut = Some ts.
Proof.
  intros Hn Hi Hb Hbase. exists (build_tables64 (leap_dates64 ns) (leap_offsets64 ns base) cut). split.
  - split; [exact Hi|]. split; [exact Hb|]. split; [exact Hbase|]. destruct (exists_last Hn) as (r & z & ->). unfold timescale_init64, leap_dates64. rewrite map_app, rev_app_distr. cbn [map rev app].
    rewrite finite_date; [reflexivity|]. apply Hb. apply in_or_app. right. left. reflexivity.
  - unfold timescale_init64. rewrite app_assoc, rev_app_distr. cbn [rev app isinf64]. f_equal. f_equal. cbn [skipn]. apply removelast_last.
Qed.
