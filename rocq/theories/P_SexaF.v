(** Property theorems C140, C141 and more of C47: sexagesimal angles in binary64. *)
From Coq Require Import ZArith Reals QArith List Ascii String.
From Flocq Require Import Core BinarySingleNaN.
From Verif Require Import Float64 Float64_Proofs Units_Model SexaF_Model SexaF_Spec SexaF_Proofs SexaF_Proofs2 SexaF_Proofs3 SexaF_Examples.
Import ListNotations.
Open Scope Z_scope.

(** * C140 *)
Theorem C140_decimal_prints_as_typed : forall f v places k, (places <= 12)%nat -> Z.abs k < 2 ^ 49 -> is_nearest v (IZR k / IZR (per_unit places)) ->
  printed (sex_int64 v places) places = k /\ sfmt64 f v places = sfmt f (inject_Z k / inject_Z (per_unit places)) places.
Proof. exact decimal_prints. Qed.
Print Assumptions C140_decimal_prints_as_typed.
(** The signs of the minutes and seconds do not matter. *)
Theorem C140_tuple_prints_as_typed : forall f places s U M j xu s1 xm s2 c xs, (places <= 12)%nat -> 0 <= U -> 0 <= M -> 0 <= j ->
  let k := (U * 60 + M) * 60 * 10 ^ Z.of_nat places + j in k < 2 ^ 47 ->
  reads s (IZR U) xu -> reads s1 (IZR M) xm -> reads s2 c xs -> is_nearest (fabs xs) (IZR j / IZR (10 ^ Z.of_nat places)) ->
  printed (sex_int64 (unsex64 [xu; xm; xs]) places) places = (if s then - k else k) /\
  sfmt64 f (unsex64 [xu; xm; xs]) places = sfmt f (inject_Z (if s then - k else k) / inject_Z (per_unit places)) places.
Proof. exact tuple_prints. Qed.
Print Assumptions C140_tuple_prints_as_typed.
Example C140_ex : reads true (IZR 0) (fneg (of_Z 0)) /\ reads false (IZR 7) (of_Z 7) /\ reads false (121 / 4) (fl 121 (-2)) /\
  is_nearest (fabs (fl 121 (-2))) (IZR 3025 / IZR (10 ^ Z.of_nat 2)) /\ sfmt64 DSgn (unsex64 [fneg (of_Z 0); of_Z 7; fl 121 (-2)]) 2 = (text "-00deg 07' 30.25" ++ ["034"%char])%list.
Proof. exact typed_tuple. Qed.

(** * C141 *)
Theorem C141_fields_and_error : forall (v : bf) places, is_finite v = true -> (places <= 12)%nat -> (Rabs (IZR (per_unit places) * B2R v) < bpow radix2 50)%R ->
  well_formed (sex_int64 (B2SF v) places) places /\
  (Rabs (IZR (printed (sex_int64 (B2SF v) places) places) - IZR (per_unit places) * B2R v) <= 1 / 2 + bpow radix2 (-52) * (Rabs (IZR (per_unit places) * B2R v) + 1))%R.
Proof. exact printed_within. Qed.
Print Assumptions C141_fields_and_error.
(** The statement is for all angles; those within the rounding error of half way are missing. *)
Theorem C141_nearest_partial : forall (v : bf) places k, is_finite v = true -> (places <= 12)%nat -> let x := (IZR (per_unit places) * B2R v)%R in (Rabs x < bpow radix2 50)%R ->
  (Rabs (IZR k - x) + bpow radix2 (-52) * (Rabs x + 1) < 1 / 2)%R -> printed (sex_int64 (B2SF v) places) places = k.
Proof. exact nearest64. Qed.
Print Assumptions C141_nearest_partial.
Theorem C141_nearest_refuted : exists v : bf, is_finite v = true /\ (0 < IZR (per_unit 0) * B2R v < 1 / 2)%R /\ printed (sex_int64 (B2SF v) 0) 0 = 1.
Proof. exact not_nearest64. Qed.
Print Assumptions C141_nearest_refuted.
Example C141_ex : is_finite eighth = true /\ B2R eighth = (- (1 / 8))%R /\ reads true (1 / 8) (B2SF eighth) /\ (0 < 1 / 8 < bpow radix2 38)%R /\ (Rabs (IZR (per_unit 3) * B2R eighth) < bpow radix2 50)%R.
Proof. exact eighth_reads. Qed.

(** * C47, in binary64 *)
Theorem C47_binary64_tuple : forall s a x, reads s a x -> (0 < a < bpow radix2 38)%R ->
  exists U M c, (0 <= U /\ 0 <= M < 60) /\ (0 <= c < 60)%R /\ (IZR ((U * 60 + M) * 60) + c = rnd (a * 3600))%R /\
    exists xu xm xs, dms64 x = [xu; xm; xs] /\ reads s (IZR U) xu /\ reads s (IZR M) xm /\ reads s c xs.
Proof. exact dms64_fields. Qed.
Print Assumptions C47_binary64_tuple.
(** Equality fails, for 2.2 degrees. *)
Theorem C47_binary64_refuted : exists v, dms64 v = [of_Z 2; of_Z 12; fl 1 (-40)] /\ feqb (unsex64 (dms64 v)) v = false.
Proof. exact dms_unequal64. Qed.
Print Assumptions C47_binary64_refuted.
(** The difference is a few units of the last place. *)
Theorem C47_binary64_reads_back_partial : forall s a x, reads s a x -> (0 < a < bpow radix2 38)%R ->
  exists b, reads s b (unsex64 (dms64 x)) /\ (Rabs (b - a) <= bpow radix2 (-50) * a + bpow radix2 (-1072))%R.
Proof. exact reads_back64. Qed.
Print Assumptions C47_binary64_reads_back_partial.
Theorem C47_binary64_zero : forall s x, reads s 0 x -> dms64 x = [of_Z 0; of_Z 0; of_Z 0] /\ unsex64 (dms64 x) = of_Z 0.
Proof. exact dms64_zero. Qed.
Print Assumptions C47_binary64_zero.
Theorem C47_binary64_value : forall s a u s1 b m s2 c x, reads s a u -> reads s1 b m -> reads s2 c x -> (a + b + c < bpow radix2 500)%R ->
  exists y, reads s y (unsex64 [u; m; x]) /\ (Rabs (y - (a + b / 60 + c / 3600)) <= bpow radix2 (-51) * (a + b / 60 + c / 3600) + bpow radix2 (-1072))%R.
Proof. exact unsex_value64. Qed.
Print Assumptions C47_binary64_value.
Theorem C47_binary64_first_sign : forall s a u s1 b m s2 c x s1' m' s2' x', reads s a u -> reads s1 b m -> reads s2 c x -> reads s1' b m' -> reads s2' c x' -> (a + b + c < bpow radix2 500)%R ->
  unsex64 [u; m; x] = unsex64 [u; m'; x'] /\ wms64 u m x = unsex64 [u; m; x] /\ sign_bit (unsex64 [u; m; x]) = s.
Proof. exact only_first_sign. Qed.
Print Assumptions C47_binary64_first_sign.
Example C47_binary64_ex : sex_int64 (B2SF eighth) 3 = (-1, 0, 7, 30, 0) /\ sfmt64 DFmt (B2SF eighth) 1 = (text "-00deg 07' 30.0" ++ ["034"%char])%list /\ dms64 (B2SF eighth) = [fneg (of_Z 0); fneg (of_Z 7); fneg (of_Z 30)].
Proof. exact eighth_prints. Qed.
