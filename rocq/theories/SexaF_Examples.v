(** Angles of both signs, for the properties in P_SexaF. *)
From Coq Require Import ZArith Reals Lra List Ascii String.
From Flocq Require Import Core BinarySingleNaN.
From Verif Require Import Float64 Float64_Proofs Float_Time_Proofs Float_Time_Proofs4 Units_Model SexaF_Model SexaF_Spec SexaF_Proofs SexaF_Proofs2 SexaF_Proofs3.
Import ListNotations.
Open Scope Z_scope.

(** -0.125 degrees. *)
Definition eighth : bf := @B754_finite 53 1024 true 4503599627370496 (-55) eq_refl.
Lemma eighth_reads : is_finite eighth = true /\ B2R eighth = (- (1 / 8))%R /\ reads true (1 / 8) (B2SF eighth) /\ (0 < 1 / 8 < bpow radix2 38)%R /\ (Rabs (IZR (per_unit 3) * B2R eighth) < bpow radix2 50)%R.
Proof.
  assert (V : B2R eighth = (- (1 / 8))%R) by (unfold eighth; cbn [B2R cond_Zopp Z.opp]; unfold F2R; cbn [Fnum Fexp]; change (bpow radix2 (-55)) with (/ 36028797018963968)%R; lra).
  split; [reflexivity|]. split; [exact V|]. split; [exists eighth; split; [reflexivity|]; split; [reflexivity|]; split; [reflexivity|exact V]|].
  split; [change (bpow radix2 38) with 274877906944%R; lra|]. rewrite V. change (IZR (per_unit 3)) with 3600000%R. change (bpow radix2 50) with 1125899906842624%R. rewrite Rabs_left; lra.
Qed.
Lemma eighth_prints : sex_int64 (B2SF eighth) 3 = (-1, 0, 7, 30, 0) /\ sfmt64 DFmt (B2SF eighth) 1 = (text "-00deg 07' 30.0" ++ ["034"%char])%list /\ dms64 (B2SF eighth) = [fneg (of_Z 0); fneg (of_Z 7); fneg (of_Z 30)].
Proof. split; [reflexivity|]. split; reflexivity. Qed.
(** -0 degrees 7 minutes 30.25 seconds, typed as the tuple (-0.0, 7, 30.25). *)
Lemma typed_tuple : reads true (IZR 0) (fneg (of_Z 0)) /\ reads false (IZR 7) (of_Z 7) /\ reads false (121 / 4) (fl 121 (-2)) /\
  is_nearest (fabs (fl 121 (-2))) (IZR 3025 / IZR (10 ^ Z.of_nat 2)) /\ sfmt64 DSgn (unsex64 [fneg (of_Z 0); of_Z 7; fl 121 (-2)]) 2 = (text "-00deg 07' 30.25" ++ ["034"%char])%list.
Proof.
  split; [exists (B754_zero true); cbn; repeat split; ring|]. split; [apply (of_Z_reads 7); cbn; auto with zarith|].
  assert (R : reads false (121 / 4) (fl 121 (-2))). { destruct (fl_bf_pos 121 (-2)) as (b & E & F & S & V); [split; cbn; auto with zarith|auto with zarith|]. exists b. split; [exact E|]. split; [exact F|]. split; [exact S|]. rewrite V. unfold F2R. cbn [Fnum Fexp]. change (bpow radix2 (-2)) with (/ 4)%R. lra. }
  split; [exact R|]. split; [|reflexivity]. destruct (fabs_reads _ _ _ R) as (b & E & F & S & V). exists b. split; [exact E|]. split; [exact F|]. rewrite V. cbn iota. change (10 ^ Z.of_nat 2) with 100. replace (IZR 3025 / IZR 100)%R with (B2R b) by (rewrite V; lra). rewrite rnd_self. symmetry. exact V.
Qed.
Lemma dms_unequal64 : exists v, dms64 v = [of_Z 2; of_Z 12; fl 1 (-40)] /\ feqb (unsex64 (dms64 v)) v = false.
Proof. exists (fl 4953959590107546 (-51)). split; vm_compute; reflexivity. Qed.
