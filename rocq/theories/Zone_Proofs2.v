(** Where zones and the Julian calendar disagree. *)
From Coq Require Import ZArith QArith Qround List Bool Lia.
From Verif Require Import PyNum Cal_Model Cal_Spec Time_Model Time_Spec Format_Proofs3 Zone_Model Zone_Spec.
Import ListNotations.
Open Scope Z_scope.

Definition reform : option Z := Some GREGORIAN_START.
Definition HOUR : Z := 3600000000.
(** 1500 March 1, half past midnight, an hour east of Greenwich. *)
Definition east : aware :=
  {| fields := {| d_year := 1500; d_month := 3; d_day := 1; d_hour := 0; d_minute := 30; d_second := 0; d_micro := 0 |}; zone_of := At HOUR |}.
Lemma julian_zone_from : exists t, possible (fields east) /\ from_aware (ts72 reform) east = Ok t /\
  (tai_instant t == instant_of ns72 10 (civil_count reform (fields east) - HOUR) - 86400)%Q.
Proof. eexists. split; [|split]; [|vm_compute; reflexivity|vm_compute; reflexivity]. vm_compute. repeat split; try discriminate; reflexivity. Qed.
(** 1500 February 28 at 23h UTC, two hours east. *)
Definition feb28 : time := utc (ts72 reform) 1500 2 28 23 0 0.
Definition two_hours : zone := {| offset_at := fun _ => 2 * HOUR; has_normalize := false |}.
Lemma julian_zone_to : built (ts72 reform) feb28 /\ exists a, astimezone (ts72 reform) feb28 two_hours = Ok (a, 0) /\
  exists_under reform (1500, 2, 29) /\
  (d_year (fields a), d_month (fields a), d_day (fields a), d_hour (fields a)) = (1500, 3, 1, 1) /\
  (tai_instant feb28 == instant_of ns72 10 (civil_count reform (fields a) - 2 * HOUR) - 86400)%Q.
Proof.
  split; [apply built_utc|]. eexists. split; [vm_compute; reflexivity|]. split; [left; split; reflexivity|]. split; vm_compute; reflexivity.
Qed.
Definition year_12000 : time := utc (ts72 None) 12000 2 29 0 0 0.
Lemma wrong_message : built (ts72 None) year_12000 /\ valid_date Gregorian (12000, 2, 29) = true /\
  forall z, astimezone (ts72 None) year_12000 z = ValueError (JulianLeapDay 12000).
Proof. split; [apply built_utc|]. split; [reflexivity|]. intros z. unfold astimezone. replace (checked_datetime (ts72 None) year_12000) with (@ValueError (py_datetime * Z) (JulianLeapDay 12000)) by (vm_compute; reflexivity). reflexivity. Qed.
