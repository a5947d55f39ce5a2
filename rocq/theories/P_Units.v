(** Property theorems C45-C47 and C60: sexagesimal angles. *)
From Coq Require Import ZArith QArith Qabs List Ascii String.
From Verif Require Import Float64 Units_Model Units_Spec Units_Proofs.
Import ListNotations.
Open Scope Q_scope.

(** * C45 *)
Theorem C45_rounded_fields : forall value places s u m sec f, sexagesimalize_to_int value places = (s, u, m, sec, f) ->
  let P := (10 ^ Z.of_nat places)%Z in
  let n := (s * (((u * 60 + m) * 60 + sec) * P + f))%Z in
  (0 <= u /\ 0 <= m < 60 /\ 0 <= sec < 60 /\ 0 <= f < P)%Z /\
  (s = 1 \/ s = -1 \/ (s = 0 /\ u = 0 /\ m = 0 /\ sec = 0 /\ f = 0))%Z /\
  nearest n (inject_Z (P * 3600) * value).
Proof. exact sex_int. Qed.
Print Assumptions C45_rounded_fields.
Theorem C45_exact_fields : forall value s u m sec, sexagesimalize_to_float value = (s, u, m, sec) ->
  (0 <= u /\ 0 <= m < 60)%Z /\ 0 <= sec /\ sec < 60 /\
  (s = 1 \/ s = -1 \/ (s = 0 /\ u = 0 /\ m = 0))%Z /\ (s = 0%Z -> sec == 0) /\ (s = 0%Z <-> value == 0) /\
  inject_Z u + inject_Z m / 60 + sec / 3600 == Qabs value /\
  inject_Z s * (inject_Z u + inject_Z m / 60 + sec / 3600) == value.
Proof. exact sex_float. Qed.
Print Assumptions C45_exact_fields.
Example C45_ex : sexagesimalize_to_int (- (35999999 # 3600000)) 2 = (-1, 10, 0, 0, 0)%Z.
Proof. reflexivity. Qed.

(** * C46 *)
(** The statement is for all angles; an angle of zero is missing here. *)
Theorem C46_sign_partial : forall value s u m sec, ~ value == 0 -> sexagesimalize_to_float value = (s, u, m, sec) ->
  (s = 1 \/ s = -1)%Z /\ (s = 1%Z <-> 0 < value) /\ 0 <= inject_Z u /\ 0 <= inject_Z m /\ 0 <= sec /\
  inject_Z s * (inject_Z u + inject_Z m / 60 + sec / 3600) == value.
Proof. exact sign_ok. Qed.
Print Assumptions C46_sign_partial.
Theorem C46_sign_of_zero_refuted : exists value s u m sec, sexagesimalize_to_float value = (s, u, m, sec) /\ s <> 1%Z /\ s <> (-1)%Z.
Proof. exact sign_zero. Qed.
Print Assumptions C46_sign_of_zero_refuted.
Example C46_ex : exists sec, sexagesimalize_to_float (- (1205125 # 100000)) = (-1, 12, 3, sec)%Z /\ sec == 9 # 2.
Proof. eexists. split; reflexivity. Qed.

(** * C47 *)
(** The statement is about floats; the theorem is in exact arithmetic. *)
Theorem C47_tuple_reads_back_partial : forall value, value_of (unsexagesimalize (dms value)) == value.
Proof. exact dms_back. Qed.
Print Assumptions C47_tuple_reads_back_partial.
Theorem C47_wms_reads_back_partial : forall value u m s, dms value = [u; m; s] -> value_of (wms u m s) == value.
Proof. exact wms_back. Qed.
Print Assumptions C47_wms_reads_back_partial.
(** Only the sign of the units matters, also when the units are minus zero. *)
Theorem C47_only_the_first_sign_matters : forall u m s, negative (unsexagesimalize [u; m; s]) = negative u /\
  magnitude (unsexagesimalize [u; m; s]) == magnitude u + magnitude m / 60 + magnitude s / 3600.
Proof. exact unsex_three. Qed.
Print Assumptions C47_only_the_first_sign_matters.
Example C47_ex : exists m s, dms (- (1 # 8)) = [S_ true 0; S_ true m; S_ true s] /\ m == 7 /\ s == 30.
Proof. do 2 eexists. split; [reflexivity|]. split; reflexivity. Qed.

(** * C60 *)
Theorem C60_text_reads_back : forall f value places, exists x k n, denotes (sfmt f value places) = Some (x, k) /\ k = Nat.max 1 places /\
  x == inject_Z n / inject_Z (10 ^ Z.of_nat places * 3600) /\ nearest n (inject_Z (10 ^ Z.of_nat places * 3600) * value).
Proof. exact sfmt_ok. Qed.
Print Assumptions C60_text_reads_back.
Example C60_ex : sfmt HFmt (- (71999999 # 3600000)) 1 = text "-20h 00m 00.0s" /\ sfmt DSgn (1 # 2) 3 = (text "+00deg 30' 00.000" ++ ["034"%char])%list.
Proof. split; reflexivity. Qed.
