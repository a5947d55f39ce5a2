(** Properties of times in binary64 arithmetic. *)
From Coq Require Import ZArith QArith List Bool Reals Lra.
From Coq.Floats Require Import SpecFloat.
From Flocq Require Import Core BinarySingleNaN.
From Verif Require Import Float64 Float_Time_Model Float_Time_Spec Cal_Model Cal_Spec Time_Spec P_Time
  Float_Time_Proofs Float_Time_Proofs2 Float_Time_Proofs3 Float64_Proofs Float_Time_Proofs4 Float_Time_Proofs5.
Import ListNotations.
Open Scope Z_scope.

(** The leap seconds of 1972, as float arrays. *)
Definition ts72_64 : timescale64 :=
  build_tables64 (leap_dates64 ns72) (leap_offsets64 ns72 10) None.
Example ts72_64_ok : timescale64_for ns72 10 None ts72_64.
Proof. repeat split; try reflexivity; try discriminate. intros n [<-|[<-|[]]]; reflexivity. Qed.

(** * C08 *)
Theorem C08_whole_seconds_are_exact : forall ns base cut ts y m d h mi s,
  timescale64_for ns base cut ts -> good_cutoff cut ->
  exists_under cut (y, m, d) -> Z.abs (civil_day_number cut (y, m, d)) < 10 ^ 9 ->
  valid_clock (ends_in_leap ns (civil_day_number cut (y, m, d))) h mi (inject_Z s) ->
  time_utc64 ts (utc64 ts y m d (of_Z h) (of_Z mi) (of_Z s)) =
  {| g_year := y; g_month := m; g_day := d; g_hour := h; g_minute := mi; g_second := of_Z s |}.
Proof. exact utc64_roundtrip. Qed.
Print Assumptions C08_whole_seconds_are_exact.
Theorem C08_hidden_seconds_are_exact : forall ns base cut ts y m d h mi s,
  timescale64_for ns base cut ts -> Z.abs (julian_day y m d cut) < 10 ^ 9 ->
  0 <= h <= 23 -> 0 <= mi <= 59 -> 0 <= s <= 60 ->
  tai_seconds64 (utc64 ts y m d (of_Z h) (of_Z mi) (of_Z s)) =
  (of_Z (tai_second ns base (julian_day y m d cut) (h * 3600 + mi * 60 + s)), of_Z 0).
Proof. exact utc64_tai_seconds. Qed.
Print Assumptions C08_hidden_seconds_are_exact.
Example C08_ex : exists_under None (1972, 6, 30) /\ Z.abs (civil_day_number None (1972, 6, 30)) < 10 ^ 9 /\
  valid_clock (ends_in_leap ns72 (civil_day_number None (1972, 6, 30))) 23 59 (inject_Z 60).
Proof. repeat split; try reflexivity; try discriminate. right. repeat split; reflexivity. Qed.

(** Seconds with a fraction: the fields come back, the second within 15 ps. *)
Theorem C08_any_second : forall ns base cut ts y m d h mi (s : bf),
  timescale64_for ns base cut ts -> good_cutoff cut ->
  exists_under cut (y, m, d) -> Z.abs (civil_day_number cut (y, m, d)) < 10 ^ 9 ->
  0 <= h <= 23 -> 0 <= mi <= 59 -> is_finite s = true -> (0 <= B2R s)%R ->
  (B2R s <= 60 - / 2 ^ 36)%R \/ (ends_in_leap ns (civil_day_number cut (y, m, d)) = true /\ h = 23 /\ mi = 59 /\ (B2R s <= 61 - / 2 ^ 36)%R) ->
  exists q : bf,
    time_utc64 ts (utc64 ts y m d (of_Z h) (of_Z mi) (B2SF s)) =
      {| g_year := y; g_month := m; g_day := d; g_hour := h; g_minute := mi; g_second := B2SF q |} /\
    is_finite q = true /\ (Rabs (B2R q - B2R s) <= / 2 ^ 36)%R.
Proof. exact utc64_any_second. Qed.
Print Assumptions C08_any_second.
(** The moment itself, TAI within 30 ps and TT within 60 ps. *)
Theorem C08_instant : forall ns base cut ts y m d h mi (s : bf),
  timescale64_for ns base cut ts -> Z.abs (julian_day y m d cut) < 10 ^ 9 ->
  0 <= h <= 23 -> 0 <= mi <= 59 -> is_finite s = true -> (0 <= B2R s < 61)%R ->
  let t := utc64 ts y m d (of_Z h) (of_Z mi) (B2SF s) in
  let exact := (IZR (tai_second ns base (julian_day y m d cut) (h * 3600 + mi * 60)) + B2R s)%R in
  exists w f g : bf, whole64 t = B2SF w /\ tai_fraction64 t = B2SF f /\ fraction64 t = B2SF g /\
    is_finite w = true /\ is_finite f = true /\ is_finite g = true /\ (0 <= B2R f <= 1)%R /\
    (Rabs (86400 * (B2R w + B2R f) - exact) <= / 2 ^ 35)%R /\
    (Rabs (86400 * (B2R w + B2R g) - (exact + 32184 / 1000)) <= / 2 ^ 34)%R.
Proof. exact utc64_instant. Qed.
Print Assumptions C08_instant.
Example C08_any_ex : exists s : bf, is_finite s = true /\ B2R s = (60 + / 2)%R /\ ends_in_leap ns72 (civil_day_number None (1972, 6, 30)) = true.
Proof. destruct half_past_60 as (s & A & B). exists s. repeat split; assumption. Qed.

(** * C10, binary64: the legacy table, with two more dates and an infinite one, gives the same table *)
Theorem C10_legacy_table_in_floats : forall ns base cut d0 d1 o0 o1 o2, ns <> [] -> increasing ns -> (forall n, In n ns -> Z.abs n < 10 ^ 9) -> Z.abs base <= 10 ^ 9 ->
  exists ts, timescale64_for ns base cut ts /\ timescale_init64 ([d0; d1] ++ leap_dates64 ns ++ [S754_infinity false]) ([o0; o1; o2] ++ leap_offsets64 ns base) cut = Some ts.
Proof. exact legacy64. Qed.
Print Assumptions C10_legacy_table_in_floats.
Example C10_floats_ex : ns72 <> [] /\ increasing ns72 /\ forall n, In n ns72 -> Z.abs n < 10 ^ 9.
Proof. repeat split; try reflexivity; try discriminate. intros n [<-|[<-|[]]]; reflexivity. Qed.

(** * C13, binary64: the weekday disagrees with the date just before midnight *)
Theorem C13_weekday_in_floats_refuted : exists jd fraction,
  finite64 jd /\ finite64 fraction /\
  strftime_weekday64 jd fraction <> weekday_of_jd (calendar_day64 jd fraction).
Proof. exists (of_Z 2451545), (fl (2 ^ 39 - 1) (-40)). repeat split. vm_compute. discriminate. Qed.
Print Assumptions C13_weekday_in_floats_refuted.

(** * C15 *)
Theorem C15_trichotomy : forall a b, finite_time a -> finite_time b ->
  (lt64 a b = true /\ eq64 a b = false /\ lt64 b a = false) \/
  (lt64 a b = false /\ eq64 a b = true /\ lt64 b a = false) \/
  (lt64 a b = false /\ eq64 a b = false /\ lt64 b a = true).
Proof. exact finite_trichotomy. Qed.
Print Assumptions C15_trichotomy.
Theorem C15_equality_is_symmetric : forall a b, eq64 a b = eq64 b a.
Proof. exact eq64_symmetric. Qed.
Print Assumptions C15_equality_is_symmetric.
Example C15_ex : finite_time (tt_jd64 (of_Z 2451545) (fl 1 (-32))) /\
  lt64 (tt_jd64 (of_Z 2451545) (fl 1 (-60))) (tt_jd64 (of_Z 2451545) (fl 1 (-32))) = true.
Proof. repeat split; reflexivity. Qed.

(** * C16: equal times may hash differently when their whole parts differ *)
Theorem C16_equal_times_hash_alike_partial : forall a b, finite_time a -> finite_time b ->
  whole64 a = whole64 b -> eq64 a b = true -> hash64 a = hash64 b.
Proof. exact same_day_hash. Qed.
Print Assumptions C16_equal_times_hash_alike_partial.
Theorem C16_equal_times_hash_alike_refuted : exists a b, finite_time a /\ finite_time b /\
  eq64 a b = true /\ hash64 a <> hash64 b.
Proof.
  exists (tt_jd64 (of_Z 2451544) (fl (2 ^ 32 + 1) (-32))), (tt_jd64 (of_Z 2451545) (fl (2 ^ 52 + 1) (-84))).
  repeat split. vm_compute. discriminate.
Qed.
Print Assumptions C16_equal_times_hash_alike_refuted.
Example C16_ex : let a := tt_jd64 (of_Z 2451545) (S754_zero true) in let b := tt_jd64 (of_Z 2451545) (S754_zero false) in
  finite_time a /\ finite_time b /\ whole64 a = whole64 b /\ eq64 a b = true.
Proof. repeat split; reflexivity. Qed.

(** * C17, binary64: an element taken out of an array reads a different second *)
Theorem C17_getitem_in_floats_refuted : exists t,
  t = utc64 ts72_64 1973 1 1 (of_Z 12) (of_Z 14) (of_Z 0) /\
  time_utc64 ts72_64 t = {| g_year := 1973; g_month := 1; g_day := 1; g_hour := 12; g_minute := 14; g_second := of_Z 0 |} /\
  g_minute (time_utc64 ts72_64 (drop_cache64 t)) = 13.
Proof. eexists. repeat split. Qed.
Print Assumptions C17_getitem_in_floats_refuted.

(** What does commute. *)
Theorem C17_getitem_in_floats_partial : forall t,
  tai64 (drop_cache64 t) = tai64 t /\ tt64 (drop_cache64 t) = tt64 t /\ tai_fraction64 (drop_cache64 t) = tai_fraction64 t /\
  hash64 (drop_cache64 t) = hash64 t /\ forall u, sub64 (drop_cache64 t) u = sub64 t u.
Proof. exact getitem64_scales. Qed.
Print Assumptions C17_getitem_in_floats_partial.

(** * C71: outside leap seconds the UTC second is below 60 *)
Theorem C71_second_below_60_partial : forall ns base cut ts y m d h mi s,
  timescale64_for ns base cut ts -> good_cutoff cut ->
  exists_under cut (y, m, d) -> Z.abs (civil_day_number cut (y, m, d)) < 10 ^ 9 ->
  valid_clock false h mi (inject_Z s) ->
  fltb (g_second (time_utc64 ts (utc64 ts y m d (of_Z h) (of_Z mi) (of_Z s)))) (of_Z 60) = true.
Proof. exact second_below_60. Qed.
Print Assumptions C71_second_below_60_partial.
Theorem C71_fraction_below_60_partial : forall ns base cut ts y m d h mi (s : bf),
  timescale64_for ns base cut ts -> good_cutoff cut ->
  exists_under cut (y, m, d) -> Z.abs (civil_day_number cut (y, m, d)) < 10 ^ 9 ->
  0 <= h <= 23 -> 0 <= mi <= 59 -> is_finite s = true -> (0 <= B2R s <= 60 - / 2 ^ 36)%R ->
  exists q : bf, g_second (time_utc64 ts (utc64 ts y m d (of_Z h) (of_Z mi) (B2SF s))) = B2SF q /\ is_finite q = true /\ (0 <= B2R q < 60)%R.
Proof. exact fraction_below_60. Qed.
Print Assumptions C71_fraction_below_60_partial.
Theorem C71_second_below_60_refuted : exists fraction,
  finite64 fraction /\
  time_utc64 ts72_64 (tai_jd64 (of_Z 2441700) fraction) =
  {| g_year := 1973; g_month := 1; g_day := 17; g_hour := 11; g_minute := 59; g_second := of_Z 60 |}.
Proof. exists (fsub (fdiv (of_Z 12) DAY_S64) (fl 1 (-66))). repeat split. Qed.
Print Assumptions C71_second_below_60_refuted.
Example C71_ex : exists_under None (2024, 2, 29) /\ Z.abs (civil_day_number None (2024, 2, 29)) < 10 ^ 9 /\
  valid_clock false 23 59 (inject_Z 59).
Proof. repeat split; try reflexivity; try discriminate. left. reflexivity. Qed.

(** * C72: comparison is transitive *)
Theorem C72_order_is_transitive_partial : forall a b c, finite_time a -> finite_time b -> finite_time c ->
  whole64 a = whole64 b -> whole64 b = whole64 c ->
  (lt64 a b = true -> lt64 b c = true -> lt64 a c = true) /\
  (eq64 a b = true -> eq64 b c = true -> eq64 a c = true).
Proof. exact same_day_transitive. Qed.
Print Assumptions C72_order_is_transitive_partial.
Theorem C72_equality_is_transitive_refuted : exists a b c, finite_time a /\ finite_time b /\ finite_time c /\
  eq64 a b = true /\ eq64 b c = true /\ lt64 c a = true.
Proof.
  exists (tt_jd64 (of_Z 2451545) (fl (2 ^ 52 + 1) (-84))), (tt_jd64 (of_Z 2451544) (fl (2 ^ 32 + 1) (-32))), (tt_jd64 (of_Z 2451545) (fl 1 (-32))).
  repeat split.
Qed.
Print Assumptions C72_equality_is_transitive_refuted.
Example C72_ex : let t := fun k => tt_jd64 (of_Z 2451545) (fl k (-60)) in
  finite_time (t 1) /\ finite_time (t 2) /\ finite_time (t 3) /\ lt64 (t 1) (t 2) = true /\ lt64 (t 2) (t 3) = true.
Proof. repeat split. Qed.
