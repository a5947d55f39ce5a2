(** Properties of the times of Earth satellites. *)
From Coq Require Import ZArith QArith List Bool Lia Lqa.
From Verif Require Import PyNum Cal_Model Cal_Spec Time_Model Time_Spec Time_Proofs2 Format_Proofs3 Sat_Model Sat_Spec Sat_Proofs.
Import ListNotations.
Open Scope Q_scope.

(** * C134 *)
Theorem C134_utc_takes_fractions_of_days : forall ns base cut ts y m D x h mi s,
  timescale_for ns base cut ts -> 0 <= x < 1 ->
  tai_instant (utc_dayq ts y m (inject_Z D + x) h mi s) == tai_instant (utc ts y m D h mi s) + x * 86400 /\
  tai_instant (utc_dayq ts y m (inject_Z D + x) h mi s) == inject_Z (tai_second ns base (julian_day y m D cut) 0) + (x * 86400 + h * 3600 + mi * 60 + s).
Proof. exact utcq_instant. Qed.
Print Assumptions C134_utc_takes_fractions_of_days.
Theorem C134_tai_and_tt_take_fractions_of_days : forall cut y m D x h mi s, 0 <= x < 1 ->
  tai (tai_calq cut y m (inject_Z D + x) h mi s) == tai (tai_cal cut y m D h mi s) + x /\
  tt (tt_calq cut y m (inject_Z D + x) h mi s) == tt (tt_cal cut y m D h mi s) + x.
Proof. exact calq_scales. Qed.
Print Assumptions C134_tai_and_tt_take_fractions_of_days.
Theorem C134_epoch_of_two_lines : forall ns base cut ts s year,
  timescale_for ns base cut ts -> modern cut -> year_of_digits (epochyr s) year -> 1 <= epochdays s ->
  utc_moment ns base (jd_of_day year (epochdays s)) (tai_instant (sat_epoch (from_lines ts s))).
Proof. exact lines_epoch. Qed.
Print Assumptions C134_epoch_of_two_lines.
Theorem C134_epoch_of_a_satrec : forall ns base cut ts s,
  timescale_for ns base cut ts -> modern cut -> inject_Z (day_number Gregorian 1957 1 1) - (1 # 2) <= jdsatepoch s -> 0 <= jdsatepochF s ->
  utc_moment ns base (jdsatepoch s + jdsatepochF s) (tai_instant (sat_epoch (from_satrec ts s))).
Proof. exact satrec_epoch. Qed.
Print Assumptions C134_epoch_of_a_satrec.
Theorem C134_epoch_of_an_omm : forall ns base cut ts s N,
  timescale_for ns base cut ts -> jdsatepoch s * 86400 == inject_Z N ->
  utc_moment ns base (jdsatepoch s + jdsatepochF s) (tai_instant (sat_epoch (from_omm ts s))).
Proof. exact omm_epoch. Qed.
Print Assumptions C134_epoch_of_an_omm.
Theorem C134_a_moment_is_one_instant : forall ns base a b i j,
  utc_moment ns base a i -> utc_moment ns base b j -> (a == b <-> i == j) /\ (a < b <-> i < j).
Proof. exact moment_one. Qed.
Print Assumptions C134_a_moment_is_one_instant.
Theorem C134_targets_differ : forall ts s r,
  sat_target (from_satrec ts s) = sat_target (from_lines ts s) /\ sat_target (from_omm ts s) = sat_target (from_lines ts s) /\
  (sat_target (from_lines ts s) = sat_target (from_lines ts r) <-> satnum s = satnum r) /\
  ((0 < satnum s)%Z -> (sat_target (from_lines ts s) < -100000)%Z).
Proof. exact targets. Qed.
Print Assumptions C134_targets_differ.
Definition iss : satrec := {| satnum := 25544; epochyr := 14; epochdays := 20 + (22 # 100); jdsatepoch := 4913355 # 2; jdsatepochF := 22 # 100 |}.
Example C134_premises : timescale_for ns72 10 (Some 2299161%Z) (ts72 (Some 2299161%Z)) /\ modern (Some 2299161%Z) /\
  year_of_digits (epochyr iss) 2014 /\ 1 <= epochdays iss /\ inject_Z (day_number Gregorian 1957 1 1) - (1 # 2) <= jdsatepoch iss /\
  jdsatepoch iss * 86400 == inject_Z (4913355 * 43200) /\ jd_of_day 2014 (epochdays iss) == jdsatepoch iss + jdsatepochF iss /\
  full_year 57 = 1957%Z /\ full_year 56 = 2056%Z.
Proof. split; [apply ts72_for|]. repeat split; vm_compute; try discriminate; try reflexivity; lia. Qed.

(** * C135 *)
Theorem C135_sgp4_is_given_utc_partial : forall ns base cut ts t,
  timescale_for ns base cut ts -> built ts t -> ~ in_leap_second ns base (tai_instant t) ->
  utc_moment ns base (fst (sgp4_time ts t) + snd (sgp4_time ts t)) (tai_instant t).
Proof. exact sgp4_moment. Qed.
Print Assumptions C135_sgp4_is_given_utc_partial.
Theorem C135_later_times_are_later_partial : forall ns base cut ts t u, timescale_for ns base cut ts -> built ts t -> built ts u ->
  ~ in_leap_second ns base (tai_instant t) -> ~ in_leap_second ns base (tai_instant u) ->
  (fst (sgp4_time ts t) + snd (sgp4_time ts t) < fst (sgp4_time ts u) + snd (sgp4_time ts u) <-> tai_instant t < tai_instant u).
Proof. exact sgp4_mono. Qed.
Print Assumptions C135_later_times_are_later_partial.
Theorem C135_inside_a_leap_second : forall ns base cut ts t,
  timescale_for ns base cut ts -> built ts t ->
  forall n, In n ns -> inject_Z (tai_second ns base n 0 - 1) <= tai_instant t < inject_Z (tai_second ns base n 0) ->
  (fst (sgp4_time ts t) + snd (sgp4_time ts t)) * 86400
  == inject_Z (86400 * n - 43200) - (1 # 2) + (tai_instant t - inject_Z (tai_second ns base n 0 - 1)).
Proof. exact sgp4_in_leap. Qed.
Print Assumptions C135_inside_a_leap_second.
Theorem C135_nothing_has_elapsed_at_the_epoch : forall ns base cut ts s, timescale_for ns base cut ts -> modern cut ->
  inject_Z (day_number Gregorian 1957 1 1) - (1 # 2) <= jdsatepoch s -> 0 <= jdsatepochF s ->
  (forall x, x = from_satrec ts s -> minutes_since_epoch ts x (sat_epoch x) == 0) /\
  (forall x N, jdsatepoch s * 86400 == inject_Z N -> x = from_omm ts s -> minutes_since_epoch ts x (sat_epoch x) == 0) /\
  (forall x year, year_of_digits (epochyr s) year -> 1 <= epochdays s -> jd_of_day year (epochdays s) == jdsatepoch s + jdsatepochF s ->
     x = from_lines ts s -> minutes_since_epoch ts x (sat_epoch x) == 0).
Proof. exact zero_at_epoch. Qed.
Print Assumptions C135_nothing_has_elapsed_at_the_epoch.
Theorem C135_elapsed_time : forall ns base cut ts s t, timescale_for ns base cut ts -> built ts t ->
  ~ in_leap_second ns base (tai_instant t) ->
  utc_moment ns base (jdsatepoch (sat_model s) + jdsatepochF (sat_model s)) (tai_instant (sat_epoch s)) ->
  minutes_since_epoch ts s t * 60 ==
  (tai_instant t - tai_instant (sat_epoch s)) - inject_Z (leaps_by ns base (tai_instant t) - leaps_by ns base (tai_instant (sat_epoch s))).
Proof. exact elapsed. Qed.
Print Assumptions C135_elapsed_time.
Theorem C135_time_goes_back_in_a_leap_second_refuted : exists ns base cut ts t u,
  timescale_for ns base cut ts /\ built ts t /\ built ts u /\ tai_instant t < tai_instant u /\
  fst (sgp4_time ts u) + snd (sgp4_time ts u) < fst (sgp4_time ts t) + snd (sgp4_time ts t).
Proof. exact goes_back. Qed.
Print Assumptions C135_time_goes_back_in_a_leap_second_refuted.
Theorem C135_a_leap_second_is_not_counted_refuted : exists ns base cut ts s t,
  timescale_for ns base cut ts /\ built ts t /\ ~ in_leap_second ns base (tai_instant t) /\ modern cut /\
  inject_Z (day_number Gregorian 1957 1 1) - (1 # 2) <= jdsatepoch s /\ 0 <= jdsatepochF s /\
  minutes_since_epoch ts (from_satrec ts s) t * 60 < tai_instant t - tai_instant (sat_epoch (from_satrec ts s)).
Proof. exact a_second_short. Qed.
Print Assumptions C135_a_leap_second_is_not_counted_refuted.
Example C135_premises : built (ts72 None) (utc (ts72 None) 1972 7 1 0 0 0) /\
  utc_moment ns72 10 (jdsatepoch iss + jdsatepochF iss) (tai_instant (sat_epoch (from_omm (ts72 None) iss))) /\
  ~ in_leap_second ns72 10 (tai_instant (sat_epoch (from_omm (ts72 None) iss))).
Proof.
  split; [apply built_utc|]. assert (M := omm_epoch ns72 10 None (ts72 None) iss (4913355 * 43200) (ts72_for None) eq_refl).
  split; [exact M|exact (moment_no_leap _ _ _ _ M)].
Qed.
