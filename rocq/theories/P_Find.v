(** Properties C81-C83. *)
From Coq Require Import Reals ZArith List Bool Sorted Lra.
From Verif Require Import Real_Math Real_Math_Proofs Almanac_Model Almanac_Spec Find_Model Find_Spec Find_Proofs Find_Proofs2.
Import ListNotations.
Open Scope R_scope.

(** * C81: the results are the events of the interval, in order, each once, and
    close to them. The full claim has no exception for events at sample times. *)
Theorem C81_transits_partial : forall ha desired w1 w2 tt0 tt1, turning_sky ha desired w1 w2 -> (w2 - w1) / w1 <= 1 / 2 -> tt0 < tt1 ->
  exists es, StronglySorted Rlt es /\ (forall e, In e es <-> tt0 <= e < tt1 /\ event ha desired e) /\
    Forall2 (fun e r => In e (linspace tt0 tt1 (sample_count tt0 tt1)) \/ close (Rmax microsecond (((w2 - w1) / w1) ^ 4 / 5)) e r) es (find_transits ha desired tt0 tt1).
Proof. exact transits_found. Qed.
Print Assumptions C81_transits_partial.
Theorem C81_at_the_start_refuted : find_transits (fun t => tau * t) (fun _ => 0) 0 (1 / 2) = [None] /\ event (fun t => tau * t) (fun _ => 0) 0.
Proof. exact start_lost. Qed.
Print Assumptions C81_at_the_start_refuted.
Theorem C81_risings_and_settings_partial : forall ha desired above rate w1 w2 tt0 tt1,
  turning_sky ha desired w1 w2 -> (w2 - w1) / w1 <= 1 / 2 -> tt0 < tt1 ->
  exists es, StronglySorted Rlt es /\ (forall e, In e es <-> tt0 <= e < tt1 /\ event ha desired e) /\
    Forall2 (close_crossing (4 * Rmax microsecond (((w2 - w1) / w1) ^ 3 / 5))) es (find_crossings ha desired above rate tt0 tt1).
Proof. exact crossings_found. Qed.
Print Assumptions C81_risings_and_settings_partial.
Example C81_ex : turning_sky (fun t => tau * t) (fun _ => 0) tau tau /\ (tau - tau) / tau <= 1 / 2.
Proof. split; [exact steady|]. pose proof tau_pos. unfold Rminus. rewrite Rplus_opp_r. unfold Rdiv. lra. Qed.

(** * C82: the events are what the documentation says. *)
Theorem C82_rising_and_setting_events : forall ha lat dec h e,
  - (PI / 2) < lat < PI / 2 -> - (PI / 2) < dec e < PI / 2 -> - (PI / 2) <= h e <= PI / 2 -> (exists k, altitude_at lat (dec e) k = h e) ->
  (event ha (fun t => setting_hour_angle lat (dec t) (h t)) e <-> altitude_at lat (dec e) (ha e) = h e /\ 0 <= sin (ha e)) /\
  (event ha (fun t => rising_hour_angle lat (dec t) (h t)) e <-> altitude_at lat (dec e) (ha e) = h e /\ sin (ha e) <= 0).
Proof. exact crossing_event. Qed.
Print Assumptions C82_rising_and_setting_events.
Theorem C82_transit_events : forall ha lat dec e, - (PI / 2) < lat < PI / 2 -> - (PI / 2) < dec e < PI / 2 ->
  (event ha (fun t => transit_ha lat (dec t) 0) e <-> forall k, altitude_at lat (dec e) k <= altitude_at lat (dec e) (ha e)).
Proof. exact transit_event. Qed.
Print Assumptions C82_transit_events.
Theorem C82_horizon : forall d, 0 < d ->
  horizon_of Sun d = - (50 / 60) * (PI / 180) /\ horizon_of Other d = - (34 / 60) * (PI / 180) /\
  horizon_of Moon d = - (34 / 60) * (PI / 180) - 1737400 / d.
Proof. exact horizon_minutes. Qed.
Print Assumptions C82_horizon.
Example C82_ex : - (PI / 2) < 0 < PI / 2 /\ exists k, altitude_at 0 0 k = altitude_at 0 0 1.
Proof. pose proof PI_RGT_0. split; [lra|]. exists 1. reflexivity. Qed.

(** * C83: the flag. *)
Theorem C83_false_means_no_crossing : forall desired above rate t2 t3 x lat dec h, last_step desired above rate t2 t3 = Some (x, false) ->
  - (PI / 2) < lat < PI / 2 -> - (PI / 2) < dec < PI / 2 -> - (PI / 2) <= h <= PI / 2 ->
  desired t2 = setting_hour_angle lat dec h \/ desired t2 = rising_hour_angle lat dec h ->
  ~ exists ha hb, altitude_at lat dec ha < h < altitude_at lat dec hb.
Proof. exact flag_false. Qed.
Print Assumptions C83_false_means_no_crossing.
Theorem C83_true_means_crossing_or_parabola : forall desired above rate t2 t3 x lat dec h, last_step desired above rate t2 t3 = Some (x, true) ->
  - (PI / 2) < lat < PI / 2 -> - (PI / 2) < dec < PI / 2 -> - (PI / 2) <= h <= PI / 2 ->
  desired t2 = setting_hour_angle lat dec h \/ desired t2 = rising_hour_angle lat dec h ->
  (exists ha hb, altitude_at lat dec ha < h < altitude_at lat dec hb) \/
  (exists k, x = t2 + k * (t3 - t2) /\ -1 < k < 2 /\ intersection (above t2) (above t3) (rate t2 * (t3 - t2)) (rate t3 * (t3 - t2)) = Some k).
Proof. exact flag_true. Qed.
Print Assumptions C83_true_means_crossing_or_parabola.
Example C83_ex : last_step (fun _ => 0) (fun t => t - 4) (fun _ => 1) 0 1 = Some (2, false) /\ setting_hour_angle 0 0 (PI / 2) = 0 /\
  last_step (fun _ => PI / 2) (fun t => t) (fun _ => 1) 0 1 = Some (0, true) /\ setting_hour_angle 0 0 0 = PI / 2.
Proof. exact flag_ex. Qed.
(** When the altitude follows a parabola whose slope the code is given, the time
    reported is the crossing itself. *)
Theorem C83_parabola_crossed_exactly : forall desired above rate t2 t3 a b c,
  (forall t, above t = a * (t - t2) ^ 2 + b * (t - t2) + c) -> derivable_pt_lim above t2 (rate t2) ->
  t2 <> t3 -> above t2 <> 0 -> above t2 * above t3 <= 0 ->
  exists k, last_step desired above rate t2 t3 = Some (t2 + k * (t3 - t2), true) /\ 0 < k <= 1 /\ above (t2 + k * (t3 - t2)) = 0.
Proof. exact parabola_exact. Qed.
Print Assumptions C83_parabola_crossed_exactly.
Example C83_parabola_ex : let above t := t * t - 2 in (forall t, above t = 1 * (t - 1) ^ 2 + 2 * (t - 1) + -1) /\ derivable_pt_lim above 1 2 /\ above 1 * above 2 <= 0.
Proof. exact parabola_case. Qed.
