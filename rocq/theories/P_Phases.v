(** C159-C161: the events of the almanac, from the functions of time to [find_discrete]. *)
From Coq Require Import ZArith QArith Qreals Reals List Bool Lia Lra.
From Verif Require Import Real_Math Almanac_Model Search_Model Phases_Model Phases_Spec Phases_Proofs Phases_Proofs2 Phases_Proofs3 Phases_Proofs4 Phases_Proofs5.
Import ListNotations.
Open Scope R_scope.

(** * C159 *)
Theorem C159_seasons : forall slon phi jd0 jd1 r, (jd0 < jd1)%Q -> (jd1 - jd0 <= EPSILON * inject_Z (11 ^ Z.of_nat r))%Q ->
  up_to_turns slon phi (Q2R jd0) (Q2R jd1) -> advancing phi (Q2R jd0) (Q2R jd1) ->
  moves_at_most (3 / 4 * tau) 90 phi (Q2R jd0) (Q2R jd1) -> moves_at_most (tau / 4) millisecond phi (Q2R jd0) (Q2R jd1) ->
  exists evs, find_events_of (S r) (seasons slon) jd0 jd1 = Found evs /\
    one_event_each millisecond (tau / 4) (fun k => (k mod 4)%Z) phi (Q2R jd0) (Q2R jd1) evs.
Proof. exact seasons_found. Qed.
Print Assumptions C159_seasons.
Theorem C159_moon_phases : forall mlon slon phi jd0 jd1 r, (jd0 < jd1)%Q -> (jd1 - jd0 <= EPSILON * inject_Z (11 ^ Z.of_nat r))%Q ->
  up_to_turns (fun t => mlon t - slon t) phi (Q2R jd0) (Q2R jd1) -> advancing phi (Q2R jd0) (Q2R jd1) ->
  moves_at_most (3 / 4 * tau) 7 phi (Q2R jd0) (Q2R jd1) -> moves_at_most (tau / 4) millisecond phi (Q2R jd0) (Q2R jd1) ->
  exists evs, find_events_of (S r) (moon_phases mlon slon) jd0 jd1 = Found evs /\
    one_event_each millisecond (tau / 4) (fun k => (k mod 4)%Z) phi (Q2R jd0) (Q2R jd1) evs.
Proof. exact moon_phases_found. Qed.
Print Assumptions C159_moon_phases.
Theorem C159_solar_terms : forall slon phi jd0 jd1 r, (jd0 < jd1)%Q -> (jd1 - jd0 <= EPSILON * inject_Z (11 ^ Z.of_nat r))%Q ->
  up_to_turns slon phi (Q2R jd0) (Q2R jd1) -> advancing phi (Q2R jd0) (Q2R jd1) ->
  moves_at_most (23 / 24 * tau) 14 phi (Q2R jd0) (Q2R jd1) -> moves_at_most (tau / 24) millisecond phi (Q2R jd0) (Q2R jd1) ->
  exists evs, find_events_of (S r) (solar_terms slon) jd0 jd1 = Found evs /\
    one_event_each millisecond (tau / 24) (fun k => (k mod 24)%Z) phi (Q2R jd0) (Q2R jd1) evs.
Proof. exact solar_terms_found. Qed.
Print Assumptions C159_solar_terms.
(** A Sun that moves evenly through a year of 365 days, for 400 days; the first
    quarter turn is among the levels passed. *)
Example C159_ex : let slon t := t * (tau / 365) in let a := Q2R 0 in let b := Q2R 400 in
  (400 - 0 <= EPSILON * inject_Z (11 ^ Z.of_nat 11))%Q /\ up_to_turns slon slon a b /\ advancing slon a b /\
  moves_at_most (3 / 4 * tau) 90 slon a b /\ moves_at_most (23 / 24 * tau) 14 slon a b /\ moves_at_most PI 40 slon a b /\
  moves_at_most (tau / 24) millisecond slon a b /\ moves_at_most (tau / 4) millisecond slon a b /\
  slon a < 1 * (tau / 4) <= slon b.
Proof. exact twice_a_year. Qed.

(** * C160 *)
(** The full statement would allow every motion of the target, with a search that looks
    often enough for the Moon. *)
Theorem C160_oppositions_and_conjunctions_partial : forall slon tlon phi jd0 jd1 r, (jd0 < jd1)%Q -> (jd1 - jd0 <= EPSILON * inject_Z (11 ^ Z.of_nat r))%Q ->
  up_to_turns (fun t => slon t - tlon t) phi (Q2R jd0) (Q2R jd1) -> moves_at_most PI millisecond phi (Q2R jd0) (Q2R jd1) ->
  forall target, target <> 301%Z -> advancing phi (Q2R jd0) (Q2R jd1) -> moves_at_most PI 40 phi (Q2R jd0) (Q2R jd1) ->
  exists evs, find_events_of (S r) (oppositions_conjunctions target slon tlon) jd0 jd1 = Found evs /\
    one_event_each millisecond PI (fun k => (k mod 2)%Z) phi (Q2R jd0) (Q2R jd1) evs.
Proof. intros; apply (oppositions_found slon tlon); assumption. Qed.
Print Assumptions C160_oppositions_and_conjunctions_partial.
Theorem C160_moon_partial : forall slon tlon phi jd0 jd1 r, (jd0 < jd1)%Q -> (jd1 - jd0 <= EPSILON * inject_Z (11 ^ Z.of_nat r))%Q ->
  up_to_turns (fun t => slon t - tlon t) phi (Q2R jd0) (Q2R jd1) -> moves_at_most PI millisecond phi (Q2R jd0) (Q2R jd1) ->
  receding phi (Q2R jd0) (Q2R jd1) -> moves_at_most PI 14 phi (Q2R jd0) (Q2R jd1) ->
  exists evs, find_events_of (S r) (oppositions_conjunctions 301 slon tlon) jd0 jd1 = Found evs /\
    one_event_each_down millisecond PI (fun k => ((k - 1) mod 2)%Z) phi (Q2R jd0) (Q2R jd1) evs.
Proof. intros; apply moon_oppositions_found; assumption. Qed.
Print Assumptions C160_moon_partial.
(** A planet that stays within half a turn of the Sun: inferior conjunctions, in which
    it passes from east to west, have the label 0 and superior ones the label 1. *)
Theorem C160_inner_planets_partial : forall (slon tlon phi : R -> R) jd0 jd1 r target (above : bool) cs, (jd0 < jd1)%Q -> (jd1 - jd0 <= EPSILON * inject_Z (11 ^ Z.of_nat r))%Q ->
  up_to_turns (fun t => tlon t - slon t) phi (Q2R jd0) (Q2R jd1) -> (forall t, Q2R jd0 <= t <= Q2R jd1 -> - PI < phi t < PI) -> target <> 301%Z ->
  (if above then 0 < phi (Q2R jd0) else phi (Q2R jd0) < 0) -> crosses phi 0 40 (Q2R jd0) above cs (Q2R jd1) ->
  exists evs, find_events_of (S r) (oppositions_conjunctions target slon tlon) jd0 jd1 = Found evs /\ one_event_per_crossing millisecond above cs evs.
Proof. exact inner_found. Qed.
Print Assumptions C160_inner_planets_partial.
(** The Moon may gain more than half a turn on the Sun in 14 days: it does so at 12.9
    degrees a day. Then a New Moon and a Full Moon can both fall between two samples. *)
Theorem C160_moon_refuted : exists slon mlon phi jd0 jd1, up_to_turns (fun t => slon t - mlon t) phi (Q2R jd0) (Q2R jd1) /\
  receding phi (Q2R jd0) (Q2R jd1) /\ moves_at_most (13 * (PI / 180)) 1 phi (Q2R jd0) (Q2R jd1) /\
  phi (Q2R jd1) < - PI /\ 0 < phi (Q2R jd0) /\
  find_events_of 1 (oppositions_conjunctions 301 slon mlon) jd0 jd1 = Found [].
Proof. exact moon_missed. Qed.
Print Assumptions C160_moon_refuted.
Theorem C160_transits : forall ra1 ra2 phi jd0 jd1 r, (jd0 < jd1)%Q -> (jd1 - jd0 <= EPSILON * inject_Z (11 ^ Z.of_nat r))%Q ->
  up_to_turns (fun t => ra1 t - ra2 t) phi (Q2R jd0) (Q2R jd1) -> moves_at_most PI millisecond phi (Q2R jd0) (Q2R jd1) ->
  advancing phi (Q2R jd0) (Q2R jd1) -> moves_at_most PI (4 / 10) phi (Q2R jd0) (Q2R jd1) ->
  exists evs, find_events_of (S r) (meridian_transits ra1 ra2) jd0 jd1 = Found evs /\
    one_event_each millisecond PI (fun k => ((k + 1) mod 2)%Z) phi (Q2R jd0) (Q2R jd1) evs.
Proof. intros; apply transits_found; assumption. Qed.
Print Assumptions C160_transits.
Example C160_ex : let slon t := t * (tau / 365) in let a := Q2R 0 in let b := Q2R 400 in
  (400 - 0 <= EPSILON * inject_Z (11 ^ Z.of_nat 11))%Q /\ up_to_turns slon slon a b /\ advancing slon a b /\
  moves_at_most (3 / 4 * tau) 90 slon a b /\ moves_at_most (23 / 24 * tau) 14 slon a b /\ moves_at_most PI 40 slon a b /\
  moves_at_most (tau / 24) millisecond slon a b /\ moves_at_most (tau / 4) millisecond slon a b /\
  slon a < 1 * (tau / 4) <= slon b.
Proof. exact twice_a_year. Qed.

(** * C161 *)
Theorem C161_sunrise_and_sunset : forall (h : R -> R) jd0 jd1 r (above : bool) cs, (jd0 < jd1)%Q -> (jd1 - jd0 <= EPSILON * inject_Z (11 ^ Z.of_nat r))%Q ->
  let level := - (8333 / 10000) in
  (if above then level < h (Q2R jd0) else h (Q2R jd0) < level) -> crosses h level (4 / 100) (Q2R jd0) above cs (Q2R jd1) ->
  exists evs, find_events_of (S r) (sunrise_sunset h) jd0 jd1 = Found evs /\ one_event_per_crossing millisecond above cs evs.
Proof. exact sun_found. Qed.
Print Assumptions C161_sunrise_and_sunset.
Theorem C161_risings_and_settings_partial : forall (h : R -> R) jd0 jd1 r (above : bool) cs, (jd0 < jd1)%Q -> (jd1 - jd0 <= EPSILON * inject_Z (11 ^ Z.of_nat r))%Q ->
  forall horizon radius, (if above then horizon - radius < h (Q2R jd0) else h (Q2R jd0) < horizon - radius) ->
  crosses h (horizon - radius) (1 / 4) (Q2R jd0) above cs (Q2R jd1) ->
  exists evs, find_events_of (S r) (risings_and_settings horizon radius h) jd0 jd1 = Found evs /\ one_event_per_crossing millisecond above cs evs.
Proof. exact body_found. Qed.
Print Assumptions C161_risings_and_settings_partial.
(** A body that rises and, 4 hours and 21 minutes later, sets. *)
Theorem C161_short_stay_refuted : exists (altitude : R -> R) jd0 jd1, (forall t, continuity_pt altitude t) /\
  crosses altitude 0 (18 / 100) (Q2R jd0) false [1 / 110; 21 / 110] (Q2R jd1) /\
  find_events_of 1 (risings_and_settings 0 0 altitude) jd0 jd1 = Found [].
Proof. exact body_missed. Qed.
Print Assumptions C161_short_stay_refuted.
Theorem C161_nodes : forall (mlat : R -> R) jd0 jd1 r (above : bool) cs, (jd0 < jd1)%Q -> (jd1 - jd0 <= EPSILON * inject_Z (11 ^ Z.of_nat r))%Q ->
  (if above then 0 < mlat (Q2R jd0) else mlat (Q2R jd0) < 0) -> crosses mlat 0 12 (Q2R jd0) above cs (Q2R jd1) ->
  exists evs, find_events_of (S r) (moon_nodes mlat) jd0 jd1 = Found evs /\ one_event_per_crossing millisecond above cs evs.
Proof. exact nodes_found. Qed.
Print Assumptions C161_nodes.
Theorem C161_dawn : forall (h : R -> R) jd0 jd1 r, (jd0 < jd1)%Q -> (jd1 - jd0 <= EPSILON * inject_Z (11 ^ Z.of_nat r))%Q ->
  moves_at_most 5 millisecond h (Q2R jd0) (Q2R jd1) -> advancing h (Q2R jd0) (Q2R jd1) ->
  exists evs, find_events_of (S r) (dark_twilight_day h) jd0 jd1 = Found evs /\ dawn millisecond h (Q2R jd0) (Q2R jd1) evs.
Proof. exact dawn_found. Qed.
Print Assumptions C161_dawn.
Theorem C161_dusk : forall (h : R -> R) jd0 jd1 r, (jd0 < jd1)%Q -> (jd1 - jd0 <= EPSILON * inject_Z (11 ^ Z.of_nat r))%Q ->
  moves_at_most 5 millisecond h (Q2R jd0) (Q2R jd1) -> receding h (Q2R jd0) (Q2R jd1) ->
  exists evs, find_events_of (S r) (dark_twilight_day h) jd0 jd1 = Found evs /\ dusk millisecond h (Q2R jd0) (Q2R jd1) evs.
Proof. exact dusk_found. Qed.
Print Assumptions C161_dusk.
Example C161_ex : let h t := (t - 1) * (t - 2) - 8333 / 10000 in
  (3 - 0 <= EPSILON * inject_Z (11 ^ Z.of_nat 9))%Q /\ - (8333 / 10000) < h (Q2R 0) /\ crosses h (- (8333 / 10000)) (4 / 100) (Q2R 0) true [1; 2] (Q2R 3).
Proof. exact a_day. Qed.
Example C161_ex2 : let h t := t * 100 in
  (1 - -1 <= EPSILON * inject_Z (11 ^ Z.of_nat 8))%Q /\ advancing h (Q2R (-1)) (Q2R 1) /\ moves_at_most 5 millisecond h (Q2R (-1)) (Q2R 1).
Proof. exact a_morning. Qed.
