(** Properties of the event searches, in exact arithmetic. *)
From Coq Require Import ZArith QArith Qabs List Bool Lia Lqa Morphisms.
From Verif Require Import PyNum Time_Model Search_Model Search_Spec Search_Proofs Maxima_Proofs Peak_Proofs Events_Proofs Search_Proofs2.
Import ListNotations.
Open Scope Q_scope.

(** One millisecond in days. [late] changes from 0 to 1 at time 1. *)
Definition millisecond : Q := 1 # 86400000.

(** * C24 *)
Theorem C24_events_are_real : forall f fuel jd0 jd1 s eps num evs, time_function f ->
  positive_sampling s -> (2 <= num)%nat -> find_discrete fuel jd0 jd1 f s eps num = Found evs ->
  forall t v, In (t, v) evs ->
    jd0 < t <= jd1 /\ f t = v /\ exists t', jd0 <= t' < t /\ t - eps <= t' /\ f t' <> v.
Proof. exact events_are_real. Qed.
Print Assumptions C24_events_are_real.
Example C24_ex : time_function late /\ positive_sampling (StepDays 1) /\
  exists evs, find_discrete 8 0 2 late (StepDays 1) (1 # 10) 12 = Found evs /\ length evs = 1%nat.
Proof. split; [exact late_fun|]. split; [reflexivity|]. eexists. split; [vm_compute; reflexivity|reflexivity]. Qed.

(** * C25 *)
(** The statement is for every [num]; with [num = 1] it is false. *)
Theorem C25_events_form_a_chain_partial : forall f fuel jd0 jd1 s eps num evs, time_function f ->
  positive_sampling s -> (2 <= num)%nat -> find_discrete fuel jd0 jd1 f s eps num = Found evs ->
  chain (f jd0) (map snd evs) (f jd1) /\ increasing_in jd0 (map fst evs) jd1.
Proof. exact events_form_a_chain. Qed.
Print Assumptions C25_events_form_a_chain_partial.
Theorem C25_one_sample_per_round_loses_events_refuted :
  exists f jd0 jd1 s eps fuel, time_function f /\ positive_sampling s /\ 0 < eps /\
    find_discrete fuel jd0 jd1 f s eps 1 = Found [] /\ ~ chain (f jd0) [] (f jd1).
Proof. exact one_sample_loses. Qed.
Print Assumptions C25_one_sample_per_round_loses_events_refuted.

(** * C26 *)
Theorem C26_nothing_slower_than_the_step_is_missed : forall f fuel jd0 jd1 step eps num cs evs, time_function f ->
  0 < step -> (2 <= num)%nat -> history f step jd0 jd1 cs ->
  find_discrete fuel jd0 jd1 f (StepDays step) eps num = Found evs ->
  Forall2 (found_for eps) evs cs.
Proof. exact nothing_missed. Qed.
Print Assumptions C26_nothing_slower_than_the_step_is_missed.
Theorem C26_one_event_per_change_between_samples : forall f fuel jd0 jd1 s eps num l os evs, time_function f ->
  positive_sampling s -> (2 <= num)%nat -> discrete_samples jd0 jd1 s num = Some l ->
  Forall2 (at_most_one_change f) (pairs l) os ->
  find_discrete fuel jd0 jd1 f s eps num = Found evs ->
  Forall2 (found_for eps) evs (the_changes os).
Proof. exact one_change_each. Qed.
Print Assumptions C26_one_event_per_change_between_samples.
Theorem C26_samples_are_closer_than_the_step : forall jd0 jd1 step num, jd0 < jd1 -> 0 < step ->
  exists l, discrete_samples jd0 jd1 (StepDays step) num = Some l /\
    forall a b, In (a, b) (pairs l) -> a < b /\ b - a < step.
Proof. exact samples_closer. Qed.
Print Assumptions C26_samples_are_closer_than_the_step.
Example C26_ex : history late 1 0 2 [(1, 1%Z)].
Proof.
  split; [cbn; split; [discriminate|reflexivity]|]. split; [cbn; auto|]. split; [cbn; repeat split; discriminate|].
  intros t _. unfold late. cbn. destruct (Qle_bool 1 t); auto.
Qed.

(** * C27 *)
(** The statement is for every accepted [num]; with [num = 2] the loop never ends. *)
Theorem C27_search_ends_partial : forall f jd0 jd1 s eps num k, time_function f ->
  positive_sampling s -> (3 <= num)%nat -> jd0 < jd1 ->
  jd1 - jd0 <= eps * inject_Z (Z.of_nat (num - 1) ^ Z.of_nat k) ->
  exists evs, find_discrete (S k) jd0 jd1 f s eps num = Found evs.
Proof. exact search_ends. Qed.
Print Assumptions C27_search_ends_partial.
Example C27_ex : positive_sampling (StepDays 1) /\
  365 - 0 <= millisecond * inject_Z (Z.of_nat (12 - 1) ^ Z.of_nat 11).
Proof. split; [reflexivity|]. apply Qle_bool_iff. vm_compute. reflexivity. Qed.
Theorem C27_two_samples_per_round_never_end_refuted :
  exists f jd0 jd1 s eps, time_function f /\ positive_sampling s /\ 0 < eps /\ jd0 < jd1 /\
    forall fuel, find_discrete fuel jd0 jd1 f s eps 2 = Running.
Proof. exact two_samples_run_forever. Qed.
Print Assumptions C27_two_samples_per_round_never_end_refuted.

(** * C28 *)
Theorem C28_maxima_are_separated_and_inside : forall fuel jd0 jd1 f s eps num l,
  0 <= eps -> positive_sampling s -> (1 <= num)%nat ->
  find_maxima fuel jd0 jd1 f s eps num = Found l ->
  separated eps (map fst l) /\
  forall x y, In (x, y) l -> jd0 <= x <= jd1 /\ (seen_peak f x y \/ seen_plateau f x y).
Proof. exact find_maxima_ok. Qed.
Print Assumptions C28_maxima_are_separated_and_inside.
Definition bump (t : Q) : Q := - Qabs (t - (1 # 2)).
Example C28_ex : exists l, find_maxima 3 0 1 bump (StepDays (1 # 4)) (1 # 4) 12 = Found l /\ length l = 1%nat.
Proof. eexists. split; [vm_compute; reflexivity|reflexivity]. Qed.

(** * C29 *)
(** The statement asks only that the peak is inside by more than [eps]. The
    theorem also asks that it is inside by [margin]: a quarter of the step. *)
Theorem C29_one_peak_is_found_partial : forall f p jd0 jd1 s eps num r, real_function f -> one_peak f p ->
  jd0 < jd1 -> positive_sampling s -> (3 <= num)%nat -> 0 < eps ->
  (jd1 - jd0) + 2 * spacing s num <= eps * inject_Z (Z.of_nat (num - 1) ^ Z.of_nat r) ->
  exists l, find_maxima (S r) jd0 jd1 f s eps num = Found l /\
    (l = [] \/ located f p eps l) /\
    (p <= jd0 - eps \/ jd1 + eps <= p -> l = []) /\
    (jd0 + eps <= p -> p <= jd1 - eps -> jd0 + margin s num <= p -> p <= jd1 - margin s num -> located f p eps l).
Proof. exact one_peak_found. Qed.
Print Assumptions C29_one_peak_is_found_partial.
Theorem C29_one_valley_is_found_partial : forall f p jd0 jd1 s eps num r, real_function f -> one_valley f p ->
  jd0 < jd1 -> positive_sampling s -> (3 <= num)%nat -> 0 < eps ->
  (jd1 - jd0) + 2 * spacing s num <= eps * inject_Z (Z.of_nat (num - 1) ^ Z.of_nat r) ->
  exists l, find_minima (S r) jd0 jd1 f s eps num = Found l /\
    (p <= jd0 - eps \/ jd1 + eps <= p -> l = []) /\
    (l = [] \/ exists x y, l = [(x, y)] /\ p - eps < x < p + eps /\ exists x', p - eps < x' < p + eps /\ y == f x') /\
    (jd0 + eps <= p -> p <= jd1 - eps -> jd0 + margin s num <= p -> p <= jd1 - margin s num -> l <> []).
Proof. exact one_valley_found. Qed.
Print Assumptions C29_one_valley_is_found_partial.
Example C29_ex : real_function bump /\ one_peak bump (1 # 2).
Proof.
  split; [intros a b E; unfold bump; rewrite E; reflexivity|].
  split; intros s t H1 H2; unfold bump.
  - rewrite (Qabs_neg (s - _)) by lra. rewrite (Qabs_neg (t - _)) by lra. lra.
  - rewrite (Qabs_pos (s - _)) by lra. rewrite (Qabs_pos (t - _)) by lra. lra.
Qed.
Theorem C29_peak_near_the_start_is_missed_refuted :
  exists f p jd0 jd1 s, real_function f /\ one_peak f p /\ positive_sampling s /\
    jd0 + 100 * millisecond < p /\ p < jd1 - 100 * millisecond /\
    find_maxima 9 jd0 jd1 f s millisecond 12 = Found [].
Proof. exact peak_missed. Qed.
Print Assumptions C29_peak_near_the_start_is_missed_refuted.

(** * C30 *)
(** The statement is for all altitude functions. The theorem leaves out two
    cases: a plateau whose middle dips under the threshold, and a rise or set
    reported at the same instant as a culmination. *)
Theorem C30_passes_are_well_formed_partial : forall fuel altitude jd0 jd1 step eps thr maxima evs,
  real_function altitude -> 0 < step -> 0 <= eps ->
  find_maxima fuel jd0 jd1 altitude (StepDays step) eps 12 = Found maxima ->
  find_events fuel altitude jd0 jd1 step eps thr = Found evs ->
  sorted_fst evs /\
  ((forall x y, In (x, y) maxima -> thr <= y -> thr <= altitude x) ->
   (forall m t c, In (m, 1%Z) evs -> In (t, c) evs -> t == m -> c = 1%Z) ->
   pass_ok (negb (Qltb (altitude jd0) thr)) (map snd evs)).
Proof. exact events_ok. Qed.
Print Assumptions C30_passes_are_well_formed_partial.
Example C30_ex : real_function bump /\ exists evs,
  find_events 9 bump 0 1 (1 # 4) (1 # 20) (- (1 # 10)) = Found evs /\ map snd evs = [0; 1; 2]%Z.
Proof. split; [apply C29_ex|]. eexists. split; [vm_compute; reflexivity|reflexivity]. Qed.
Theorem C30_culmination_before_rise_refuted :
  exists altitude jd0 jd1 step thr evs, real_function altitude /\ 0 < step /\
    find_events 6 altitude jd0 jd1 step (500 * millisecond) thr = Found evs /\
    ~ pass_ok (negb (Qltb (altitude jd0) thr)) (map snd evs).
Proof. exact culmination_first. Qed.
Print Assumptions C30_culmination_before_rise_refuted.
