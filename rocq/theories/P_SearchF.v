(** C168-C169: searches for events, in binary64. *)
From Coq Require Import ZArith Reals List.
From Verif Require Import Float64 Search_Model SearchF_Model SearchF_Spec SearchF_Proofs4 SearchF_Proofs5.
Import ListNotations.
Open Scope R_scope.

(** C168: the default epsilon and number of samples, at times between 12600 BC and AD
    3181. The search ends within fifteen rounds whatever the function does; the events
    are in order, their values lead from the first value to the last, and each one has
    another value of the function a millisecond or less before it. *)
Theorem C168_ends_in_order : forall jd0 jd1 f step, time_function64 f -> day_number jd0 -> day_number jd1 -> usual_step step -> val jd0 < val jd1 ->
  exists evs, find_discrete64 15 jd0 jd1 f step EPSILON64 NUM = Found evs /\
    in_order (val jd0) (map (fun ev => val (fst ev)) evs) (val jd1) /\ leads (f jd0) (map snd evs) (f jd1) /\ Forall (change_seen f jd0) evs.
Proof. exact search64_ends. Qed.
Print Assumptions C168_ends_in_order.
(** A function whose changes are at least a step apart, and a little more for the
    rounding of the sample times, has each of them reported once and nothing else. *)
Theorem C168_nothing_missed : forall jd0 jd1 f step cs, time_function64 f -> day_number jd0 -> day_number jd1 -> usual_step step -> val jd0 < val jd1 ->
  goes_through f (val step + / 2 ^ 28) jd0 jd1 cs ->
  exists evs, find_discrete64 15 jd0 jd1 f step EPSILON64 NUM = Found evs /\ Forall2 reports evs cs.
Proof. exact nothing_missed64. Qed.
Print Assumptions C168_nothing_missed.
Example C168_ex : exists c, time_function64 (from T_nano) /\ day_number J2000 /\ day_number end_nano /\ usual_step (of_Z 1) /\ val J2000 < val end_nano /\
  goes_through (from T_nano) (val (of_Z 1) + / 2 ^ 28) J2000 end_nano [(c, 1%Z)].
Proof. exact nano_case. Qed.
Example C168_run_ex : find_discrete64 15 J2000 end_nano (from T_nano) (of_Z 1) EPSILON64 NUM = Found [(fl 5264654364507423 (-31), 1%Z)].
Proof. exact nano_default. Qed.
(** Times that are equal or in the wrong order raise, whatever the other arguments. *)
Theorem C168_times_in_order_required : forall fuel jd0 jd1 f step epsilon num, day_number jd0 -> day_number jd1 -> val jd1 <= val jd0 -> find_discrete64 fuel jd0 jd1 f step epsilon num = ValueError.
Proof. exact not_before. Qed.
Print Assumptions C168_times_in_order_required.
Example C168_order_ex : day_number J2000 /\ val J2000 <= val J2000. Proof. exact (conj (proj1 day_J2000) (Rle_refl _)). Qed.

(** C169, full statement: for every [epsilon > 0] and [num >= 3] the search ends, its
    events are in order, and functions whose changes are more than a step apart have
    each change reported once, at most epsilon late. What remains of it for other
    values than the defaults: every event reported is a change that the search saw: the function has the reported
    value at the reported time, and another one at a sample whose distance, as
    subtracted in floats, is at most epsilon. For all floats, NaN included, and every
    number of samples. *)
Theorem C169_events_real_partial : forall fuel jd0 jd1 f step epsilon num evs, find_discrete64 fuel jd0 jd1 f step epsilon num = Found evs ->
  forall t v, In (t, v) evs -> f t = v /\ exists s, f s <> v /\ fleb (fsub t s) epsilon = true.
Proof. exact events64_real. Qed.
Print Assumptions C169_events_real_partial.

(** With another number of samples a round, and the default epsilon, a function that
    changes once can have three events, the second one before the first. *)
Theorem C169_samples_refuted : exists num f jd0 jd1 step c evs, (3 <= num)%nat /\ time_function64 f /\ day_number jd0 /\ day_number jd1 /\ usual_step step /\ val jd0 < val jd1 /\
  goes_through f (val step + / 2 ^ 28) jd0 jd1 [(c, 1%Z)] /\ find_discrete64 7 jd0 jd1 f step EPSILON64 num = Found evs /\ spoiled jd0 jd1 c evs.
Proof. exact fifty_samples. Qed.
Print Assumptions C169_samples_refuted.
(** So it can with a smaller epsilon. *)
Theorem C169_epsilon_refuted : exists epsilon f jd0 jd1 step c evs, fltb (of_Z 0) epsilon = true /\ time_function64 f /\ day_number jd0 /\ day_number jd1 /\ usual_step step /\ val jd0 < val jd1 /\
  goes_through f (val step + / 2 ^ 28) jd0 jd1 [(c, 1%Z)] /\ find_discrete64 10 jd0 jd1 f step epsilon NUM = Found evs /\ spoiled jd0 jd1 c evs.
Proof. exact nano_epsilon. Qed.
Print Assumptions C169_epsilon_refuted.
(** And with an epsilon below the spacing of the floats the search does not end. *)
Theorem C169_endless_refuted : exists epsilon f jd0 jd1 step c, fltb (of_Z 0) epsilon = true /\ time_function64 f /\ day_number jd0 /\ day_number jd1 /\ usual_step step /\ val jd0 < val jd1 /\
  goes_through f (val step + / 2 ^ 28) jd0 jd1 [(c, 1%Z)] /\ forall fuel, find_discrete64 fuel jd0 jd1 f step epsilon NUM = Running.
Proof. exact never_ends. Qed.
Print Assumptions C169_endless_refuted.
