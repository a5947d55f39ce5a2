From Coq Require Import ZArith QArith Qround Qreals Reals List Bool Lia Lra Morphisms.
From Verif Require Import PyNum Time_Model Real_Math Real_Math_Proofs Geo_Proofs Almanac_Model Almanac_Proofs Search_Model Search_Spec Search_Proofs Search_Proofs2 Phases_Model Phases_Spec Phases_Proofs Phases_Proofs2 Phases_Proofs3 Phases_Proofs4.
Import ListNotations.
Open Scope R_scope.

Section Bodies.
Variables (h : R -> R) (jd0 jd1 : Q) (r : nat) (above : bool) (cs : list R).
Hypothesis L : (jd0 < jd1)%Q.
Hypothesis R : (jd1 - jd0 <= EPSILON * inject_Z (11 ^ Z.of_nat r))%Q.
Lemma sun_found : let level := - (8333 / 10000) in
  (if above then level < h (Q2R jd0) else h (Q2R jd0) < level) -> crosses h level (4 / 100) (Q2R jd0) above cs (Q2R jd1) ->
  exists evs, find_events_of (S r) (sunrise_sunset h) jd0 jd1 = Found evs /\ one_event_per_crossing millisecond above cs evs.
Proof.
  intros level H C. apply (cross_found _ (4 # 100) jd0 jd1 h level above cs); try assumption; try reflexivity.
  - exact (Q2R_proper (fun t => if is_sun_up (h t) then 1%Z else 0%Z)).
  - intros t _ _. unfold fits, level. cbn [at_time sunrise_sunset]. unfold is_sun_up. destruct (Rle_dec _ _); repeat split; intros; auto; lra.
Qed.
Lemma body_found horizon radius :
  (if above then horizon - radius < h (Q2R jd0) else h (Q2R jd0) < horizon - radius) -> crosses h (horizon - radius) (1 / 4) (Q2R jd0) above cs (Q2R jd1) ->
  exists evs, find_events_of (S r) (risings_and_settings horizon radius h) jd0 jd1 = Found evs /\ one_event_per_crossing millisecond above cs evs.
Proof.
  intros H C. apply (cross_found _ (1 # 4) jd0 jd1 h (horizon - radius) above cs); try assumption; try reflexivity.
  - exact (Q2R_proper (fun t => if is_body_up horizon radius (h t) then 1%Z else 0%Z)).
  - intros t _ _. unfold fits. cbn [at_time risings_and_settings]. unfold is_body_up. destruct (Rlt_dec _ _); repeat split; intros; auto; lra.
Qed.
Lemma nodes_found : (if above then 0 < h (Q2R jd0) else h (Q2R jd0) < 0) -> crosses h 0 12 (Q2R jd0) above cs (Q2R jd1) ->
  exists evs, find_events_of (S r) (moon_nodes h) jd0 jd1 = Found evs /\ one_event_per_crossing millisecond above cs evs.
Proof.
  intros H C. apply (cross_found _ 12 jd0 jd1 h 0 above cs); try assumption; try reflexivity.
  - exact (Q2R_proper (fun t => if Rlt_dec 0 (h t) then 1%Z else 0%Z)).
  - intros t _ _. unfold fits. cbn [at_time moon_nodes]. destruct (Rlt_dec _ _); repeat split; intros; auto; lra.
  - replace (Q2R 12) with 12 by (unfold Q2R; cbn; lra). exact C.
Qed.
End Bodies.

Lemma inner_found (slon tlon phi : R -> R) jd0 jd1 r target (above : bool) cs : (jd0 < jd1)%Q -> (jd1 - jd0 <= EPSILON * inject_Z (11 ^ Z.of_nat r))%Q ->
  up_to_turns (fun t => tlon t - slon t) phi (Q2R jd0) (Q2R jd1) -> (forall t, Q2R jd0 <= t <= Q2R jd1 -> - PI < phi t < PI) -> target <> 301%Z ->
  (if above then 0 < phi (Q2R jd0) else phi (Q2R jd0) < 0) -> crosses phi 0 40 (Q2R jd0) above cs (Q2R jd1) ->
  exists evs, find_events_of (S r) (oppositions_conjunctions target slon tlon) jd0 jd1 = Found evs /\ one_event_per_crossing millisecond above cs evs.
Proof.
  intros L R T B N H C. unfold find_events_of. replace (step_days (oppositions_conjunctions target slon tlon)) with 40%Q by (cbn; destruct (Z.eqb_spec target 301); [contradiction|reflexivity]).
  apply (cross_found _ 40 jd0 jd1 phi 0 above cs); try assumption; try reflexivity.
  - apply fun_opp.
  - intros t H1 H2. pose proof (Q2R_in _ _ _ H1 H2) as I. destruct (T _ I) as (j & E). specialize (B _ I). pose proof PI_RGT_0 as P.
    assert (V : at_time (oppositions_conjunctions target slon tlon) t = (rfloor (- phi (Q2R t) / PI) mod 2)%Z).
    { apply (opposition_turns _ _ (- j)). rewrite opp_IZR. lra. }
    assert (D : - phi (Q2R t) / PI * PI = - phi (Q2R t)) by (field; lra). set (d := - phi (Q2R t) / PI) in *.
    unfold fits. rewrite V. destruct (Rlt_le_dec 0 (phi (Q2R t))).
    + rewrite (rfloor_unique d (-1)); [|nra]. repeat split; intros; auto; lra.
    + rewrite (rfloor_unique d 0); [|nra]. repeat split; intros; auto; lra.
  - replace (Q2R 40) with 40 by (unfold Q2R; cbn; lra). exact C.
Qed.

(** * twilight *)
Lemma twilight_levels x k : (1 <= k <= 4)%Z -> (k <= twilight x)%Z <-> twilight_altitude k <= x.
Proof.
  intros Hk. assert (D : k = 1%Z \/ k = 2%Z \/ k = 3%Z \/ k = 4%Z) by lia. unfold twilight.
  destruct D as [->|[->|[->| ->]]]; cbn [twilight_altitude];
  destruct (Rle_dec (-18) x), (Rle_dec (-12) x), (Rle_dec (-6) x), (Rle_dec (- (8333 / 10000)) x); split; intros; try lra; try lia.
Qed.
Lemma twilight_range x : (0 <= twilight x <= 4)%Z.
Proof. unfold twilight. destruct (Rle_dec (-18) x), (Rle_dec (-12) x), (Rle_dec (-6) x), (Rle_dec (- (8333 / 10000)) x); lia. Qed.
Lemma twilight_mono x y : x <= y -> (twilight x <= twilight y)%Z.
Proof. intros H. unfold twilight. destruct (Rle_dec (-18) x), (Rle_dec (-12) x), (Rle_dec (-6) x), (Rle_dec (- (8333 / 10000)) x), (Rle_dec (-18) y), (Rle_dec (-12) y), (Rle_dec (-6) y), (Rle_dec (- (8333 / 10000)) y); try lia; lra. Qed.
Lemma twilight_apart x y : y - x <= 5 -> (twilight y <= twilight x + 1)%Z.
Proof. intros H. unfold twilight. destruct (Rle_dec (-18) x), (Rle_dec (-12) x), (Rle_dec (-6) x), (Rle_dec (- (8333 / 10000)) x), (Rle_dec (-18) y), (Rle_dec (-12) y), (Rle_dec (-6) y), (Rle_dec (- (8333 / 10000)) y); try lia; lra. Qed.

Section Twilight.
Variables (h : R -> R) (jd0 jd1 : Q) (r : nat).
Let a := Q2R jd0. Let b := Q2R jd1.
Hypothesis L : (jd0 < jd1)%Q.
Hypothesis R : (jd1 - jd0 <= EPSILON * inject_Z (11 ^ Z.of_nat r))%Q.
Hypothesis Hapart : moves_at_most 5 millisecond h a b.
Let f := at_time (dark_twilight_day h).
Lemma fun_twilight : time_function f.
Proof. exact (Q2R_proper (fun t => twilight (h t))). Qed.
Lemma twilight_ends : exists evs, find_events_of (S r) (dark_twilight_day h) jd0 jd1 = Found evs.
Proof. apply search_ends; [apply fun_twilight|reflexivity|lia|exact L|exact R]. Qed.
Lemma dawn_found : advancing h a b -> exists evs, find_events_of (S r) (dark_twilight_day h) jd0 jd1 = Found evs /\ dawn millisecond h a b evs.
Proof.
  intros A. destruct twilight_ends as [evs E]. exists evs. split; [exact E|].
  assert (M : forall s t, (jd0 <= s)%Q -> (s <= t)%Q -> (t <= jd1)%Q -> (f s <= f t)%Z).
  { intros s t H1 H2 H3. apply twilight_mono. destruct (Rle_lt_or_eq_dec (Q2R s) (Q2R t)) as [l|e]; [apply Qle_Rle; exact H2| |rewrite e; lra].
    left. apply A; [apply Qle_Rle; exact H1|exact l|apply Qle_Rle; exact H3]. }
  assert (S : Forall2 (seen_event f f jd0 jd1 EPSILON) evs (levels (f jd0) (f jd1))).
  { apply (search_counts f f jd0 jd1 (4 # 100)) with (fuel := S r) (num := 12%nat); try assumption; try apply fun_twilight; try reflexivity; try lia.
    - intros s t H1 H2 H3 H4. apply twilight_apart. apply Qle_Rle in H1, H2, H3, H4. rewrite Q2R_minus, Q2R_eps in H4.
      pose proof (Hapart (Q2R s) (Q2R t) H1 H2 H3 H4). pose proof (Rle_abs (h (Q2R t) - h (Q2R s))). lra. }
  exists (levels (f jd0) (f jd1)). split; [apply counting_levels|]. pose proof (twilight_range (h a)) as Ra. pose proof (twilight_range (h b)) as Rb. split.
  - intros k. rewrite levels_in. change (f jd0) with (twilight (h a)). change (f jd1) with (twilight (h b)). split.
    + intros [K1 K2]. assert (K : (1 <= k <= 4)%Z) by lia. split; [exact K|]. split; [|apply twilight_levels; assumption].
      destruct (Rlt_le_dec (h a) (twilight_altitude k)) as [|X]; [assumption|]. apply twilight_levels in X; [lia|exact K].
    + intros (K & K1 & K2). apply twilight_levels in K2; [|exact K]. split; [|exact K2].
      destruct (Z_lt_le_dec (twilight (h a)) k) as [|X]; [assumption|]. apply twilight_levels in X; [lra|exact K].
  - assert (S' : Forall2 (fun e k => seen_event f f jd0 jd1 EPSILON e k /\ (1 <= k <= 4)%Z) evs (levels (f jd0) (f jd1))).
    { assert (In4 : forall k, In k (levels (f jd0) (f jd1)) -> (1 <= k <= 4)%Z).
      { intros k Hk. apply levels_in in Hk. change (f jd0) with (twilight (h a)) in Hk. change (f jd1) with (twilight (h b)) in Hk. lia. }
      revert S In4. generalize (levels (f jd0) (f jd1)). clear. intros l S I. induction S; constructor; [split; [assumption|apply I; left; reflexivity]|apply IHS; intros k Hk; apply I; right; exact Hk]. }
    eapply Forall2_weaken; [|exact S']. intros [t v] k [(E1 & E2 & s & S1 & S2 & S3 & S4 & S5) K]. cbn [fst snd] in *.
    split; [cbn; congruence|]. apply Qle_Rle in S1, S3, S4. apply Qlt_Rlt in S2. rewrite Q2R_minus, Q2R_eps in S4. fold a in S1. fold b in S3.
    assert (P1 : twilight_altitude k <= h (Q2R t)) by (apply twilight_levels; [exact K|change (f t) with (twilight (h (Q2R t))) in E2; lia]).
    assert (P2 : h (Q2R s) < twilight_altitude k).
    { destruct (Rlt_le_dec (h (Q2R s)) (twilight_altitude k)) as [|X]; [assumption|]. apply twilight_levels in X; [change (f s) with (twilight (h (Q2R s))) in S5; lia|exact K]. }
    destruct (between h a b (Q2R s) (Q2R t) (twilight_altitude k) (proj1 A)) as (z & Z1 & Z2); try assumption.
    exists z. cbn [fst]. repeat split; lra.
Qed.
Lemma dusk_found : receding h a b -> exists evs, find_events_of (S r) (dark_twilight_day h) jd0 jd1 = Found evs /\ dusk millisecond h a b evs.
Proof.
  intros A. destruct twilight_ends as [evs E]. exists evs. split; [exact E|]. set (g := fun t => (- f t)%Z).
  assert (Hg : time_function g). { intros x y Q. unfold g. rewrite (fun_twilight _ _ Q). reflexivity. }
  assert (M : forall s t, (jd0 <= s)%Q -> (s <= t)%Q -> (t <= jd1)%Q -> (g s <= g t)%Z).
  { intros s t H1 H2 H3. unfold g. apply -> Z.opp_le_mono. apply twilight_mono. destruct (Rle_lt_or_eq_dec (Q2R s) (Q2R t)) as [l|e]; [apply Qle_Rle; exact H2| |rewrite e; lra].
    left. apply (proj2 A); [apply Qle_Rle; exact H1|exact l|apply Qle_Rle; exact H3]. }
  assert (S : Forall2 (seen_event f g jd0 jd1 EPSILON) evs (levels (g jd0) (g jd1))).
  { apply (search_counts f g jd0 jd1 (4 # 100)) with (fuel := S r) (num := 12%nat); try assumption; try reflexivity; try lia.
    - unfold g. intros s t _ _ _ X. lia.
    - unfold g. intros s t _ _ _ _ X. lia.
    - intros s t H1 H2 H3 H4. assert (X : (f s <= f t + 1)%Z); [|unfold g; lia]. apply twilight_apart. apply Qle_Rle in H1, H2, H3, H4. rewrite Q2R_minus, Q2R_eps in H4.
      pose proof (Hapart (Q2R s) (Q2R t) H1 H2 H3 H4) as B. rewrite Rabs_minus_sym in B. pose proof (Rle_abs (h (Q2R s) - h (Q2R t))). lra. }
  exists (levels (g jd0 - 1) (g jd1 - 1)). split; [apply counting_levels|]. pose proof (twilight_range (h a)) as Ra. pose proof (twilight_range (h b)) as Rb. split.
  - intros k. rewrite in_map_iff. transitivity (In (- k)%Z (levels (g jd0 - 1) (g jd1 - 1))).
    { split; [intros (x & <- & X); rewrite Z.opp_involutive; exact X|intros X; exists (- k)%Z; split; [lia|exact X]]. }
    rewrite levels_in. unfold g. change (f jd0) with (twilight (h a)). change (f jd1) with (twilight (h b)). split.
    + intros [K1 K2]. assert (K : (1 <= k <= 4)%Z) by lia. split; [exact K|]. split; [|apply twilight_levels; [exact K|lia]].
      destruct (Rlt_le_dec (h b) (twilight_altitude k)) as [|X]; [assumption|]. apply twilight_levels in X; [lia|exact K].
    + intros (K & K1 & K2). apply twilight_levels in K2; [|exact K].
      destruct (Z_lt_le_dec (twilight (h b)) k) as [|X]; [lia|]. apply twilight_levels in X; [lra|exact K].
  - apply shift_down in S.
    assert (S' : Forall2 (fun e k => seen_event f g jd0 jd1 EPSILON e (k + 1)%Z /\ (1 <= - k <= 4)%Z) evs (levels (g jd0 - 1) (g jd1 - 1))).
    { assert (In4 : forall k, In k (levels (g jd0 - 1) (g jd1 - 1)) -> (1 <= - k <= 4)%Z).
      { intros k Hk. apply levels_in in Hk. unfold g in Hk. change (f jd0) with (twilight (h a)) in Hk. change (f jd1) with (twilight (h b)) in Hk. lia. }
      revert S In4. generalize (levels (g jd0 - 1) (g jd1 - 1)). clear. intros l S I. induction S; constructor; [split; [assumption|apply I; left; reflexivity]|apply IHS; intros k Hk; apply I; right; exact Hk]. }
    eapply Forall2_weaken; [|exact S']. intros [t v] k [(E1 & E2 & s & S1 & S2 & S3 & S4 & S5) K]. cbn [fst snd] in *.
    split; [cbn; unfold g in E2; lia|]. apply Qle_Rle in S1, S3, S4. apply Qlt_Rlt in S2. rewrite Q2R_minus, Q2R_eps in S4. fold a in S1. fold b in S3.
    assert (P1 : twilight_altitude (- k) <= h (Q2R s)) by (apply twilight_levels; [exact K|unfold g in S5; change (f s) with (twilight (h (Q2R s))) in S5; lia]).
    assert (P2 : h (Q2R t) < twilight_altitude (- k)).
    { destruct (Rlt_le_dec (h (Q2R t)) (twilight_altitude (- k))) as [|X]; [assumption|]. apply twilight_levels in X; [unfold g in E2; change (f t) with (twilight (h (Q2R t))) in E2; lia|exact K]. }
    destruct (down_between h a b (Q2R s) (Q2R t) (twilight_altitude (- k)) (proj1 A)) as (z & Z1 & Z2); try assumption.
    exists z. cbn [fst]. repeat split; lra.
Qed.
End Twilight.

(** * the Moon *)
(** 180.1 degrees in 13.96 days *)
Definition fast (t : R) : R := PI / 10000 - t * (PI / (1395 / 100)).
Lemma fast_linear s t : fast t - fast s = - (t - s) * (PI / (1395 / 100)).
Proof. unfold fast. ring. Qed.
Lemma fast_receding a b : receding fast a b.
Proof.
  split.
  - intros t _. unfold fast. reg.
  - intros s t _ H _. pose proof (fast_linear s t). pose proof PI_RGT_0. assert (0 < (t - s) * (PI / (1395 / 100))) by (apply Rmult_lt_0_compat; lra). lra.
Qed.
Lemma moon_missed : exists slon mlon phi jd0 jd1, up_to_turns (fun t => slon t - mlon t) phi (Q2R jd0) (Q2R jd1) /\
  receding phi (Q2R jd0) (Q2R jd1) /\ moves_at_most (13 * (PI / 180)) 1 phi (Q2R jd0) (Q2R jd1) /\
  phi (Q2R jd1) < - PI /\ 0 < phi (Q2R jd0) /\
  find_events_of 1 (oppositions_conjunctions 301 slon mlon) jd0 jd1 = Found [].
Proof.
  pose proof PI_RGT_0 as P.
  exists fast, (fun _ => 0), fast, 0%Q, (1396 # 100). 
  assert (E0 : Q2R 0 = 0) by (unfold Q2R; cbn; lra). assert (E1 : Q2R (1396 # 100) = 1396 / 100) by (unfold Q2R; cbn; lra).
  split; [intros t _; exists 0%Z; ring|]. split; [apply fast_receding|]. split; [|split; [|split]].
  - intros s t H1 H2 H3 H4. rewrite fast_linear. rewrite Rabs_left1; nra.
  - rewrite E1. unfold fast. nra.
  - rewrite E0. unfold fast. nra.
  - assert (F0 : forall t, Q2R t = 0 -> at_time (oppositions_conjunctions 301 fast (fun _ => 0)) t = 0%Z).
    { intros t Et. cbn [at_time oppositions_conjunctions]. rewrite Et. unfold opposition_code. rewrite (opposition_turns _ (fast 0) 0) by ring.
      replace (fast 0 / PI) with (1 / 10000) by (unfold fast; field; lra). rewrite (rfloor_unique (1 / 10000) 0) by lra. reflexivity. }
    assert (F1 : forall t, Q2R t = 1396 / 100 -> at_time (oppositions_conjunctions 301 fast (fun _ => 0)) t = 0%Z).
    { intros t Et. cbn [at_time oppositions_conjunctions]. rewrite Et. unfold opposition_code. rewrite (opposition_turns _ (fast (1396 / 100)) 0) by ring.
      replace (fast (1396 / 100) / PI) with (1 / 10000 - 1396 / 1395) by (unfold fast; field; lra). rewrite (rfloor_unique _ (-2)) by lra. reflexivity. }
    unfold find_events_of, find_discrete. change (Qle_bool (1396 # 100) 0) with false. cbv iota.
    change (discrete_samples 0 (1396 # 100) (StepDays (step_days (oppositions_conjunctions 301 fast (fun _ => 0)))) 12) with (Some (linspace 0 (1396 # 100) 2)).
    cbv iota. cbn [linspace map seq find_loop]. unfold changes, pairs. cbn [combine tl filter fst snd].
    rewrite F0, F1; [reflexivity| |]; unfold linspace_at, Q2R; cbn; lra.
Qed.

(** * a body that is up for less than six hours *)
Definition brief (t : R) : R := 1 - (t - 1 / 10) * (t - 1 / 10) * 121.
Lemma body_missed : exists altitude jd0 jd1, (forall t, continuity_pt altitude t) /\ crosses altitude 0 (18 / 100) (Q2R jd0) false [1 / 110; 21 / 110] (Q2R jd1) /\
  find_events_of 1 (risings_and_settings 0 0 altitude) jd0 jd1 = Found [].
Proof.
  exists brief, 0%Q, (1 # 5). assert (E0 : Q2R 0 = 0) by (unfold Q2R; cbn; lra). assert (E1 : Q2R (1 # 5) = 1 / 5) by (unfold Q2R; cbn; lra).
  split; [intros t; unfold brief; reg|]. split.
  - rewrite E0, E1. cbn [crosses negb]. unfold brief. repeat split; try lra; intros t H; nra.
  - assert (F : forall t, Q2R t = 0 \/ Q2R t = 1 / 5 -> at_time (risings_and_settings 0 0 brief) t = 0%Z).
    { intros t H. cbn [at_time risings_and_settings]. unfold is_body_up. destruct (Rlt_dec (0 - 0) (brief (Q2R t))) as [X|]; [|reflexivity].
      exfalso. unfold brief in X. destruct H as [E|E]; rewrite E in X; lra. }
    unfold find_events_of, find_discrete. change (Qle_bool (1 # 5) 0) with false. cbv iota.
    change (discrete_samples 0 (1 # 5) (StepDays (step_days (risings_and_settings 0 0 brief))) 12) with (Some (linspace 0 (1 # 5) 2)).
    cbv iota. cbn [linspace map seq find_loop]. unfold changes, pairs. cbn [combine tl filter fst snd].
    rewrite (F (linspace_at 0 (1 # 5) 2 0)), (F (linspace_at 0 (1 # 5) 2 1)); [reflexivity|right|left]; unfold linspace_at, Q2R; cbn; lra.
Qed.

(** * steady motions *)
Lemma steady_advancing w a b : 0 < w -> advancing (fun t => t * w) a b.
Proof. intros W. split; [intros t _; reg|intros s t _ H _; nra]. Qed.
Lemma steady_receding w a b : 0 < w -> receding (fun t => - (t * w)) a b.
Proof. intros W. split; [intros t _; reg|intros s t _ H _; nra]. Qed.
Lemma steady_moves w d a b : 0 < w -> moves_at_most (d * w) d (fun t => t * w) a b.
Proof. intros W s t _ H _ D. replace (t * w - s * w) with ((t - s) * w) by ring. rewrite Rabs_right; nra. Qed.
Lemma moves_more x y d phi a b : x <= y -> moves_at_most x d phi a b -> moves_at_most y d phi a b.
Proof. intros L H s t H1 H2 H3 H4. eapply Rle_trans; [apply H; assumption|exact L]. Qed.
Lemma self_turns (x : R -> R) a b : up_to_turns x x a b.
Proof. intros t _. exists 0%Z. ring. Qed.
Lemma twice_a_year : let slon t := t * (tau / 365) in let a := Q2R 0 in let b := Q2R 400 in
  (400 - 0 <= EPSILON * inject_Z (11 ^ Z.of_nat 11))%Q /\ up_to_turns slon slon a b /\ advancing slon a b /\
  moves_at_most (3 / 4 * tau) 90 slon a b /\ moves_at_most (23 / 24 * tau) 14 slon a b /\ moves_at_most PI 40 slon a b /\
  moves_at_most (tau / 24) millisecond slon a b /\ moves_at_most (tau / 4) millisecond slon a b /\
  slon a < 1 * (tau / 4) <= slon b.
Proof.
  intros slon a b. pose proof tau_pos as T. assert (W : 0 < tau / 365) by lra. assert (E0 : a = 0) by (unfold a, Q2R; cbn; lra). assert (E1 : b = 400) by (unfold b, Q2R; cbn; lra).
  assert (P : PI = tau / 2) by (unfold tau; field).
  split; [apply Qle_bool_iff; reflexivity|]. split; [apply self_turns|]. split; [apply steady_advancing; exact W|].
  repeat (split; [first [eapply moves_more; [|apply steady_moves; exact W]; unfold millisecond; lra | rewrite E0; unfold slon; lra]|]).
  unfold slon. rewrite E1. lra.
Qed.
Lemma a_day : let h t := (t - 1) * (t - 2) - 8333 / 10000 in
  (3 - 0 <= EPSILON * inject_Z (11 ^ Z.of_nat 9))%Q /\ - (8333 / 10000) < h (Q2R 0) /\ crosses h (- (8333 / 10000)) (4 / 100) (Q2R 0) true [1; 2] (Q2R 3).
Proof.
  intros h. assert (E0 : Q2R 0 = 0) by (unfold Q2R; cbn; lra). assert (E1 : Q2R 3 = 3) by (unfold Q2R; cbn; lra).
  split; [apply Qle_bool_iff; reflexivity|]. rewrite E0, E1. split; [unfold h; lra|]. cbn [crosses negb]. unfold h. repeat split; try lra; intros t H; nra.
Qed.
Lemma a_morning : let h t := t * 100 in
  (1 - -1 <= EPSILON * inject_Z (11 ^ Z.of_nat 8))%Q /\ advancing h (Q2R (-1)) (Q2R 1) /\ moves_at_most 5 millisecond h (Q2R (-1)) (Q2R 1).
Proof.
  intros h. split; [apply Qle_bool_iff; reflexivity|]. split; [apply steady_advancing; lra|]. eapply moves_more; [|apply steady_moves; lra]. unfold millisecond. lra.
Qed.
