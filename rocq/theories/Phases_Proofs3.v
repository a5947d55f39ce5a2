From Coq Require Import ZArith QArith Qround Qreals Reals List Bool Lia Lra Morphisms.
From Verif Require Import PyNum Time_Model Real_Math Real_Math_Proofs Geo_Proofs Almanac_Model Almanac_Proofs Search_Model Search_Spec Search_Proofs Search_Proofs2 Phases_Model Phases_Spec Phases_Proofs Phases_Proofs2.
Import ListNotations.
Open Scope R_scope.

Lemma floor_shift x (k : Z) : rfloor (x + IZR k) = (rfloor x + k)%Z.
Proof. pose proof (rfloor_bounds x). apply rfloor_unique. rewrite plus_IZR. lra. Qed.
Lemma code_turns x phi (j n : Z) : (0 < n)%Z -> x = phi + IZR j * tau -> code_of x (tau / IZR n) n = (rfloor (phi / (tau / IZR n)) mod n)%Z.
Proof.
  intros Hn ->. pose proof tau_pos as T. apply IZR_lt in Hn as Hn'. unfold code_of.
  replace ((phi + IZR j * tau) / (tau / IZR n)) with (phi / (tau / IZR n) + IZR (j * n)) by (rewrite mult_IZR; field; lra).
  rewrite floor_shift. apply Z.mod_add. lia.
Qed.
Lemma mod_near n j k : (0 < n)%Z -> (j <= k < j + n)%Z -> (j mod n = k mod n)%Z -> j = k.
Proof.
  intros Hn H E. pose proof (Z.div_mod j n ltac:(lia)) as A. pose proof (Z.div_mod k n ltac:(lia)) as B. rewrite E in A.
  assert (D : (k - j = n * (k / n - j / n))%Z) by lia. remember (k / n - j / n)%Z as q. assert (q = 0)%Z by nia. subst q. nia.
Qed.
Lemma Q2R_in jd0 jd1 t : (jd0 <= t)%Q -> (t <= jd1)%Q -> Q2R jd0 <= Q2R t <= Q2R jd1.
Proof. intros H1 H2. split; apply Qle_Rle; assumption. Qed.
Lemma tau_pos_over n : (0 < n)%Z -> 0 < tau / IZR n.
Proof. intros H. apply IZR_lt in H. pose proof tau_pos. apply Rdiv_lt_0_compat; lra. Qed.

Section Codes.
Variables (x phi : R -> R) (jd0 jd1 step : Q) (n : Z) (r : nat).
Hypothesis Hn : (0 < n)%Z.
Hypothesis Hx : up_to_turns x phi (Q2R jd0) (Q2R jd1).
Hypothesis Hs : (0 < step)%Q.
Hypothesis Hphi : advancing phi (Q2R jd0) (Q2R jd1).
Hypothesis Hslow : moves_at_most (IZR (n - 1) * (tau / IZR n)) (Q2R step) phi (Q2R jd0) (Q2R jd1).
Hypothesis Hapart : moves_at_most (tau / IZR n) millisecond phi (Q2R jd0) (Q2R jd1).
Lemma coded_found : (jd0 < jd1)%Q -> (jd1 - jd0 <= EPSILON * inject_Z (11 ^ Z.of_nat r))%Q ->
  exists evs, find_discrete (S r) jd0 jd1 (fun t => code_of (x (Q2R t)) (tau / IZR n) n) (StepDays step) EPSILON 12 = Found evs /\
    one_event_each millisecond (tau / IZR n) (fun k => (k mod n)%Z) phi (Q2R jd0) (Q2R jd1) evs.
Proof.
  intros L R. apply (up_found _ step jd0 jd1 phi (tau / IZR n) (fun k => (k mod n)%Z) n); try assumption.
  - exact (Q2R_proper (fun t => code_of (x t) (tau / IZR n) n)).
  - apply tau_pos_over. exact Hn.
  - intros j k H. apply mod_near; assumption.
  - intros t H1 H2. destruct (Hx (Q2R t) (Q2R_in _ _ _ H1 H2)) as (j & E). apply (code_turns _ _ j); assumption.
Qed.
End Codes.

Lemma seasons_found slon phi jd0 jd1 r : (jd0 < jd1)%Q -> (jd1 - jd0 <= EPSILON * inject_Z (11 ^ Z.of_nat r))%Q ->
  up_to_turns slon phi (Q2R jd0) (Q2R jd1) -> advancing phi (Q2R jd0) (Q2R jd1) ->
  moves_at_most (3 / 4 * tau) 90 phi (Q2R jd0) (Q2R jd1) -> moves_at_most (tau / 4) millisecond phi (Q2R jd0) (Q2R jd1) ->
  exists evs, find_events_of (S r) (seasons slon) jd0 jd1 = Found evs /\
    one_event_each millisecond (tau / 4) (fun k => (k mod 4)%Z) phi (Q2R jd0) (Q2R jd1) evs.
Proof.
  intros L R H1 H2 H3 H4. apply (coded_found slon phi jd0 jd1 90 4 r); try assumption; try reflexivity.
  replace (IZR (4 - 1) * (tau / 4)) with (3 / 4 * tau) by (cbn; field). replace (Q2R 90) with 90 by (unfold Q2R; cbn; lra). exact H3.
Qed.
Lemma moon_phases_found mlon slon phi jd0 jd1 r : (jd0 < jd1)%Q -> (jd1 - jd0 <= EPSILON * inject_Z (11 ^ Z.of_nat r))%Q ->
  up_to_turns (fun t => mlon t - slon t) phi (Q2R jd0) (Q2R jd1) -> advancing phi (Q2R jd0) (Q2R jd1) ->
  moves_at_most (3 / 4 * tau) 7 phi (Q2R jd0) (Q2R jd1) -> moves_at_most (tau / 4) millisecond phi (Q2R jd0) (Q2R jd1) ->
  exists evs, find_events_of (S r) (moon_phases mlon slon) jd0 jd1 = Found evs /\
    one_event_each millisecond (tau / 4) (fun k => (k mod 4)%Z) phi (Q2R jd0) (Q2R jd1) evs.
Proof.
  intros L R H1 H2 H3 H4. apply (coded_found (fun t => mlon t - slon t) phi jd0 jd1 7 4 r); try assumption; try reflexivity.
  replace (IZR (4 - 1) * (tau / 4)) with (3 / 4 * tau) by (cbn; field). replace (Q2R 7) with 7 by (unfold Q2R; cbn; lra). exact H3.
Qed.
Lemma solar_terms_found slon phi jd0 jd1 r : (jd0 < jd1)%Q -> (jd1 - jd0 <= EPSILON * inject_Z (11 ^ Z.of_nat r))%Q ->
  up_to_turns slon phi (Q2R jd0) (Q2R jd1) -> advancing phi (Q2R jd0) (Q2R jd1) ->
  moves_at_most (23 / 24 * tau) 14 phi (Q2R jd0) (Q2R jd1) -> moves_at_most (tau / 24) millisecond phi (Q2R jd0) (Q2R jd1) ->
  exists evs, find_events_of (S r) (solar_terms slon) jd0 jd1 = Found evs /\
    one_event_each millisecond (tau / 24) (fun k => (k mod 24)%Z) phi (Q2R jd0) (Q2R jd1) evs.
Proof.
  intros L R H1 H2 H3 H4. apply (coded_found slon phi jd0 jd1 14 24 r); try assumption; try reflexivity.
  replace (IZR (24 - 1) * (tau / 24)) with (23 / 24 * tau) by (cbn; field). replace (Q2R 14) with 14 by (unfold Q2R; cbn; lra). exact H3.
Qed.

(** half turns *)
Lemma opposition_turns x phi j : x = phi + IZR j * tau -> rfloor (rmod (x / PI) 2) = (rfloor (phi / PI) mod 2)%Z.
Proof.
  intros ->. pose proof PI_RGT_0 as P.
  replace ((phi + IZR j * tau) / PI) with (phi / PI + IZR (2 * j)) by (unfold tau; rewrite mult_IZR; field; lra).
  set (y := phi / PI). unfold rmod.
  set (q := rfloor ((y + IZR (2 * j)) / 2)).
  replace (y + IZR (2 * j) - 2 * IZR q) with (y + IZR (2 * j - 2 * q)) by (rewrite minus_IZR, (mult_IZR 2 q); ring).
  rewrite floor_shift. apply Z.mod_unique with (q := (q - j)%Z); [left|lia].
  pose proof (rfloor_bounds y) as [A B]. pose proof (rfloor_bounds ((y + IZR (2 * j)) / 2)) as [C D]. fold q in C, D.
  rewrite mult_IZR in C, D.
  assert (E1 : IZR (2 * q) < IZR (rfloor y + 2 * j + 1)) by (rewrite !plus_IZR, !mult_IZR; lra).
  assert (E2 : IZR (rfloor y + 2 * j) < IZR (2 * q + 2)) by (rewrite !plus_IZR, !mult_IZR; lra).
  apply lt_IZR in E1, E2. lia.
Qed.
Lemma west_turns x phi j : x = phi + IZR j * tau -> (if Rlt_dec (rmod x tau) PI then true else false) = Z.even (rfloor (phi / PI)).
Proof.
  intros E. pose proof PI_RGT_0 as P. pose proof (opposition_turns x phi j E) as O.
  assert (B : rmod (x / PI) 2 = rmod x tau / PI).
  { unfold rmod. replace (x / PI / 2) with (x / tau) by (unfold tau; field; lra). unfold tau. field. lra. }
  rewrite B in O. pose proof (rmod_bounds x tau tau_pos) as M. pose proof (Zmod_even (rfloor (phi / PI))) as Ev. rewrite <- O in Ev.
  assert (C : 0 <= rmod x tau / PI < 2).
  { split; [apply Rmult_le_pos; [lra|left; apply Rinv_0_lt_compat; lra]|]. apply Rmult_lt_reg_r with PI; [lra|]. replace (rmod x tau / PI * PI) with (rmod x tau) by (field; lra). unfold tau in M |- *. lra. }
  destruct (rfloor_0_2 _ C) as [C1 C2]. destruct (Rlt_dec (rmod x tau) PI) as [L|L].
  - assert (F : rfloor (rmod x tau / PI) = 0%Z). { apply C2. apply Rmult_lt_reg_r with PI; [lra|]. replace (rmod x tau / PI * PI) with (rmod x tau) by (field; lra). lra. }
    rewrite F in Ev. destruct (Z.even _); [reflexivity|discriminate].
  - assert (F : rfloor (rmod x tau / PI) <> 0%Z). { intros F. apply C2 in F. apply L. apply Rmult_lt_reg_r with (/ PI); [apply Rinv_0_lt_compat; lra|]. rewrite Rinv_r by lra. exact F. }
    destruct (Z.even _); [congruence|reflexivity].
Qed.

Section Halves.
Variables (slon tlon phi : R -> R) (jd0 jd1 : Q) (r : nat).
Hypothesis Hx : up_to_turns (fun t => slon t - tlon t) phi (Q2R jd0) (Q2R jd1).
Hypothesis Hapart : moves_at_most PI millisecond phi (Q2R jd0) (Q2R jd1).
Hypothesis L : (jd0 < jd1)%Q.
Hypothesis R : (jd1 - jd0 <= EPSILON * inject_Z (11 ^ Z.of_nat r))%Q.
Lemma value_opp target t : (jd0 <= t)%Q -> (t <= jd1)%Q -> at_time (oppositions_conjunctions target slon tlon) t = (rfloor (phi (Q2R t) / PI) mod 2)%Z.
Proof. intros H1 H2. destruct (Hx (Q2R t) (Q2R_in _ _ _ H1 H2)) as (j & E). exact (opposition_turns _ _ j E). Qed.
Lemma fun_opp target : time_function (at_time (oppositions_conjunctions target slon tlon)).
Proof. exact (Q2R_proper (fun t => opposition_code (slon t) (tlon t))). Qed.
Lemma oppositions_found target : target <> 301%Z -> advancing phi (Q2R jd0) (Q2R jd1) -> moves_at_most PI 40 phi (Q2R jd0) (Q2R jd1) ->
  exists evs, find_events_of (S r) (oppositions_conjunctions target slon tlon) jd0 jd1 = Found evs /\
    one_event_each millisecond PI (fun k => (k mod 2)%Z) phi (Q2R jd0) (Q2R jd1) evs.
Proof.
  intros T A M. unfold find_events_of. replace (step_days (oppositions_conjunctions target slon tlon)) with 40%Q by (cbn; destruct (Z.eqb_spec target 301); [contradiction|reflexivity]).
  apply (up_found _ 40 jd0 jd1 phi PI (fun k => (k mod 2)%Z) 2); try assumption; try reflexivity.
  - apply fun_opp.
  - exact PI_RGT_0.
  - intros j k H. apply mod_near; [lia|assumption].
  - replace (IZR (2 - 1) * PI) with PI by (cbn; ring). replace (Q2R 40) with 40 by (unfold Q2R; cbn; lra). exact M.
  - apply value_opp.
Qed.
Lemma moon_oppositions_found : receding phi (Q2R jd0) (Q2R jd1) -> moves_at_most PI 14 phi (Q2R jd0) (Q2R jd1) ->
  exists evs, find_events_of (S r) (oppositions_conjunctions 301 slon tlon) jd0 jd1 = Found evs /\
    one_event_each_down millisecond PI (fun k => ((k - 1) mod 2)%Z) phi (Q2R jd0) (Q2R jd1) evs.
Proof.
  intros A M. unfold find_events_of. replace (step_days (oppositions_conjunctions 301 slon tlon)) with 14%Q by reflexivity.
  apply (down_found _ 14 jd0 jd1 phi PI (fun k => (k mod 2)%Z) 2); try assumption; try reflexivity.
  - apply fun_opp.
  - exact PI_RGT_0.
  - intros j k H. apply mod_near; [lia|assumption].
  - replace (IZR (2 - 1) * PI) with PI by (cbn; ring). replace (Q2R 14) with 14 by (unfold Q2R; cbn; lra). exact M.
  - apply value_opp.
Qed.
Lemma transits_found : advancing phi (Q2R jd0) (Q2R jd1) -> moves_at_most PI (4 / 10) phi (Q2R jd0) (Q2R jd1) ->
  exists evs, find_events_of (S r) (meridian_transits slon tlon) jd0 jd1 = Found evs /\
    one_event_each millisecond PI (fun k => ((k + 1) mod 2)%Z) phi (Q2R jd0) (Q2R jd1) evs.
Proof.
  intros A M. apply (up_found _ (4 # 10) jd0 jd1 phi PI (fun k => ((k + 1) mod 2)%Z) 2); try assumption; try reflexivity.
  - exact (Q2R_proper (fun t => if west_of_meridian (slon t) (tlon t) then 1%Z else 0%Z)).
  - exact PI_RGT_0.
  - intros j k H E. apply mod_near in E; lia.
  - replace (IZR (2 - 1) * PI) with PI by (cbn; ring). replace (Q2R (4 # 10)) with (4 / 10) by (unfold Q2R; cbn; lra). exact M.
  - intros t H1 H2. destruct (Hx (Q2R t) (Q2R_in _ _ _ H1 H2)) as (j & E). cbn [at_time meridian_transits]. unfold west_of_meridian.
    rewrite (west_turns _ _ j E). rewrite Zmod_even, Z.even_add. destruct (Z.even _); reflexivity.
Qed.
End Halves.
