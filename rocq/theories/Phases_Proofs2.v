From Coq Require Import ZArith QArith Qround Qreals Reals List Bool Lia Lra Morphisms Ranalysis5.
From Verif Require Import PyNum Time_Model Real_Math Real_Math_Proofs Geo_Proofs Almanac_Model Almanac_Proofs Search_Model Search_Spec Search_Proofs Search_Proofs2 Phases_Model Phases_Spec Phases_Proofs.
Import ListNotations.
Open Scope R_scope.

Lemma Q2R_proper {A} (h : R -> A) : Proper (Qeq ==> eq) (fun t => h (Q2R t)).
Proof. intros x y H. f_equal. apply Qeq_eqR. exact H. Qed.
Lemma Q2R_eps : Q2R EPSILON = millisecond.
Proof. unfold EPSILON, millisecond, Q2R. cbn. lra. Qed.
Lemma floor_le x y : x <= y -> (rfloor x <= rfloor y)%Z.
Proof.
  intros H. pose proof (rfloor_bounds x) as [A B]. pose proof (rfloor_bounds y) as [C D].
  assert (L : IZR (rfloor x) < IZR (rfloor y + 1)) by (rewrite plus_IZR; lra). apply lt_IZR in L. lia.
Qed.
Lemma floor_far x y (n : Z) : y - x <= IZR (n - 1) -> (rfloor y < rfloor x + n)%Z.
Proof.
  intros H. pose proof (rfloor_bounds x) as [A B]. pose proof (rfloor_bounds y) as [C D]. rewrite minus_IZR in H.
  assert (L : IZR (rfloor y) < IZR (rfloor x + n)) by (rewrite plus_IZR; lra). apply lt_IZR in L. exact L.
Qed.
Lemma floor_level x w k : 0 < w -> (k <= rfloor (x / w))%Z <-> IZR k * w <= x.
Proof.
  intros Hw. pose proof (rfloor_bounds (x / w)) as [A B]. assert (E : x = x / w * w) by (field; lra). split; intros H.
  - apply IZR_le in H. rewrite E. apply Rmult_le_compat_r; lra.
  - assert (L : IZR k <= x / w) by (apply Rmult_le_reg_r with w; lra).
    assert (L2 : IZR k < IZR (rfloor (x / w) + 1)) by (rewrite plus_IZR; lra). apply lt_IZR in L2. lia.
Qed.
Lemma counting_levels a b : counting_up (levels a b).
Proof.
  unfold levels. generalize (a + 1)%Z. intros c. generalize (Z.to_nat (b - a)) as n. clear. intros n. generalize 0%nat.
  induction n as [|n IH]; intros i; [exact I|]. cbn [seq map counting_up]. split; [|apply IH].
  destruct n; cbn; [exact I|lia].
Qed.
Lemma between phi a b s e y : (forall t, a <= t <= b -> continuity_pt phi t) -> a <= s -> s < e -> e <= b -> phi s < y -> y <= phi e ->
  exists t, s <= t <= e /\ phi t = y.
Proof.
  intros C H1 H2 H3 L1 L2. destruct (Req_dec y (phi e)) as [->|N]; [exists e; lra|].
  destruct (IVT_interv (fun t => phi t - y) s e) as (z & Z1 & Z2); try lra.
  - intros t Ht. apply continuity_pt_minus; [apply C; lra|]. apply continuity_pt_const. intros u v. reflexivity.
  - exists z. split; [exact Z1|lra].
Qed.
Lemma down_between phi a b s e y : (forall t, a <= t <= b -> continuity_pt phi t) -> a <= s -> s < e -> e <= b -> y <= phi s -> phi e < y ->
  exists t, s <= t <= e /\ phi t = y.
Proof.
  intros C H1 H2 H3 L1 L2. destruct (Req_dec y (phi s)) as [->|N]; [exists s; lra|].
  destruct (IVT_interv (fun t => y - phi t) s e) as (z & Z1 & Z2); try lra.
  - intros t Ht. apply continuity_pt_minus; [|apply C; lra]. apply continuity_pt_const. intros u v. reflexivity.
  - exists z. split; [exact Z1|lra].
Qed.

Lemma Forall2_weaken {A B} (P P' : A -> B -> Prop) : (forall x y, P x y -> P' x y) -> forall l l', Forall2 P l l' -> Forall2 P' l l'.
Proof. intros I l l' H. induction H; constructor; auto. Qed.
Section Up.
Variables (f : Q -> Z) (step jd0 jd1 : Q) (phi : R -> R) (w : R) (label : Z -> Z) (n : Z).
Let a := Q2R jd0. Let b := Q2R jd1.
Hypothesis Hf : time_function f.
Hypothesis Hw : 0 < w.
Hypothesis Hs : (0 < step)%Q.
Hypothesis Hlab : forall j k, (j <= k < j + n)%Z -> label j = label k -> j = k.
Hypothesis Hphi : advancing phi a b.
Hypothesis Hslow : moves_at_most (IZR (n - 1) * w) (Q2R step) phi a b.
Hypothesis Happart : moves_at_most w millisecond phi a b.
Let g (t : Q) : Z := rfloor (phi (Q2R t) / w).
Hypothesis Hval : forall t, (jd0 <= t)%Q -> (t <= jd1)%Q -> f t = label (g t).

Lemma g_mono s t : (jd0 <= s)%Q -> (s <= t)%Q -> (t <= jd1)%Q -> (g s <= g t)%Z.
Proof.
  intros H1 H2 H3. apply floor_le. apply Rmult_le_compat_r; [left; apply Rinv_0_lt_compat; exact Hw|].
  destruct (Rle_lt_or_eq_dec (Q2R s) (Q2R t)) as [L|E]; [apply Qle_Rle; exact H2| |rewrite E; lra].
  left. apply Hphi; [apply Qle_Rle; exact H1|exact L|apply Qle_Rle; exact H3].
Qed.
Lemma g_far (m : Z) d s t : moves_at_most (IZR (m - 1) * w) (Q2R d) phi a b -> (jd0 <= s)%Q -> (s <= t)%Q -> (t <= jd1)%Q -> (t - s <= d)%Q -> (g t < g s + m)%Z.
Proof.
  intros M H1 H2 H3 H4. apply floor_far. apply Qle_Rle in H1, H2, H3, H4. rewrite Q2R_minus in H4.
  specialize (M (Q2R s) (Q2R t) H1 H2 H3 H4). apply Rmult_le_reg_r with w; [exact Hw|].
  replace ((phi (Q2R t) / w - phi (Q2R s) / w) * w) with (phi (Q2R t) - phi (Q2R s)) by (field; lra).
  pose proof (Rle_abs (phi (Q2R t) - phi (Q2R s))). lra.
Qed.
Lemma up_events fuel num evs : (2 <= num)%nat -> find_discrete fuel jd0 jd1 f (StepDays step) EPSILON num = Found evs ->
  one_event_each millisecond w label phi a b evs.
Proof.
  intros Hn H. exists (levels (g jd0) (g jd1)). split; [apply counting_levels|].
  assert (J : (jd0 <= jd1)%Q).
  { unfold find_discrete in H. destruct (Qle_bool jd1 jd0) eqn:E; [discriminate|]. apply Qleb_f in E. apply Qlt_le_weak. exact E. }
  assert (S : Forall2 (seen_event f g jd0 jd1 EPSILON) evs (levels (g jd0) (g jd1))).
  { apply (search_counts f g jd0 jd1 step) with (eps := EPSILON) (fuel := fuel) (num := num); try assumption.
    - intros x y E. unfold g. rewrite (Qeq_eqR _ _ E). reflexivity.
    - exact g_mono.
    - intros s t H1 H2 H3 E. rewrite !Hval, E by (try assumption; eapply Qle_trans; eassumption). reflexivity.
    - intros s t H1 H2 H3 H4 E. rewrite !Hval in E by (try assumption; eapply Qle_trans; eassumption).
      apply Hlab; [|exact E]. split; [apply g_mono; assumption|]. apply (g_far n step); try assumption. apply Qlt_le_weak. exact H4.
    - intros s t H1 H2 H3 H4. assert (L : (g t < g s + 2)%Z); [|lia]. apply (g_far 2 EPSILON); try assumption.
      rewrite Q2R_eps. replace (IZR (2 - 1) * w) with w by (cbn; ring). exact Happart. }
  split.
  - intros k. rewrite levels_in. unfold g. fold a b. rewrite (floor_level (phi b) w k Hw).
    assert (E : (rfloor (phi a / w) < k)%Z <-> phi a < IZR k * w).
    { pose proof (floor_level (phi a) w k Hw) as F. split; intros L.
      - destruct (Rlt_le_dec (phi a) (IZR k * w)) as [|G]; [assumption|]. apply F in G. lia.
      - destruct (Z_lt_le_dec (rfloor (phi a / w)) k) as [|G]; [assumption|]. apply F in G. lra. }
    rewrite E. reflexivity.
  - eapply Forall2_weaken; [|exact S]. intros [t v] k (E1 & E2 & s & S1 & S2 & S3 & S4 & S5). cbn [fst snd] in *.
    assert (J1 : (jd0 <= t)%Q) by (eapply Qle_trans; [exact S1|apply Qlt_le_weak; exact S2]).
    split; [cbn; rewrite E1, Hval, E2 by assumption; reflexivity|].
    apply Qle_Rle in S1, S3, S4. apply Qlt_Rlt in S2. rewrite Q2R_minus, Q2R_eps in S4.
    assert (P1 : IZR k * w <= phi (Q2R t)) by (apply floor_level; [exact Hw|unfold g in E2; lia]).
    assert (P2 : phi (Q2R s) < IZR k * w).
    { destruct (Rlt_le_dec (phi (Q2R s)) (IZR k * w)) as [|G]; [assumption|]. apply floor_level in G; [unfold g in S5; lia|exact Hw]. }
    destruct (between phi a b (Q2R s) (Q2R t) (IZR k * w) (proj1 Hphi)) as (z & Z1 & Z2); try assumption.
    exists z. cbn [fst]. fold a in S1. fold b in S3. repeat split; lra.
Qed.
Lemma up_found r : (jd0 < jd1)%Q -> (jd1 - jd0 <= EPSILON * inject_Z (11 ^ Z.of_nat r))%Q ->
  exists evs, find_discrete (S r) jd0 jd1 f (StepDays step) EPSILON 12 = Found evs /\ one_event_each millisecond w label phi a b evs.
Proof.
  intros L R. destruct (search_ends f jd0 jd1 (StepDays step) EPSILON 12 r Hf) as [evs E]; [exact Hs|lia|exact L|exact R|].
  exists evs. split; [exact E|]. eapply up_events; [|exact E]. lia.
Qed.
End Up.

Section Down.
Variables (f : Q -> Z) (step jd0 jd1 : Q) (phi : R -> R) (w : R) (label : Z -> Z) (n : Z).
Let a := Q2R jd0. Let b := Q2R jd1.
Hypothesis Hf : time_function f.
Hypothesis Hw : 0 < w.
Hypothesis Hs : (0 < step)%Q.
Hypothesis Hlab : forall j k, (j <= k < j + n)%Z -> label j = label k -> j = k.
Hypothesis Hphi : receding phi a b.
Hypothesis Hslow : moves_at_most (IZR (n - 1) * w) (Q2R step) phi a b.
Hypothesis Happart : moves_at_most w millisecond phi a b.
Let g (t : Q) : Z := (- rfloor (phi (Q2R t) / w))%Z.
Hypothesis Hval : forall t, (jd0 <= t)%Q -> (t <= jd1)%Q -> f t = label (rfloor (phi (Q2R t) / w)).

Lemma d_mono s t : (jd0 <= s)%Q -> (s <= t)%Q -> (t <= jd1)%Q -> (g s <= g t)%Z.
Proof.
  intros H1 H2 H3. unfold g. apply -> Z.opp_le_mono. apply floor_le. apply Rmult_le_compat_r; [left; apply Rinv_0_lt_compat; exact Hw|].
  destruct (Rle_lt_or_eq_dec (Q2R s) (Q2R t)) as [L|E]; [apply Qle_Rle; exact H2| |rewrite E; lra].
  left. apply (proj2 Hphi); [apply Qle_Rle; exact H1|exact L|apply Qle_Rle; exact H3].
Qed.
Lemma d_far (m : Z) d s t : moves_at_most (IZR (m - 1) * w) (Q2R d) phi a b -> (jd0 <= s)%Q -> (s <= t)%Q -> (t <= jd1)%Q -> (t - s <= d)%Q -> (g t < g s + m)%Z.
Proof.
  intros M H1 H2 H3 H4. assert (F : (rfloor (phi (Q2R s) / w) < rfloor (phi (Q2R t) / w) + m)%Z); [|unfold g; lia]. apply floor_far. apply Qle_Rle in H1, H2, H3, H4. rewrite Q2R_minus in H4.
  specialize (M (Q2R s) (Q2R t) H1 H2 H3 H4). apply Rmult_le_reg_r with w; [exact Hw|].
  replace ((phi (Q2R s) / w - phi (Q2R t) / w) * w) with (phi (Q2R s) - phi (Q2R t)) by (field; lra).
  rewrite Rabs_minus_sym in M. pose proof (Rle_abs (phi (Q2R s) - phi (Q2R t))). lra.
Qed.
Lemma shift_down (P : Q * Z -> Z -> Prop) evs x y : Forall2 P evs (levels x y) -> Forall2 (fun e k => P e (k + 1)%Z) evs (levels (x - 1) (y - 1)).
Proof.
  intros H. replace (levels (x - 1) (y - 1)) with (map (fun k => (k - 1)%Z) (levels x y)).
  - revert H. generalize (levels x y) as l. induction evs as [|e evs IH]; intros l H; inversion H; subst; constructor; [replace (y0 - 1 + 1)%Z with y0 by lia; assumption|apply IH; assumption].
  - unfold levels. rewrite map_map. replace (y - 1 - (x - 1))%Z with (y - x)%Z by lia. apply map_ext. intros i. lia.
Qed.
Lemma down_events fuel num evs : (2 <= num)%nat -> find_discrete fuel jd0 jd1 f (StepDays step) EPSILON num = Found evs ->
  one_event_each_down millisecond w (fun k => label (k - 1)%Z) phi a b evs.
Proof.
  intros Hn H. exists (levels (g jd0 - 1) (g jd1 - 1)). split; [apply counting_levels|].
  assert (J : (jd0 <= jd1)%Q).
  { unfold find_discrete in H. destruct (Qle_bool jd1 jd0) eqn:E; [discriminate|]. apply Qleb_f in E. apply Qlt_le_weak. exact E. }
  assert (S : Forall2 (seen_event f g jd0 jd1 EPSILON) evs (levels (g jd0) (g jd1))).
  { apply (search_counts f g jd0 jd1 step) with (eps := EPSILON) (fuel := fuel) (num := num); try assumption.
    - intros x y E. unfold g. rewrite (Qeq_eqR _ _ E). reflexivity.
    - exact d_mono.
    - intros s t H1 H2 H3 E. unfold g in E. rewrite !Hval by (try assumption; eapply Qle_trans; eassumption). f_equal. lia.
    - intros s t H1 H2 H3 H4 E. rewrite !Hval in E by (try assumption; eapply Qle_trans; eassumption).
      pose proof (d_mono s t H1 H2 H3) as M. assert (F : (g t < g s + n)%Z) by (apply (d_far n step); try assumption; apply Qlt_le_weak; exact H4).
      unfold g in *. symmetry in E. apply Hlab in E; lia.
    - intros s t H1 H2 H3 H4. assert (L : (g t < g s + 2)%Z); [|lia]. apply (d_far 2 EPSILON); try assumption.
      rewrite Q2R_eps. replace (IZR (2 - 1) * w) with w by (cbn; ring). exact Happart. }
  split.
  - intros k. rewrite in_map_iff. transitivity (In (- k)%Z (levels (g jd0 - 1) (g jd1 - 1))).
    { split; [intros (x & <- & I); rewrite Z.opp_involutive; exact I|intros I; exists (- k)%Z; split; [lia|exact I]]. }
    rewrite levels_in. unfold g. fold a b. rewrite <- (floor_level (phi a) w k Hw).
    assert (E : (rfloor (phi b / w) < k)%Z <-> phi b < IZR k * w).
    { pose proof (floor_level (phi b) w k Hw) as F. split; intros L.
      - destruct (Rlt_le_dec (phi b) (IZR k * w)) as [|G]; [assumption|]. apply F in G. lia.
      - destruct (Z_lt_le_dec (rfloor (phi b / w)) k) as [|G]; [assumption|]. apply F in G. lra. }
    rewrite <- E. split; lia.
  - apply shift_down in S. eapply Forall2_weaken; [|exact S]. intros [t v] k (E1 & E2 & s & S1 & S2 & S3 & S4 & S5). cbn [fst snd] in *.
    assert (J1 : (jd0 <= t)%Q) by (eapply Qle_trans; [exact S1|apply Qlt_le_weak; exact S2]).
    split; [cbn; rewrite E1, Hval by assumption; f_equal; unfold g in E2; lia|].
    apply Qle_Rle in S1, S3, S4. apply Qlt_Rlt in S2. rewrite Q2R_minus, Q2R_eps in S4.
    assert (P1 : IZR (- k) * w <= phi (Q2R s)) by (apply floor_level; [exact Hw|unfold g in S5; lia]).
    assert (P2 : phi (Q2R t) < IZR (- k) * w).
    { destruct (Rlt_le_dec (phi (Q2R t)) (IZR (- k) * w)) as [|G]; [assumption|]. apply floor_level in G; [unfold g in E2; lia|exact Hw]. }
    destruct (down_between phi a b (Q2R s) (Q2R t) (IZR (- k) * w) (proj1 Hphi)) as (z & Z1 & Z2); try assumption.
    exists z. cbn [fst]. fold a in S1. fold b in S3. repeat split; lra.
Qed.
Lemma down_found r : (jd0 < jd1)%Q -> (jd1 - jd0 <= EPSILON * inject_Z (11 ^ Z.of_nat r))%Q ->
  exists evs, find_discrete (S r) jd0 jd1 f (StepDays step) EPSILON 12 = Found evs /\ one_event_each_down millisecond w (fun k => label (k - 1)%Z) phi a b evs.
Proof.
  intros L R. destruct (search_ends f jd0 jd1 (StepDays step) EPSILON 12 r Hf) as [evs E]; [exact Hs|lia|exact L|exact R|].
  exists evs. split; [exact E|]. eapply down_events; [|exact E]. lia.
Qed.
End Down.
