From Coq Require Import ZArith QArith Qround Qabs List Bool Lia Lqa Morphisms Setoid.
From Verif Require Import PyNum Time_Model Search_Model Search_Spec Search_Proofs Maxima_Proofs Peak_Proofs Events_Proofs.
Import ListNotations.
Open Scope Q_scope.

Lemma events_are_real f fuel jd0 jd1 s eps num evs : time_function f ->
  positive_sampling s -> (2 <= num)%nat -> find_discrete fuel jd0 jd1 f s eps num = Found evs ->
  forall t v, In (t, v) evs ->
    jd0 < t <= jd1 /\ f t = v /\ exists t', jd0 <= t' < t /\ t - eps <= t' /\ f t' <> v.
Proof. intros Hf Hs Hn H. apply (find_discrete_chain f Hf _ _ _ _ _ _ _ Hs Hn H). Qed.
Lemma events_form_a_chain f fuel jd0 jd1 s eps num evs : time_function f ->
  positive_sampling s -> (2 <= num)%nat -> find_discrete fuel jd0 jd1 f s eps num = Found evs ->
  chain (f jd0) (map snd evs) (f jd1) /\ increasing_in jd0 (map fst evs) jd1.
Proof. intros Hf Hs Hn H. destruct (find_discrete_chain f Hf _ _ _ _ _ _ _ Hs Hn H) as (A & B & _). split; assumption. Qed.
Lemma nothing_missed f fuel jd0 jd1 step eps num cs evs : time_function f ->
  0 < step -> (2 <= num)%nat -> history f step jd0 jd1 cs ->
  find_discrete fuel jd0 jd1 f (StepDays step) eps num = Found evs ->
  Forall2 (found_for eps) evs cs.
Proof. intros Hf Hs Hn Hh H. eapply (find_discrete_complete f Hf); eassumption. Qed.
Lemma search_ends f jd0 jd1 s eps num k : time_function f ->
  positive_sampling s -> (3 <= num)%nat -> jd0 < jd1 ->
  jd1 - jd0 <= eps * inject_Z (Z.of_nat (num - 1) ^ Z.of_nat k) ->
  exists evs, find_discrete (S k) jd0 jd1 f s eps num = Found evs.
Proof. intros Hf. apply find_discrete_terminates; assumption. Qed.

Lemma close_pairs gap : forall l a b, close_samples gap l -> In (a, b) (pairs l) -> b - a < gap.
Proof.
  induction l as [|x l IH]; intros a b H Hi; [destruct Hi|]. destruct l as [|y l]; [destruct Hi|].
  change (pairs (x :: y :: l)) with ((x, y) :: pairs (y :: l)) in Hi. destruct H as [H1 H2].
  destruct Hi as [E|Hi]; [injection E as <- <-; exact H1|]. apply IH; assumption.
Qed.
Lemma prog_pairs w : forall n x L a b, qlist_eq L (prog x w n) -> In (a, b) (pairs L) -> b - a == w.
Proof.
  induction n as [|n IH]; intros x L a b H Hi.
  - cbn in H. inversion H as [|? ? ? ? E1 E2]; subst. inversion E2; subst. destruct Hi.
  - cbn [prog] in H. inversion H as [|p ? q ? E1 E2]; subst.
    destruct q as [|y q]; [destruct Hi|]. change (pairs (p :: y :: q)) with ((p, y) :: pairs (y :: q)) in Hi.
    destruct Hi as [E|Hi]; [|eapply IH; eassumption]. injection E as <- <-.
    assert (Y : y == x + w) by (destruct n; cbn [prog] in E2; inversion E2; assumption). lra.
Qed.
Lemma samples_closer jd0 jd1 step num : jd0 < jd1 -> 0 < step ->
  exists l, discrete_samples jd0 jd1 (StepDays step) num = Some l /\
    forall a b, In (a, b) (pairs l) -> a < b /\ b - a < step.
Proof.
  intros H Hs. destruct (samples_shape jd0 jd1 (StepDays step) 2 H Hs (le_n 2)) as (n & E & W).
  exists (linspace jd0 jd1 (S (S n))). split; [exact E|]. intros a b Hi.
  assert (P : 0 < (jd1 - jd0) / inject_Z (Z.of_nat (S n))) by (apply div_pos; lra).
  assert (D := prog_pairs _ _ _ _ a b (linspace_prog jd0 jd1 n) Hi). lra.
Qed.
Lemma one_change_each f fuel jd0 jd1 s eps num l os evs : time_function f ->
  positive_sampling s -> (2 <= num)%nat -> discrete_samples jd0 jd1 s num = Some l ->
  Forall2 (at_most_one_change f) (pairs l) os ->
  find_discrete fuel jd0 jd1 f s eps num = Found evs ->
  Forall2 (found_for eps) evs (the_changes os).
Proof.
  intros Hf Hs Hn Hl Ho H. unfold find_discrete in H. destruct (Qle_bool jd1 jd0) eqn:E; [discriminate|]. apply Qleb_f in E.
  rewrite Hl in H. destruct (samples_shape jd0 jd1 s num E Hs Hn) as (n & En & _). rewrite Hl in En. injection En as ->.
  destruct (linspace_facts jd0 jd1 n E) as (a & r & El & Ea & _ & _ & A & _). rewrite El in *.
  destruct num as [|[|m]]; try lia.
  destruct (find_loop _ _ _ _ _) as [e|] eqn:R; [|discriminate]. injection H as <-.
  set (old := fun p : Q * Q * option (Q * Z) => match snd p with Some (c, v) => [((c, f (fst (fst p))), v)] | None => [] end).
  assert (W : Forall2 (sw f) (changes f (a :: r)) (flat_map old (combine (pairs (a :: r)) os))).
  { assert (Asc : forall p, In p (pairs (a :: r)) -> fst p < snd p).
    { intros [x y] Hi. cbn. assert (P : 0 < (jd1 - jd0) / inject_Z (Z.of_nat (S n))) by (apply div_pos; lra).
      rewrite <- El in Hi. assert (D := prog_pairs _ _ _ _ x y (linspace_prog jd0 jd1 n) Hi). lra. }
    unfold changes. clear - Ho Asc Hf. induction Ho as [|[x y] o ps os Hx Ho IH]; [constructor|].
    assert (Lt := Asc (x, y) (or_introl eq_refl)). cbn [fst snd] in Lt.
    specialize (IH (fun p Hp => Asc p (or_intror Hp))). cbn [combine flat_map filter fst snd]. unfold at_most_one_change in Hx. cbn [fst snd] in Hx.
    unfold old at 1. cbn [fst snd]. destruct o as [[c v]|].
    - destruct Hx as (X1 & X2 & X3 & X4 & X5 & X6).
      replace (f x =? f y)%Z with false by (symmetry; apply Z.eqb_neq; congruence). cbn [negb app]. constructor; [|exact IH].
      constructor; cbn [fst snd]; try assumption; try reflexivity.
      + intros t T1 T2. apply X5. lra.
      + intros t T1 T2. apply X6. lra.
      + intros t T. destruct (Qlt_le_dec t c) as [L|L]; [left; apply X5; lra|].
        destruct (Qlt_le_dec c t) as [L'|L']; [right; apply X6; lra|].
        assert (Et : f t = f c) by (apply Hf; lra). rewrite Et. exact X4.
    - rewrite (Hx y) by lra. rewrite Z.eqb_refl. cbn [negb app]. exact IH. }
  assert (G := loop_complete f Hf m eps fuel (a :: r) jd0 jd1 _ _ A W R).
  assert (M : map (fun c => (fst (fst c), snd c)) (flat_map old (combine (pairs (a :: r)) os)) = the_changes os).
  { clear - Ho. induction Ho as [|p o ps os _ Ho IH]; [reflexivity|]. cbn [combine flat_map the_changes]. rewrite map_app, IH.
    unfold old. cbn [snd]. destruct o as [[c v]|]; reflexivity. }
  rewrite <- M. clear - G. induction G as [|[t v] [[c u] w] es cs G0 _ IH]; constructor; [|exact IH].
  unfold event_for in G0. cbn in *. split; cbn; tauto.
Qed.

(** * Witnesses *)
Definition late (t : Q) : Z := if Qle_bool 1 t then 1%Z else 0%Z.
Lemma late_fun : time_function late.
Proof.
  intros a b E. unfold late. destruct (Qle_bool 1 a) eqn:A, (Qle_bool 1 b) eqn:B; try reflexivity; exfalso.
  - apply Qle_bool_iff in A. rewrite E in A. apply Qle_bool_iff in A. congruence.
  - apply Qle_bool_iff in B. rewrite <- E in B. apply Qle_bool_iff in B. congruence.
Qed.
Lemma one_sample_loses : exists f jd0 jd1 s eps fuel, time_function f /\ positive_sampling s /\ 0 < eps /\
    find_discrete fuel jd0 jd1 f s eps 1 = Found [] /\ ~ chain (f jd0) [] (f jd1).
Proof.
  exists late, 0, 2, (StepDays 1), (1 # 100), 5%nat. split; [exact late_fun|]. split; [reflexivity|]. split; [reflexivity|].
  split; [reflexivity|]. cbn. discriminate.
Qed.
Lemma two_samples_run_forever : exists f jd0 jd1 s eps, time_function f /\ positive_sampling s /\ 0 < eps /\ jd0 < jd1 /\
    forall fuel, find_discrete fuel jd0 jd1 f s eps 2 = Running.
Proof.
  exists late, 0, 1, (StepDays 2), (1 # 100). split; [exact late_fun|]. split; [reflexivity|]. split; [reflexivity|]. split; [reflexivity|].
  intros fuel. unfold find_discrete, discrete_samples. 
  assert (E : linspace 0 1 2 = [0 + 0 * ((1 - 0) / 1); 0 + 1 * ((1 - 0) / 1)]) by reflexivity.
  change (Qle_bool 1 0) with false. cbn match.
  change (qtrunc ((1 - 0) / 2) + 2)%Z with 2%Z. change (2 <? 0)%Z with false. cbn match. change (Z.to_nat 2) with 2%nat.
  rewrite E. rewrite (two_samples_never_end late (1 # 100) late_fun); [reflexivity|discriminate|reflexivity].
Qed.

Definition cliff (t : Q) : Q := if Qle_bool t (1 # 50) then t else (1 # 50) - 1000 * (t - (1 # 50)).
Lemma cliff_fun : real_function cliff.
Proof.
  intros a b E. unfold cliff. destruct (Qle_bool a (1 # 50)) eqn:A, (Qle_bool b (1 # 50)) eqn:B;
  try apply Qleb_t in A; try apply Qleb_f in A; try apply Qleb_t in B; try apply Qleb_f in B; lra.
Qed.
Lemma cliff_peak : one_peak cliff (1 # 50).
Proof.
  split; intros s t H1 H2; unfold cliff;
  destruct (Qle_bool s (1 # 50)) eqn:A, (Qle_bool t (1 # 50)) eqn:B;
  try apply Qleb_t in A; try apply Qleb_f in A; try apply Qleb_t in B; try apply Qleb_f in B; lra.
Qed.
Lemma peak_missed : exists f p jd0 jd1 s, real_function f /\ one_peak f p /\ positive_sampling s /\
    jd0 + 100 * (1 # 86400000) < p /\ p < jd1 - 100 * (1 # 86400000) /\
    find_maxima 9 jd0 jd1 f s (1 # 86400000) 12 = Found [].
Proof.
  exists cliff, (1 # 50), 0, 1, (StepDays 1). split; [exact cliff_fun|]. split; [exact cliff_peak|]. split; [reflexivity|].
  split; [reflexivity|]. split; [reflexivity|]. vm_compute. reflexivity.
Qed.

Definition spike (t : Q) : Q := 1 - 1000000000 * Qabs (t - (1 # 4000)).
Lemma spike_fun : real_function spike.
Proof. intros a b E. unfold spike. rewrite E. reflexivity. Qed.
Lemma culmination_first : exists altitude jd0 jd1 step thr evs, real_function altitude /\ 0 < step /\
    find_events 6 altitude jd0 jd1 step (500 * (1 # 86400000)) thr = Found evs /\
    ~ pass_ok (negb (Qltb (altitude jd0) thr)) (map snd evs).
Proof.
  exists spike, 0, (1 # 2000), (1 # 20), 0. eexists. split; [exact spike_fun|]. split; [reflexivity|].
  split; [vm_compute; reflexivity|]. vm_compute. intros [H _]. discriminate.
Qed.
