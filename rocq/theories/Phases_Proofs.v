From Coq Require Import ZArith QArith Qround List Bool Lia Lqa Morphisms.
From Verif Require Import PyNum Time_Model Search_Model Search_Spec Search_Proofs Search_Proofs2.
Import ListNotations.
Open Scope Q_scope.

(** the integers above [a] up to [b] *)
Definition levels (a b : Z) : list Z := map (fun i => (a + 1 + Z.of_nat i)%Z) (seq 0 (Z.to_nat (b - a))).
Lemma levels_nil a : levels a a = [].
Proof. unfold levels. rewrite Z.sub_diag. reflexivity. Qed.
Lemma levels_cons a b : (a < b)%Z -> levels a b = (a + 1)%Z :: levels (a + 1) b.
Proof.
  intros H. unfold levels. replace (Z.to_nat (b - a)) with (S (Z.to_nat (b - (a + 1)))) by lia.
  cbn [seq map]. f_equal; [lia|]. rewrite <- seq_shift, map_map. apply map_ext. intros i. lia.
Qed.
Lemma levels_in a b k : In k (levels a b) <-> (a < k <= b)%Z.
Proof.
  unfold levels. rewrite in_map_iff. split.
  - intros (i & <- & H). apply in_seq in H. lia.
  - intros H. exists (Z.to_nat (k - a - 1)). split; [lia|]. apply in_seq. lia.
Qed.

Definition seen_event (f g : Q -> Z) (jd0 jd1 eps : Q) (e : Q * Z) (k : Z) : Prop :=
  snd e = f (fst e) /\ g (fst e) = k /\ exists s, jd0 <= s /\ s < fst e /\ fst e <= jd1 /\ fst e - eps <= s /\ g s = (k - 1)%Z.
Section Two.
Variables (f g : Q -> Z) (jd0 jd1 gap : Q).
Hypothesis Hf : time_function f.
Hypothesis Hg : time_function g.
Hypothesis Gmono : forall s t, jd0 <= s -> s <= t -> t <= jd1 -> (g s <= g t)%Z.
Hypothesis FG : forall s t, jd0 <= s -> s <= t -> t <= jd1 -> g s = g t -> f s = f t.
(** samples that may be compared *)
Definition near (p : Q * Q) : Prop := forall s t, fst p <= s -> s <= t -> t <= snd p -> f s = f t -> g s = g t.
Definition neighbours (l : list Q) : Prop := forall p, In p (pairs l) -> near p.

Lemma pairs_ascending l : forall lo hi p, ascending lo l hi -> In p (pairs l) -> lo <= fst p /\ fst p <= snd p /\ snd p <= hi.
Proof.
  induction l as [|a l IH]; intros lo hi p H Hp; [destruct Hp|]. destruct l as [|b l]; [destruct Hp|].
  cbn [ascending] in H. destruct H as (H1 & H2 & H3). destruct Hp as [<-|Hp].
  - cbn. apply ascending_le in H3. repeat split; lra.
  - destruct (IH a hi p) as (I1 & I2 & I3); [split; assumption|exact Hp|]. repeat split; lra.
Qed.
Lemma changes_same l : forall lo hi, jd0 <= lo -> hi <= jd1 -> ascending lo l hi -> neighbours l -> changes f l = changes g l.
Proof.
  intros lo hi L H A N. unfold changes. apply filter_ext_in. intros p Hp.
  destruct (pairs_ascending _ _ _ _ A Hp) as (P1 & P2 & P3). f_equal.
  destruct (Z.eqb_spec (f (fst p)) (f (snd p))) as [E|E]; symmetry.
  - apply Z.eqb_eq. apply (N p Hp); try assumption; lra.
  - apply Z.eqb_neq. intros G. apply E. apply FG; try assumption; lra.
Qed.
Lemma block_in m s e x : s < e -> In x (block (S (S m)) (s, e)) -> s <= x <= e.
Proof. intros H Hx. apply (ascending_in _ _ _ _ (block_ascending m s e H) Hx). Qed.
Lemma pairs_in {A} (l : list A) p : In p (pairs l) -> In (fst p) l /\ In (snd p) l.
Proof.
  destruct p as [x y]. unfold pairs. intros H. split; [eapply in_combine_l; exact H|].
  apply in_combine_r in H. destruct l; [destruct H|right; exact H].
Qed.
Lemma near_sub p q : near p -> fst p <= fst q -> snd q <= snd p -> near q.
Proof. intros N H1 H2 s t S1 S2 S3. apply N; lra. Qed.
Lemma refine_neighbours m brs : forall v0 v1 lo hi, jd0 <= lo -> hi <= jd1 -> linked g v0 brs v1 -> spread lo brs hi -> (forall p, In p brs -> near p) ->
  neighbours (refine (S (S m)) brs).
Proof.
  induction brs as [|[s e] r IH]; intros v0 v1 lo hi Hlo Hhi L S N p Hp; [destruct Hp|].
  cbn [linked spread] in L, S. destruct L as (L1 & L2 & L3). destruct S as (S1 & S2 & S3).
  assert (B : forall p, In p (pairs (block (Datatypes.S (Datatypes.S m)) (s, e))) -> near p).
  { intros q Hq. apply pairs_in in Hq as [Q1 Q2]. apply (near_sub (s, e)); [apply N; left; reflexivity| |]; cbn [fst snd].
    - apply (block_in m s e (fst q) S2 Q1).
    - apply (block_in m s e (snd q) S2 Q2). }
  unfold refine in Hp. cbn [flat_map] in Hp. change (flat_map (block (Datatypes.S (Datatypes.S m))) r) with (refine (Datatypes.S (Datatypes.S m)) r) in Hp.
  destruct r as [|[s' e'] r].
  - cbn in Hp. rewrite app_nil_r in Hp. apply B. exact Hp.
  - destruct (refine_ends g Hg m ((s', e') :: r) _ _ L3) as (a' & l' & E & Ea & _); [discriminate|]. rewrite E in Hp.
    destruct (block_ends m s e) as (a & l & Eb & Ea' & El).
    assert (Ne : block (Datatypes.S (Datatypes.S m)) (s, e) <> []) by (rewrite Eb; discriminate).
    destruct (exists_last Ne) as (bl & z & Ez).
    assert (Zl : z == e). { rewrite <- El. rewrite <- (last_cons_any a l a), <- Eb, Ez, last_last. reflexivity. }
    rewrite Ez in Hp. rewrite pairs_app in Hp. apply in_app_or in Hp. destruct Hp as [Hp|[<-|Hp]].
    + apply B. rewrite Ez. exact Hp.
    + intros u v U1 U2 U3 _. cbn [fst snd] in U1, U3.
      assert (A' : jd0 <= e /\ e <= a' /\ a' <= jd1).
      { assert (As : ascending e (a' :: l') hi) by (rewrite <- E; apply refine_ascending; exact S3).
        destruct As as [A1 A2]. apply ascending_le in A2. repeat split; lra. }
      destruct A' as (A1 & A2 & A3).
      assert (Gz : g z = g e) by (apply Hg; exact Zl).
      assert (G1 : (g z <= g u)%Z) by (apply Gmono; lra). assert (G2 : (g u <= g v)%Z) by (apply Gmono; lra). assert (G3 : (g v <= g a')%Z) by (apply Gmono; lra).
      lia.
    + assert (R : neighbours (a' :: l')) by (rewrite <- E; apply (IH (g e) v1 e hi); [lra|assumption|exact L3|exact S3|intros q Hq; apply N; right; exact Hq]). exact (R p Hp).
Qed.
Lemma loop_same m eps : forall fuel jd lo hi, jd0 <= lo -> hi <= jd1 -> ascending lo jd hi -> neighbours jd ->
  find_loop fuel f eps (S (S m)) jd = option_map (map (fun e => (fst e, f (fst e)))) (find_loop fuel g eps (S (S m)) jd).
Proof.
  induction fuel as [|fuel IH]; intros jd lo hi Hlo Hhi A N; [reflexivity|]. cbn [find_loop].
  rewrite (changes_same jd lo hi Hlo Hhi A N). destruct (changes g jd) as [|p ch] eqn:E; [reflexivity|].
  destruct (forallb _ _) eqn:B.
  - cbn [option_map]. rewrite map_map. reflexivity.
  - destruct jd as [|a l]; [discriminate|]. destruct (changes_spec g Hg l a lo hi A) as [L S]. rewrite E in L, S.
    apply (IH _ lo hi); try assumption.
    + apply refine_ascending. exact S.
    + apply (refine_neighbours m _ _ _ lo hi Hlo Hhi L S).
      intros q Hq. apply N. apply (changes_in_pairs g). rewrite E. exact Hq.
Qed.

Hypothesis Close : forall s t, jd0 <= s -> s <= t -> t <= jd1 -> t - s < gap -> f s = f t -> g s = g t.
Variable eps : Q.
Hypothesis Apart : forall s t, jd0 <= s -> s <= t -> t <= jd1 -> t - s <= eps -> (g t <= g s + 1)%Z.
Lemma events_of_brackets brs : forall v0 v1 lo, jd0 <= lo -> linked g v0 brs v1 -> spread lo brs jd1 -> (forall p, In p brs -> snd p - fst p <= eps) ->
  Forall2 (seen_event f g jd0 jd1 eps)
    (map (fun e => (fst e, f (fst e))) (map (fun p => (snd p, g (snd p))) brs)) (levels v0 v1).
Proof.
  induction brs as [|[s e] r IH]; intros v0 v1 lo Hlo L S W; cbn [linked spread] in L, S.
  - subst v1. rewrite levels_nil. constructor.
  - destruct L as (L1 & L2 & L3). destruct S as (S1 & S2 & S3). pose proof (spread_le _ _ _ S3) as S4.
    assert (E1 : g e = (v0 + 1)%Z).
    { pose proof (Gmono s e ltac:(lra) ltac:(lra) S4). pose proof (Apart s e ltac:(lra) ltac:(lra) S4 (W (s, e) (or_introl eq_refl))). lia. }
    assert (M : (g e <= v1)%Z).
    { clear - L3 S3 Gmono Hlo S1 S2. revert L3 S3. assert (T : jd0 <= e) by lra. clear S1 S2 Hlo. revert e T. induction r as [|[s' e'] r IH]; intros e T L S; cbn [linked spread] in L, S; [lia|].
      destruct L as (L1 & L2 & L3). destruct S as (S1 & S2 & S3). pose proof (spread_le _ _ _ S3) as S4.
      pose proof (Gmono e e' T ltac:(lra) S4). pose proof (IH e' ltac:(lra) L3 S3). lia. }
    rewrite (levels_cons v0 v1) by lia. cbn [map]. constructor.
    + unfold seen_event. cbn [fst snd]. split; [reflexivity|]. split; [lia|]. exists s. specialize (W (s, e) (or_introl eq_refl)). cbn [fst snd] in W. repeat split; try lra. lia.
    + rewrite <- E1. apply (IH _ _ e); try assumption; [lra|]. intros p Hp. apply W. right. exact Hp.
Qed.
Lemma search_counts fuel num evs : 0 < gap -> (2 <= num)%nat ->
  find_discrete fuel jd0 jd1 f (StepDays gap) eps num = Found evs ->
  Forall2 (seen_event f g jd0 jd1 eps)
    evs (levels (g jd0) (g jd1)).
Proof.
  intros Hs Hn H. unfold find_discrete in H. destruct (Qle_bool jd1 jd0) eqn:E; [discriminate|]. apply Qleb_f in E.
  destruct (samples_shape jd0 jd1 (StepDays gap) num E Hs Hn) as (n & En & Hw). rewrite En in H.
  destruct (linspace_facts jd0 jd1 n E) as (a & l & El & Ea & Hl & A & A' & C). rewrite El in H.
  destruct num as [|[|m]]; try lia.
  destruct (find_loop _ _ _ _ _) as [r|] eqn:R; [|discriminate]. injection H as <-.
  assert (N : neighbours (a :: l)).
  { intros p Hp s t S1 S2 S3. destruct (pairs_ascending _ _ _ _ A' Hp) as (P1 & P2 & P3). apply Close; try lra.
    destruct p as [x y]. pose proof (close_pairs gap _ _ _ (C gap Hw) Hp). cbn [fst snd] in *. lra. }
  rewrite (loop_same m eps fuel (a :: l) jd0 jd1) in R; [|lra|lra|exact A'|exact N].
  destruct (find_loop fuel g eps (S (S m)) (a :: l)) as [rg|] eqn:G; [|discriminate]. cbn [option_map] in R. injection R as <-.
  destruct (find_loop_spec g Hg m eps fuel a l jd0 jd1 rg A' G) as (brs & -> & L & S & W).
  assert (Fa : g a = g jd0) by (apply Hg; assumption). assert (Fl : g (last l a) = g jd1) by (apply Hg; assumption). rewrite Fa, Fl in L.
  apply (events_of_brackets brs _ _ jd0); try assumption. lra.
Qed.
End Two.
