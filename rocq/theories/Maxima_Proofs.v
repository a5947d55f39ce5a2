From Coq Require Import ZArith QArith Qround Qabs List Bool Lia Lqa Morphisms Setoid.
From Verif Require Import PyNum Time_Model Search_Model Search_Spec Search_Proofs.
Import ListNotations.
Open Scope Q_scope.

(** * Sorting *)
Lemma insert_in {B} (a x : Q * B) l : In x (insert a l) <-> x = a \/ In x l.
Proof.
  induction l as [|b r IH]; cbn; [intuition congruence|].
  destruct (Qle_bool _ _); cbn; [intuition congruence|]. rewrite IH. intuition congruence.
Qed.
Lemma insert_sorted {B} (a : Q * B) l : sorted_fst l -> sorted_fst (insert a l).
Proof.
  induction l as [|b r IH]; cbn; intros H; [split; [intros ? []|exact I]|].
  destruct (Qle_bool (fst a) (fst b)) eqn:E.
  - apply Qleb_t in E. cbn. split; [|exact H]. intros c [<-|Hc]; [assumption|]. apply H in Hc. lra.
  - apply Qleb_f in E. cbn. destruct H as [H1 H2]. split; [|apply IH; assumption].
    intros c Hc. apply insert_in in Hc as [->|Hc]; [lra|auto].
Qed.
Lemma argsort_sorted {B} (l : list (Q * B)) : sorted_fst (argsort l).
Proof. induction l; cbn; [exact I|apply insert_sorted; assumption]. Qed.
Lemma argsort_in {B} (l : list (Q * B)) x : In x (argsort l) <-> In x l.
Proof. induction l; cbn; [reflexivity|]. rewrite insert_in, IHl. intuition congruence. Qed.
Lemma filter_sorted {B} (p : Q * B -> bool) l : sorted_fst l -> sorted_fst (filter p l).
Proof.
  induction l as [|a r IH]; cbn; intros H; [exact I|]. destruct H as [H1 H2].
  destruct (p a); cbn; [split|]; auto. intros b Hb. apply filter_In in Hb as [Hb _]. auto.
Qed.

Lemma keep_spaced_ok eps : 0 <= eps -> forall l prev prev0, prev0 <= prev ->
  sorted_fst l -> (forall b, In b l -> prev <= fst b) ->
  separated eps (map fst (keep_spaced eps prev l)) /\
  (forall b, In b (keep_spaced eps prev l) -> In b l) /\
  (forall b, In b (keep_spaced eps prev l) -> prev0 < fst b /\ eps < fst b - prev0).
Proof.
  intros He. induction l as [|a r IH]; intros prev prev0 Hp Hs Hb; cbn; [split; [exact I|split; intros ? []]|].
  cbn in Hs. destruct Hs as [Hs1 Hs2].
  assert (Ha : prev <= fst a) by (apply Hb; left; reflexivity).
  destruct (Qltb eps (fst a - prev)) eqn:E.
  - apply Qltb_t in E. destruct (IH (fst a) (fst a) (Qle_refl _) Hs2 Hs1) as (I1 & I2 & I3).
    cbn [map]. split; [|split].
    + cbn. split; [|exact I1]. destruct (keep_spaced eps (fst a) r) as [|c q] eqn:K; [exact I|].
      cbn. apply I3. left; reflexivity.
    + intros b [->|Hi]; [left; reflexivity|right; auto].
    + intros b [<-|Hi]; [lra|]. apply I2 in Hi. apply Hs1 in Hi. lra.
  - destruct (IH (fst a) prev0) as (I1 & I2 & I3); [lra|assumption|assumption|].
    split; [assumption|]. split; [intros b Hi; right; auto|assumption].
Qed.
Lemma filter_maxima_ok jd0 jd1 eps l : 0 <= eps -> sorted_fst l ->
  separated eps (map fst (filter_maxima jd0 jd1 eps l)) /\
  forall b, In b (filter_maxima jd0 jd1 eps l) -> In b l /\ jd0 <= fst b <= jd1.
Proof.
  intros He Hs. unfold filter_maxima.
  pose proof (filter_sorted (fun p => Qle_bool jd0 (fst p) && Qle_bool (fst p) jd1) l Hs) as Hs'.
  assert (Hin : forall b, In b (filter (fun p => Qle_bool jd0 (fst p) && Qle_bool (fst p) jd1) l) -> In b l /\ jd0 <= fst b <= jd1).
  { intros b Hb. apply filter_In in Hb as [H1 H2]. apply andb_prop in H2 as [H2 H3]. apply Qleb_t in H2, H3. auto. }
  destruct (filter _ l) as [|a r]; [split; [exact I|intros ? []]|].
  cbn in Hs'. destruct Hs' as [S1 S2].
  destruct (keep_spaced_ok eps He r (fst a) (fst a) (Qle_refl _) S2 S1) as (K1 & K2 & K3).
  split.
  - cbn. split; [|assumption]. destruct (keep_spaced eps (fst a) r) as [|c q]; [exact I|]. cbn. apply K3. left; reflexivity.
  - intros b [<-|Hb]; apply Hin; [left; reflexivity|right; auto].
Qed.

(** * Strictly increasing samples *)
Fixpoint strict (l : list Q) : Prop :=
  match l with a :: r => match r with b :: _ => a < b | [] => True end /\ strict r | [] => True end.
Lemma dedup_head l : forall a, exists b r, dedup Qeq_bool (a :: l) = b :: r /\ b == a.
Proof.
  induction l as [|c l IH]; intros a; [exists a, []; split; reflexivity|].
  change (dedup Qeq_bool (a :: c :: l)) with (if Qeq_bool a c then dedup Qeq_bool (c :: l) else a :: dedup Qeq_bool (c :: l)).
  destruct (Qeq_bool a c) eqn:E.
  - apply Qeq_bool_iff in E. destruct (IH c) as (b & r & -> & Hb). exists b, r. split; [reflexivity|lra].
  - exists a, (dedup Qeq_bool (c :: l)). split; reflexivity.
Qed.
Lemma dedup_strict l : forall lo hi, ascending lo l hi -> strict (dedup Qeq_bool l).
Proof.
  induction l as [|a l IH]; intros lo hi H; [exact I|]. cbn [ascending] in H. destruct H as [H1 H2].
  destruct l as [|c l]; [cbn; auto|].
  change (dedup Qeq_bool (a :: c :: l)) with (if Qeq_bool a c then dedup Qeq_bool (c :: l) else a :: dedup Qeq_bool (c :: l)).
  destruct (Qeq_bool a c) eqn:E; [eapply IH; exact H2|].
  cbn [strict]. split; [|eapply IH; exact H2].
  destruct (dedup_head l c) as (b & r & -> & Hb).
  assert (~ a == c) by (intros G; apply Qeq_bool_iff in G; congruence).
  cbn in H2. destruct H2 as [H2 _]. destruct (Qlt_le_dec a b); [assumption|]. exfalso. lra.
Qed.
Lemma strict_nth l : strict l -> forall i j, (i < j)%nat -> (j < length l)%nat -> nth i l 0 < nth j l 0.
Proof.
  induction l as [|a l IH]; intros H i j Hij Hj; [cbn in Hj; lia|].
  destruct j as [|j]; [lia|]. cbn in Hj. destruct H as [H1 H2].
  assert (B : forall k, (k < length l)%nat -> a < nth k l 0).
  { induction k as [|k IHk]; intros Hk.
    - destruct l as [|b l]; [cbn in Hk; lia|]. exact H1.
    - eapply Qlt_trans; [apply IHk; lia|]. apply IH; [assumption|lia|lia]. }
  destruct i as [|i]; cbn [nth]; [apply B; lia|]. apply IH; [assumption|lia|lia].
Qed.
Lemma strict_ascending l : forall lo, strict l -> (forall x, In x l -> lo <= x) -> exists hi, ascending lo l hi.
Proof.
  induction l as [|a l IH]; intros lo H Hb; [exists lo; cbn; lra|].
  destruct (IH a) as [hi Hhi].
  - apply H.
  - intros x Hx. destruct (In_nth l x 0 Hx) as (k & Hk & <-). apply Qlt_le_weak.
    apply (strict_nth (a :: l) H 0 (S k)); cbn; lia.
  - exists hi. split; [apply Hb; left; reflexivity|assumption].
Qed.

(** * indices *)
Lemma pairs_cons {A} (a b : A) l : pairs (a :: b :: l) = (a, b) :: pairs (b :: l).
Proof. reflexivity. Qed.
Lemma pairs_length {A} (l : list A) : length (pairs l) = (length l - 1)%nat.
Proof. unfold pairs. rewrite combine_length. destruct l as [|a l]; [reflexivity|]. cbn [tl length]. lia. Qed.
Lemma pairs_nth {A} (l : list A) d : forall i, (S i < length l)%nat -> nth i (pairs l) (d, d) = (nth i l d, nth (S i) l d).
Proof.
  intros i Hi. revert l Hi. induction i as [|i IH]; intros [|a [|b l]] Hi; cbn in Hi; try lia; [reflexivity|].
  rewrite pairs_cons. change (nth (S i) ((a, b) :: pairs (b :: l)) (d, d)) with (nth i (pairs (b :: l)) (d, d)).
  rewrite IH by (cbn; lia). reflexivity.
Qed.
Lemma flatnonzero_in {A} (p : A -> bool) d l : forall k i, In i (flatnonzero_from k p l) <-> exists j, (j < length l)%nat /\ i = (k + j)%nat /\ p (nth j l d) = true.
Proof.
  induction l as [|a l IH]; intros k i; cbn.
  - split; [intros []|intros (j & H & _); lia].
  - destruct (p a) eqn:E; cbn; rewrite IH; split.
    + intros [<-|(j & H1 & H2 & H3)]; [exists 0%nat; repeat split; [lia|lia|assumption]|].
      exists (S j). repeat split; [lia|lia|assumption].
    + intros ([|j] & H1 & H2 & H3); [left; lia|right; exists j; repeat split; [lia|lia|assumption]].
    + intros (j & H1 & H2 & H3). exists (S j). repeat split; [lia|lia|assumption].
    + intros ([|j] & H1 & H2 & H3); [cbn in H3; congruence|]. exists j; repeat split; [lia|lia|assumption].
Qed.
Fixpoint nat_strict (l : list nat) : Prop :=
  match l with a :: r => (forall b, In b r -> (a < b)%nat) /\ nat_strict r | [] => True end.
Lemma flatnonzero_strict {A} (p : A -> bool) l : forall k, nat_strict (flatnonzero_from k p l) /\ forall i, In i (flatnonzero_from k p l) -> (k <= i)%nat.
Proof.
  induction l as [|a l IH]; intros k; cbn; [split; [exact I|intros ? []]|].
  destruct (IH (S k)) as [I1 I2]. destruct (p a); cbn; [|split; [assumption|intros i Hi; apply I2 in Hi; lia]].
  split; [split; [intros b Hb; apply I2 in Hb; lia|assumption]|].
  intros i [<-|Hi]; [lia|apply I2 in Hi; lia].
Qed.

Lemma sign_diff_length y : length (sign_diff y) = (length y - 1)%nat.
Proof. unfold sign_diff. rewrite map_length. apply pairs_length. Qed.
Lemma sign_diff_nth y i : (S i < length y)%nat -> nth i (sign_diff y) 0%Z = qsign (nth (S i) y 0 - nth i y 0).
Proof.
  intros H. unfold sign_diff.
  rewrite nth_indep with (d' := (fun p => qsign (snd p - fst p)) (0, 0)) by (rewrite map_length, pairs_length; lia).
  rewrite (map_nth (fun p => qsign (snd p - fst p))), pairs_nth by assumption. reflexivity.
Qed.
Lemma dsd_length y : length (dsd_of y) = (length y - 2)%nat.
Proof. unfold dsd_of. rewrite map_length, pairs_length, sign_diff_length. lia. Qed.
Lemma dsd_nth y i : (S (S i) < length y)%nat ->
  nth i (dsd_of y) 0%Z = (qsign (nth (S (S i)) y 0%Q - nth (S i) y 0%Q) - qsign (nth (S i) y 0%Q - nth i y 0%Q))%Z.
Proof.
  intros H. unfold dsd_of.
  rewrite nth_indep with (d' := (fun p => (snd p - fst p)%Z) (0%Z, 0%Z)) by (rewrite map_length, pairs_length, sign_diff_length; lia).
  rewrite (map_nth (fun p => (snd p - fst p)%Z)), pairs_nth by (rewrite sign_diff_length; lia). cbn [fst snd].
  rewrite !sign_diff_nth by lia. reflexivity.
Qed.
Lemma qsign_cases x : (qsign x = 1%Z /\ 0 < x) \/ (qsign x = 0%Z /\ x == 0) \/ (qsign x = (-1)%Z /\ x < 0).
Proof.
  unfold qsign, Qlt, Qeq. destruct x as [n d]. cbn. destruct n; cbn; [right; left|left|right; right]; split; try reflexivity; try lia.
Qed.

(** * Every identified maximum is a peak or a plateau of the samples *)
Lemma nth_map_f (f : Q -> Q) l i : (i < length l)%nat -> nth i (map f l) 0 = f (nth i l 0).
Proof. intros H. rewrite nth_indep with (d' := f 0) by (rewrite map_length; lia). apply map_nth. Qed.

Lemma plateau_shape dsd a b : In (a, b) (plateaus dsd) ->
  exists j, b = (j + 2)%nat /\ (a < j < length dsd)%nat /\ nth a dsd 0%Z = (-1)%Z /\ nth j dsd 0%Z = (-1)%Z /\
    forall k, (a < k < j)%nat -> nth k dsd 0%Z = 0%Z.
Proof.
  unfold plateaus. intros H. apply in_map_iff in H as [[[i di] [j dj]] [E H]]. cbn [fst snd] in E. injection E as <- <-.
  apply filter_In in H as [H1 H2]. cbn [fst snd] in H2. apply andb_prop in H2 as [H2 H3].
  apply Z.eqb_eq in H2, H3. subst.
  set (idx := flatnonzero (fun d => negb (d =? 0)%Z) dsd) in *.
  pose proof (flatnonzero_strict (fun d => negb (d =? 0)%Z) dsd 0) as [S _]. fold (flatnonzero (fun d => negb (d =? 0)%Z) dsd) in S. fold idx in S.
  assert (M : forall k, (k < length dsd)%nat -> nth k dsd 0%Z <> 0%Z -> In k idx).
  { intros k Hk Hn. apply (flatnonzero_in _ 0%Z). exists k. repeat split; [assumption|]. destruct (Z.eqb_spec (nth k dsd 0%Z) 0); [congruence|reflexivity]. }
  assert (N : forall k, In k idx -> (k < length dsd)%nat).
  { intros k Hk. apply (flatnonzero_in _ 0%Z) in Hk as (j' & A1 & A2 & _). cbn in A2. lia. }
  assert (G : forall l, nat_strict l -> In ((i, -1)%Z, (j, -1)%Z) (pairs (map (fun i => (i, nth i dsd 0%Z)) l)) ->
     (i < j)%nat /\ In i l /\ In j l /\ nth i dsd 0%Z = (-1)%Z /\ nth j dsd 0%Z = (-1)%Z /\ forall k, In k l -> ~ (i < k < j)%nat).
  { induction l as [|x [|y l] IH]; intros Sl Hl; [destruct Hl|destruct Hl|].
    cbn [map] in Hl. rewrite pairs_cons in Hl. destruct Hl as [Hl|Hl].
    - injection Hl as -> E1 -> E2. cbn in Sl. destruct Sl as [S1 [S2 S3]]. repeat split.
      + apply S1. left; reflexivity.
      + left; reflexivity.
      + right; left; reflexivity.
      + exact E1.
      + exact E2.
      + intros k [<-|[<-|Hk]]; [lia|lia|]. apply S2 in Hk. lia.
    - destruct IH as (I1 & I2 & I3 & I4 & I5 & I6); [apply Sl|exact Hl|]. repeat split; try assumption; try (right; assumption).
      intros k [<-|Hk]; [|auto]. cbn in Sl. destruct Sl as [S1 _]. assert (x < i)%nat by (apply S1; assumption). lia. }
  destruct (G idx S H1) as (G1 & G2 & G3 & G4 & G5 & G6).
  exists j. split; [reflexivity|]. split; [split; [assumption|apply N; assumption]|]. split; [assumption|]. split; [assumption|].
  intros k Hk. destruct (Z.eq_dec (nth k dsd 0%Z) 0); [assumption|]. exfalso. apply (G6 k); [|assumption].
  apply M; [|assumption]. apply N in G3. lia.
Qed.

Lemma identify_ok (f : Q -> Q) x : strict x -> forall a b, In (a, b) (identify_maxima x (map f x)) ->
  seen_peak f a b \/ seen_plateau f a b.
Proof.
  intros Hx a b H. unfold identify_maxima in H. apply argsort_in, in_app_or in H as [H|H].
  - left. rewrite map_map in H. apply in_map_iff in H as [i [E H]]. injection E as <- <-.
    apply (flatnonzero_in _ 0%Z) in H as (j & Hj & -> & Hd). cbn [Nat.add] in *. rewrite dsd_length, map_length in Hj.
    apply Z.eqb_eq in Hd. rewrite dsd_nth in Hd by (rewrite map_length; lia). rewrite !nth_map_f in Hd by lia.
    unfold at_. rewrite nth_map_f by lia. split; [reflexivity|].
    exists (nth j x 0), (nth (S (S j)) x 0).
    pose proof (strict_nth x Hx j (S j)). pose proof (strict_nth x Hx (S j) (S (S j))).
    destruct (qsign_cases (f (nth (S (S j)) x 0) - f (nth (S j) x 0))) as [[A1 A2]|[[A1 A2]|[A1 A2]]];
    destruct (qsign_cases (f (nth (S j) x 0) - f (nth j x 0))) as [[B1 B2]|[[B1 B2]|[B1 B2]]]; rewrite A1, B1 in Hd; try lia.
    repeat split; try (apply H; lia); try (apply H0; lia); lra.
  - right. apply in_map_iff in H as [[i k] [E H]]. cbn [fst snd] in E. injection E as <- <-.
    destruct (plateau_shape _ _ _ H) as (j & -> & Hj & Di & Dj & Dk). rewrite dsd_length, map_length in Hj.
    assert (D : forall k, (i <= k <= j)%nat -> nth k (dsd_of (map f x)) 0%Z =
       (qsign (f (nth (S (S k)) x 0%Q) - f (nth (S k) x 0%Q)) - qsign (f (nth (S k) x 0%Q) - f (nth k x 0%Q)))%Z).
    { intros k Hk. rewrite dsd_nth by (rewrite map_length; lia). rewrite !nth_map_f by lia. reflexivity. }
    rewrite (D i) in Di by lia. rewrite (D j) in Dj by lia.
    (* signs after the first edge *)
    set (s := fun k => qsign (f (nth (S k) x 0%Q) - f (nth k x 0%Q))) in *.
    assert (C : forall k, (s k = 1 \/ s k = 0 \/ s k = -1)%Z) by (intros k; unfold s; destruct (qsign_cases (f (nth (S k) x 0%Q) - f (nth k x 0%Q))) as [[A _]|[[A _]|[A _]]]; rewrite A; auto).
    assert (Same : forall m, (S i + m <= j)%nat -> s (S i + m)%nat = s (S i)).
    { induction m as [|m IHm]; intros Hm; [f_equal; lia|].
      assert (Z0 := Dk (i + S m)%nat ltac:(lia)). rewrite D in Z0 by lia. fold (s (i + S m)%nat) in Z0. fold (s (S (i + S m))) in Z0.
      replace (S i + S m)%nat with (S (i + S m)) by lia. replace (S i + m)%nat with (i + S m)%nat in IHm by lia.
      rewrite <- IHm by lia. lia. }
    fold (s i) in Di. fold (s (S i)) in Di. fold (s j) in Dj. fold (s (S j)) in Dj.
    assert (Sj : s j = s (S i)). { replace j with (S i + (j - S i))%nat by lia. apply Same. lia. }
    rewrite Sj in Dj.
    assert (V : s i = 1%Z /\ s (S i) = 0%Z /\ s (S j) = (-1)%Z).
    { pose proof (C i). pose proof (C (S i)). pose proof (C (S j)). lia. }
    destruct V as (V1 & V2 & V3).
    assert (Flat : forall m, (S i + m <= S j)%nat -> f (nth (S i + m) x 0) == f (nth (S i) x 0)).
    { induction m as [|m IHm]; intros Hm; [replace (S i + 0)%nat with (S i) by lia; reflexivity|].
      assert (Z0 : s (S i + m)%nat = 0%Z) by (rewrite Same by lia; assumption). unfold s in Z0.
      destruct (qsign_cases (f (nth (S (S i + m)) x 0%Q) - f (nth (S i + m) x 0%Q))) as [[A1 A2]|[[A1 A2]|[A1 A2]]]; try congruence.
      rewrite <- IHm by lia. replace (S i + S m)%nat with (S (S i + m)) by lia. lra. }
    unfold at_. rewrite nth_map_f by lia.
    exists (nth i x 0), (nth (S i) x 0), (nth (S j) x 0), (nth (S (S j)) x 0).
    repeat split; try (apply strict_nth; [assumption|lia|lia]).
    + replace (j + 2)%nat with (S (S j)) by lia. reflexivity.
    + rewrite <- (Flat (j - i)%nat) by lia. replace (S i + (j - i))%nat with (S j) by lia. reflexivity.
    + unfold s in V1. destruct (qsign_cases (f (nth (S i) x 0%Q) - f (nth i x 0%Q))) as [[A1 A2]|[[A1 A2]|[A1 A2]]]; try congruence. lra.
    + unfold s in V3. destruct (qsign_cases (f (nth (S (S j)) x 0%Q) - f (nth (S j) x 0%Q))) as [[A1 A2]|[[A1 A2]|[A1 A2]]]; try congruence. lra.
Qed.

(** * The refinement keeps the samples strictly increasing *)
Lemma dedup_in {A} (same : A -> A -> bool) l x : In x (dedup same l) -> In x l.
Proof.
  induction l as [|a [|b l] IH]; [intros []|auto|].
  change (dedup same (a :: b :: l)) with (if same a b then dedup same (b :: l) else a :: dedup same (b :: l)).
  destruct (same a b); [right; auto|]. intros [->|H]; [left; reflexivity|right; auto].
Qed.
Fixpoint nat_asc (l : list nat) : Prop :=
  match l with a :: r => (forall b, In b r -> (a <= b)%nat) /\ nat_asc r | [] => True end.
Lemma dedup_nat_strict l : nat_asc l -> nat_strict (dedup Nat.eqb l).
Proof.
  induction l as [|a [|b l] IH]; intros H; [exact I|cbn; split; [intros ? []|exact I]|].
  change (dedup Nat.eqb (a :: b :: l)) with (if Nat.eqb a b then dedup Nat.eqb (b :: l) else a :: dedup Nat.eqb (b :: l)).
  destruct H as [H1 H2]. destruct (Nat.eqb_spec a b) as [E|E]; [auto|].
  split; [|auto]. intros c Hc. apply dedup_in in Hc.
  assert (a <= b)%nat by (apply H1; left; reflexivity).
  assert (b <= c)%nat by (destruct Hc as [<-|Hc]; [lia|apply H2; assumption]). lia.
Qed.
Lemma choose_left_ok y : nat_strict (choose_left y) /\ forall i, In i (choose_left y) -> (S i < length y)%nat.
Proof.
  unfold choose_left. set (idx := flatnonzero (fun d => (d <? 0)%Z) (dsd_of y)).
  destruct (flatnonzero_strict (fun d => (d <? 0)%Z) (dsd_of y) 0) as [S _].
  fold (flatnonzero (fun d => (d <? 0)%Z) (dsd_of y)) in S. fold idx in S. split.
  - apply dedup_nat_strict. clearbody idx. induction idx as [|i r IH]; [exact I|]. cbn [flat_map app].
    destruct S as [S1 S2]. specialize (IH S2).
    assert (B : forall b, In b (flat_map (fun i => [i; Datatypes.S i]) r) -> (i < b)%nat).
    { intros b Hb. apply in_flat_map in Hb as [j [Hj Hb]]. apply S1 in Hj. destruct Hb as [<-|[<-|[]]]; lia. }
    split; [intros b [<-|Hb]; [lia|apply B in Hb; lia]|]. split; [|assumption]. intros b Hb. apply B in Hb. lia.
  - intros i Hi. apply dedup_in, in_flat_map in Hi as [j [Hj Hi]].
    apply (flatnonzero_in _ 0%Z) in Hj as (k & Hk & -> & _). rewrite dsd_length in Hk. cbn in Hi. destruct Hi as [<-|[<-|[]]]; lia.
Qed.
Lemma brackets_map jd left : combine (take jd left) (take jd (map S left)) = map (fun i => (nth i jd 0, nth (S i) jd 0)) left.
Proof. unfold take. induction left; cbn; [reflexivity|]. f_equal. assumption. Qed.
Lemma strict_nth_le l i j : strict l -> (i <= j)%nat -> (j < length l)%nat -> nth i l 0 <= nth j l 0.
Proof. intros H Hij Hj. destruct (Nat.eq_dec i j) as [->|]; [lra|]. apply Qlt_le_weak, strict_nth; [assumption|lia|assumption]. Qed.
Lemma brackets_spread jd left : strict jd -> nat_strict left -> (forall i, In i left -> (S i < length jd)%nat) ->
  forall k, (forall i, In i left -> (k <= i)%nat) -> (k < length jd)%nat ->
  spread (nth k jd 0) (map (fun i => (nth i jd 0, nth (S i) jd 0)) left) (nth (length jd - 1) jd 0).
Proof.
  intros H. induction left as [|i r IH]; intros Hs Hb k Hk Hl.
  - cbn. apply strict_nth_le; [assumption|lia|lia].
  - destruct Hs as [S1 S2]. assert (Hi := Hb i (or_introl eq_refl)).
    cbn [map spread]. split; [apply strict_nth_le; [assumption|apply Hk; left; reflexivity|lia]|].
    split; [apply strict_nth; [assumption|lia|assumption]|].
    apply IH; [assumption|intros j Hj; apply Hb; right; assumption|intros j Hj; apply S1 in Hj; lia|lia].
Qed.
Lemma refine_strict num jd left : strict jd -> nat_strict left -> (forall i, In i left -> (S i < length jd)%nat) ->
  strict (dedup Qeq_bool (refine num (combine (take jd left) (take jd (map S left))))).
Proof.
  intros H Hs Hb. rewrite brackets_map. destruct jd as [|x0 jd'].
  { destruct left as [|i r]; [exact I|]. specialize (Hb i (or_introl eq_refl)). cbn in Hb. lia. }
  destruct num as [|[|n]].
  - assert (E : forall l, refine 0 l = []) by (induction l; [reflexivity|assumption]). rewrite E. exact I.
  - apply (dedup_strict _ 0 0).
    generalize (map (fun i => (nth i (x0 :: jd') 0, nth (S i) (x0 :: jd') 0)) left). intros l.
    induction l as [|[s e] l IH]; [cbn; lra|]. unfold refine. cbn [flat_map].
    eapply ascending_app; [|exact IH]. cbn. split; [ring_simplify; lra|ring_simplify; lra].
  - eapply dedup_strict. apply refine_ascending.
    apply (brackets_spread (x0 :: jd') left H Hs Hb 0); [intros; lia|cbn; lia].
Qed.

Lemma maxima_loop_ok (f : Q -> Q) jd0 jd1 eps num : 0 <= eps -> forall fuel jd l,
  strict jd -> maxima_loop fuel f jd0 jd1 eps num jd = Found l ->
  separated eps (map fst l) /\ forall x y, In (x, y) l -> jd0 <= x <= jd1 /\ (seen_peak f x y \/ seen_plateau f x y).
Proof.
  intros He. induction fuel as [|fuel IH]; intros jd l Hs H; [discriminate|]. cbn [maxima_loop] in H.
  destruct jd as [|x0 [|x1 r]]; try discriminate.
  destruct (Qle_bool (x1 - x0) eps).
  - injection H as <-. set (xs := x0 :: x1 :: r) in *.
    destruct (filter_maxima_ok jd0 jd1 eps (identify_maxima xs (map f xs)) He) as [F1 F2].
    { unfold identify_maxima. apply argsort_sorted. }
    split; [assumption|]. intros x y Hi. apply F2 in Hi as [Hi Hr]. split; [exact Hr|]. eapply identify_ok; eassumption.
  - destruct (choose_left_ok (map f (x0 :: x1 :: r))) as [C1 C2].
    destruct (choose_left _) as [|i lf] eqn:E.
    + injection H as <-. split; [exact I|intros ? ? []].
    + eapply IH; [|exact H]. apply refine_strict; [assumption|assumption|].
      intros j Hj. apply C2 in Hj. rewrite map_length in Hj. assumption.
Qed.

Lemma prog_strict_eq w : 0 < w -> forall n x L, qlist_eq L (prog x w n) -> strict L.
Proof.
  intros Hw. induction n as [|n IH]; intros x L H.
  - inversion H as [|y ? l' ? ? B]; subst. inversion B; subst. cbn. auto.
  - inversion H as [|y ? l' ? Hy B]; subst. pose proof (IH _ _ B) as C.
    destruct n; inversion B as [|z ? l'' ? Hz B']; subst; (split; [rewrite Hy, Hz; lra|exact C]).
Qed.
Lemma linspace_strict a b n : a < b -> strict (linspace a b (S (S n))).
Proof. intros H. eapply prog_strict_eq; [|apply linspace_prog]. apply div_pos. lra. Qed.

(** The initial samples: a progression from before the start to after the end. *)
Lemma maxima_samples_shape jd0 jd1 s num : jd0 < jd1 -> positive_sampling s -> (1 <= num)%nat ->
  exists a b n, maxima_samples jd0 jd1 s num = linspace a b (S (S (S n))) /\ a < jd0 /\ jd1 < b /\
    a + (b - a) / inject_Z (Z.of_nat (S (S n))) < jd0 + margin s num /\
    jd1 - margin s num < b - (b - a) / inject_Z (Z.of_nat (S (S n))) /\
    jd0 - a <= spacing s num /\ b - jd1 <= spacing s num.
Proof.
  intros H Hs Hn. assert (Hnum : 0 < inject_Z (Z.of_nat num)) by (destruct num; [lia|apply inject_pos]).
  destruct s as [d|p]; cbn [positive_sampling maxima_samples margin spacing] in *.
  - assert (P : 0 <= (jd1 - jd0) / d) by (apply Qle_shift_div_l; [assumption|lra]).
    destruct (qtrunc_nonneg _ P) as (T1 & T2 & T3). set (k := qtrunc ((jd1 - jd0) / d)) in *.
    set (steps := (k + 3)%Z). 
    assert (St : inject_Z steps == inject_Z k + 3) by (unfold steps; rewrite inject_Z_plus; reflexivity).
    assert (K0 : 0 <= inject_Z k) by (change 0 with (inject_Z 0); rewrite <- Zle_Qle; assumption).
    set (rs := (jd1 - jd0) / inject_Z steps).
    assert (R0 : 0 < rs) by (apply Qlt_shift_div_l; lra).
    assert (Rd : rs < d).
    { apply Qlt_shift_div_r; [lra|]. assert (E : jd1 - jd0 == (jd1 - jd0) / d * d) by (field; lra).
      rewrite E at 1. rewrite (Qmult_comm d). apply Qmult_lt_compat_r; [assumption|]. lra. }
    assert (Rs : rs * inject_Z steps == jd1 - jd0) by (unfold rs; field; lra).
    exists (jd0 - rs), (jd1 + rs), (Z.to_nat (k + 2)).
    assert (Sn : inject_Z (Z.of_nat (S (S (Z.to_nat (k + 2))))) == inject_Z steps + 1).
    { rewrite !inject_S, Z2Nat.id by lia. unfold steps. rewrite !inject_Z_plus. change (inject_Z 2) with 2. change (inject_Z 3) with 3. ring. }
    split; [f_equal; unfold steps; lia|]. split; [lra|]. split; [lra|].
    assert (W : (jd1 + rs - (jd0 - rs)) / inject_Z (Z.of_nat (S (S (Z.to_nat (k + 2))))) == rs + rs / (inject_Z steps + 1)).
    { rewrite Sn. assert (E : jd1 + rs - (jd0 - rs) == rs * inject_Z steps + 2 * rs) by (rewrite Rs; ring). rewrite E. field. lra. }
    assert (M : rs / (inject_Z steps + 1) < d / 4).
    { apply Qlt_shift_div_r; [lra|]. assert (d / 4 * 4 <= d / 4 * (inject_Z steps + 1)).
      { rewrite !(Qmult_comm (d / 4)). apply Qmult_le_compat_r; [lra|]. apply Qle_shift_div_l; lra. }
      assert (d / 4 * 4 == d) by field. lra. }
    repeat split; rewrite ?W; lra.
  - set (b := p / inject_Z (Z.of_nat num)). assert (B0 : 0 < b) by (apply Qlt_shift_div_l; lra).
    assert (P : 0 <= (jd1 - jd0) / b) by (apply Qle_shift_div_l; [assumption|lra]).
    destruct (qtrunc_nonneg _ P) as (T1 & T2 & T3). set (k := qtrunc ((jd1 - jd0) / b)) in *.
    assert (K0 : 0 <= inject_Z k) by (change 0 with (inject_Z 0); rewrite <- Zle_Qle; assumption).
    exists (jd0 - b), (jd1 + b), (Z.to_nat k).
    assert (Sn : inject_Z (Z.of_nat (S (S (Z.to_nat k)))) == inject_Z k + 2).
    { rewrite !inject_S, Z2Nat.id by lia. ring. }
    split; [f_equal; lia|]. split; [lra|]. split; [lra|].
    assert (W : (jd1 + b - (jd0 - b)) / inject_Z (Z.of_nat (S (S (Z.to_nat k)))) < b + b / 2).
    { rewrite Sn. apply Qlt_shift_div_r; [lra|].
      assert (E : jd1 - jd0 == (jd1 - jd0) / b * b) by (field; lra).
      assert (L : (jd1 - jd0) / b * b < (inject_Z k + 1) * b) by (apply Qmult_lt_compat_r; assumption).
      assert (E2 : (b + b / 2) * (inject_Z k + 2) == (inject_Z k + 1) * b + 2 * b + inject_Z k * b / 2) by field.
      assert (0 <= inject_Z k * b / 2). { apply Qle_shift_div_l; [lra|]. assert (0 <= inject_Z k * b) by (apply Qmult_le_0_compat; lra). lra. }
      lra. }
    repeat split; lra.
Qed.

Lemma find_maxima_ok fuel jd0 jd1 f s eps num l : 0 <= eps -> positive_sampling s -> (1 <= num)%nat ->
  find_maxima fuel jd0 jd1 f s eps num = Found l ->
  separated eps (map fst l) /\ forall x y, In (x, y) l -> jd0 <= x <= jd1 /\ (seen_peak f x y \/ seen_plateau f x y).
Proof.
  intros He Hs Hn H. unfold find_maxima in H. destruct (Qle_bool jd1 jd0) eqn:E; [discriminate|]. apply Qleb_f in E.
  destruct (maxima_samples_shape jd0 jd1 s num E Hs Hn) as (a & b & n & Es & Ha & Hb & _).
  eapply maxima_loop_ok; [exact He| |exact H]. rewrite Es. apply linspace_strict. lra.
Qed.
