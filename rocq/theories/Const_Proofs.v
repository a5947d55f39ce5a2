From Coq Require Import ZArith QArith Ascii List Bool Lia Lqa.
From Verif Require Import PyNum Const_Model Const_Spec.
Import ListNotations.
Open Scope Q_scope.

(** * Sorted sets *)
Definition InQ (x : Q) (l : list Q) : Prop := exists y, In y l /\ x == y.
Fixpoint strict (l : list Q) : Prop :=
  match l with a :: r => match r with b :: _ => a < b | [] => True end /\ strict r | [] => True end.
Lemma strict_tail a l : strict (a :: l) -> strict l.
Proof. cbn. tauto. Qed.
Lemma strict_lt a l : strict (a :: l) -> forall b, In b l -> a < b.
Proof.
  revert a. induction l as [|c l IH]; intros a H b Hb; [destruct Hb|]. cbn in H. destruct H as [H1 H2].
  destruct Hb as [->|Hb]; [assumption|]. assert (c < b) by (apply IH; assumption). lra.
Qed.
Lemma strict_cons a l : strict l -> (forall b, In b l -> a < b) -> strict (a :: l).
Proof. intros H1 H2. cbn. split; [|exact H1]. destruct l; [exact I|]. apply H2. left. reflexivity. Qed.
Lemma Qltb_lt' a b : Qltb a b = true <-> a < b.
Proof. unfold Qltb. rewrite negb_true_iff. split; intros H.
  - destruct (Qlt_le_dec a b) as [L|L]; [exact L|]. apply Qle_bool_iff in L. congruence.
  - destruct (Qle_bool b a) eqn:E; [|reflexivity]. apply Qle_bool_iff in E. lra. Qed.
Lemma Qltb_ge' a b : Qltb a b = false <-> b <= a.
Proof. unfold Qltb. rewrite negb_false_iff. apply Qle_bool_iff. Qed.
Lemma Qle_false a b : Qle_bool a b = false <-> b < a.
Proof. split; intros H; [destruct (Qlt_le_dec b a) as [L|L]; [exact L|apply Qle_bool_iff in L; congruence]|
  destruct (Qle_bool a b) eqn:E; [apply Qle_bool_iff in E; lra|reflexivity]]. Qed.
Lemma insert_in x l y : InQ y (insert x l) <-> y == x \/ InQ y l.
Proof.
  induction l as [|a r IH]; cbn [insert].
  - unfold InQ. cbn. split; [intros (z & [<-|[]] & E); tauto|intros [E|(z & [] & _)]; exists x; tauto].
  - destruct (Qltb x a) eqn:L.
    { unfold InQ. cbn [In]. split; [intros (z & [<-|H] & E); [tauto|right; exists z; tauto]|intros [E|(z & H & E)]; [exists x; tauto|exists z; tauto]]. }
    destruct (Qeq_bool x a) eqn:E.
    { apply Qeq_bool_iff in E. split; [tauto|]. intros [H|H]; [|exact H]. exists a. split; [left; reflexivity|]. rewrite H. exact E. }
    split.
    + intros (z & [<-|H] & Ez); [right; exists a; split; [left; reflexivity|exact Ez]|].
      destruct IH as [IH _]. destruct IH as [G|(w & Hw & Ew)]; [exists z; tauto|tauto|]. right. exists w. split; [right|]; assumption.
    + intros H. assert (G : y == a \/ InQ y (insert x r)).
      { destruct H as [H|(z & [<-|Hz] & Ez)]; [right; apply IH; tauto|tauto|right; apply IH; right; exists z; tauto]. }
      destruct G as [G|(z & Hz & Ez)]; [exists a; split; [left; reflexivity|exact G]|exists z; split; [right|]; assumption].
Qed.
Lemma insert_strict x l : strict l -> strict (insert x l).
Proof.
  induction l as [|a r IH]; intros H; cbn [insert]; [cbn; tauto|].
  destruct (Qltb x a) eqn:L.
  - apply Qltb_lt' in L. split; assumption.
  - apply Qltb_ge' in L. destruct (Qeq_bool x a) eqn:E; [exact H|].
    assert (N : a < x). { apply Qle_lteq in L as [L|L]; [exact L|]. apply Qeq_sym, Qeq_bool_iff in L. congruence. }
    apply strict_cons; [apply IH, (strict_tail a), H|].
    intros b Hb. assert (Q : InQ b (insert x r)) by (exists b; split; [exact Hb|reflexivity]).
    apply insert_in in Q as [Q|(z & Hz & Ez)]; [lra|]. pose proof (strict_lt _ _ H z Hz). lra.
Qed.
Lemma set_strict l : strict (sorted_set l).
Proof. induction l as [|a l IH]; cbn [sorted_set fold_right]; [exact I|]. apply insert_strict, IH. Qed.
Lemma set_in l y : InQ y (sorted_set l) <-> InQ y l.
Proof.
  induction l as [|a l IH]; cbn [sorted_set fold_right]; [reflexivity|]. fold (sorted_set l). rewrite insert_in, IH.
  unfold InQ. cbn [In]. split; [intros [E|(z & Hz & E)]; [exists a; tauto|exists z; tauto]|intros (z & [<-|Hz] & E); [tauto|right; exists z; tauto]].
Qed.
Lemma strict_unique : forall l k, strict l -> strict k -> (forall x, InQ x l <-> InQ x k) -> Forall2 Qeq l k.
Proof.
  induction l as [|a l IH]; intros [|b k] Hl Hk H.
  - constructor.
  - destruct (proj2 (H b)) as (z & [] & _). exists b. split; [left|]; reflexivity.
  - destruct (proj1 (H a)) as (z & [] & _). exists a. split; [left|]; reflexivity.
  - assert (E : a == b).
    { destruct (proj1 (H a)) as (z & Hz & Ez); [exists a; split; [left|]; reflexivity|].
      destruct (proj2 (H b)) as (w & Hw & Ew); [exists b; split; [left|]; reflexivity|].
      destruct Hz as [<-|Hz]; [exact Ez|]. destruct Hw as [<-|Hw]; [symmetry; exact Ew|].
      pose proof (strict_lt _ _ Hk z Hz). pose proof (strict_lt _ _ Hl w Hw). lra. }
    constructor; [exact E|]. apply IH; [apply (strict_tail a), Hl|apply (strict_tail b), Hk|].
    intros x. split; intros (z & Hz & Ez).
    + destruct (proj1 (H x)) as (w & [<-|Hw] & Ew); [exists z; split; [right|]; assumption|pose proof (strict_lt _ _ Hl z Hz); lra|exists w; tauto].
    + destruct (proj2 (H x)) as (w & [<-|Hw] & Ew); [exists z; split; [right|]; assumption|pose proof (strict_lt _ _ Hk z Hz); lra|exists w; tauto].
Qed.
Lemma search_right_eq l k x : Forall2 Qeq l k -> search_right l x = search_right k x.
Proof.
  unfold search_right. induction 1 as [|a b l k E H IH]; [reflexivity|]. cbn [filter].
  assert (B : Qle_bool a x = Qle_bool b x) by (rewrite E; reflexivity). rewrite B. destruct (Qle_bool b x); cbn [length]; lia.
Qed.

(** * Rows *)
Lemma nth_assign : forall row j i0 i1 c i, nth_error (assign row j i0 i1 c) i =
  match nth_error row i with None => None | Some a => Some (if (i0 <=? j + i)%nat && (j + i <? i1)%nat then c else a) end.
Proof.
  induction row as [|a r IH]; intros j i0 i1 c i; cbn [assign]; [destruct i; reflexivity|].
  destruct i as [|i]; cbn [nth_error]; [rewrite Nat.add_0_r; reflexivity|]. rewrite IH. replace (S j + i)%nat with (j + S i)%nat by lia. reflexivity.
Qed.
Section Grid.
Variable sra names : list Q.
Definition covers (i : nat) (b : boundary) : bool :=
  (search_right sra (ra_low b) <=? i)%nat && (i <? search_right sra (ra_up b))%nat.
Definition code (b : boundary) : Z := Z.of_nat (search_left names (inject_Z (const b))).
Lemma nth_fill : forall l row i, nth_error (fold_left (draw sra names) l row) i =
  match nth_error row i with None => None | Some a => Some (match find (covers i) (rev l) with Some b => code b | None => a end) end.
Proof.
  intros l. induction l as [|b l IH] using rev_ind; intros row i; cbn [rev find].
  - cbn. destruct (nth_error row i); reflexivity.
  - rewrite fold_left_app, rev_app_distr. cbn [fold_left rev app find]. unfold draw at 1. rewrite nth_assign, IH.
    destruct (nth_error row i) as [a|]; [|reflexivity]. fold (code b). cbn [Nat.add]. fold (covers i b). destruct (covers i b); reflexivity.
Qed.
Fixpoint northward (l : list boundary) (de : Q) : Prop :=
  match l with [] => True | b :: r => de <= de_low b /\ northward r (de_low b) end.
Lemma northward_weak l de de' : de' <= de -> northward l de -> northward l de'.
Proof. destruct l; cbn; [tauto|]. intros H [H1 H2]. split; [lra|exact H2]. Qed.
Lemma northward_all l : forall de, northward l de -> forall b, In b l -> de <= de_low b.
Proof.
  induction l as [|a l IH]; intros de H b Hb; [destruct Hb|]. destruct H as [H1 H2]. destruct Hb as [->|Hb]; [exact H1|].
  specialize (IH _ H2 b Hb). lra.
Qed.
Fixpoint levels (l : list boundary) (de : Q) : list Q :=
  match l with [] => [] | b :: r => if Qltb de (de_low b) then de_low b :: levels r (de_low b) else levels r de end.
Lemma levels_gt l : forall de, northward l de -> forall x, In x (levels l de) -> de < x.
Proof.
  induction l as [|b r IH]; intros de H x Hx; [destruct Hx|]. cbn [levels] in Hx. destruct H as [H1 H2].
  destruct (Qltb de (de_low b)) eqn:L.
  - apply Qltb_lt' in L. destruct Hx as [<-|Hx]; [exact L|]. specialize (IH _ H2 x Hx). lra.
  - apply (IH de); [apply (northward_weak r (de_low b)); assumption|exact Hx].
Qed.
Lemma levels_strict l : forall de, northward l de -> strict (de :: levels l de).
Proof.
  induction l as [|b r IH]; intros de H; [cbn; tauto|]. destruct H as [H1 H2]. cbn [levels]. destruct (Qltb de (de_low b)) eqn:L.
  - apply Qltb_lt' in L. split; [exact L|]. apply IH, H2.
  - apply IH, (northward_weak r (de_low b)); assumption.
Qed.
Lemma levels_in l : forall de x, northward l de -> InQ x (de :: levels l de) <-> x == de \/ InQ x (map de_low l).
Proof.
  induction l as [|b r IH]; intros de x H; cbn [levels map].
  - unfold InQ. cbn. split; [intros (y & [<-|[]] & E); tauto|intros [E|(y & [] & _)]; exists de; tauto].
  - destruct H as [H1 H2]. destruct (Qltb de (de_low b)) eqn:L.
    + specialize (IH (de_low b) x H2). split.
      * intros (y & [<-|Hy] & E); [tauto|]. right. destruct (proj1 IH) as [G|(z & Hz & Ez)]; [exists y; tauto|exists (de_low b); split; [left; reflexivity|exact G]|exists z; split; [right|]; assumption].
      * intros [G|(y & [<-|Hy] & E)]; [exists de; split; [left; reflexivity|exact G]| |].
        -- exists (de_low b). split; [right; left; reflexivity|exact E].
        -- destruct (proj2 IH) as (z & Hz & Ez); [right; exists y; tauto|]. exists z. split; [right; exact Hz|exact Ez].
    + apply Qltb_ge' in L. assert (E0 : de == de_low b) by lra.
      rewrite (IH de x) by (apply (northward_weak r (de_low b)); assumption). unfold InQ. cbn [In]. split.
      * intros [G|(y & Hy & E)]; [tauto|]. right. exists y. tauto.
      * intros [G|(y & [<-|Hy] & E)]; [tauto|left; lra|right; exists y; tauto].
Qed.
Lemma rows_at l : forall row de dec, northward l de -> de <= dec ->
  nth_error (rows sra names l row de) (search_right (levels l de) dec)
  = Some (fold_left (draw sra names) (filter (fun b => Qle_bool (de_low b) dec) l) row).
Proof.
  induction l as [|b r IH]; intros row de dec H Hd; [reflexivity|]. destruct H as [H1 H2]. cbn [rows levels filter].
  destruct (Qltb de (de_low b)) eqn:L.
  - apply Qltb_lt' in L. unfold search_right. cbn [filter]. destruct (Qle_bool (de_low b) dec) eqn:D.
    + apply Qle_bool_iff in D. cbn [length nth_error fold_left]. fold (search_right (levels r (de_low b)) dec). apply IH; assumption.
    + apply Qle_false in D.
      assert (F1 : filter (fun a => Qle_bool a dec) (levels r (de_low b)) = []).
      { assert (G : forall x, In x (levels r (de_low b)) -> dec < x) by (intros x Hx; pose proof (levels_gt r _ H2 x Hx); lra).
        clear -G. induction (levels r (de_low b)) as [|x k IH]; [reflexivity|]. cbn [filter]. rewrite (proj2 (Qle_false x dec)) by (apply G; left; reflexivity).
        apply IH. intros; apply G; right; assumption. }
      assert (F2 : filter (fun b => Qle_bool (de_low b) dec) r = []).
      { assert (G : forall x, In x r -> dec < de_low x) by (intros x Hx; pose proof (northward_all r _ H2 x Hx); lra).
        clear -G. induction r as [|x k IH]; [reflexivity|]. cbn [filter]. rewrite (proj2 (Qle_false (de_low x) dec)) by (apply G; left; reflexivity).
        apply IH. intros; apply G; right; assumption. }
      rewrite F1, F2. reflexivity.
  - apply Qltb_ge' in L. assert (D : Qle_bool (de_low b) dec = true) by (apply Qle_bool_iff; lra). rewrite D. cbn [fold_left].
    apply IH; [apply (northward_weak r (de_low b)); assumption|exact Hd].
Qed.
End Grid.
