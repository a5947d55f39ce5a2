From Coq Require Import ZArith QArith Qround Qabs List Bool Lia Lqa Morphisms Setoid.
From Verif Require Import PyNum Time_Model Search_Model Search_Spec.
Import ListNotations.
Open Scope Q_scope.

Lemma Qleb_t a b : Qle_bool a b = true <-> a <= b. Proof. apply Qle_bool_iff. Qed.
Lemma Qleb_f a b : Qle_bool a b = false <-> b < a.
Proof. rewrite <- not_true_iff_false, Qle_bool_iff. split; intros; [apply Qnot_le_lt|apply Qlt_not_le]; assumption. Qed.
Lemma Qltb_t a b : Qltb a b = true <-> a < b.
Proof. unfold Qltb. rewrite negb_true_iff. apply Qleb_f. Qed.
Lemma Qltb_f a b : Qltb a b = false <-> b <= a.
Proof. unfold Qltb. rewrite negb_false_iff. apply Qleb_t. Qed.

(** * linspace *)
Lemma inject_S n : inject_Z (Z.of_nat (S n)) == inject_Z (Z.of_nat n) + 1.
Proof. rewrite Nat2Z.inj_succ. unfold Z.succ. rewrite inject_Z_plus. reflexivity. Qed.
Lemma inject_nonneg n : 0 <= inject_Z (Z.of_nat n).
Proof. change 0 with (inject_Z 0). rewrite <- Zle_Qle. lia. Qed.
Lemma inject_pos n : 0 < inject_Z (Z.of_nat (S n)).
Proof. change 0 with (inject_Z 0). rewrite <- Zlt_Qlt. lia. Qed.

(** arithmetic progression with step [w] from [x], [n] more points *)
Fixpoint prog (x w : Q) (n : nat) : list Q :=
  match n with O => [x] | S n => x :: prog (x + w) w n end.
Definition qlist_eq := Forall2 Qeq.
Lemma qlist_eq_refl l : qlist_eq l l.
Proof. induction l; constructor; [reflexivity|assumption]. Qed.

Lemma prog_eq w : forall n x y L, x == y -> qlist_eq L (prog x w n) -> qlist_eq L (prog y w n).
Proof. induction n as [|n IH]; intros x y L E H; cbn in *; inversion H; subst; constructor;
    try (rewrite <- E; assumption); try assumption. eapply IH; [|eassumption]. rewrite E; reflexivity. Qed.
Lemma linspace_prog_gen a w : forall n i,
  qlist_eq (map (fun i => a + inject_Z (Z.of_nat i) * w) (seq i (S n)))
           (prog (a + inject_Z (Z.of_nat i) * w) w n).
Proof.
  induction n as [|n IH]; intros i.
  - cbn. constructor; [reflexivity|constructor].
  - change (seq i (S (S n))) with (i :: seq (S i) (S n)). cbn [map prog]. constructor; [reflexivity|].
    eapply prog_eq; [|apply (IH (S i))]. rewrite inject_S; ring.
Qed.
Lemma linspace_prog a b n :
  qlist_eq (linspace a b (S (S n))) (prog a ((b - a) / inject_Z (Z.of_nat (S n))) (S n)).
Proof.
  unfold linspace, linspace_at. eapply prog_eq; [|apply linspace_prog_gen]. cbn. ring.
Qed.
Lemma linspace_len a b n : length (linspace a b n) = n.
Proof. unfold linspace. rewrite map_length, seq_length. reflexivity. Qed.
Lemma prog_nth x w : forall n i, (i <= n)%nat -> nth i (prog x w n) 0 == x + inject_Z (Z.of_nat i) * w.
Proof.
  intros n; revert x. induction n as [|n IH]; intros x i Hi.
  - assert (i = 0)%nat by lia. subst. cbn. ring.
  - destruct i as [|i]; cbn [prog nth]; [cbn; ring|]. rewrite IH by lia. rewrite inject_S. ring.
Qed.
Lemma prog_len x w n : length (prog x w n) = S n.
Proof. revert x; induction n; intros; cbn; [reflexivity|rewrite IHn; reflexivity]. Qed.

(** * A bracket's block is a progression *)
Lemma rev_linspace_nth n i : (i <= S n)%nat ->
  nth i (rev (linspace 0 1 (S (S n)))) 0 == 1 - inject_Z (Z.of_nat i) / inject_Z (Z.of_nat (S n)).
Proof.
  intros Hi. rewrite rev_nth; rewrite linspace_len; [|lia].
  unfold linspace. rewrite nth_indep with (d' := linspace_at 0 1 (S (S n)) 0) by (rewrite map_length, seq_length; lia).
  rewrite map_nth, seq_nth by lia. cbn [linspace_at].
  replace (0 + (S (S n) - S i))%nat with (S n - i)%nat by lia.
  rewrite Nat2Z.inj_sub by lia. unfold Z.sub. rewrite inject_Z_plus, inject_Z_opp.
  pose proof (inject_pos n). field. lra.
Qed.
Lemma block_spec n p :
  qlist_eq (block (S (S n)) p) (prog (fst p) ((snd p - fst p) / inject_Z (Z.of_nat (S n))) (S n)).
Proof.
  unfold block. set (em := linspace 0 1 (S (S n))).
  assert (L : length (map (fun m : Q * Q => fst p * fst m + snd p * snd m) (combine (rev em) em)) = S (S n)).
  { rewrite map_length, combine_length, rev_length. unfold em. rewrite linspace_len. lia. }
  assert (G : forall l l', length l = length l' -> (forall i, (i < length l)%nat -> nth i l 0 == nth i l' 0) -> qlist_eq l l').
  { clear. induction l as [|a l IH]; intros [|b l'] Hl H; try discriminate; constructor.
    - apply (H 0%nat). cbn; lia.
    - apply IH; [cbn in Hl; lia|]. intros i Hi. apply (H (S i)). cbn; lia. }
  apply G; [rewrite L, prog_len; reflexivity|].
  intros i Hi. rewrite L in Hi. rewrite prog_nth by lia.
  rewrite nth_indep with (d' := (fun m : Q * Q => fst p * fst m + snd p * snd m) (0, 0)) by (rewrite L; lia).
  rewrite (map_nth (fun m : Q * Q => fst p * fst m + snd p * snd m)), combine_nth by (rewrite rev_length; reflexivity). cbn [fst snd].
  unfold em at 1. rewrite rev_linspace_nth by lia.
  assert (E : nth i em 0 == inject_Z (Z.of_nat i) / inject_Z (Z.of_nat (S n))).
  { unfold em, linspace. rewrite nth_indep with (d' := linspace_at 0 1 (S (S n)) 0) by (rewrite map_length, seq_length; lia).
    rewrite map_nth, seq_nth by lia. cbn [linspace_at]. cbn [Nat.add].
    pose proof (inject_pos n). field. lra. }
  rewrite E. pose proof (inject_pos n). field. lra.
Qed.

(** * ascending lists *)
Lemma ascending_le l : forall a b, ascending a l b -> a <= b.
Proof. induction l as [|x l IH]; cbn; intros a b H; [assumption|]. destruct H as [H1 H2]. apply IH in H2. lra. Qed.
Lemma ascending_weak l a a' b b' : a' <= a -> b <= b' -> ascending a l b -> ascending a' l b'.
Proof. revert a a'. induction l as [|x l IH]; cbn; intros a a' H1 H2 H; [lra|].
  destruct H as [H3 H4]. split; [lra|]. eapply IH; [|eassumption|eassumption]; lra. Qed.
Lemma ascending_app l1 : forall l2 a m b, ascending a l1 m -> ascending m l2 b -> ascending a (l1 ++ l2) b.
Proof. induction l1 as [|x l IH]; cbn; intros l2 a m b H1 H2.
  - eapply ascending_weak; [eassumption| |eassumption]; lra.
  - destruct H1. split; [assumption|]. eapply IH; eassumption. Qed.
Lemma ascending_eq l l' a b : qlist_eq l l' -> ascending a l b -> ascending a l' b.
Proof. intros H. revert a. induction H; cbn; intros a H1; [assumption|]. destruct H1 as [H1 H2].
  split; [lra|]. eapply ascending_weak; [| |apply IHForall2; eassumption]; lra. Qed.
Lemma ascending_in l : forall a b x, ascending a l b -> In x l -> a <= x <= b.
Proof. induction l as [|y l IH]; intros a b x H Hi; [destruct Hi|]. cbn in H. destruct H as [H1 H2].
  destruct Hi as [->|Hi]; [apply ascending_le in H2; lra|].
  apply (IH _ _ _ H2) in Hi. lra. Qed.

(** bracket lists *)
Fixpoint spread (lo : Q) (brs : list (Q * Q)) (hi : Q) : Prop :=
  match brs with
  | [] => lo <= hi
  | (s, e) :: r => lo <= s /\ s < e /\ spread e r hi
  end.
Fixpoint linked (f : Q -> Z) (v0 : Z) (brs : list (Q * Q)) (v1 : Z) : Prop :=
  match brs with
  | [] => v0 = v1
  | (s, e) :: r => f s = v0 /\ f e <> v0 /\ linked f (f e) r v1
  end.

Section F.
Variable f : Q -> Z.
Hypothesis Hf : time_function f.

Lemma spread_weak brs : forall a a' b, a' <= a -> spread a brs b -> spread a' brs b.
Proof. destruct brs as [|[s e] r]; cbn; intros a a' b H1 H2; [lra|]. destruct H2 as [H3 H4]. split; [lra|assumption]. Qed.
Lemma spread_le brs : forall a b, spread a brs b -> a <= b.
Proof. induction brs as [|[s e] r IH]; cbn; intros a b H; [assumption|]. destruct H as (H1 & H2 & H3). apply IH in H3. lra. Qed.
Lemma last_default {A} (l : list A) a b : l <> [] -> last l a = last l b.
Proof. induction l as [|x l IH]; intros H; [congruence|]. destruct l; [reflexivity|].
  change (last (a0 :: l) a = last (a0 :: l) b). apply IH. discriminate. Qed.
Lemma last_cons_any {A} (x : A) l d : last (x :: l) d = last l x.
Proof. destruct l; [reflexivity|]. change (last (a :: l) d = last (a :: l) x). apply last_default. discriminate. Qed.
Lemma changes_cons a b l : changes f (a :: b :: l) =
  if (f a =? f b)%Z then changes f (b :: l) else (a, b) :: changes f (b :: l).
Proof. unfold changes, pairs. cbn. destruct (f a =? f b)%Z; reflexivity. Qed.
Lemma changes_one a : changes f [a] = []. Proof. reflexivity. Qed.

Lemma changes_spec l : forall a lo hi, ascending lo (a :: l) hi ->
  linked f (f a) (changes f (a :: l)) (f (last l a)) /\ spread lo (changes f (a :: l)) hi.
Proof.
  induction l as [|b l IH]; intros a lo hi H.
  - rewrite changes_one. cbn. split; [reflexivity|]. cbn in H. lra.
  - rewrite changes_cons. cbn [ascending] in H. destruct H as (H1 & H2 & H3).
    destruct (IH b a hi) as [L S]; [split; assumption|].
    destruct (Z.eqb_spec (f a) (f b)) as [E|E].
    + rewrite E. split; [rewrite last_cons_any; exact L|]. eapply spread_weak; [|exact S]; assumption.
    + cbn [linked spread]. repeat split; try assumption.
      * congruence.
      * rewrite last_cons_any. exact L.
      * destruct (Qlt_le_dec a b); [assumption|]. exfalso. apply E. apply Hf. lra.
      * destruct (IH b b hi) as [_ S']; [split; [lra|assumption]|]. exact S'.
Qed.

Lemma prog_ascending w : 0 <= w -> forall n x, ascending x (prog x w n) (x + inject_Z (Z.of_nat n) * w).
Proof.
  intros Hw. induction n as [|n IH]; intros x.
  - cbn. split; [lra|]. assert (inject_Z 0 * w == 0) by ring. lra.
  - cbn [prog ascending]. split; [lra|]. eapply ascending_weak; [| |apply (IH (x + w))]; [lra|].
    rewrite inject_S. assert ((inject_Z (Z.of_nat n) + 1) * w == inject_Z (Z.of_nat n) * w + w) by ring. lra.
Qed.
Lemma div_mul a n : inject_Z (Z.of_nat (S n)) * (a / inject_Z (Z.of_nat (S n))) == a.
Proof. pose proof (inject_pos n). field. lra. Qed.
Lemma div_pos a n : 0 < a -> 0 < a / inject_Z (Z.of_nat (S n)).
Proof. intros. apply Qlt_shift_div_l; [apply inject_pos|]. lra. Qed.
Lemma qlist_eq_sym l l' : qlist_eq l l' -> qlist_eq l' l.
Proof. induction 1; constructor; [symmetry; assumption|assumption]. Qed.
Lemma block_ascending n s e : s < e -> ascending s (block (S (S n)) (s, e)) e.
Proof.
  intros H. eapply ascending_eq; [apply qlist_eq_sym, block_spec|]. cbn [fst snd].
  assert (0 < (e - s) / inject_Z (Z.of_nat (S n))) by (apply div_pos; lra).
  eapply ascending_weak; [apply Qle_refl| |apply prog_ascending].
  - rewrite div_mul. lra.
  - lra.
Qed.
Lemma refine_ascending n brs : forall lo hi, spread lo brs hi -> ascending lo (refine (S (S n)) brs) hi.
Proof.
  induction brs as [|[s e] r IH]; intros lo hi H; [exact H|]. cbn [spread] in H. destruct H as (H1 & H2 & H3).
  unfold refine in *. cbn [flat_map]. eapply ascending_app; [|apply IH; exact H3].
  eapply ascending_weak; [exact H1|apply Qle_refl|]. apply block_ascending; assumption.
Qed.
Lemma qlist_last l l' d d' : qlist_eq l l' -> d == d' -> last l d == last l' d'.
Proof. intros H. revert d d'. induction H; intros d d' E; [assumption|]. rewrite !last_cons_any. apply IHForall2. assumption. Qed.
Lemma prog_last w : forall n x d, last (prog x w n) d == x + inject_Z (Z.of_nat n) * w.
Proof.
  induction n as [|n IH]; intros x d; [cbn; ring|]. cbn [prog]. rewrite last_cons_any, IH, inject_S. ring.
Qed.
Lemma block_ends n s e : exists a l, block (S (S n)) (s, e) = a :: l /\ a == s /\ last l a == e.
Proof.
  pose proof (block_spec n (s, e)) as H. destruct (block (S (S n)) (s, e)) as [|a l]; [inversion H|].
  exists a, l. split; [reflexivity|]. split; [inversion H; assumption|].
  rewrite <- (last_cons_any a l a). rewrite (qlist_last _ _ a a H) by reflexivity.
  rewrite prog_last. cbn [fst snd]. rewrite div_mul. ring.
Qed.
Lemma last_app {A} (l l' : list A) d : last (l ++ l') d = last l' (last l d).
Proof. revert d; induction l as [|a l IH]; intros d; [reflexivity|]. change ((a :: l) ++ l') with (a :: (l ++ l')).
  rewrite !last_cons_any. apply IH. Qed.
Lemma refine_ends n brs : forall v0 v1, linked f v0 brs v1 -> brs <> [] ->
  exists a l, refine (S (S n)) brs = a :: l /\ f a = v0 /\ f (last l a) = v1.
Proof.
  induction brs as [|[s e] r IH]; intros v0 v1 H Hne; [congruence|]. cbn [linked] in H. destruct H as (H1 & H2 & H3).
  unfold refine in *. cbn [flat_map]. destruct (block_ends n s e) as (a & l & -> & Ea & El).
  cbn [app]. exists a, (l ++ flat_map (block (S (S n))) r). split; [reflexivity|]. split; [rewrite Ea; assumption|].
  rewrite last_app. destruct r as [|p r].
  - cbn. cbn in H3. rewrite El. assumption.
  - destruct (IH (f e) v1 H3) as (a' & l' & E & Ha & Hl); [discriminate|]. rewrite E.
    rewrite last_cons_any. assumption.
Qed.

Lemma linked_chain brs : forall v0 v1, linked f v0 brs v1 -> chain v0 (map (fun p => f (snd p)) brs) v1.
Proof. induction brs as [|[s e] r IH]; cbn; intros v0 v1 H; [assumption|]. destruct H as (H1 & H2 & H3). split; auto. Qed.
Lemma spread_increasing brs : forall lo hi, spread lo brs hi -> increasing_in lo (map snd brs) hi.
Proof. induction brs as [|[s e] r IH]; cbn; intros lo hi H; [assumption|]. destruct H as (H1 & H2 & H3). split; [lra|auto]. Qed.

(** the brackets found at the end of a run *)
Lemma find_loop_spec n eps : forall fuel a l lo hi evs,
  ascending lo (a :: l) hi -> find_loop fuel f eps (S (S n)) (a :: l) = Some evs ->
  exists brs, evs = map (fun p => (snd p, f (snd p))) brs /\ linked f (f a) brs (f (last l a)) /\
    spread lo brs hi /\ forall p, In p brs -> snd p - fst p <= eps.
Proof.
  induction fuel as [|fuel IH]; intros a l lo hi evs Ha H; [discriminate|]. cbn [find_loop] in H.
  destruct (changes_spec l a lo hi Ha) as [L S].
  destruct (changes f (a :: l)) as [|p ch] eqn:E.
  - injection H as <-. exists []. repeat split; try assumption. intros p [].
  - destruct (forallb _ _) eqn:B.
    + injection H as <-. exists (p :: ch). repeat split; try assumption.
      intros q Hq. rewrite forallb_forall in B. apply B in Hq. apply Qle_bool_iff. assumption.
    + destruct (refine_ends n (p :: ch) _ _ L) as (a' & l' & E' & Ha' & Hl'); [discriminate|].
      rewrite E' in H. destruct (IH a' l' lo hi evs) as (brs & H1 & H2 & H3 & H4); [|assumption|].
      * rewrite <- E'. apply refine_ascending. assumption.
      * exists brs. rewrite Ha', Hl' in H2. repeat split; assumption.
Qed.

(** * Termination *)
Lemma block_pairs n s e : s < e -> forall p, In p (pairs (block (S (S n)) (s, e))) ->
  snd p - fst p == (e - s) / inject_Z (Z.of_nat (S n)).
Proof.
  intros H p Hp. pose proof (block_spec n (s, e)) as B. cbn [fst snd] in B.
  revert B Hp. generalize (block (S (S n)) (s, e)) as l. generalize ((e - s) / inject_Z (Z.of_nat (S n))) as w.
  generalize (S n) as m. generalize s as x. clear. intros x m w. revert x.
  induction m as [|m IH]; intros x l B Hp.
  - inversion B as [|y ? l' ? ? B']; subst. inversion B'; subst. destruct Hp.
  - inversion B as [|y ? l' ? Hy B']; subst.
    destruct m as [|m]; inversion B' as [|z ? l'' ? Hz B'']; subst; cbn [pairs combine tl] in Hp.
    + destruct Hp as [<-|Hp]; [cbn [fst snd]; rewrite Hy, Hz; ring|].
      apply (IH (x + w) (z :: l'')); [constructor; assumption|exact Hp].
    + destruct Hp as [<-|Hp]; [cbn [fst snd]; rewrite Hy, Hz; ring|].
      apply (IH (x + w) (z :: l'')); [constructor; assumption|exact Hp].
Qed.
Lemma pairs_app {A} (l1 : list A) a b l2 : pairs ((l1 ++ [a]) ++ b :: l2) = pairs (l1 ++ [a]) ++ (a, b) :: pairs (b :: l2).
Proof.
  induction l1 as [|x l1 IH]; [reflexivity|].
  destruct l1 as [|y l1]; [reflexivity|].
  change (pairs (((x :: y :: l1) ++ [a]) ++ b :: l2)) with ((x, y) :: pairs (((y :: l1) ++ [a]) ++ b :: l2)).
  change (pairs ((x :: y :: l1) ++ [a])) with ((x, y) :: pairs ((y :: l1) ++ [a])).
  rewrite IH. reflexivity.
Qed.
Lemma changes_app l1 b l2 : l1 <> [] ->
  changes f (l1 ++ b :: l2) = changes f l1 ++ (if (Z.eqb (f (last l1 0)) (f b)) then [] else [(last l1 0, b)]) ++ changes f (b :: l2).
Proof.
  intros H. destruct (exists_last H) as (l & a & ->).
  unfold changes. rewrite pairs_app, filter_app. rewrite last_last. cbn [filter fst snd].
  destruct (f a =? f b)%Z; reflexivity.
Qed.

(** the changes seen after refining are those inside the blocks *)
Lemma changes_refine n brs : forall v0 v1, linked f v0 brs v1 ->
  changes f (refine (S (S n)) brs) = flat_map (fun p => changes f (block (S (S n)) p)) brs.
Proof.
  induction brs as [|[s e] r IH]; intros v0 v1 H; [reflexivity|].
  cbn [linked] in H. destruct H as (H1 & H2 & H3). cbn [flat_map].
  rewrite <- (IH _ _ H3). unfold refine at 1. cbn [flat_map].
  destruct r as [|p r].
  - cbn. rewrite !app_nil_r. reflexivity.
  - destruct (refine_ends n (p :: r) _ _ H3) as (a' & l' & E & Ea & _); [discriminate|].
    change (flat_map (block (S (S n))) (p :: r)) with (refine (S (S n)) (p :: r)). rewrite E.
    rewrite changes_app.
    + destruct (block_ends n s e) as (a & l & B & Ea' & El). rewrite B. rewrite last_cons_any.
      rewrite El, Ea, Z.eqb_refl. reflexivity.
    + destruct (block_ends n s e) as (a & l & -> & _). discriminate.
Qed.

Lemma width_pos_changes l lo hi p : ascending lo l hi -> In p (changes f l) -> fst p < snd p.
Proof.
  intros H Hp. destruct l as [|a l]; [destruct Hp|]. destruct (changes_spec l a lo hi H) as [_ S].
  revert S Hp. generalize lo. induction (changes f (a :: l)) as [|[s e] r IH]; intros lo' S Hp; [destruct Hp|].
  cbn in S. destruct S as (S1 & S2 & S3). destruct Hp as [<-|Hp]; [assumption|]. eapply IH; eassumption.
Qed.
Lemma changes_in_pairs l p : In p (changes f l) -> In p (pairs l).
Proof. unfold changes. intros H. apply filter_In in H. apply H. Qed.

Lemma loop_terminates n eps : forall k w lo hi jd,
  ascending lo jd hi -> (forall p, In p (changes f jd) -> snd p - fst p <= w) ->
  w <= eps * inject_Z (Z.of_nat (S n) ^ Z.of_nat k) ->
  exists evs, find_loop (S k) f eps (S (S n)) jd = Some evs.
Proof.
  induction k as [|k IH]; intros w lo hi jd Ha Hw Hk.
  - cbn [find_loop]. destruct (changes f jd) as [|p ch] eqn:E; [eexists; reflexivity|].
    rewrite (proj2 (forallb_forall _ _)); [eexists; reflexivity|].
    intros q Hq. apply Qle_bool_iff. apply Hw in Hq. change (inject_Z (Z.of_nat (S n) ^ Z.of_nat 0)) with 1 in Hk. lra.
  - cbn [find_loop]. destruct (changes f jd) as [|p ch] eqn:E; [eexists; reflexivity|].
    destruct (forallb _ _); [eexists; reflexivity|].
    destruct jd as [|a l]; [discriminate|].
    destruct (changes_spec l a lo hi Ha) as [L S]. rewrite E in *.
    apply (IH (w / inject_Z (Z.of_nat (Datatypes.S n))) lo hi).
    + apply refine_ascending. assumption.
    + intros q Hq. rewrite (changes_refine n _ _ _ L) in Hq. apply in_flat_map in Hq as [[s e] [Hse Hq]].
      assert (s < e). { apply (width_pos_changes (a :: l) lo hi (s, e) Ha). rewrite E. exact Hse. }
      rewrite (block_pairs n s e); [|assumption|apply changes_in_pairs; assumption].
      apply Qmult_le_compat_r.
      * apply (Hw (s, e) Hse).
      * apply Qinv_le_0_compat. apply inject_nonneg.
    + apply Qle_shift_div_r; [apply inject_pos|].
      rewrite (Nat2Z.inj_succ k), Z.pow_succ_r, inject_Z_mult in Hk by lia.
      setoid_replace (eps * inject_Z (Z.of_nat (Datatypes.S n) ^ Z.of_nat k) * inject_Z (Z.of_nat (Datatypes.S n)))
        with (eps * (inject_Z (Z.of_nat (Datatypes.S n)) * inject_Z (Z.of_nat (Datatypes.S n) ^ Z.of_nat k))) by ring. assumption.
Qed.

(** * Completeness *)
Record switch (s e : Q) (ch : Q * Z * Z) : Prop := {
  sw_lt : s < e;
  sw_c : s <= fst (fst ch) <= e;
  sw_ne : snd (fst ch) <> snd ch;
  sw_s : f s = snd (fst ch);
  sw_e : f e = snd ch;
  sw_before : forall t, s <= t <= e -> t < fst (fst ch) -> f t = snd (fst ch);
  sw_after : forall t, s <= t <= e -> fst (fst ch) < t -> f t = snd ch;
  sw_any : forall t, s <= t <= e -> f t = snd (fst ch) \/ f t = snd ch
}.

Lemma switch_stays s e ch a b : switch s e ch -> s <= a -> a <= b -> b <= e -> f a = snd ch -> f b = snd ch.
Proof.
  intros H H1 H2 H3 Ha. destruct H. destruct ch as [[c u] v]. cbn [fst snd] in *.
  destruct (Qlt_le_dec a c) as [L|L]; [rewrite (sw_before0 a) in Ha by lra; congruence|].
  destruct (Qlt_le_dec c b) as [G|G]; [apply sw_after0; lra|].
  rewrite <- Ha. apply Hf. lra.
Qed.
Lemma switch_sub s e ch a b : switch s e ch -> s <= a -> a <= b -> b <= e ->
  f a = snd (fst ch) -> f b = snd ch -> switch a b ch.
Proof.
  intros H H1 H2 H3 Ha Hb. destruct H. destruct ch as [[c u] v]. cbn [fst snd] in *.
  constructor; cbn [fst snd]; try assumption.
  - destruct (Qlt_le_dec a b); [assumption|]. exfalso. apply sw_ne0. rewrite <- Ha, <- Hb. apply Hf. lra.
  - split; apply Qnot_lt_le; intros L.
    + rewrite (sw_after0 a) in Ha by lra. congruence.
    + rewrite (sw_before0 b) in Hb by lra. congruence.
  - intros t Ht. apply sw_before0. lra.
  - intros t Ht. apply sw_after0. lra.
  - intros t Ht. apply sw_any0. lra.
Qed.
Lemma changes_after s e ch : switch s e ch -> forall l a, ascending s (a :: l) e -> f a = snd ch -> changes f (a :: l) = [].
Proof.
  intros H. induction l as [|b l IH]; intros a Ha Hv; [reflexivity|].
  rewrite changes_cons. cbn [ascending] in Ha. destruct Ha as (A1 & A2 & A3).
  assert (b <= e) by (apply ascending_le in A3; assumption).
  assert (Hb : f b = snd ch) by (apply (switch_stays s e ch a b); try assumption; lra).
  rewrite Hv, Hb, Z.eqb_refl. apply IH; [|assumption]. split; [lra|assumption].
Qed.
Lemma changes_switch s e ch : switch s e ch -> forall l a, ascending s (a :: l) e ->
  f a = snd (fst ch) -> f (last l a) = snd ch ->
  exists a' b', changes f (a :: l) = [(a', b')] /\ switch a' b' ch.
Proof.
  intros H. induction l as [|b l IH]; intros a Ha Hu Hv.
  - cbn in Hv. exfalso. apply (sw_ne _ _ _ H). congruence.
  - rewrite changes_cons. cbn [ascending] in Ha. destruct Ha as (A1 & A2 & A3).
    assert (Hbe : b <= e) by (apply ascending_le in A3; assumption).
    destruct (sw_any _ _ _ H b) as [Hb|Hb]; [lra| |].
    + rewrite Hu, Hb, Z.eqb_refl. apply IH; [split; [lra|assumption]|assumption|].
      rewrite last_cons_any in Hv. assumption.
    + destruct (Z.eqb_spec (f a) (f b)) as [E|E]; [exfalso; apply (sw_ne _ _ _ H); congruence|].
      exists a, b. split.
      * rewrite (changes_after s e ch H l b); [reflexivity|split; [lra|assumption]|assumption].
      * apply (switch_sub s e); try assumption.
Qed.

Definition sw p ch := switch (fst p) (snd p) ch.
Lemma refine_switches n brs cs : Forall2 sw brs cs ->
  Forall2 sw (flat_map (fun p => changes f (block (S (S n)) p)) brs) cs.
Proof.
  induction 1 as [|[s e] ch brs cs H _ IH]; [constructor|]. cbn [flat_map].
  unfold sw in H. cbn [fst snd] in H.
  destruct (block_ends n s e) as (a & l & B & Ea & El). 
  pose proof (block_ascending n s e (sw_lt _ _ _ H)) as A. rewrite B in *.
  destruct (changes_switch s e ch H l a A) as (a' & b' & E & H').
  - rewrite Ea. apply (sw_s _ _ _ H).
  - rewrite El. apply (sw_e _ _ _ H).
  - rewrite E. constructor; assumption.
Qed.

Definition event_for (eps : Q) (ev : Q * Z) (ch : Q * Z * Z) : Prop :=
  snd ev = snd ch /\ fst (fst ch) <= fst ev <= fst (fst ch) + eps.
Lemma loop_complete n eps : forall fuel jd lo hi cs evs,
  ascending lo jd hi -> Forall2 sw (changes f jd) cs ->
  find_loop fuel f eps (S (S n)) jd = Some evs -> Forall2 (event_for eps) evs cs.
Proof.
  induction fuel as [|fuel IH]; intros jd lo hi cs evs Ha Hc H; [discriminate|]. cbn [find_loop] in H.
  destruct (changes f jd) as [|p ch] eqn:E.
  - injection H as <-. inversion Hc. constructor.
  - destruct (forallb _ _) eqn:B.
    + injection H as <-. rewrite forallb_forall in B. clear - Hc B.
      assert (G : forall brs cs, Forall2 sw brs cs -> (forall q, In q brs -> Qle_bool (snd q - fst q) eps = true) ->
                 Forall2 (event_for eps) (map (fun p => (snd p, f (snd p))) brs) cs).
      { induction 1 as [|[s e] c brs cs' Hs _ IH]; intros Hq; constructor.
        - unfold sw in Hs. cbn [fst snd] in Hs. assert (Hw := Hq (s, e) (or_introl eq_refl)). apply Qle_bool_iff in Hw. cbn [fst snd] in Hw.
          split; cbn [fst snd]; [apply (sw_e _ _ _ Hs)|]. pose proof (sw_c _ _ _ Hs). lra.
        - apply IH. intros q Hi. apply Hq. right; assumption. }
      exact (G _ _ Hc B).
    + destruct jd as [|a l]; [discriminate|]. destruct (changes_spec l a lo hi Ha) as [L S]. rewrite E in *.
      eapply IH; [| |exact H].
      * apply refine_ascending. exact S.
      * rewrite (changes_refine n _ _ _ L). apply refine_switches. assumption.
Qed.

(** from a history to the switches between samples *)
Fixpoint with_old (v0 : Z) (cs : list (Q * Z)) : list (Q * Z * Z) :=
  match cs with [] => [] | (c, v) :: r => (c, v0, v) :: with_old v r end.
Fixpoint close_samples (gap : Q) (l : list Q) : Prop :=
  match l with a :: r => match r with b :: _ => b - a < gap | [] => True end /\ close_samples gap r | [] => True end.


Ltac qb := repeat match goal with
  | H : Qle_bool _ _ = true |- _ => apply Qleb_t in H
  | H : Qle_bool _ _ = false |- _ => apply Qleb_f in H end.

Lemma value_between v r gap c t : 0 < gap -> spaced gap ((c, v) :: r) -> t < c + gap ->
  value_before v r t = v /\ value_upto v r t = v.
Proof.
  intros Hg Hs Ht. destruct r as [|[c' v'] r]; [split; reflexivity|]. cbn in Hs. destruct Hs as [Hs _]. cbn.
  destruct (Qle_bool t c') eqn:E1, (Qle_bool c' t) eqn:E2; qb; try (split; reflexivity); lra.
Qed.

Lemma history_switches gap hi : 0 < gap -> forall l a cs, ascending a (a :: l) hi -> last l a == hi ->
  close_samples gap (a :: l) -> history f gap a hi cs -> Forall2 sw (changes f (a :: l)) (with_old (f a) cs).
Proof.
  intros Hg. induction l as [|b l IH]; intros a cs Ha Hl Hc Hh.
  - cbn in Hl. rewrite changes_one. destruct Hh as (H1 & H2 & H3 & _). destruct cs as [|[c v] cs]; [constructor|].
    exfalso. cbn in H1, H2, H3. destruct H1 as [N H1]. destruct cs as [|[c' v'] cs].
    + cbn in H1. apply N. rewrite H1. apply Hf. symmetry. assumption.
    + cbn in H3. destruct H3 as (A1 & A2 & A3). apply ascending_le in A3. destruct H2. lra.
  - cbn [ascending] in Ha. destruct Ha as (_ & Hab & Ha). cbn [close_samples] in Hc. destruct Hc as [Hgap Hc].
    assert (Hb : b <= hi) by (apply ascending_le in Ha; assumption).
    rewrite last_cons_any in Hl.
    specialize (IH b). rewrite changes_cons.
    destruct cs as [|[c v] r].
    + destruct Hh as (H1 & _ & _ & H4). cbn in H1, H4.
      assert (E : f b = f a) by (destruct (H4 b) as [E|E]; [lra|exact E|exact E]).
      rewrite E, Z.eqb_refl. apply (IH []); [split; [lra|assumption]|assumption|assumption|].
      repeat split; cbn; try congruence; try lra. intros t Ht. left. rewrite E. destruct (H4 t) as [G|G]; [lra|exact G|exact G].
    + destruct Hh as (H1 & H2 & H3 & H4). cbn [map fst snd chain ascending] in H1, H3.
      destruct H1 as [Hv H1]. destruct H3 as [Hac H3].
      assert (Vb : forall t, a <= t <= hi -> t < c -> f t = f a).
      { intros t Ht L. destruct (H4 t Ht) as [G|G]; rewrite G; cbn.
        - replace (Qle_bool t c) with true by (symmetry; apply Qleb_t; lra). reflexivity.
        - replace (Qle_bool c t) with false by (symmetry; apply Qleb_f; lra). reflexivity. }
      assert (Va : forall t, a <= t <= hi -> c < t -> t < c + gap -> f t = v).
      { intros t Ht L L2. destruct (value_between v r gap c t Hg H2 L2) as [V1 V2].
        destruct (H4 t Ht) as [G|G]; rewrite G; cbn.
        - replace (Qle_bool t c) with false by (symmetry; apply Qleb_f; lra). exact V1.
        - replace (Qle_bool c t) with true by (symmetry; apply Qleb_t; lra). exact V2. }
      assert (Vc : forall t, a <= t <= hi -> t == c -> f t = f a \/ f t = v).
      { intros t Ht L. destruct (value_between v r gap c t Hg H2) as [V1 V2]; [lra|].
        destruct (H4 t Ht) as [G|G]; rewrite G; cbn.
        - left. replace (Qle_bool t c) with true by (symmetry; apply Qleb_t; lra). reflexivity.
        - right. replace (Qle_bool c t) with true by (symmetry; apply Qleb_t; lra). exact V2. }
      destruct (Z.eqb_spec (f a) (f b)) as [E|E].
      * (* no change yet *)
        assert (Hbc : b <= c).
        { apply Qnot_lt_le. intros L. apply Hv. rewrite E. symmetry. apply Va; lra. }
        rewrite E. apply IH; [split; [lra|assumption]|assumption|assumption|].
        unfold history. rewrite <- E. cbn [map fst snd chain ascending].
        split; [split; assumption|]. split; [exact H2|]. split; [split; assumption|]. intros t Ht. apply H4. lra.
      * assert (Hcb : c <= b).
        { apply Qnot_lt_le. intros L. apply E. symmetry. apply Vb; lra. }
        assert (Eb : f b = v).
        { destruct (Qlt_le_dec c b) as [L|L]; [apply Va; lra|]. destruct (Vc b) as [G|G]; try lra; congruence. }
        cbn [with_old]. constructor.
        -- unfold sw. cbn [fst snd]. constructor; cbn [fst snd].
           ++ destruct (Qlt_le_dec a b); [assumption|]. exfalso. apply E. apply Hf. lra.
           ++ lra.
           ++ congruence.
           ++ reflexivity.
           ++ assumption.
           ++ intros t Ht L. apply Vb; lra.
           ++ intros t Ht L. apply Va; lra.
           ++ intros t Ht. destruct (Qlt_le_dec t c) as [L|L]; [left; apply Vb; lra|].
              destruct (Qlt_le_dec c t) as [G|G]; [right; apply Va; lra|]. apply Vc; lra.
        -- rewrite <- Eb. apply IH; [split; [lra|assumption]|assumption|assumption|].
           unfold history. rewrite Eb. split; [assumption|]. split; [apply H2|]. split.
           ++ destruct r as [|[c' v'] r]; cbn in H3 |- *; [lra|]. cbn in H2. destruct H3 as [H3 H3']. split; [|assumption].
              destruct H2. lra.
           ++ intros t Ht. destruct (Qlt_le_dec c t) as [L|L].
              ** destruct (H4 t) as [G|G]; [lra| |]; cbn in G.
                 --- left. replace (Qle_bool t c) with false in G by (symmetry; apply Qleb_f; lra). exact G.
                 --- right. replace (Qle_bool c t) with true in G by (symmetry; apply Qleb_t; lra). exact G.
              ** left. destruct (value_between v r gap c t Hg H2) as [V1 _]; [lra|]. rewrite V1, <- Eb. apply Hf. lra.
Qed.

(** * The public function *)
Lemma history_start gap a a' b cs : a == a' -> history f gap a b cs -> history f gap a' b cs.
Proof.
  intros E (H1 & H2 & H3 & H4). assert (F : f a' = f a) by (apply Hf; symmetry; assumption).
  unfold history. rewrite F. split; [assumption|]. split; [assumption|]. split.
  - eapply ascending_weak; [|apply Qle_refl|exact H3]; lra.
  - intros t Ht. apply H4. lra.
Qed.
Lemma close_prog gap w L : w < gap -> forall n x, qlist_eq L (prog x w n) -> close_samples gap L.
Proof.
  intros Hw n. revert L. induction n as [|n IH]; intros L x H.
  - inversion H as [|y ? l' ? ? B]; subst. inversion B; subst. cbn. auto.
  - inversion H as [|y ? l' ? Hy B]; subst. pose proof (IH _ _ B) as C.
    destruct n; inversion B as [|z ? l'' ? Hz B']; subst; (split; [rewrite Hy, Hz; lra|exact C]).
Qed.
Lemma linspace_facts a b n : a < b -> exists a' l, linspace a b (S (S n)) = a' :: l /\ a' == a /\ last l a' == b /\
  ascending a' (a' :: l) b /\ ascending a (a' :: l) b /\
  (forall g, (b - a) / inject_Z (Z.of_nat (S n)) < g -> close_samples g (a' :: l)).
Proof.
  intros H. pose proof (linspace_prog a b n) as P. destruct (linspace a b (S (S n))) as [|a' l]; [inversion P|].
  assert (Ea : a' == a) by (inversion P; assumption).
  assert (A : ascending a (a' :: l) b).
  { eapply ascending_eq; [apply qlist_eq_sym, P|].
    assert (0 < (b - a) / inject_Z (Z.of_nat (S n))) by (apply div_pos; lra).
    eapply ascending_weak; [apply Qle_refl| |apply prog_ascending]; [rewrite div_mul|]; lra. }
  exists a', l. split; [reflexivity|]. split; [assumption|]. split.
  - rewrite <- (last_cons_any a' l a'), (qlist_last _ _ a' a' P), prog_last, div_mul by reflexivity. ring.
  - split; [split; [apply Qle_refl|apply A]|]. split; [exact A|].
    intros g Hg. eapply close_prog; [exact Hg|exact P].
Qed.

Lemma qtrunc_nonneg x : 0 <= x -> (0 <= qtrunc x)%Z /\ inject_Z (qtrunc x) <= x /\ x < inject_Z (qtrunc x) + 1.
Proof.
  intros H. assert (E : qtrunc x = Qfloor x).
  { unfold qtrunc, Qfloor. destruct x as [n d]. cbn. apply Z.quot_div_nonneg; [|lia].
    unfold Qle in H. cbn in H. lia. }
  rewrite E. split; [|split].
  - change 0%Z with (Qfloor 0). apply Qfloor_resp_le. assumption.
  - apply Qfloor_le.
  - pose proof (Qlt_floor x) as L. rewrite inject_Z_plus in L. exact L.
Qed.
Lemma samples_shape jd0 jd1 s num : jd0 < jd1 -> positive_sampling s -> (2 <= num)%nat ->
  exists n, discrete_samples jd0 jd1 s num = Some (linspace jd0 jd1 (S (S n))) /\
  match s with
  | StepDays d => (jd1 - jd0) / inject_Z (Z.of_nat (S n)) < d
  | RoughPeriod p => inject_Z (Z.of_nat (S n)) + 2 > (jd1 - jd0) / p * inject_Z (Z.of_nat num)
  end.
Proof.
  intros H Hs Hn. unfold discrete_samples. destruct s as [d|p]; cbn in Hs.
  - assert (P : 0 <= (jd1 - jd0) / d) by (apply Qle_shift_div_l; [assumption|lra]).
    destruct (qtrunc_nonneg _ P) as (T1 & T2 & T3).
    exists (Z.to_nat (qtrunc ((jd1 - jd0) / d))). split.
    + replace (_ <? 0)%Z with false by lia. f_equal. f_equal. lia.
    + rewrite inject_S, Z2Nat.id by assumption. 
      apply Qlt_shift_div_r; [lra|].
      assert (E : (jd1 - jd0) == (jd1 - jd0) / d * d) by (field; lra).
      rewrite E at 1. rewrite (Qmult_comm d). apply Qmult_lt_compat_r; assumption.
  - set (q := if Qltb ((jd1 - jd0) / p) 1 then 1 else (jd1 - jd0) / p).
    assert (Q1 : 1 <= q /\ (jd1 - jd0) / p <= q).
    { unfold q. destruct (Qltb _ 1) eqn:E; [apply Qltb_t in E|apply Qltb_f in E]; lra. }
    assert (N2 : 2 <= inject_Z (Z.of_nat num)).
    { change 2 with (inject_Z 2). rewrite <- Zle_Qle. lia. }
    assert (N3 : 2 <= q * inject_Z (Z.of_nat num)) by nra.
    destruct (qtrunc_nonneg (q * inject_Z (Z.of_nat num))) as (T1 & T2 & T3); [lra|].
    assert (T4 : (2 <= qtrunc (q * inject_Z (Z.of_nat num)))%Z).
    { assert (L : inject_Z 1 < inject_Z (qtrunc (q * inject_Z (Z.of_nat num)))) by (change (inject_Z 1) with 1; lra).
      rewrite <- Zlt_Qlt in L. lia. }
    exists (Z.to_nat (qtrunc (q * inject_Z (Z.of_nat num)) - 2)). split.
    + replace (_ <? 0)%Z with false by lia. f_equal. f_equal. lia.
    + rewrite inject_S, Z2Nat.id by lia. unfold Z.sub. rewrite inject_Z_plus. change (inject_Z (-(2))) with (-(2)).
      assert ((jd1 - jd0) / p * inject_Z (Z.of_nat num) <= q * inject_Z (Z.of_nat num)) by (apply Qmult_le_compat_r; lra).
      lra.
Qed.

Lemma find_discrete_chain fuel jd0 jd1 s eps num evs : positive_sampling s -> (2 <= num)%nat ->
  find_discrete fuel jd0 jd1 f s eps num = Found evs ->
  chain (f jd0) (map snd evs) (f jd1) /\ increasing_in jd0 (map fst evs) jd1 /\
  forall t v, In (t, v) evs -> jd0 < t <= jd1 /\ f t = v /\
    exists t', jd0 <= t' < t /\ t - eps <= t' /\ f t' <> v.
Proof.
  intros Hs Hn H. unfold find_discrete in H. destruct (Qle_bool jd1 jd0) eqn:E; [discriminate|]. apply Qleb_f in E.
  destruct (samples_shape jd0 jd1 s num E Hs Hn) as (n & En & _). rewrite En in H.
  destruct (linspace_facts jd0 jd1 n E) as (a & l & El & Ea & Hl & _ & A & _). rewrite El in H.
  destruct num as [|[|m]]; try lia.
  destruct (find_loop _ _ _ _ _) as [r|] eqn:R; [|discriminate]. injection H as <-.
  destruct (find_loop_spec m eps fuel a l jd0 jd1 r A R) as (brs & -> & L & S & W).
  assert (Fa : f a = f jd0) by (apply Hf; assumption). assert (Fl : f (last l a) = f jd1) by (apply Hf; assumption).
  rewrite Fa, Fl in L. split; [|split].
  - apply linked_chain in L. rewrite map_map. cbn [snd]. exact L.
  - apply spread_increasing in S. rewrite map_map. cbn [fst]. exact S.
  - intros t v Hi. apply in_map_iff in Hi as [[s0 e0] [Eq Hi]]. cbn [fst snd] in Eq. injection Eq as <- <-.
    assert (G : forall brs v0 lo, linked f v0 brs (f jd1) -> spread lo brs jd1 -> In (s0, e0) brs ->
                 lo <= s0 /\ s0 < e0 /\ e0 <= jd1 /\ f s0 <> f e0).
    { clear. induction brs as [|[s e] r IH]; intros v0 lo L S Hi; [destruct Hi|].
      cbn in L, S. destruct L as (L1 & L2 & L3). destruct S as (S1 & S2 & S3).
      destruct Hi as [Eq|Hi].
      - injection Eq as -> ->. repeat split; try assumption; [|congruence]. apply spread_le in S3. assumption.
      - destruct (IH _ _ L3 S3 Hi) as (I1 & I2 & I3 & I4). repeat split; try assumption. lra. }
    destruct (G brs _ jd0 L S Hi) as (G1 & G2 & G3 & G4). specialize (W _ Hi). cbn [fst snd] in W.
    split; [lra|]. split; [reflexivity|]. exists s0. repeat split; try assumption; lra.
Qed.

Lemma find_discrete_complete fuel jd0 jd1 step eps num evs cs : 0 < step -> (2 <= num)%nat ->
  history f step jd0 jd1 cs ->
  find_discrete fuel jd0 jd1 f (StepDays step) eps num = Found evs ->
  Forall2 (found_for eps) evs cs.
Proof.
  intros Hs Hn Hh H. unfold find_discrete in H. destruct (Qle_bool jd1 jd0) eqn:E; [discriminate|]. apply Qleb_f in E.
  destruct (samples_shape jd0 jd1 (StepDays step) num E Hs Hn) as (n & En & Hw). rewrite En in H.
  destruct (linspace_facts jd0 jd1 n E) as (a & l & El & Ea & Hl & A & A' & C). rewrite El in H.
  destruct num as [|[|m]]; try lia.
  destruct (find_loop _ _ _ _ _) as [r|] eqn:R; [|discriminate]. injection H as <-.
  assert (F2 : Forall2 sw (changes f (a :: l)) (with_old (f a) cs)).
  { eapply history_switches with (gap := step); try eassumption; [apply C; assumption|].
    eapply history_start; [|exact Hh]. symmetry; assumption. }
  pose proof (loop_complete m eps fuel (a :: l) jd0 jd1 _ _ A' F2 R) as P. clear - P.
  revert P. generalize (f a). revert r. induction cs as [|[c v] cs IH]; intros r v0 P; inversion P; subst; constructor.
  - destruct H2 as [H1 H2]. cbn in H1, H2. split; cbn; assumption.
  - eapply IH. eassumption.
Qed.

Lemma find_discrete_terminates jd0 jd1 s eps num k : positive_sampling s -> (3 <= num)%nat -> jd0 < jd1 ->
  jd1 - jd0 <= eps * inject_Z (Z.of_nat (num - 1) ^ Z.of_nat k) ->
  exists evs, find_discrete (S k) jd0 jd1 f s eps num = Found evs.
Proof.
  intros Hs Hn E Hk. unfold find_discrete. replace (Qle_bool jd1 jd0) with false by (symmetry; apply Qleb_f; assumption).
  destruct (samples_shape jd0 jd1 s num E Hs) as (n & En & _); [lia|]. rewrite En.
  destruct (linspace_facts jd0 jd1 n E) as (a & l & El & Ea & Hl & _ & A & _). rewrite El.
  destruct num as [|[|m]]; try lia. replace (S (S m) - 1)%nat with (S m) in Hk by lia.
  destruct (loop_terminates m eps k (jd1 - jd0) jd0 jd1 (a :: l) A) as [evs R]; [|assumption|].
  - intros p Hp. apply changes_in_pairs in Hp. destruct p as [x y].
    assert (In x (a :: l) /\ In y (a :: l)) as [Hx Hy].
    { unfold pairs in Hp. split; [eapply in_combine_l; eassumption|apply in_combine_r in Hp; right; exact Hp]. }
    apply (ascending_in _ _ _ _ A) in Hx, Hy. cbn [fst snd]. lra.
  - rewrite R. eexists; reflexivity.
Qed.
End F.

(** * Degenerate sample counts *)
Lemma two_samples_never_end f eps : time_function f -> forall fuel a b, f a <> f b -> eps < b - a ->
  find_loop fuel f eps 2 [a; b] = None.
Proof.
  intros Hf. induction fuel as [|fuel IH]; intros a b H E; [reflexivity|]. cbn [find_loop].
  rewrite changes_cons, changes_one. destruct (Z.eqb_spec (f a) (f b)); [congruence|].
  cbn [forallb fst snd]. replace (Qle_bool (b - a) eps) with false by (symmetry; apply Qleb_f; assumption).
  cbn [andb]. unfold refine. cbn [flat_map]. rewrite app_nil_r.
  pose proof (block_spec 0 (a, b)) as B. cbn [fst snd prog] in B. revert B. generalize (block 2 (a, b)). intros L B.
  inversion B as [|x ? l ? Hx B1]; subst. inversion B1 as [|y ? l' ? Hy B2]; subst. inversion B2; subst.
  assert (Ey : y == b). { rewrite Hy. change (inject_Z (Z.of_nat 1)) with 1. field. }
  apply IH.
  - intros G. apply H. rewrite <- (Hf _ _ Hx), <- (Hf _ _ Ey). exact G.
  - lra.
Qed.
