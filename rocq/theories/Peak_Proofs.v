From Coq Require Import ZArith QArith Qround Qabs List Bool Lia Lqa Morphisms Setoid.
From Verif Require Import PyNum Time_Model Search_Model Search_Spec Search_Proofs Maxima_Proofs.
Import ListNotations.
Open Scope Q_scope.

Section Peak.
Variable f : Q -> Q.
Variable p : Q.
Hypothesis Hf : real_function f.
Hypothesis Hp : one_peak f p.

Definition mid_ok (mid : list Z) := mid = [] \/ mid = [0%Z].

Lemma sign_diff_cons a b l : sign_diff (a :: b :: l) = qsign (b - a) :: sign_diff (b :: l).
Proof. reflexivity. Qed.
Lemma qsign_pos x : 0 < x -> qsign x = 1%Z.
Proof. intros H. destruct (qsign_cases x) as [[A B]|[[A B]|[A B]]]; [assumption| |]; lra. Qed.
Lemma qsign_neg x : x < 0 -> qsign x = (-1)%Z.
Proof. intros H. destruct (qsign_cases x) as [[A B]|[[A B]|[A B]]]; [| |assumption]; lra. Qed.
Lemma qsign_zero x : x == 0 -> qsign x = 0%Z.
Proof. intros H. destruct (qsign_cases x) as [[A B]|[[A B]|[A B]]]; [|assumption|]; lra. Qed.

Lemma falling x l : strict (x :: l) -> p <= x -> sign_diff (map f (x :: l)) = repeat (-1)%Z (length l).
Proof.
  revert x. induction l as [|y l IH]; intros x H Hx; [reflexivity|].
  cbn [strict] in H. destruct H as [H1 H2]. cbn [map length repeat]. rewrite sign_diff_cons.
  rewrite qsign_neg by (pose proof (proj2 Hp x y Hx H1); lra). f_equal. apply IH; [assumption|lra].
Qed.

Lemma signs x : strict x -> x <> [] -> exists k mid m,
  sign_diff (map f x) = repeat 1%Z k ++ mid ++ repeat (-1)%Z m /\ mid_ok mid /\ length x = (1 + k + length mid + m)%nat.
Proof.
  induction x as [|a [|b l] IH]; intros H Hne; [congruence| |].
  - exists 0%nat, [], 0%nat. repeat split. left; reflexivity.
  - cbn [strict] in H. destruct H as [H1 H2].
    destruct (Qlt_le_dec p b) as [L|L].
    + assert (F : sign_diff (map f (b :: l)) = repeat (-1)%Z (length l)) by (apply falling; [assumption|lra]).
      cbn [map] in *. rewrite sign_diff_cons, F.
      destruct (qsign_cases (f b - f a)) as [[A B]|[[A B]|[A B]]]; rewrite A.
      * exists 1%nat, [], (length l). repeat split; left; reflexivity.
      * exists 0%nat, [0%Z], (length l). repeat split; right; reflexivity.
      * exists 0%nat, [], (S (length l)). repeat split; left; reflexivity.
    + destruct (IH H2) as (k & mid & m & E & M & Len); [discriminate|].
      exists (S k), mid, m. cbn [map] in *. rewrite sign_diff_cons, E.
      rewrite qsign_pos by (pose proof (proj1 Hp a b H1 L); lra).
      repeat split; [assumption|]. cbn [length] in *. lia.
Qed.

(** second differences *)
Lemma zpairs_repeat (c : Z) n r : (1 <= n)%nat ->
  map (fun p => (snd p - fst p)%Z) (pairs (repeat c n ++ r)) =
  repeat 0%Z (n - 1) ++ map (fun p => (snd p - fst p)%Z) (pairs (c :: r)).
Proof.
  intros H. destruct n as [|n]; [lia|]. clear H. induction n as [|n IH]; [reflexivity|].
  change (repeat c (S (S n)) ++ r) with (c :: c :: (repeat c n ++ r)). rewrite pairs_cons. cbn [map fst snd].
  change (c :: (repeat c n ++ r)) with (repeat c (S n) ++ r). rewrite IH. rewrite Z.sub_diag.
  replace (S (S n) - 1)%nat with (S (S n - 1)) by lia. reflexivity.
Qed.
Lemma zpairs_only (c : Z) n : map (fun p => (snd p - fst p)%Z) (pairs (repeat c n)) = repeat 0%Z (n - 1).
Proof.
  destruct n as [|n]; [reflexivity|]. rewrite <- (app_nil_r (repeat c (S n))), zpairs_repeat by lia. cbn. apply app_nil_r.
Qed.
Lemma zpairs_cons (a c : Z) n : (1 <= n)%nat -> map (fun p => (snd p - fst p)%Z) (pairs (a :: repeat c n)) = (c - a)%Z :: repeat 0%Z (n - 1).
Proof.
  intros H. destruct n as [|n]; [lia|]. cbn [repeat]. rewrite pairs_cons. cbn [map fst snd].
  change (c :: repeat c n) with (repeat c (S n)). rewrite zpairs_only. reflexivity.
Qed.

Lemma fnz_zeros q k n l : q 0%Z = false -> flatnonzero_from (A := Z) k q (repeat 0%Z n ++ l) = flatnonzero_from (k + n) q l.
Proof. intros H. revert k. induction n as [|n IH]; intros k; cbn; [f_equal; lia|]. rewrite H, IH. f_equal. lia. Qed.
Lemma fnz_only q k n : q 0%Z = false -> flatnonzero_from (A := Z) k q (repeat 0%Z n) = [].
Proof. intros H. rewrite <- (app_nil_r (repeat 0%Z n)), fnz_zeros by assumption. reflexivity. Qed.

Inductive shape : list Z -> Prop :=
| flat n : shape (repeat 0%Z n)
| edge_l n : shape ((-1)%Z :: repeat 0%Z n)
| edge_r n : shape (repeat 0%Z n ++ [(-1)%Z])
| sharp k m : shape (repeat 0%Z k ++ (-2)%Z :: repeat 0%Z m)
| blunt k m : shape (repeat 0%Z k ++ (-1)%Z :: (-1)%Z :: repeat 0%Z m).

Definition zd := fun l : list Z => map (fun p => (snd p - fst p)%Z) (pairs l).
Lemma dsd_shape k mid m : mid_ok mid -> (2 <= k + length mid + m)%nat ->
  zd (repeat 1%Z k ++ mid ++ repeat (-1)%Z m) =
  match mid, k, m with
  | [], O, _ => repeat 0%Z (m - 1)
  | [], _, O => repeat 0%Z (k - 1)
  | [], _, _ => repeat 0%Z (k - 1) ++ (-2)%Z :: repeat 0%Z (m - 1)
  | _, O, _ => (-1)%Z :: repeat 0%Z (m - 1)
  | _, _, O => repeat 0%Z (k - 1) ++ [(-1)%Z]
  | _, _, _ => repeat 0%Z (k - 1) ++ (-1)%Z :: (-1)%Z :: repeat 0%Z (m - 1)
  end.
Proof.
  intros [->| ->] H; unfold zd; cbn [app length] in *.
  - destruct k as [|k]; [apply zpairs_only|]. destruct m as [|m].
    + change (repeat (-1)%Z 0) with (@nil Z). rewrite app_nil_r. apply (zpairs_only 1%Z (S k)).
    + rewrite zpairs_repeat by lia. f_equal. apply zpairs_cons. lia.
  - destruct k as [|k].
    + cbn [repeat app]. rewrite zpairs_cons by lia. reflexivity.
    + destruct m as [|m].
      * rewrite zpairs_repeat by lia. reflexivity.
      * rewrite zpairs_repeat by lia. f_equal. rewrite pairs_cons. cbn [map fst snd]. f_equal. apply zpairs_cons. lia.
Qed.

(** [map f x] with its sign structure *)
Definition structure (x : list Q) k mid m :=
  sign_diff (map f x) = repeat 1%Z k ++ mid ++ repeat (-1)%Z m /\ mid_ok mid /\ length x = (1 + k + length mid + m)%nat.

Lemma sign_at x k mid m i : structure x k mid m -> (S i < length x)%nat ->
  qsign (f (nth (S i) x 0) - f (nth i x 0)) = nth i (repeat 1%Z k ++ mid ++ repeat (-1)%Z m) 0%Z.
Proof.
  intros (E & _ & _) H. rewrite <- E, sign_diff_nth by (rewrite map_length; lia). rewrite !nth_map_f by lia. reflexivity.
Qed.
Lemma rises x k mid m i : structure x k mid m -> (i < k)%nat -> f (nth i x 0) < f (nth (S i) x 0).
Proof.
  intros S H. pose proof S as (_ & _ & L). assert (E := sign_at x k mid m i S ltac:(lia)).
  rewrite app_nth1 in E by (rewrite repeat_length; lia).
  rewrite (nth_indep _ 0%Z 1%Z) in E by (rewrite repeat_length; lia).
  rewrite nth_repeat in E. destruct (qsign_cases (f (nth (Datatypes.S i) x 0) - f (nth i x 0))) as [[A B]|[[A B]|[A B]]]; try congruence. lra.
Qed.
Lemma level x k m : structure x k [0%Z] m -> f (nth (S k) x 0) == f (nth k x 0).
Proof.
  intros S. pose proof S as (_ & _ & L). assert (E := sign_at x k [0%Z] m k S ltac:(cbn in L; lia)).
  rewrite app_nth2 in E by (rewrite repeat_length; lia). rewrite repeat_length, Nat.sub_diag in E. cbn in E.
  destruct (qsign_cases (f (nth (Datatypes.S k) x 0) - f (nth k x 0))) as [[A B]|[[A B]|[A B]]]; try congruence. lra.
Qed.
Lemma falls x k mid m i : structure x k mid m -> (k + length mid <= i)%nat -> (S i < length x)%nat -> f (nth (S i) x 0) < f (nth i x 0).
Proof.
  intros S H1 H2. pose proof S as (_ & _ & L). assert (E := sign_at x k mid m i S H2).
  rewrite app_nth2 in E by (rewrite repeat_length; lia). rewrite repeat_length in E.
  rewrite app_nth2 in E by lia.
  rewrite (nth_indep _ 0%Z (-1)%Z) in E by (rewrite repeat_length; lia). rewrite nth_repeat in E.
  destruct (qsign_cases (f (nth (Datatypes.S i) x 0) - f (nth i x 0))) as [[A B]|[[A B]|[A B]]]; try congruence. lra.
Qed.

(** where the peak is *)
Lemma peak_after a b : a < b -> f a < f b -> a < p.
Proof. intros H1 H2. apply Qnot_le_lt. intros L. pose proof (proj2 Hp a b L H1). lra. Qed.
Lemma peak_before a b : a < b -> f b < f a -> p < b.
Proof. intros H1 H2. apply Qnot_le_lt. intros L. pose proof (proj1 Hp a b H1 L). lra. Qed.
Lemma peak_between a b : a < b -> f a == f b -> a < p < b.
Proof.
  intros H1 H2. split; apply Qnot_le_lt; intros L.
  - pose proof (proj2 Hp a b L H1). lra.
  - pose proof (proj1 Hp a b H1 L). lra.
Qed.

Definition dsd_eq x k mid m : structure x k mid m -> dsd_of (map f x) = zd (repeat 1%Z k ++ mid ++ repeat (-1)%Z m).
Proof. intros (E & _). unfold dsd_of. rewrite E. reflexivity. Qed.

Lemma dedup_two i : dedup Nat.eqb [i; S i] = [i; S i].
Proof. cbn [dedup]. destruct (Nat.eqb_spec i (S i)); [lia|reflexivity]. Qed.
Lemma dedup_four i : dedup Nat.eqb [i; S i; S i; S (S i)] = [i; S i; S (S i)].
Proof. cbn [dedup]. destruct (Nat.eqb_spec i (S i)); [lia|]. rewrite Nat.eqb_refl. destruct (Nat.eqb_spec (S i) (S (S i))); [lia|reflexivity]. Qed.

Lemma choose_shape x k mid m : structure x k mid m -> (3 <= length x)%nat ->
  choose_left (map f x) =
  match mid, k, m with
  | [], O, _ | [], _, O => []
  | [], _, _ => [k - 1; k]
  | _, O, _ => [0; 1]
  | _, _, O => [k - 1; k]
  | _, _, _ => [k - 1; k; S k]
  end%nat.
Proof.
  intros S H3. pose proof S as (_ & M & L). unfold choose_left. rewrite (dsd_eq x k mid m S).
  rewrite dsd_shape by (try assumption; lia). unfold flatnonzero.
  destruct M as [-> | ->]; destruct k as [|k], m as [|m]; cbn [length] in L; try lia;
    try (rewrite fnz_only by reflexivity; reflexivity);
    try (rewrite fnz_zeros by reflexivity); cbn [flatnonzero_from Z.ltb Z.compare Nat.add];
    try (rewrite fnz_only by reflexivity); cbn [flat_map app]; rewrite ?Nat.sub_0_r, ?Nat.sub_succ, ?Nat.sub_0_r;
    try apply dedup_two; try apply dedup_four; reflexivity.
Qed.

(** ** Refining contiguous brackets of a progression gives a progression *)
Lemma qeq_nth l l' : qlist_eq l l' -> forall i, nth i l 0 == nth i l' 0.
Proof. induction 1; intros [|i]; cbn; try reflexivity; auto. Qed.
Lemma prog_shift w n : forall x y w', x == y -> w == w' -> qlist_eq (prog x w n) (prog y w' n).
Proof. induction n as [|n IH]; intros x y w' E W; constructor; try assumption; try constructor. apply IH; [|assumption]. rewrite E, W. reflexivity. Qed.
Lemma qlist_trans l1 l2 l3 : qlist_eq l1 l2 -> qlist_eq l2 l3 -> qlist_eq l1 l3.
Proof. intros H. revert l3. induction H; intros l3 G; inversion G; subst; constructor; [etransitivity; eassumption|apply IHForall2; assumption]. Qed.
Lemma dedup_prog w n : 0 < w -> forall x L T, qlist_eq L (prog x w n) ->
  dedup Qeq_bool (L ++ T) = removelast L ++ dedup Qeq_bool (last L 0 :: T).
Proof.
  intros Hw. induction n as [|n IH]; intros x L T H.
  - inversion H as [|y ? l ? Hy B]; subst. inversion B; subst. reflexivity.
  - inversion H as [|y ? l ? Hy B]; subst.
    assert (exists z l', l = z :: l' /\ z == x + w) as (z & l' & -> & Hz).
    { destruct n; inversion B; subst; eexists; eexists; split; try reflexivity; assumption. }
    change (dedup Qeq_bool ((y :: z :: l') ++ T)) with (if Qeq_bool y z then dedup Qeq_bool ((z :: l') ++ T) else y :: dedup Qeq_bool ((z :: l') ++ T)).
    destruct (Qeq_bool y z) eqn:E; [apply Qeq_bool_iff in E; lra|].
    rewrite (IH (x + w) (z :: l') T B).
    change (removelast (y :: z :: l')) with (y :: removelast (z :: l')).
    rewrite (last_cons_any y (z :: l')). rewrite (last_default (z :: l') y 0) by discriminate. reflexivity.
Qed.
Lemma removelast_prog x w n L : qlist_eq L (prog x w (S n)) -> qlist_eq (removelast L) (prog x w n).
Proof.
  revert x L. induction n as [|n IH]; intros x L H.
  - inversion H as [|y ? l ? Hy B]; subst. inversion B as [|z ? l' ? Hz B']; subst. inversion B'; subst.
    constructor; [assumption|constructor].
  - inversion H as [|y ? l ? Hy B]; subst. cbn [prog].
    assert (l <> []) by (intros ->; inversion B).
    change (removelast (y :: l)) with (match l with [] => [] | _ => y :: removelast l end).
    destruct l as [|z l]; [congruence|]. constructor; [assumption|]. apply IH. assumption.
Qed.
Lemma prog_app x w a b : qlist_eq (prog x w a ++ prog (x + inject_Z (Z.of_nat (S a)) * w) w b) (prog x w (a + S b)).
Proof.
  revert x. induction a as [|a IH]; intros x.
  - cbn [prog app Nat.add]. constructor; [reflexivity|]. apply prog_shift; [change (inject_Z (Z.of_nat 1)) with 1; ring|reflexivity].
  - cbn [prog app Nat.add]. constructor; [reflexivity|]. eapply qlist_trans; [|apply (IH (x + w))].
    assert (A : forall l l1 l2, qlist_eq l1 l2 -> qlist_eq (l ++ l1) (l ++ l2)).
    { intros l l1 l2 G. apply Forall2_app; [apply qlist_eq_refl|assumption]. }
    apply A. apply prog_shift; [|reflexivity]. rewrite (inject_S (S a)). ring.
Qed.

(** consecutive brackets [x_i, x_{i+1}] for i = i0 .. i0+c *)
Fixpoint steps_from (x w : Q) (c : nat) : list (Q * Q) :=
  match c with O => [] | S c => (x, x + w) :: steps_from (x + w) w c end.
Definition brk_eq (a b : Q * Q) := fst a == fst b /\ snd a == snd b.

Lemma refine_cons num b brs : refine num (b :: brs) = block num b ++ refine num brs.
Proof. reflexivity. Qed.
Lemma qlist_hd_last_len l n x w : qlist_eq l (prog x w n) -> l <> [].
Proof. intros H ->. destruct n; inversion H. Qed.
Lemma refine_steps n w : 0 < w -> forall c x brs, (1 <= c)%nat -> Forall2 brk_eq brs (steps_from x w c) ->
  qlist_eq (dedup Qeq_bool (refine (S (S n)) brs)) (prog x (w / inject_Z (Z.of_nat (S n))) (c * S n)).
Proof.
  intros Hw. set (v := w / inject_Z (Z.of_nat (S n))).
  assert (Hv : 0 < v) by (apply div_pos; assumption).
  assert (Hvw : inject_Z (Z.of_nat (S n)) * v == w) by (unfold v; apply div_mul).
  induction c as [|c IH]; intros x brs Hc H; [lia|]. cbn [steps_from] in H.
  inversion H as [|[s e] ? brs' ? [Hs He] B]; subst. cbn [fst snd] in Hs, He.
  rewrite refine_cons.
  assert (P : qlist_eq (block (S (S n)) (s, e)) (prog x v (S n))).
  { eapply qlist_trans; [apply block_spec|]. cbn [fst snd]. apply prog_shift; [assumption|].
    unfold v. rewrite Hs, He. setoid_replace (x + w - x) with w by ring. reflexivity. }
  destruct c as [|c].
  - inversion B; subst. cbn [refine flat_map]. rewrite app_nil_r.
    rewrite <- (app_nil_r (block _ _)). rewrite (dedup_prog v (S n) Hv x _ [] P). cbn [dedup].
    rewrite <- app_removelast_last by (eapply qlist_hd_last_len; exact P).
    replace (1 * S n)%nat with (S n) by lia. assumption.
  - rewrite (dedup_prog v (S n) Hv x _ _ P).
    assert (IH' : qlist_eq (dedup Qeq_bool (refine (S (S n)) brs')) (prog (x + w) v (S c * S n))) by (apply IH; [lia|assumption]).
    (* the first point of the rest equals the last point of the first block *)
    assert (E : dedup Qeq_bool (last (block (S (S n)) (s, e)) 0 :: refine (S (S n)) brs') = dedup Qeq_bool (refine (S (S n)) brs')).
    { cbn [steps_from] in B. inversion B as [|[s' e'] ? brs'' ? [Hs' He'] B']; subst. cbn [fst snd] in Hs'.
      destruct (block_ends n s' e') as (a & l & Eb & Ea & _). rewrite refine_cons, Eb. cbn [app].
      set (T := l ++ refine (S (S n)) brs'').
      change (dedup Qeq_bool (last (block (S (S n)) (s, e)) 0 :: a :: T)) with
        (if Qeq_bool (last (block (S (S n)) (s, e)) 0) a then dedup Qeq_bool (a :: T) else last (block (S (S n)) (s, e)) 0 :: dedup Qeq_bool (a :: T)).
      replace (Qeq_bool (last (block (S (S n)) (s, e)) 0) a) with true; [reflexivity|].
      symmetry. apply Qeq_bool_iff. rewrite (qlist_last _ _ 0 0 P) by reflexivity. rewrite prog_last, Hvw, Ea, Hs'. reflexivity. }
    rewrite E. replace (S (S c) * S n)%nat with (n + S (S c * S n))%nat by lia.
    eapply qlist_trans; [|apply prog_app]. apply Forall2_app.
    + apply (removelast_prog x v n). exact P.
    + eapply qlist_trans; [exact IH'|]. apply prog_shift; [rewrite Hvw; reflexivity|reflexivity].
Qed.

Lemma brackets_steps X x w n : qlist_eq X (prog x w n) -> forall c i, (i + c <= n)%nat ->
  Forall2 brk_eq (map (fun j => (nth j X 0, nth (S j) X 0)) (seq i c)) (steps_from (x + inject_Z (Z.of_nat i) * w) w c).
Proof.
  intros H. assert (N : forall j, (j <= n)%nat -> nth j X 0 == x + inject_Z (Z.of_nat j) * w).
  { intros j Hj. rewrite (qeq_nth _ _ H). apply prog_nth. assumption. }
  assert (G : forall c x y, x == y -> forall L, Forall2 brk_eq L (steps_from x w c) -> Forall2 brk_eq L (steps_from y w c)).
  { induction c as [|c IH]; intros a b E L B; inversion B as [|? ? ? ? [P1 P2] B']; subst; constructor.
    - split; cbn [fst snd] in *; [rewrite P1|rewrite P2]; rewrite E; reflexivity.
    - eapply IH; [|exact B']. rewrite E; reflexivity. }
  induction c as [|c IH]; intros i Hi; [constructor|]. cbn [seq map steps_from]. constructor.
  - split; cbn [fst snd].
    + apply N. lia.
    + rewrite N by lia. rewrite inject_S. ring.
  - eapply G; [|apply IH; lia]. rewrite inject_S. ring.
Qed.

(** ** One round *)
Record samples (X : list Q) (x w : Q) (n : nat) : Prop := {
  sm_eq : qlist_eq X (prog x w n); sm_w : 0 < w; sm_n : (2 <= n)%nat }.
Lemma qlist_length l l' : qlist_eq l l' -> length l = length l'.
Proof. induction 1; cbn; congruence. Qed.
Lemma samples_len X x w n : samples X x w n -> length X = S n.
Proof. intros [E _ _]. rewrite (qlist_length _ _ E), prog_len. reflexivity. Qed.
Lemma samples_nth X x w n i : samples X x w n -> (i <= n)%nat -> nth i X 0 == x + inject_Z (Z.of_nat i) * w.
Proof. intros [E _ _] H. rewrite (qeq_nth _ _ E). apply prog_nth. assumption. Qed.
Lemma samples_strict X x w n : samples X x w n -> strict X.
Proof. intros [E W _]. eapply prog_strict_eq; eassumption. Qed.
Lemma samples_step X x w n i : samples X x w n -> (i < n)%nat -> nth (S i) X 0 == nth i X 0 + w.
Proof. intros H Hi. rewrite !(samples_nth X x w n) by (try assumption; lia). rewrite inject_S. ring. Qed.

Definition good (X : list Q) (n : nat) : Prop :=
  exists i, (i <= n)%nat /\ f (nth 0 X 0) < f (nth i X 0) /\ f (nth n X 0) < f (nth i X 0).

Lemma down_from X k mid m : structure X k mid m -> forall d i, (k <= i)%nat -> (i + d < length X)%nat -> f (nth (i + d) X 0) <= f (nth i X 0).
Proof.
  intros S. induction d as [|d IH]; intros i Hk Hi; [rewrite Nat.add_0_r; apply Qle_refl|].
  specialize (IH i Hk ltac:(lia)). eapply Qle_trans; [|exact IH].
  replace (i + Datatypes.S d)%nat with (Datatypes.S (i + d)) by lia. pose proof S as (_ & M & _).
  destruct (Nat.eq_dec (i + d) k) as [E|E].
  - destruct M as [-> | ->].
    + apply Qlt_le_weak. apply (falls X k [] m _ S); cbn; lia.
    + rewrite E. rewrite (level X k m S). apply Qle_refl.
  - apply Qlt_le_weak. apply (falls X k mid m _ S); [|lia]. destruct M as [-> | ->]; cbn; lia.
Qed.
Lemma up_to X k mid m : structure X k mid m -> forall d i, (i + d <= k + length mid)%nat -> f (nth i X 0) <= f (nth (i + d) X 0).
Proof.
  intros S. induction d as [|d IH]; intros i Hi; [rewrite Nat.add_0_r; apply Qle_refl|].
  specialize (IH i ltac:(lia)). eapply Qle_trans; [exact IH|].
  replace (i + Datatypes.S d)%nat with (Datatypes.S (i + d)) by lia. pose proof S as (_ & M & _).
  destruct (Nat.eq_dec (i + d) k) as [E|E].
  - destruct M as [-> | ->]; [cbn in Hi; lia|]. rewrite E, (level X k m S). apply Qle_refl.
  - apply Qlt_le_weak. apply (rises X k mid m _ S). destruct M as [-> | ->]; cbn in Hi; lia.
Qed.
Lemma good_structure X x w n k mid m : samples X x w n -> good X n -> structure X k mid m -> (1 <= k /\ 1 <= m)%nat.
Proof.
  intros Sm (i & Hi & G1 & G2) S. pose proof S as (_ & _ & L). rewrite (samples_len _ _ _ _ Sm) in L. split.
  - destruct k as [|k]; [|lia]. pose proof (down_from X 0 mid m S i 0) as D. cbn [Nat.add] in D.
    rewrite (samples_len _ _ _ _ Sm) in D. specialize (D ltac:(lia) ltac:(lia)). lra.
  - destruct m as [|m]; [|lia]. pose proof (up_to X k mid 0 S (n - i) i) as U.
    replace (i + (n - i))%nat with n in U by lia. specialize (U ltac:(lia)). lra.
Qed.

(** identified maxima *)
Lemma identify_shape X k mid m : structure X k mid m -> (3 <= length X)%nat ->
  identify_maxima X (map f X) =
  match mid, k, m with
  | [], S k', S _ => [(nth k X 0, f (nth k X 0))]
  | _ :: _, S k', S _ => [((nth k' X 0 + nth (k' + 3) X 0) / 2, f (nth k X 0))]
  | _, _, _ => []
  end.
Proof.
  intros S H3. pose proof S as (_ & M & L). unfold identify_maxima, plateaus. rewrite (dsd_eq X k mid m S).
  rewrite dsd_shape by (try assumption; lia). unfold flatnonzero.
  destruct M as [-> | ->]; destruct k as [|k], m as [|m]; cbn [length] in L; try lia;
    rewrite ?fnz_only by reflexivity; rewrite ?fnz_zeros by reflexivity;
    cbn [flatnonzero_from Z.eqb Z.compare negb Nat.add Pos.eqb];
    rewrite ?fnz_only by reflexivity; try reflexivity.
  - (* sharp *) cbn [map pairs combine tl filter app argsort fold_right insert]. unfold at_.
    replace (Datatypes.S (Datatypes.S k - 1)) with (Datatypes.S k) by lia. rewrite nth_map_f by lia. reflexivity.
  - (* blunt *) replace (Datatypes.S k - 1)%nat with k by lia. cbn [map]. rewrite pairs_cons. cbn [pairs combine tl filter fst snd].
    rewrite app_nth2 by (rewrite repeat_length; lia). rewrite repeat_length, Nat.sub_diag. cbn [nth].
    rewrite app_nth2 by (rewrite repeat_length; lia). rewrite repeat_length.
    replace (Datatypes.S k - k)%nat with 1%nat by lia. cbn [nth Z.eqb Pos.eqb andb].
    cbn [map app argsort fold_right insert fst snd]. unfold at_. rewrite nth_map_f by lia.
    replace (Datatypes.S k + 2)%nat with (k + 3)%nat by lia. reflexivity.
Qed.

Notation close_to := (located f p).

Lemma identify_good X x w n : samples X x w n -> good X n -> close_to w (identify_maxima X (map f X)).
Proof.
  intros Sm G. destruct (signs X (samples_strict _ _ _ _ Sm)) as (k & mid & m & S).
  { intros E. pose proof (samples_len _ _ _ _ Sm) as L. rewrite E in L. discriminate. }
  fold (structure X k mid m) in S. destruct (good_structure _ _ _ _ _ _ _ Sm G S) as [Hk Hm].
  pose proof (samples_len _ _ _ _ Sm) as Len. pose proof (sm_n _ _ _ _ Sm) as Hn.
  rewrite (identify_shape X k mid m S) by lia.
  pose proof S as (_ & M & L). rewrite Len in L.
  destruct k as [|k]; [lia|]. destruct m as [|m]; [lia|].
  pose proof (samples_strict _ _ _ _ Sm) as St. pose proof (sm_w _ _ _ _ Sm) as Hw.
  destruct M as [-> | ->]; cbn [length] in L.
  - assert (R := rises X _ _ _ k S ltac:(lia)). assert (F := falls X _ _ _ (Datatypes.S k) S ltac:(cbn; lia) ltac:(lia)).
    assert (P1 := peak_after _ _ (strict_nth X St k (Datatypes.S k) ltac:(lia) ltac:(lia)) R).
    assert (P2 := peak_before _ _ (strict_nth X St (Datatypes.S k) (Datatypes.S (Datatypes.S k)) ltac:(lia) ltac:(lia)) F).
    rewrite (samples_step _ _ _ _ (Datatypes.S k) Sm) in P2 by lia.
    assert (E := samples_step _ _ _ _ k Sm ltac:(lia)).
    exists (nth (Datatypes.S k) X 0), (f (nth (Datatypes.S k) X 0)). split; [reflexivity|].
    assert (B : p - w < nth (Datatypes.S k) X 0 < p + w) by lra. split; [assumption|].
    exists (nth (Datatypes.S k) X 0). split; [assumption|reflexivity].
  - assert (Lv := level X _ _ S).
    assert (P := peak_between _ _ (strict_nth X St (Datatypes.S k) (Datatypes.S (Datatypes.S k)) ltac:(lia) ltac:(lia)) ltac:(symmetry; exact Lv)).
    rewrite (samples_step _ _ _ _ (Datatypes.S k) Sm) in P by lia.
    assert (E := samples_step _ _ _ _ k Sm ltac:(lia)).
    assert (E3 : nth (k + 3) X 0 == nth k X 0 + 3 * w).
    { replace (k + 3)%nat with (Datatypes.S (Datatypes.S (Datatypes.S k))) by lia.
      rewrite !(samples_step X x w n) by (try assumption; lia). ring. }
    exists ((nth k X 0 + nth (k + 3) X 0) / 2), (f (nth (Datatypes.S k) X 0)). split; [reflexivity|].
    assert (V : (nth k X 0 + nth (k + 3) X 0) / 2 == nth (Datatypes.S k) X 0 + w / 2) by (rewrite E, E3; field).
    assert (w / 2 < w). { apply Qlt_shift_div_r; lra. } assert (0 < w / 2) by (apply Qlt_shift_div_l; lra).
    rewrite V. split; [|exists (nth (Datatypes.S k) X 0); split; [|reflexivity]]; lra.
Qed.
Lemma identify_any X x w n : samples X x w n -> identify_maxima X (map f X) = [] \/ good X n.
Proof.
  intros Sm. destruct (signs X (samples_strict _ _ _ _ Sm)) as (k & mid & m & S).
  { intros E. pose proof (samples_len _ _ _ _ Sm) as L. rewrite E in L. discriminate. }
  fold (structure X k mid m) in S. pose proof (samples_len _ _ _ _ Sm) as Len. pose proof (sm_n _ _ _ _ Sm) as Hn.
  rewrite (identify_shape X k mid m S) by lia. pose proof S as (_ & M & L). rewrite Len in L.
  destruct k as [|k]; [left; destruct M as [-> | ->]; reflexivity|].
  destruct m as [|m]; [left; destruct M as [-> | ->]; reflexivity|].
  right. exists (Datatypes.S k). split; [lia|].
  assert (R := rises X _ _ _ k S ltac:(lia)). assert (U := up_to X _ _ _ S k 0%nat ltac:(lia)). cbn [Nat.add] in U.
  assert (n = Datatypes.S (n - 1)) by lia.
  assert (F := falls X _ _ _ (n - 1)%nat S ltac:(lia) ltac:(lia)). replace (Datatypes.S (n - 1)) with n in F by lia.
  assert (D := down_from X _ _ _ S (n - 1 - Datatypes.S k) (Datatypes.S k) ltac:(lia) ltac:(lia)).
  replace (Datatypes.S k + (n - 1 - Datatypes.S k))%nat with (n - 1)%nat in D by lia. split; lra.
Qed.

Lemma filter_one jd0 jd1 eps x y : filter_maxima jd0 jd1 eps [(x, y)] =
  if Qle_bool jd0 x && Qle_bool x jd1 then [(x, y)] else [].
Proof. unfold filter_maxima. cbn [filter fst]. destruct (_ && _); reflexivity. Qed.

Definition result_ok (jd0 jd1 eps : Q) (must : Prop) (l : list (Q * Q)) : Prop :=
  (l = [] \/ close_to eps l) /\ (must -> jd0 + eps <= p -> p <= jd1 - eps -> l <> []).

Lemma close_filter jd0 jd1 eps w l : w <= eps -> close_to w l -> result_ok jd0 jd1 eps True (filter_maxima jd0 jd1 eps l).
Proof.
  intros Hw (x & y & -> & Hx & x' & Hx' & Hy). rewrite filter_one.
  destruct (Qle_bool jd0 x && Qle_bool x jd1) eqn:E.
  - split; [right; exists x, y; split; [reflexivity|]; split; [lra|]; exists x'; split; [lra|assumption]|discriminate].
  - split; [left; reflexivity|]. intros _ H1 H2. exfalso. apply andb_false_iff in E as [E|E]; apply Qleb_f in E; lra.
Qed.

(** the refined samples *)
Lemma seq_pair i : [i; S i] = seq i 2. Proof. reflexivity. Qed.
Lemma seq_triple i : [i; S i; S (S i)] = seq i 3. Proof. reflexivity. Qed.
Lemma refined X x w n N i c : samples X x w n -> (2 <= N)%nat -> (1 <= c)%nat -> (i + c <= n)%nat ->
  let X' := dedup Qeq_bool (refine (S N) (combine (take X (seq i c)) (take X (map S (seq i c))))) in
  samples X' (x + inject_Z (Z.of_nat i) * w) (w / inject_Z (Z.of_nat N)) (c * N) /\
  forall j, (j <= c)%nat -> nth (j * N) X' 0 == nth (i + j) X 0.
Proof.
  intros Sm HN Hc Hi X'. destruct N as [|N]; [lia|].
  assert (Q0 : qlist_eq X' (prog (x + inject_Z (Z.of_nat i) * w) (w / inject_Z (Z.of_nat (S N))) (c * S N))).
  { unfold X'. rewrite brackets_map. apply refine_steps; [apply (sm_w _ _ _ _ Sm)|assumption|].
    eapply brackets_steps; [apply (sm_eq _ _ _ _ Sm)|assumption]. }
  assert (Sm' : samples X' (x + inject_Z (Z.of_nat i) * w) (w / inject_Z (Z.of_nat (S N))) (c * S N)).
  { constructor; [assumption|apply div_pos, (sm_w _ _ _ _ Sm)|nia]. }
  split; [assumption|]. intros j Hj. rewrite (samples_nth _ _ _ _ _ Sm') by nia.
  rewrite (samples_nth _ _ _ _ _ Sm) by lia. rewrite Nat2Z.inj_mul, inject_Z_mult, Nat2Z.inj_add, inject_Z_plus.
  pose proof (div_mul w N). pose proof (inject_pos N). field. lra.
Qed.

Lemma inside_higher a b z : a < z -> z < b -> f a == f b -> f a < f z.
Proof.
  intros H1 H2 E. destruct (Qlt_le_dec z p) as [L|L].
  - apply (proj1 Hp a z H1). lra.
  - pose proof (proj2 Hp z b L H2). lra.
Qed.

Lemma next_samples X x w n N : samples X x w n -> (2 <= N)%nat ->
  match choose_left (map f X) with
  | [] => ~ good X n
  | lefts => exists x' n', let X' := dedup Qeq_bool (refine (S N) (combine (take X lefts) (take X (map S lefts)))) in
      samples X' x' (w / inject_Z (Z.of_nat N)) n' /\ good X' n'
  end.
Proof.
  intros Sm HN. destruct (signs X (samples_strict _ _ _ _ Sm)) as (k & mid & m & S).
  { intros E. pose proof (samples_len _ _ _ _ Sm) as L. rewrite E in L. discriminate. }
  fold (structure X k mid m) in S. pose proof (samples_len _ _ _ _ Sm) as Len. pose proof (sm_n _ _ _ _ Sm) as Hn.
  pose proof (fun k mid m => good_structure X x w n k mid m Sm) as GS.
  rewrite (choose_shape X k mid m S) by lia. pose proof S as (_ & M & L). rewrite Len in L.
  destruct M as [-> | ->]; destruct k as [|k], m as [|m]; cbn [length] in L; try lia;
    try (intros G; pose proof (GS _ _ _ G S); lia);
    rewrite ?Nat.sub_succ, ?Nat.sub_0_r.
  - (* sharp *)
    rewrite seq_pair. destruct (refined X x w n N k 2 Sm HN ltac:(lia) ltac:(lia)) as [Sm' Nth].
    eexists. eexists. split; [exact Sm'|].
    set (X' := dedup Qeq_bool _) in *. exists (1 * N)%nat. split; [lia|].
    assert (N0 := Nth 0%nat ltac:(lia)). assert (N1 := Nth 1%nat ltac:(lia)). assert (N2 := Nth 2%nat ltac:(lia)).
    change (0 * N)%nat with 0%nat in N0.
    rewrite (Hf _ _ N0), (Hf _ _ N1), (Hf _ _ N2). replace (k + 0)%nat with k by lia. replace (k + 1)%nat with (Datatypes.S k) by lia.
    replace (k + 2)%nat with (Datatypes.S (Datatypes.S k)) by lia. split.
    + apply (rises X _ _ _ k S). lia.
    + apply (falls X _ _ _ _ S); cbn; lia.
  - (* edge on the left *)
    rewrite (seq_pair 0). destruct (refined X x w n N 0 2 Sm HN ltac:(lia) ltac:(lia)) as [Sm' Nth].
    eexists. eexists. split; [exact Sm'|].
    set (X' := dedup Qeq_bool _) in *. exists 1%nat. split; [lia|].
    assert (N0 := Nth 0%nat ltac:(lia)). assert (N1 := Nth 1%nat ltac:(lia)). assert (N2 := Nth 2%nat ltac:(lia)).
    change (0 * N)%nat with 0%nat in N0. cbn [Nat.add] in N0, N1, N2.
    pose proof (samples_strict _ _ _ _ Sm') as St'. pose proof (samples_len _ _ _ _ Sm') as Len'.
    assert (Lv := level X _ _ S).
    assert (In1 : f (nth 0 X' 0) < f (nth 1 X' 0)).
    { apply (inside_higher _ (nth (1 * N) X' 0)); [apply strict_nth; [assumption|lia|lia]|apply strict_nth; [assumption|lia|lia]|].
      rewrite (Hf _ _ N0), (Hf _ _ N1). symmetry. exact Lv. }
    split; [assumption|]. rewrite (Hf _ _ N2). 
    assert (F := falls X _ _ _ 1%nat S ltac:(cbn; lia) ltac:(lia)). rewrite (Hf _ _ N0) in In1. lra.
  - (* edge on the right *)
    rewrite seq_pair. destruct (refined X x w n N k 2 Sm HN ltac:(lia) ltac:(lia)) as [Sm' Nth].
    eexists. eexists. split; [exact Sm'|].
    set (X' := dedup Qeq_bool _) in *. exists (1 * N + 1)%nat. split; [lia|].
    assert (N0 := Nth 0%nat ltac:(lia)). assert (N1 := Nth 1%nat ltac:(lia)). assert (N2 := Nth 2%nat ltac:(lia)).
    change (0 * N)%nat with 0%nat in N0.
    replace (k + 0)%nat with k in N0 by lia. replace (k + 1)%nat with (Datatypes.S k) in N1 by lia.
    replace (k + 2)%nat with (Datatypes.S (Datatypes.S k)) in N2 by lia.
    pose proof (samples_strict _ _ _ _ Sm') as St'. pose proof (samples_len _ _ _ _ Sm') as Len'.
    assert (Lv := level X _ _ S). assert (R := rises X _ _ _ k S ltac:(lia)).
    assert (In1 : f (nth (1 * N) X' 0) < f (nth (1 * N + 1) X' 0)).
    { apply (inside_higher _ (nth (2 * N) X' 0)); [apply strict_nth; [assumption|lia|lia]|apply strict_nth; [assumption|lia|lia]|].
      rewrite (Hf _ _ N1), (Hf _ _ N2). symmetry. exact Lv. }
    rewrite (Hf _ _ N1) in In1. rewrite (Hf _ _ N0), (Hf _ _ N2). split; lra.
  - (* blunt *)
    rewrite seq_triple. destruct (refined X x w n N k 3 Sm HN ltac:(lia) ltac:(lia)) as [Sm' Nth].
    eexists. eexists. split; [exact Sm'|].
    set (X' := dedup Qeq_bool _) in *. exists (1 * N)%nat. split; [lia|].
    assert (N0 := Nth 0%nat ltac:(lia)). assert (N1 := Nth 1%nat ltac:(lia)). assert (N3 := Nth 3%nat ltac:(lia)).
    change (0 * N)%nat with 0%nat in N0.
    replace (k + 0)%nat with k in N0 by lia. replace (k + 1)%nat with (Datatypes.S k) in N1 by lia.
    replace (k + 3)%nat with (Datatypes.S (Datatypes.S (Datatypes.S k))) in N3 by lia.
    rewrite (Hf _ _ N0), (Hf _ _ N1), (Hf _ _ N3).
    assert (Lv := level X _ _ S). assert (R := rises X _ _ _ k S ltac:(lia)).
    assert (F := falls X _ _ _ (Datatypes.S (Datatypes.S k)) S ltac:(cbn; lia) ltac:(lia)). split; lra.
Qed.

Lemma peak_loop jd0 jd1 eps N : (2 <= N)%nat -> forall r X x w n, samples X x w n ->
  w <= eps * inject_Z (Z.of_nat N ^ Z.of_nat r) ->
  exists l, maxima_loop (S r) f jd0 jd1 eps (S N) X = Found l /\ result_ok jd0 jd1 eps (good X n) l.
Proof.
  intros HN. induction r as [|r IH]; intros X x w n Sm Hw.
  - assert (W : w <= eps) by (change (inject_Z (Z.of_nat N ^ Z.of_nat 0)) with 1 in Hw; lra). clear Hw.
    pose proof (samples_len _ _ _ _ Sm) as Len. pose proof (samples_step _ _ _ _ 0 Sm) as St. pose proof (sm_n _ _ _ _ Sm) as Hn.
    destruct X as [|x0 [|x1 X0]]; try (cbn in Len; lia). cbn [maxima_loop].
    assert (E : x1 - x0 <= eps) by (specialize (St ltac:(lia)); cbn [nth] in St; lra).
    rewrite (proj2 (Qleb_t _ _) E). eexists. split; [reflexivity|]. 
    destruct (identify_any _ _ _ _ Sm) as [I|G].
    + rewrite I. split; [left; reflexivity|]. intros G. exfalso. destruct (identify_good _ _ _ _ Sm G) as (a & b & C & _). congruence.
    + destruct (close_filter jd0 jd1 eps w _ W (identify_good _ _ _ _ Sm G)) as [C1 C2]. split; auto.
  - pose proof (samples_len _ _ _ _ Sm) as Len. pose proof (samples_step _ _ _ _ 0 Sm) as St. pose proof (sm_n _ _ _ _ Sm) as Hn.
    pose proof (next_samples X x w n N Sm HN) as Next.
    assert (Fin : w <= eps -> result_ok jd0 jd1 eps (good X n) (filter_maxima jd0 jd1 eps (identify_maxima X (map f X)))).
    { intros W. destruct (identify_any _ _ _ _ Sm) as [I|G].
      - rewrite I. split; [left; reflexivity|]. intros G. exfalso. destruct (identify_good _ _ _ _ Sm G) as (a & b & C & _). congruence.
      - destruct (close_filter jd0 jd1 eps w _ W (identify_good _ _ _ _ Sm G)) as [C1 C2]. split; auto. }
    change (maxima_loop (S (S r)) f jd0 jd1 eps (S N) X) with
      (match X with
       | x0 :: x1 :: _ =>
          if Qle_bool (x1 - x0) eps
          then Found (filter_maxima jd0 jd1 eps (identify_maxima X (map f X)))
          else match choose_left (map f X) with
               | [] => Found []
               | lefts => maxima_loop (S r) f jd0 jd1 eps (S N) (dedup Qeq_bool (refine (S N) (combine (take X lefts) (take X (map S lefts)))))
               end
       | _ => ValueError
       end).
    destruct X as [|x0 [|x1 X0]]; try (cbn in Len; lia). set (X := x0 :: x1 :: X0) in *.
    specialize (St ltac:(lia)). cbn [nth X] in St.
    destruct (Qle_bool (x1 - x0) eps) eqn:E.
    + apply Qleb_t in E. eexists. split; [reflexivity|]. apply Fin. lra.
    + destruct (choose_left (map f X)) as [|i lf] eqn:C.
      * eexists. split; [reflexivity|]. split; [left; reflexivity|]. intros G. contradiction.
      * destruct Next as (x' & n' & Sm' & G').
        destruct (IH _ _ _ _ Sm') as (l & El & R1 & R2).
        { apply Qle_shift_div_r; [destruct N; [lia|apply inject_pos]|].
          rewrite (Nat2Z.inj_succ r), Z.pow_succ_r, inject_Z_mult in Hw by lia.
          setoid_replace (eps * inject_Z (Z.of_nat N ^ Z.of_nat r) * inject_Z (Z.of_nat N))
            with (eps * (inject_Z (Z.of_nat N) * inject_Z (Z.of_nat N ^ Z.of_nat r))) by ring. assumption. }
        exists l. split; [exact El|]. split; [assumption|]. intros _ B1 B2. apply R2; assumption.
Qed.

Lemma find_maxima_peak jd0 jd1 s eps num r : jd0 < jd1 -> positive_sampling s -> (3 <= num)%nat -> 0 < eps ->
  (jd1 - jd0) + 2 * spacing s num <= eps * inject_Z (Z.of_nat (num - 1) ^ Z.of_nat r) ->
  exists l, find_maxima (S r) jd0 jd1 f s eps num = Found l /\
    (l = [] \/ close_to eps l) /\
    (jd0 + eps <= p -> p <= jd1 - eps -> jd0 + margin s num <= p -> p <= jd1 - margin s num -> close_to eps l).
Proof.
  intros H Hs Hn He Hr. unfold find_maxima. replace (Qle_bool jd1 jd0) with false by (symmetry; apply Qleb_f; assumption).
  destruct (maxima_samples_shape jd0 jd1 s num H Hs ltac:(lia)) as (a & b & n & Es & Ha & Hb & M1 & M2 & M3 & M4).
  rewrite Es. set (w := (b - a) / inject_Z (Z.of_nat (S (S n)))) in *.
  assert (Sm : samples (linspace a b (S (S (S n)))) a w (S (S n))).
  { constructor; [apply linspace_prog|apply div_pos; lra|lia]. }
  destruct num as [|N]; [lia|]. replace (S N - 1)%nat with N in Hr by lia.
  pose proof (sm_w _ _ _ _ Sm) as W0.
  assert (W : w <= eps * inject_Z (Z.of_nat N ^ Z.of_nat r)).
  { eapply Qle_trans; [|exact Hr].
    assert (N2 : 2 * w <= b - a).
    { assert (E : b - a == inject_Z (Z.of_nat (S (S n))) * w) by (unfold w; symmetry; apply div_mul).
      rewrite E. apply Qmult_le_compat_r; [|lra]. change 2 with (inject_Z 2). rewrite <- Zle_Qle. lia. }
    lra. }
  destruct (peak_loop jd0 jd1 eps N ltac:(lia) r _ _ _ _ Sm W) as (l & El & R1 & R2).
  exists l. split; [exact El|]. split; [assumption|]. intros B1 B2 B3 B4.
  destruct R1 as [-> | R1]; [|assumption]. exfalso. apply R2; try assumption; [|reflexivity].
  assert (St := samples_strict _ _ _ _ Sm). assert (Len := samples_len _ _ _ _ Sm).
  set (X := linspace a b (S (S (S n)))) in *.
  assert (Z0 := samples_nth _ _ _ _ 0 Sm ltac:(lia)). assert (Z1 := samples_nth _ _ _ _ 1 Sm ltac:(lia)).
  assert (Zn := samples_nth _ _ _ _ (S (S n)) Sm ltac:(lia)). assert (Zn1 := samples_nth _ _ _ _ (S n) Sm ltac:(lia)).
  assert (Eb : inject_Z (Z.of_nat (S (S n))) * w == b - a) by (unfold w; apply div_mul).
  assert (Eb1 : inject_Z (Z.of_nat (S n)) * w == b - a - w) by (rewrite <- Eb, (inject_S (S n)); ring).
  change (inject_Z (Z.of_nat 0)) with 0 in Z0. change (inject_Z (Z.of_nat 1)) with 1 in Z1.
  assert (A1 : f (nth 0 X 0) < f (nth 1 X 0)) by (apply (proj1 Hp); [apply strict_nth; [assumption|lia|lia]|lra]).
  assert (A2 : f (nth (S (S n)) X 0) < f (nth (S n) X 0)) by (apply (proj2 Hp); [lra|apply strict_nth; [assumption|lia|lia]]).
  (* the higher of the two inner points *)
  destruct (Qlt_le_dec (f (nth 1 X 0)) (f (nth (S n) X 0))) as [C|C].
  - exists (S n). split; [lia|]. split; lra.
  - exists 1%nat. split; [lia|]. split; lra.
Qed.
End Peak.

Lemma one_peak_found f p jd0 jd1 s eps num r : real_function f -> one_peak f p ->
  jd0 < jd1 -> positive_sampling s -> (3 <= num)%nat -> 0 < eps ->
  (jd1 - jd0) + 2 * spacing s num <= eps * inject_Z (Z.of_nat (num - 1) ^ Z.of_nat r) ->
  exists l, find_maxima (S r) jd0 jd1 f s eps num = Found l /\
    (l = [] \/ located f p eps l) /\
    (p <= jd0 - eps \/ jd1 + eps <= p -> l = []) /\
    (jd0 + eps <= p -> p <= jd1 - eps -> jd0 + margin s num <= p -> p <= jd1 - margin s num -> located f p eps l).
Proof.
  intros Hf Hp H Hs Hn He Hr.
  destruct (find_maxima_peak f p Hf Hp jd0 jd1 s eps num r H Hs Hn He Hr) as (l & E & L1 & L2).
  exists l. split; [exact E|]. split; [exact L1|]. split; [|exact L2].
  intros O. destruct L1 as [L1|(x & y & -> & Hx & _)]; [exact L1|]. exfalso.
  assert (Hn1 : (1 <= num)%nat) by lia.
  destruct (find_maxima_ok _ _ _ _ _ _ _ _ (Qlt_le_weak _ _ He) Hs Hn1 E) as [_ I].
  destruct (I x y (or_introl eq_refl)) as [I1 _]. lra.
Qed.
Lemma one_valley_found f p jd0 jd1 s eps num r : real_function f -> one_valley f p ->
  jd0 < jd1 -> positive_sampling s -> (3 <= num)%nat -> 0 < eps ->
  (jd1 - jd0) + 2 * spacing s num <= eps * inject_Z (Z.of_nat (num - 1) ^ Z.of_nat r) ->
  exists l, find_minima (S r) jd0 jd1 f s eps num = Found l /\
    (p <= jd0 - eps \/ jd1 + eps <= p -> l = []) /\
    (l = [] \/ exists x y, l = [(x, y)] /\ p - eps < x < p + eps /\ exists x', p - eps < x' < p + eps /\ y == f x') /\
    (jd0 + eps <= p -> p <= jd1 - eps -> jd0 + margin s num <= p -> p <= jd1 - margin s num -> l <> []).
Proof.
  intros Hf Hp H Hs Hn He Hr.
  destruct (one_peak_found (fun t => - f t) p jd0 jd1 s eps num r) as (l & E & L1 & L3 & L2); try assumption.
  { intros a b Hab. rewrite (Hf a b Hab). reflexivity. }
  unfold find_minima. rewrite E. eexists. split; [reflexivity|]. split; [|split].
  - intros O. rewrite (L3 O). reflexivity.
  - destruct L1 as [-> | (x & y & -> & Hx & x' & Hx' & ->)]; [left; reflexivity|]. right.
    exists x, (- - f x'). split; [reflexivity|]. split; [assumption|]. exists x'. split; [assumption|]. ring.
  - intros B1 B2 B3 B4. destruct (L2 B1 B2 B3 B4) as (x & y & -> & _). discriminate.
Qed.
