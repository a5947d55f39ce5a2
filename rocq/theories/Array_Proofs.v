From Coq Require Import ZArith QArith Qround List Bool Lia.
From Verif Require Import PyNum Time_Model Array_Model Array_Spec.
Import ListNotations.

(** * The store *)
Lemma fetch_old h x a : (a < length h)%nat -> fetch (h ++ [x]) a = fetch h a.
Proof. intros H. unfold fetch. rewrite app_nth1 by exact H. reflexivity. Qed.
Lemma fetch_new h x : fetch (h ++ [x]) (length h) = x.
Proof. unfold fetch. rewrite app_nth2, Nat.sub_diag by lia. reflexivity. Qed.
Lemma update_length h : forall a x, length (update h a x) = length h.
Proof. induction h as [|y h IH]; intros [|a] x; cbn; auto. Qed.
Lemma fetch_update h : forall a x, (a < length h)%nat -> fetch (update h a x) a = x.
Proof. induction h as [|y h IH]; intros [|a] x L; cbn in L; [lia|lia|reflexivity|]. unfold fetch in *. cbn. apply IH. lia. Qed.
Lemma fetch_other h : forall a b x, a <> b -> fetch (update h a x) b = fetch h b.
Proof. induction h as [|y h IH]; intros [|a] [|b] x N; cbn; try reflexivity; [congruence|]. unfold fetch in *. cbn. apply IH. congruence. Qed.
Lemma app_one_length {A} (h : list A) x : length (h ++ [x]) = S (length h).
Proof. rewrite app_length. cbn. lia. Qed.

(** * Indexes *)
Lemma clip_within idx s : within idx s -> clip s idx = idx.
Proof. induction 1 as [|i d idx s L _ IH]; cbn; [reflexivity|]. rewrite IH. destruct (Nat.eqb_spec d 1); [f_equal; lia|reflexivity]. Qed.
Lemma within_length idx s : within idx s -> length idx = length s. Proof. induction 1; cbn; congruence. Qed.
Lemma stretched_same s idx : length idx = length s -> stretched s idx = clip s idx.
Proof. intros E. unfold stretched. rewrite E, Nat.sub_diag. reflexivity. Qed.
Lemma clip_length s : forall idx, length s = length idx -> length (clip s idx) = length idx.
Proof. induction s as [|d s IH]; intros [|i idx] E; cbn in *; try lia. rewrite IH by lia. reflexivity. Qed.
Lemma clip_first s k : forall idx, (length s <= length idx)%nat -> firstn (length s) (clip (s ++ repeat 1%nat k) idx) = clip s (firstn (length s) idx).
Proof. induction s as [|d s IH]; intros [|i idx] L; cbn in *; try lia; try reflexivity. f_equal. apply IH. lia. Qed.

(** * Broadcasting *)
Lemma bc_same s : bc s s = Some s.
Proof. induction s as [|d s IH]; cbn; [reflexivity|]. rewrite IH, Nat.eqb_refl. reflexivity. Qed.
Lemma broadcast_same s : broadcast s s = Some s.
Proof. unfold broadcast. rewrite bc_same. cbn. rewrite rev_involutive. reflexivity. Qed.
Lemma broadcast_left s : broadcast s [] = Some s.
Proof. unfold broadcast. cbn. destruct (rev s) eqn:E; cbn; [apply (f_equal (@rev nat)) in E; rewrite rev_involutive in E; subst; reflexivity|]. rewrite <- (rev_involutive s), E. reflexivity. Qed.
Lemma broadcast_right s : broadcast [] s = Some s.
Proof. unfold broadcast. cbn. rewrite rev_involutive. reflexivity. Qed.
Lemma bc_length a : forall b r, bc a b = Some r -> length r = Nat.max (length a) (length b).
Proof.
  induction a as [|x a IH]; intros [|y b] r H; cbn in *; try (injection H as <-; reflexivity).
  destruct (bc a b) as [q|] eqn:E; [|discriminate]. specialize (IH b q E). destruct (Nat.eqb x y); [injection H as <-; cbn; lia|]. destruct (Nat.eqb x 1); [injection H as <-; cbn; lia|]. destruct (Nat.eqb y 1); [injection H as <-; cbn; lia|discriminate].
Qed.
Lemma broadcast_length a b r : broadcast a b = Some r -> length r = Nat.max (length a) (length b).
Proof. unfold broadcast. destruct (bc (rev a) (rev b)) as [q|] eqn:E; [|discriminate]. intros H. injection H as <-. rewrite rev_length, (bc_length _ _ _ E), !rev_length. reflexivity. Qed.

(** * Arithmetic *)
Lemma arith_value f h a b h' v : arith f h a b = Ok (h', v) ->
  broadcast (shape_of h a) (shape_of h b) = Some (shape_of h' v) /\ (forall idx, within idx (shape_of h' v) -> read h' v idx = f (read h a idx) (read h b idx)) /\
  untouched h h' /\ (length h <= length h')%nat /\ match v with Ref k => (k < length h')%nat /\ (length h <= k)%nat | Num _ => True end.
Proof.
  assert (G : forall s, broadcast (shape_of h a) (shape_of h b) = Some s -> Ok (alloc h {| dt := Float64; shape := s; item := fun idx => f (read h a idx) (read h b idx) |}) = Ok (h', v) ->
    broadcast (shape_of h a) (shape_of h b) = Some (shape_of h' v) /\ (forall idx, within idx (shape_of h' v) -> read h' v idx = f (read h a idx) (read h b idx)) /\
    untouched h h' /\ (length h <= length h')%nat /\ match v with Ref k => (k < length h')%nat /\ (length h <= k)%nat | Num _ => True end).
  { intros s B H. rewrite B. clear B. injection H as <- <-. cbn [shape_of read]. rewrite fetch_new. cbn [shape item]. split; [reflexivity|]. split; [|split; [|split]].
    - intros idx W. rewrite stretched_same, clip_within by (assumption || apply within_length, W). reflexivity.
    - intros k L. apply fetch_old, L.
    - rewrite app_one_length. lia.
    - rewrite app_one_length. lia. }
  unfold arith. destruct a as [x|k], b as [y|l].
  - intros H. injection H as <- <-. cbn. split; [reflexivity|]. split; [reflexivity|]. split; [intros k _; reflexivity|]. split; [lia|exact I].
  - destruct (broadcast _ _) as [s|] eqn:E; [|discriminate]. intros H. exact (G s eq_refl H).
  - destruct (broadcast _ _) as [s|] eqn:E; [|discriminate]. intros H. exact (G s eq_refl H).
  - destruct (broadcast _ _) as [s|] eqn:E; [|discriminate]. intros H. exact (G s eq_refl H).
Qed.

(** * Parts of a Julian date *)
Definition said_arr (a : arr) (idx : list nat) : Q := item a (clip (shape a) (firstn (length (shape a)) idx)).
Lemma said_some h g a idx : given_arr h g = Some a -> said h g idx = said_arr a idx.
Proof. destruct g; cbn; [discriminate| |]; intros H; injection H as <-; reflexivity. Qed.
Definition at_ref (h : store) (v : value) (a : arr) : Prop := exists k, v = Ref k /\ (k < length h)%nat /\ fetch h k = a.
Lemma to_array_ref h g h' v : exists_in h g -> to_array h g = (h', v) -> untouched h h' /\ (length h <= length h')%nat /\
  match given_arr h g with None => exists x, g = GNum x /\ v = Num x | Some a => at_ref h' v a /\ shape a <> [] end.
Proof.
  intros X H. destruct g as [x|a|k]; cbn in *; injection H as <- <-.
  - split; [intros k _; reflexivity|]. split; [lia|]. eauto.
  - split; [intros k L; apply fetch_old, L|]. rewrite app_one_length. split; [lia|]. split; [|exact X]. exists (length h). rewrite app_one_length, fetch_new. split; [reflexivity|]. split; [lia|reflexivity].
  - split; [intros j _; reflexivity|]. split; [lia|]. split; [|apply X]. exists k. split; [reflexivity|]. split; [apply X|reflexivity].
Qed.
Lemma at_ref_read h v a idx : at_ref h v a -> length idx = length (shape a) -> read h v idx = said_arr a idx /\ shape_of h v = shape a.
Proof.
  intros (k & -> & _ & E) L. cbn. rewrite E. split; [|reflexivity]. rewrite stretched_same by exact L. unfold said_arr. rewrite <- L, firstn_all. reflexivity.
Qed.
Lemma at_ref_kept h h' v a : untouched h h' -> (length h <= length h')%nat -> at_ref h v a -> at_ref h' v a.
Proof. intros U L (k & -> & B & E). exists k. split; [reflexivity|]. split; [lia|]. rewrite (U k B). exact E. Qed.
Lemma add_dims_read a k idx : length idx = (length (shape a) + k)%nat -> said_arr (add_dims a k) idx = said_arr a idx.
Proof.
  intros L. unfold said_arr, add_dims. cbn [shape item]. rewrite app_length, repeat_length. rewrite <- L, firstn_all. rewrite clip_first by lia. reflexivity.
Qed.
Lemma full_like_read a x idx : dt a = Float64 \/ (exists z, x == inject_Z z) -> said_arr (full_like a x) idx == x.
Proof.
  intros H. unfold said_arr, full_like. cbn [item]. destruct (dt a); [|reflexivity]. destruct H as [H|[z H]]; [discriminate|].
  assert (E : qtrunc x = z).
  { unfold qtrunc. unfold Qeq in H. cbn in H. rewrite Z.mul_1_r in H. rewrite H. apply Z.quot_mul. discriminate. }
  rewrite E. symmetry. exact H.
Qed.
(** What the parts are, for a caller's arguments. *)
Definition part (h : store) (g : given) (n : nat) (h' : store) (v : value) : Prop :=
  length (shape_of h' v) = n /\ (forall idx, length idx = n -> read h' v idx == said h g idx) /\
  match v with Ref k => (k < length h')%nat | Num _ => True end.
Lemma part_of_ref h g n h' v a b : given_arr h g = Some a -> at_ref h' v b -> length (shape b) = n -> (forall idx, length idx = n -> said_arr b idx == said_arr a idx) -> part h g n h' v.
Proof.
  intros G R L E. assert (S : shape_of h' v = shape b) by (destruct R as (k & -> & _ & F); cbn; rewrite F; reflexivity).
  split; [rewrite S; exact L|]. split.
  - intros idx Li. rewrite (said_some h g a) by exact G. rewrite (proj1 (at_ref_read h' v b idx R ltac:(lia))). apply E, Li.
  - destruct R as (k & -> & B & _). exact B.
Qed.
Lemma reconcile_parts h jd f h' w fr : exists_in h jd -> exists_in h f -> no_loss h jd f -> normalize h jd (Some f) = (h', w, fr) ->
  part h jd (Nat.max (dims h jd) (dims h f)) h' w /\ part h f (Nat.max (dims h jd) (dims h f)) h' fr.
Proof.
  intros Xj Xf [L1 L2] H. unfold normalize in H. destruct (to_array h jd) as [h1 vj] eqn:Ej. destruct (to_array_ref h jd h1 vj Xj Ej) as (U1 & N1 & Rj).
  assert (Xf1 : exists_in h1 f). { destruct f; cbn in *; [exact I|exact Xf|]. destruct Xf as [B S]. rewrite (U1 a B). split; [lia|exact S]. }
  assert (Gf : given_arr h1 f = given_arr h f). { destruct f; cbn in *; try reflexivity. rewrite (U1 a); [reflexivity|apply Xf]. }
  destruct (to_array h1 f) as [h2 vf] eqn:Ef. destruct (to_array_ref h1 f h2 vf Xf1 Ef) as (U2 & N2 & Rf). rewrite Gf in Rf. unfold dims.
  destruct (given_arr h jd) as [a|] eqn:Gj; destruct (given_arr h f) as [b|] eqn:Gf'.
  - destruct Rj as [Rj _]. destruct Rf as [Rf _]. apply (at_ref_kept h1 h2 vj a U2 N2) in Rj. destruct Rj as (k & -> & Bk & Fk). destruct Rf as (l & -> & Bl & Fl). cbn [reconcile] in H. rewrite Fk, Fl in H.
    destruct (Nat.ltb_spec (length (shape a)) (length (shape b))) as [C|C].
    + assert (D : k <> l) by (intros ->; rewrite Fk in Fl; subst; lia). injection H as <- <- <-. rewrite Nat.max_r by lia. split.
      * apply (part_of_ref h jd _ _ _ a (add_dims a (length (shape b) - length (shape a)))); [exact Gj| | |].
        -- exists k. rewrite update_length, fetch_update by exact Bk. auto.
        -- cbn. rewrite app_length, repeat_length. lia.
        -- intros idx Li. rewrite add_dims_read by lia. reflexivity.
      * apply (part_of_ref h f _ _ _ b b); [exact Gf'| |reflexivity|reflexivity]. exists l. rewrite update_length, fetch_other by exact D. auto.
    + destruct (Nat.ltb_spec (length (shape b)) (length (shape a))) as [C'|C'].
      * assert (D : l <> k) by (intros ->; rewrite Fk in Fl; subst; lia). injection H as <- <- <-. rewrite Nat.max_l by lia. split.
        -- apply (part_of_ref h jd _ _ _ a a); [exact Gj| |reflexivity|reflexivity]. exists k. rewrite update_length, fetch_other by exact D. auto.
        -- apply (part_of_ref h f _ _ _ b (add_dims b (length (shape a) - length (shape b)))); [exact Gf'| | |].
           ++ exists l. rewrite update_length, fetch_update by exact Bl. auto.
           ++ cbn. rewrite app_length, repeat_length. lia.
           ++ intros idx Li. rewrite add_dims_read by lia. reflexivity.
      * injection H as <- <- <-. rewrite Nat.max_l by lia. split.
        -- apply (part_of_ref h jd _ _ _ a a); [exact Gj| |reflexivity|reflexivity]. exists k. auto.
        -- apply (part_of_ref h f _ _ _ b b); [exact Gf'| |lia|reflexivity]. exists l. auto.
  - destruct Rj as [Rj _]. destruct Rf as (x & -> & ->). apply (at_ref_kept h1 h2 vj a U2 N2) in Rj. destruct Rj as (k & -> & Bk & Fk). cbn [reconcile alloc] in H. rewrite Fk in H. injection H as <- <- <-. rewrite Nat.max_l by lia. split.
    + apply (part_of_ref h jd _ _ _ a a); [exact Gj| |reflexivity|reflexivity]. exists k. rewrite app_one_length, fetch_old by exact Bk. split; [reflexivity|]. split; [lia|exact Fk].
    + cbn [stores] in L1. assert (R : at_ref (h2 ++ [full_like a x]) (Ref (length h2)) (full_like a x)) by (exists (length h2); rewrite app_one_length, fetch_new; split; [reflexivity|]; split; [lia|reflexivity]).
      split; [cbn; rewrite fetch_new; reflexivity|]. split; [|rewrite app_one_length; lia]. intros idx Li. rewrite (proj1 (at_ref_read _ _ _ idx R Li)). apply full_like_read, L1.
  - destruct Rj as (x & -> & ->). destruct Rf as [Rf _]. destruct Rf as (l & -> & Bl & Fl). cbn [reconcile alloc] in H. rewrite Fl in H. injection H as <- <- <-. rewrite Nat.max_r by lia. split.
    + cbn [stores] in L2. assert (R : at_ref (h2 ++ [full_like b x]) (Ref (length h2)) (full_like b x)) by (exists (length h2); rewrite app_one_length, fetch_new; split; [reflexivity|]; split; [lia|reflexivity]).
      split; [cbn; rewrite fetch_new; reflexivity|]. split; [|rewrite app_one_length; lia]. intros idx Li. rewrite (proj1 (at_ref_read _ _ _ idx R Li)). apply full_like_read, L2.
    + apply (part_of_ref h f _ _ _ b b); [exact Gf'| |reflexivity|reflexivity]. exists l. rewrite app_one_length, fetch_old by exact Bl. split; [reflexivity|]. split; [lia|exact Fl].
  - destruct Rj as (x & -> & ->). destruct Rf as (y & -> & ->). cbn [reconcile] in H. injection H as <- <- <-. split; (split; [reflexivity|]; split; [intros idx _; reflexivity|exact I]).
Qed.
Lemma split_parts h jd h' w fr : exists_in h jd -> normalize h jd None = (h', w, fr) ->
  shape_of h' w = shape_of h' fr /\ length (shape_of h' w) = dims h jd /\ (forall idx, length idx = dims h jd -> read h' w idx + read h' fr idx == said h jd idx) /\ untouched h h' /\
  match w, fr with Ref k, Ref l => (length h <= k < length h' /\ length h <= l < length h')%nat | Num _, Num _ => h' = h | _, _ => False end.
Proof.
  intros X H. unfold normalize in H. destruct (to_array h jd) as [h1 v] eqn:E. destruct (to_array_ref h jd h1 v X E) as (U & N & R). unfold dims.
  assert (Q1 : forall x, inject_Z (qdiv x 1) + qmod x 1 == x) by (intros x; unfold qmod; ring).
  destruct (given_arr h jd) as [a|] eqn:G.
  - destruct R as [(k & -> & B & F) _]. cbn [alloc] in H. rewrite F in H. injection H as <- <- <-. cbn [shape_of read].
    set (x1 := {| dt := Float64; shape := shape a; item := fun idx => inject_Z (qdiv (item a idx) 1) |}). set (x2 := {| dt := Float64; shape := shape a; item := fun idx => qmod (item a idx) 1 |}).
    rewrite fetch_new. rewrite (fetch_old (h1 ++ [x1])) by (rewrite app_one_length; lia). rewrite fetch_new. split; [reflexivity|]. split; [reflexivity|]. split; [|split].
    + intros idx L. unfold x1, x2. cbn [shape item]. rewrite Q1, (said_some h jd a) by exact G. unfold said_arr. rewrite stretched_same by exact L. rewrite <- L, firstn_all. reflexivity.
    + intros j Lj. rewrite !fetch_old by (rewrite ?app_one_length; lia). apply U, Lj.
    + rewrite !app_one_length. lia.
  - destruct R as (x & -> & ->). cbn in E. injection E as <-. injection H as <- <- <-. split; [reflexivity|]. split; [reflexivity|]. split; [intros idx _; apply Q1|]. split; [intros k _; reflexivity|reflexivity].
Qed.
