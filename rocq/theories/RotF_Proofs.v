(** Rotation matrices in floats. *)
From Coq Require Import ZArith Reals Lia Lra Psatz Bool.
From Coq.Floats Require Import SpecFloat.
From Flocq Require Import Core BinarySingleNaN.
From Verif Require Import Float64 Float64_Proofs Float_Time_Proofs Float_Time_Proofs4 CalF_Proofs2 SexaF_Proofs2 Real_Math Vector_Model Vector_Proofs Vector_Proofs2 Geo_Model Geo_Proofs Spin_Proofs2 SepF_Model SepF_Spec SepF_Proofs SepF_Proofs2 SphF_Spec RotF_Model RotF_Spec.
Open Scope R_scope.

(** ** Exact turns *)
Lemma length_eq a b : vx a * vx a + vy a * vy a + vz a * vz a = vx b * vx b + vy b * vy b + vz b * vz b -> vlength a = vlength b.
Proof. intros H. unfold vlength. rewrite H. reflexivity. Qed.
Lemma cs1 a : cos a * cos a + sin a * sin a = 1. Proof. pose proof (sin2_cos2 a) as H. unfold Rsqr in H. lra. Qed.
Lemma turn_length x a v : vlength (turn x a v) = vlength v.
Proof.
  apply length_eq. pose proof (cs1 a) as H. destruct x, v as [p q r]; cbn [turn vx vy vz]; set (c := cos a) in *; set (s := sin a) in *; clearbody c s.
  - transitivity (p * p + (c * c + s * s) * (q * q + r * r)); [ring|]. rewrite H. ring.
  - transitivity (q * q + (c * c + s * s) * (p * p + r * r)); [ring|]. rewrite H. ring.
  - transitivity (r * r + (c * c + s * s) * (p * p + q * q)); [ring|]. rewrite H. ring.
Qed.
Lemma turn_sub x a u v : turn x a (vsub u v) = vsub (turn x a u) (turn x a v).
Proof. destruct x; apply vec_eq; cbn; ring. Qed.
Lemma turn_back x a v : turn x (- a) (turn x a v) = v.
Proof.
  pose proof (cs1 a) as H. destruct x, v as [p q r]; cbn [turn vx vy vz]; rewrite cos_neg, sin_neg; set (c := cos a) in *; set (s := sin a) in *; clearbody c s; apply vec_eq; cbn [vx vy vz]; try reflexivity.
  - transitivity ((c * c + s * s) * q); [ring|]. rewrite H. ring.
  - transitivity ((c * c + s * s) * r); [ring|]. rewrite H. ring.
  - transitivity ((c * c + s * s) * p); [ring|]. rewrite H. ring.
  - transitivity ((c * c + s * s) * r); [ring|]. rewrite H. ring.
  - transitivity ((c * c + s * s) * p); [ring|]. rewrite H. ring.
  - transitivity ((c * c + s * s) * q); [ring|]. rewrite H. ring.
Qed.
Lemma swap_length v : vlength (swap v) = vlength v. Proof. apply length_eq. cbn. ring. Qed.
Lemma carried_length t : forall b v, vlength (carried t b v) = vlength v.
Proof.
  induction t as [x a|s IHs t IHt|s IHs t IHt u IHu|M k s IH|t IH|t IH]; intros b v; cbn [carried]; [apply turn_length| | |apply IH| |apply IH].
  - destruct b; [rewrite IHt, IHs|rewrite IHs, IHt]; reflexivity.
  - destruct b; [rewrite IHu, IHt, IHs|rewrite IHs, IHt, IHu]; reflexivity.
  - destruct b; [rewrite IH, swap_length|rewrite swap_length, IH]; reflexivity.
Qed.
Lemma carried_sub t : forall b u v, carried t b (vsub u v) = vsub (carried t b u) (carried t b v).
Proof.
  induction t as [x a|s IHs t IHt|s IHs t IHt t' IHt'|M k s IH|t IH|t IH]; intros b u v; cbn [carried]; [apply turn_sub| | |apply IH| |apply IH].
  - destruct b; [rewrite IHs, IHt|rewrite IHt, IHs]; reflexivity.
  - destruct b; [rewrite IHs, IHt, IHt'|rewrite IHt', IHt, IHs]; reflexivity.
  - destruct b; [change (swap (vsub u v)) with (vsub (swap u) (swap v)); apply IH|rewrite IH; reflexivity].
Qed.
Lemma carried_back t : forall b v, carried t (negb b) (carried t b v) = v.
Proof.
  induction t as [x a|s IHs t IHt|s IHs t IHt u IHu|M k s IH|t IH|t IH]; intros b v; cbn [carried].
  - destruct b; cbn [negb]; [rewrite <- (Ropp_involutive (SF2R radix2 a)) at 1|]; apply turn_back.
  - destruct b; cbn [negb]; [rewrite (IHt true)|rewrite (IHs false)]; [apply (IHs true)|apply (IHt false)].
  - destruct b; cbn [negb]; [rewrite (IHu true), (IHt true)|rewrite (IHs false), (IHt false)]; [apply (IHs true)|apply (IHu false)].
  - apply IH.
  - destruct b; cbn [negb]; [rewrite (IH true); destruct v; reflexivity|]. replace (swap (swap (carried t false v))) with (carried t false v) by (destruct (carried t false v); reflexivity). apply (IH false).
  - apply IH.
Qed.
Lemma swap_dot u v : dot (swap u) v = dot u (swap v). Proof. unfold dot, swap. cbn [vx vy vz]. ring. Qed.
Lemma carried_dot t : forall b u v, dot (carried t b u) v = dot u (carried t (negb b) v).
Proof.
  induction t as [x a|s IHs t IHt|s IHs t IHt t' IHt'|M k s IH|t IH|t IH]; intros b u v; cbn [carried].
  - destruct b, x; cbn [negb turn]; unfold dot; cbn [vx vy vz]; rewrite ?cos_neg, ?sin_neg; ring.
  - destruct b; cbn [negb]; [rewrite (IHt true), (IHs true)|rewrite (IHs false), (IHt false)]; reflexivity.
  - destruct b; cbn [negb]; [rewrite (IHt' true), (IHt true), (IHs true)|rewrite (IHs false), (IHt false), (IHt' false)]; reflexivity.
  - apply IH.
  - destruct b; cbn [negb]; [rewrite (IH true); apply swap_dot|rewrite swap_dot; apply (IH false)].
  - apply IH.
Qed.
Lemma carried_smul t : forall b k v, carried t b (smul k v) = smul k (carried t b v).
Proof.
  induction t as [x a|s IHs t IHt|s IHs t IHt t' IHt'|M n s IH|t IH|t IH]; intros b k v; cbn [carried].
  - destruct x; apply vec_eq; cbn; ring.
  - destruct b; [rewrite IHs, IHt|rewrite IHt, IHs]; reflexivity.
  - destruct b; [rewrite IHs, IHt, IHt'|rewrite IHt', IHt, IHs]; reflexivity.
  - apply IH.
  - destruct b; [change (swap (smul k v)) with (smul k (swap v)); apply IH|rewrite IH; reflexivity].
  - apply IH.
Qed.
Lemma carried_dist t b u v : vlength (vsub (carried t b u) (carried t b v)) = vlength (vsub u v).
Proof. rewrite <- carried_sub. apply carried_length. Qed.

(** ** Matrices that act nearly as a rotation *)
Definition acts (d : R) (A : mat) (F : vec -> vec) : Prop := forall v, vlength (vsub (mxv A v) (F v)) <= d * vlength v.
Definition rows_le (A : mat) (k : R) : Prop := vlength (r1 A) <= k /\ vlength (r2 A) <= k /\ vlength (r3 A) <= k.
Lemma transp_transp A : transp (transp A) = A. Proof. destruct A as [[] [] []]. reflexivity. Qed.
Lemma acts_length d A F v : acts d A F -> (forall v, vlength (F v) = vlength v) -> vlength (mxv A v) <= (1 + d) * vlength v.
Proof. intros H I. pose proof (by_difference (mxv A v) (F v)) as B. rewrite I in B. specialize (H v). lra. Qed.
Lemma unit_lengths : vlength (V3 1 0 0) = 1 /\ vlength (V3 0 1 0) = 1 /\ vlength (V3 0 0 1) = 1.
Proof. unfold vlength. cbn [vx vy vz]. repeat split; (replace (_ + _ + _) with 1 by ring; apply sqrt_1). Qed.
Lemma acts_rows d A F : acts d (transp A) F -> (forall v, vlength (F v) = vlength v) -> rows_le A (1 + d).
Proof.
  intros H I. destruct unit_lengths as (E1 & E2 & E3). pose proof (acts_length d _ F (V3 1 0 0) H I) as H1. pose proof (acts_length d _ F (V3 0 1 0) H I) as H2. pose proof (acts_length d _ F (V3 0 0 1) H I) as H3. rewrite E1 in H1. rewrite E2 in H2. rewrite E3 in H3. rewrite Rmult_1_r in H1, H2, H3.
  destruct A as [[a b c] [e f g] [p q r]]. unfold mxv, transp, dot in H1, H2, H3. cbn [r1 r2 r3 vx vy vz] in H1, H2, H3. repeat split; cbn [r1 r2 r3].
  - replace (V3 a b c) with (V3 (a * 1 + e * 0 + p * 0) (b * 1 + f * 0 + q * 0) (c * 1 + g * 0 + r * 0)) by (f_equal; ring). exact H1.
  - replace (V3 e f g) with (V3 (a * 0 + e * 1 + p * 0) (b * 0 + f * 1 + q * 0) (c * 0 + g * 1 + r * 0)) by (f_equal; ring). exact H2.
  - replace (V3 p q r) with (V3 (a * 0 + e * 0 + p * 1) (b * 0 + f * 0 + q * 1) (c * 0 + g * 0 + r * 1)) by (f_equal; ring). exact H3.
Qed.
Lemma abs_dot a b : Rabs (vx a * vx b) + Rabs (vy a * vy b) + Rabs (vz a * vz b) <= vlength a * vlength b.
Proof.
  rewrite !Rabs_mult. pose proof (cauchy (V3 (Rabs (vx a)) (Rabs (vy a)) (Rabs (vz a))) (V3 (Rabs (vx b)) (Rabs (vy b)) (Rabs (vz b)))) as C. cbn [vx vy vz] in C.
  assert (L : forall w, vlength (V3 (Rabs (vx w)) (Rabs (vy w)) (Rabs (vz w))) = vlength w). { intros w. apply length_eq. cbn [vx vy vz]. assert (S : forall t, Rabs t * Rabs t = t * t) by (intros t; rewrite <- Rabs_mult; apply Rabs_pos_eq, Rle_0_sqr). rewrite !S. reflexivity. }
  rewrite !L in C. exact C.
Qed.
Lemma three_le a b c k : 0 <= k -> Rabs a <= k -> Rabs b <= k -> Rabs c <= k -> vlength (V3 a b c) <= 1.7321 * k.
Proof.
  intros K A B C. apply length_le; [lra|]. cbn [vx vy vz]. assert (S : forall t, Rabs t <= k -> t * t <= k * k). { intros t T. apply Rabs_le_inv in T. nra. } pose proof (S a A). pose proof (S b B). pose proof (S c C). pose proof (Rmult_le_pos k k K K). lra.
Qed.
Lemma sum_le v : Rabs (vx v) + Rabs (vy v) + Rabs (vz v) <= 1.7321 * vlength v.
Proof.
  pose proof (abs_dot v (V3 1 1 1)) as H. cbn [vx vy vz] in H. rewrite !Rmult_1_r in H. pose proof (three_le 1 1 1 1 ltac:(lra)) as T. rewrite Rabs_R1 in T. specialize (T ltac:(lra) ltac:(lra) ltac:(lra)). pose proof (vlength_pos v) as P. apply Rle_trans with (1 := H). rewrite Rmult_comm. apply Rmult_le_compat_r; lra.
Qed.
Definition entries_le (E : mat) (g : R) : Prop :=
  let le v := Rabs (vx v) <= g /\ Rabs (vy v) <= g /\ Rabs (vz v) <= g in le (r1 E) /\ le (r2 E) /\ le (r3 E).
Lemma row_dot r v g : 0 <= g -> Rabs (vx r) <= g -> Rabs (vy r) <= g -> Rabs (vz r) <= g -> Rabs (dot r v) <= g * (1.7321 * vlength v).
Proof.
  intros G X Y Z. unfold dot. apply Rle_trans with (g * (Rabs (vx v) + Rabs (vy v) + Rabs (vz v))); [|apply Rmult_le_compat_l; [exact G|apply sum_le]].
  apply Rle_trans with (1 := Rabs_triang _ _). apply Rle_trans with (Rabs (vx r * vx v) + Rabs (vy r * vy v) + Rabs (vz r * vz v)); [apply Rplus_le_compat_r, Rabs_triang|]. rewrite !Rabs_mult, !Rmult_plus_distr_l. repeat apply Rplus_le_compat; (apply Rmult_le_compat_r; [apply Rabs_pos|assumption]).
Qed.
Lemma small_matrix E g v : 0 <= g -> entries_le E g -> vlength (mxv E v) <= 3.001 * g * vlength v.
Proof.
  intros G ((A1 & A2 & A3) & (B1 & B2 & B3) & (C1 & C2 & C3)). pose proof (vlength_pos v) as P. assert (GV : 0 <= g * vlength v) by (apply Rmult_le_pos; assumption).
  apply Rle_trans with (1.7321 * (g * (1.7321 * vlength v))); [|lra]. apply three_le; [lra| | |]; apply row_dot; assumption.
Qed.
Definition msub (A B : mat) : mat := M3 (vsub (r1 A) (r1 B)) (vsub (r2 A) (r2 B)) (vsub (r3 A) (r3 B)).
Lemma mxv_msub A B v : mxv (msub A B) v = vsub (mxv A v) (mxv B v). Proof. apply vec_eq; cbn; unfold dot; cbn; ring. Qed.
Lemma mxv_mxm A B v : mxv (mxm A B) v = mxv A (mxv B v). Proof. destruct A as [[a b c] [d e f] [g h i]], B as [[a' b' c'] [d' e' f'] [g' h' i']], v as [x y z]. unfold mxv, mxm, transp, dot. cbn [r1 r2 r3 vx vy vz]. f_equal; ring. Qed.
Lemma transp_mxm A B : transp (mxm A B) = mxm (transp B) (transp A). Proof. destruct A as [[a b c] [d e f] [g h i]], B as [[a' b' c'] [d' e' f'] [g' h' i']]. unfold mxm, transp, dot. cbn [r1 r2 r3 vx vy vz]. f_equal; f_equal; ring. Qed.
Lemma transp_msub A B : transp (msub A B) = msub (transp A) (transp B). Proof. reflexivity. Qed.
Lemma entries_transp E g : entries_le E g -> entries_le (transp E) g. Proof. unfold entries_le, transp. cbn. tauto. Qed.
Lemma acts_product da db g A B C Fa Fb : 0 <= da -> 0 <= db -> 0 <= g -> acts da A Fa -> acts db B Fb -> (forall v, vlength (Fb v) = vlength v) -> (forall u v, vlength (vsub (Fa u) (Fa v)) = vlength (vsub u v)) ->
  entries_le (msub C (mxm A B)) g -> acts (da + db + da * db + 3.001 * g) C (fun v => Fa (Fb v)).
Proof.
  intros Da Db G HA HB IB IA E v. pose proof (small_matrix _ g v G E) as H1. rewrite mxv_msub, mxv_mxm in H1. pose proof (HA (mxv B v)) as H2. pose proof (HB v) as H3. pose proof (acts_length db B Fb v HB IB) as H4. rewrite <- IA in H3.
  apply Rle_trans with (1 := via _ (mxv A (mxv B v)) _). pose proof (via (mxv A (mxv B v)) (Fa (mxv B v)) (Fa (Fb v))) as V. assert (da * vlength (mxv B v) <= da * ((1 + db) * vlength v)) by (apply Rmult_le_compat_l; assumption). lra.
Qed.

(** ** The matrix of a rotation *)
Definition axis_x : vec := V3 1 0 0. Definition axis_y : vec := V3 0 1 0. Definition axis_z : vec := V3 0 0 1.
Definition exact (t : turns) : mat := transp (M3 (carried t false axis_x) (carried t false axis_y) (carried t false axis_z)).
Lemma by_axes v : v = vsub (smul (vx v) axis_x) (vsub (smul (- vy v) axis_y) (smul (vz v) axis_z)).
Proof. destruct v as [x y z]. apply vec_eq; cbn; ring. Qed.
Lemma exact_acts t v : mxv (exact t) v = carried t false v.
Proof.
  rewrite (by_axes v) at 2. rewrite !carried_sub, !carried_smul. unfold exact. set (a := carried t false axis_x). set (b := carried t false axis_y). set (c := carried t false axis_z). apply vec_eq; unfold mxv, transp, dot; cbn [vsub smul r1 r2 r3 vx vy vz]; ring.
Qed.
Lemma exact_transp t v : mxv (transp (exact t)) v = carried t true v.
Proof.
  unfold exact. rewrite transp_transp. unfold mxv. cbn [r1 r2 r3]. rewrite !(carried_dot t false). cbn [negb]. set (w := carried t true v). destruct w as [x y z]. unfold dot. cbn [axis_x axis_y axis_z vx vy vz]. f_equal; ring.
Qed.
Lemma near_exact E A t g : 0 <= g -> A = exact t -> entries_le (msub E A) g -> acts (3.001 * g) E (carried t false) /\ acts (3.001 * g) (transp E) (carried t true).
Proof.
  intros G -> H. split; intros v.
  - rewrite <- exact_acts, <- mxv_msub. apply small_matrix; assumption.
  - rewrite <- exact_transp, <- mxv_msub, <- transp_msub. apply small_matrix; [exact G|]. apply entries_transp. exact H.
Qed.
