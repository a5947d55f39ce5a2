From Coq Require Import Reals Lra Lia Psatz.
From Coquelicot Require Import Coquelicot.
From Verif Require Import Real_Math Real_Math_Proofs Vector_Model Vector_Proofs Vector_Proofs2 Geo_Model Geo_Spec Geo_Proofs Kepler_Model Kepler_Spec Kepler_Proofs3 Kepler_Proofs4 Kepler_Proofs5 Kepler_Proofs6.
Open Scope R_scope.

(** * A motion is determined by its state *)
Lemma vanish (D D' : R -> R) (L a t0 : R) : a <= t0 ->
  (forall t, is_derive D t (D' t)) -> (forall t, 0 <= D t) -> D t0 = 0 -> (forall t, a <= t <= t0 -> - (L * D t) <= D' t) -> D a = 0.
Proof.
  intros Ha Dd Dp D0 Db. destruct (Req_dec a t0) as [->|N]; [assumption|]. set (g := fun t => D t * exp (L * (t - t0))).
  destruct (MVT_cor2 g (fun t => (D' t + L * D t) * exp (L * (t - t0))) a t0) as (c & E & I); [lra| |].
  - intros c _. apply is_derive_Reals. unfold g. pose proof (Dd c) as Q. auto_derive; [repeat split; eexists; eassumption|]. change (fun x => D x) with D. rewrite (is_derive_unique _ _ _ Q). unfold Rminus. ring.
  - unfold g in E. rewrite D0, Rmult_0_l in E. pose proof (exp_pos (L * (a - t0))) as X1. pose proof (exp_pos (L * (c - t0))) as X2. pose proof (Db c ltac:(lra)) as Q. pose proof (Dp a) as Q2.
    assert (0 <= (D' c + L * D c) * exp (L * (c - t0)) * (t0 - a)) by (apply Rmult_le_pos; [apply Rmult_le_pos|]; lra).
    assert (D a * exp (L * (a - t0)) <= 0) by lra. assert (0 <= D a * exp (L * (a - t0))) by (apply Rmult_le_pos; lra).
    assert (Z : D a * exp (L * (a - t0)) = 0) by lra. apply Rmult_integral in Z. destruct Z; lra.
Qed.
Lemma vanish' (D D' : R -> R) (L a t0 : R) : t0 <= a ->
  (forall t, is_derive D t (D' t)) -> (forall t, 0 <= D t) -> D t0 = 0 -> (forall t, t0 <= t <= a -> D' t <= L * D t) -> D a = 0.
Proof.
  intros Ha Dd Dp D0 Db. rewrite <- (Ropp_involutive a).
  apply (vanish (fun t => D (- t)) (fun t => - D' (- t)) L (- a) (- t0)); [lra| | | |].
  - intros t. pose proof (Dd (- t)) as Q. auto_derive; [eexists; eassumption|]. change (fun x => D x) with D. rewrite (is_derive_unique _ _ _ Q). ring.
  - intros t. apply Dp.
  - rewrite Ropp_involutive. assumption.
  - intros t I. pose proof (Db (- t) ltac:(lra)). lra.
Qed.
Lemma six_derive (a b c d e g : R -> R) t a' b' c' d' e' g' : is_derive a t a' -> is_derive b t b' -> is_derive c t c' -> is_derive d t d' -> is_derive e t e' -> is_derive g t g' ->
  is_derive (fun s => a s * d s + b s * e s + c s * g s) t (a' * d t + b' * e t + c' * g t + (a t * d' + b t * e' + c t * g')).
Proof.
  intros A1 A2 A3 B1 B2 B3. auto_derive.
  - repeat split; eexists; eassumption.
  - change (fun x => a x) with a. change (fun x => b x) with b. change (fun x => c x) with c. change (fun x => d x) with d. change (fun x => e x) with e. change (fun x => g x) with g.
    rewrite (is_derive_unique _ _ _ A1), (is_derive_unique _ _ _ A2), (is_derive_unique _ _ _ A3), (is_derive_unique _ _ _ B1), (is_derive_unique _ _ _ B2), (is_derive_unique _ _ _ B3). ring.
Qed.
Lemma dot_derive (P Q : R -> vec) t dP dQ : vderiv P t dP -> vderiv Q t dQ -> is_derive (fun s => dot (P s) (Q s)) t (dot dP (Q t) + dot (P t) dQ).
Proof.
  intros (A1 & A2 & A3) (B1 & B2 & B3). apply is_derive_Reals in A1, A2, A3, B1, B2, B3. unfold dot.
  exact (six_derive (fun s => vx (P s)) (fun s => vy (P s)) (fun s => vz (P s)) (fun s => vx (Q s)) (fun s => vy (Q s)) (fun s => vz (Q s)) t _ _ _ _ _ _ A1 A2 A3 B1 B2 B3).
Qed.
Lemma vsub_deriv (P Q : R -> vec) t dP dQ : vderiv P t dP -> vderiv Q t dQ -> vderiv (fun s => vsub (P s) (Q s)) t (vsub dP dQ).
Proof.
  intros (A1 & A2 & A3) (B1 & B2 & B3). repeat split; cbn; apply derivable_pt_lim_minus; assumption.
Qed.
Lemma dot_ge a : 0 <= dot a a. Proof. unfold dot. nra. Qed.
Lemma dot_length a : dot a a = vlength a * vlength a. Proof. symmetry. apply vlength_sq. Qed.
Lemma away (P V : R -> vec) gm a c : newtonian gm P V -> a <= c -> exists m, 0 < m /\ forall t, a <= t <= c -> m <= vlength (P t).
Proof.
  intros N H. destruct (continuity_ab_min (fun t => dot (P t) (P t)) a c H) as (z & Z & I).
  - intros t _. destruct (N t) as (_ & D & _). apply derivable_continuous_pt. eexists. apply is_derive_Reals. apply (dot_derive P P t _ _ D D).
  - exists (vlength (P z)). split; [apply vlength_ne, (N z)|]. intros t It. apply Rsqr_incr_0_var; [|apply vlength_pos]. unfold Rsqr. rewrite <- !dot_length. apply Z. assumption.
Qed.
Lemma length_sub a c : Rabs (vlength a - vlength c) <= vlength (vsub a c).
Proof.
  pose proof (triangle (vsub a c) c) as T1. pose proof (triangle (vsub c a) a) as T2.
  replace (vadd (vsub a c) c) with a in T1 by (apply vec_ext; cbn; ring). replace (vadd (vsub c a) a) with c in T2 by (apply vec_ext; cbn; ring).
  replace (vlength (vsub c a)) with (vlength (vsub a c)) in T2 by (unfold vlength; f_equal; cbn; ring). apply Rabs_le. lra.
Qed.
Lemma force_lip m a c : 0 < m -> m <= vlength a -> m <= vlength c ->
  vlength (vsub (smul (/ vlength a ^ 3) a) (smul (/ vlength c ^ 3) c)) <= 4 / m ^ 3 * vlength (vsub a c).
Proof.
  intros Hm Ha Hc. set (p := vlength a) in *. set (r := vlength c) in *. set (d := vlength (vsub a c)). assert (Dp : 0 <= d) by apply vlength_pos.
  assert (E : vsub (smul (/ p ^ 3) a) (smul (/ r ^ 3) c) = vadd (smul (/ p ^ 3) (vsub a c)) (smul (/ p ^ 3 - / r ^ 3) c)) by (apply vec_ext; cbn; ring).
  rewrite E. eapply Rle_trans; [apply triangle|]. rewrite !smul_length. fold d r.
  pose proof (length_sub a c) as LS. fold p r d in LS. assert (Pi : 0 < / p <= / m) by (split; [apply Rinv_0_lt_compat; lra|apply Rinv_le_contravar; lra]). assert (Ri : 0 < / r <= / m) by (split; [apply Rinv_0_lt_compat; lra|apply Rinv_le_contravar; lra]).
  rewrite (Rabs_right (/ p ^ 3)) by (apply Rle_ge, Rlt_le, Rinv_0_lt_compat, pow_lt; lra).
  assert (F : Rabs (/ p ^ 3 - / r ^ 3) * r = Rabs (p - r) * (/ p ^ 3 + / p ^ 2 * / r + / p * / r ^ 2)).
  { replace (/ p ^ 3 - / r ^ 3) with ((p - r) * - ((/ p ^ 3 + / p ^ 2 * / r + / p * / r ^ 2) / r)) by (field; lra).
    rewrite Rabs_mult, Rabs_Ropp, Rmult_assoc. f_equal. rewrite Rabs_right; [field; lra|]. apply Rle_ge. apply Rmult_le_pos; [|lra].
    rewrite <- !pow_inv. assert (0 <= (/ p) ^ 3 /\ 0 <= (/ p) ^ 2 * / r /\ 0 <= / p * (/ r) ^ 2); [|lra]. repeat split; repeat apply Rmult_le_pos; try apply pow_le; lra. }
  rewrite F. rewrite <- !pow_inv. unfold Rdiv. rewrite <- !pow_inv. set (x := / p) in *. set (y := / r) in *. set (z := / m) in *. clearbody x y z.
  assert (x ^ 3 <= z ^ 3) by (apply pow_incr; lra). assert (X2 : 0 <= x ^ 2 <= z ^ 2) by (split; [apply pow_le; lra|apply pow_incr; lra]). assert (Y2 : 0 <= y ^ 2 <= z ^ 2) by (split; [apply pow_le; lra|apply pow_incr; lra]).
  assert (x ^ 2 * y <= z ^ 3) by (replace (z ^ 3) with (z ^ 2 * z) by ring; apply Rmult_le_compat; lra).
  assert (x * y ^ 2 <= z ^ 3) by (replace (z ^ 3) with (z * z ^ 2) by ring; apply Rmult_le_compat; lra).
  assert (0 <= x ^ 3) by (apply pow_le; lra). pose proof (Rabs_pos (p - r)).
  assert (Rabs (p - r) * (x ^ 3 + x ^ 2 * y + x * y ^ 2) <= d * (3 * z ^ 3)).
  { apply Rmult_le_compat; [assumption| |assumption|lra]. assert (0 <= x ^ 2 * y) by (apply Rmult_le_pos; lra). assert (0 <= x * y ^ 2) by (apply Rmult_le_pos; lra). lra. }
  assert (x ^ 3 * d <= z ^ 3 * d) by (apply Rmult_le_compat_r; assumption). lra.
Qed.
Lemma two_dot a c : Rabs (2 * dot a c) <= dot a a + dot c c.
Proof. pose proof (dot_ge (vadd a c)) as U. pose proof (dot_ge (vsub a c)) as W. unfold dot in *. cbn in *. apply Rabs_le. split; nra. Qed.
Lemma unique gm P V Q W t0 : 0 < gm -> newtonian gm P V -> newtonian gm Q W -> P t0 = Q t0 -> V t0 = W t0 -> forall t, P t = Q t /\ V t = W t.
Proof.
  intros Hg N1 N2 EP EV t.
  set (D := fun s => dot (vsub (P s) (Q s)) (vsub (P s) (Q s)) + dot (vsub (V s) (W s)) (vsub (V s) (W s))).
  set (acc := fun s => vsub (smul (- gm / vlength (P s) ^ 3) (P s)) (smul (- gm / vlength (Q s) ^ 3) (Q s))).
  set (D' := fun s => 2 * dot (vsub (P s) (Q s)) (vsub (V s) (W s)) + 2 * dot (vsub (V s) (W s)) (acc s)).
  assert (Dd : forall s, is_derive D s (D' s)).
  { intros s. destruct (N1 s) as (_ & A1 & A2). destruct (N2 s) as (_ & B1 & B2). pose proof (vsub_deriv _ _ _ _ _ A1 B1) as X1. pose proof (vsub_deriv _ _ _ _ _ A2 B2) as X2.
    pose proof (dot_derive _ _ _ _ _ X1 X1) as Y1. pose proof (dot_derive _ _ _ _ _ X2 X2) as Y2. assert (Y : is_derive D s ((dot (vsub (V s) (W s)) (vsub (P s) (Q s)) + dot (vsub (P s) (Q s)) (vsub (V s) (W s))) + (dot (acc s) (vsub (V s) (W s)) + dot (vsub (V s) (W s)) (acc s)))) by exact (is_derive_plus _ _ _ _ _ Y1 Y2).
    replace (D' s) with ((dot (vsub (V s) (W s)) (vsub (P s) (Q s)) + dot (vsub (P s) (Q s)) (vsub (V s) (W s))) + (dot (acc s) (vsub (V s) (W s)) + dot (vsub (V s) (W s)) (acc s))); [exact Y|].
    unfold D'. generalize (acc s) (vsub (V s) (W s)) (vsub (P s) (Q s)). intros u v w. unfold dot. ring. }
  assert (Dp : forall s, 0 <= D s) by (intros s; unfold D; pose proof (dot_ge (vsub (P s) (Q s))); pose proof (dot_ge (vsub (V s) (W s))); lra).
  assert (D0 : D t0 = 0) by (unfold D; rewrite EP, EV; unfold dot; cbn; ring).
  assert (LB : forall a c, a <= c -> exists L, forall s, a <= s <= c -> Rabs (D' s) <= L * D s).
  { intros a c H. destruct (away P V gm a c N1 H) as (m1 & M1 & A1). destruct (away Q W gm a c N2 H) as (m2 & M2 & A2).
    set (m := Rmin m1 m2). assert (Mp : 0 < m) by (unfold m; apply Rmin_pos; assumption). pose proof (Rmin_l m1 m2) as ML. pose proof (Rmin_r m1 m2) as MR. fold m in ML, MR.
    set (la := 4 / m ^ 3). exists (1 + gm + gm * (la * la)). intros s Is. specialize (A1 s Is). specialize (A2 s Is).
    pose proof (force_lip m (P s) (Q s) Mp ltac:(lra) ltac:(lra)) as F. fold la in F.
    set (w := vsub (smul (/ vlength (P s) ^ 3) (P s)) (smul (/ vlength (Q s) ^ 3) (Q s))) in *.
    assert (Ea : acc s = smul (- gm) w) by (unfold acc, w; apply vec_ext; cbn; unfold Rdiv; ring).
    assert (Fw : dot w w <= la * la * dot (vsub (P s) (Q s)) (vsub (P s) (Q s))). { rewrite !dot_length. pose proof (vlength_pos w). apply Rle_trans with (la * vlength (vsub (P s) (Q s)) * (la * vlength (vsub (P s) (Q s)))); [apply Rmult_le_compat; assumption|apply Req_le; ring]. }
    unfold D', D. rewrite Ea. set (u := vsub (P s) (Q s)) in *. set (v := vsub (V s) (W s)) in *.
    replace (2 * dot u v + 2 * dot v (smul (- gm) w)) with (2 * dot u v + - (gm * (2 * dot v w))) by (unfold dot; cbn; ring).
    eapply Rle_trans; [apply Rabs_triang|]. rewrite Rabs_Ropp, (Rabs_mult gm), (Rabs_right gm) by lra. pose proof (two_dot u v). pose proof (two_dot v w). pose proof (dot_ge u). pose proof (dot_ge v).
    assert (gm * Rabs (2 * dot v w) <= gm * (dot v v + dot w w)) by (apply Rmult_le_compat_l; lra). assert (gm * dot w w <= gm * (la * la * dot u u)) by (apply Rmult_le_compat_l; lra).
    assert (0 <= la * la * dot u u) by (apply Rmult_le_pos; [nra|assumption]). assert (0 <= gm * (la * la) * dot v v) by (apply Rmult_le_pos; [apply Rmult_le_pos; [lra|nra]|assumption]). assert (0 <= gm * dot u u) by (apply Rmult_le_pos; lra). lra. }
  assert (Dt : D t = 0).
  { destruct (Rle_dec t t0) as [H|H].
    - destruct (LB t t0 H) as (L & B). apply (vanish D D' L t t0 H Dd Dp D0). intros s Is. specialize (B s Is). apply Rabs_le_between in B. lra.
    - destruct (LB t0 t ltac:(lra)) as (L & B). apply (vanish' D D' L t t0 ltac:(lra) Dd Dp D0). intros s Is. specialize (B s Is). apply Rabs_le_between in B. lra. }
  unfold D in Dt. pose proof (dot_ge (vsub (P t) (Q t))) as Z1. pose proof (dot_ge (vsub (V t) (W t))) as Z2.
  assert (Zz : forall a c, dot (vsub a c) (vsub a c) = 0 -> a = c).
  { intros a c Z. assert (vsub a c = vzero). { apply vlength_zero. apply Rsqr_0_uniq. unfold Rsqr. rewrite <- dot_length. assumption. } apply vec_ext; [assert (vx (vsub a c) = 0) as Y|assert (vy (vsub a c) = 0) as Y|assert (vz (vsub a c) = 0) as Y]; try (rewrite H; reflexivity); cbn in Y; lra. }
  split; apply Zz; lra.
Qed.

Lemma quotient_near c y y' z z' Y dy dz : 0 < c -> c <= z -> c / 2 <= z' -> Rabs y <= Y -> Rabs (y' - y) <= dy -> Rabs (z' - z) <= dz ->
  Rabs (y' / z' - y / z) <= 2 * dy / c + 2 * Y * dz / (c * c).
Proof.
  intros cp Hz Hz' Hy Hd He. replace (y' / z' - y / z) with ((y' - y) * / z' + y * (z - z') * (/ z' * / z)) by (field; lra).
  assert (I1 : 0 < / z' <= 2 / c). { split; [apply Rinv_0_lt_compat; lra|]. replace (2 / c) with (/ (c / 2)) by (field; lra). apply Rinv_le_contravar; lra. }
  assert (I2 : 0 < / z <= / c) by (split; [apply Rinv_0_lt_compat; lra|apply Rinv_le_contravar; lra]). eapply Rle_trans; [apply Rabs_triang|]. rewrite !Rabs_mult, (Rabs_right (/ z')), (Rabs_right (/ z)) by lra.
  rewrite <- (Rabs_Ropp (z - z')). replace (- (z - z')) with (z' - z) by ring. pose proof (Rabs_pos y). pose proof (Rabs_pos (y' - y)). pose proof (Rabs_pos (z' - z)).
  assert (Rabs (y' - y) * / z' <= dy * (2 / c)) by (apply Rmult_le_compat; lra).
  assert (Rabs y * Rabs (z' - z) * (/ z' * / z) <= Y * dz * (2 / c * / c)).
  { apply Rmult_le_compat; [apply Rmult_le_pos; assumption|apply Rmult_le_pos; lra|apply Rmult_le_compat; assumption|apply Rmult_le_compat; lra]. }
  replace (2 * dy / c + 2 * Y * dz / (c * c)) with (dy * (2 / c) + Y * dz * (2 / c * / c)) by (field; lra). lra.
Qed.
(** * The result of [propagate] *)
Section Result.
Variables (pos vel : vec) (gm b q : R).
Hypothesis gm_pos : 0 < gm.
Hypothesis cross_ne : cross pos vel <> vzero.
Hypothesis facts : conic_facts pos vel gm (conic_of pos vel gm) b q.
Notation k := (conic_of pos vel gm).
Notation A := (k_br0 k).
Notation B := (k_b2rv k).
Notation C := (k_bq k).
Notation f := (k_f k).
Notation br := (br pos vel gm).
Notation root := (root pos vel gm b q cross_ne facts).
Lemma q_eq : q = closest pos vel gm.
Proof.
  pose proof (cf_hh _ _ _ _ _ _ facts) as H. pose proof (cf_e _ _ _ _ _ _ facts) as E. unfold closest. rewrite H, E. pose proof (vlength_pos (laplace pos vel gm)). field. split; lra.
Qed.
Lemma b_eq : b = sqrt (closest pos vel gm / gm).
Proof.
  rewrite <- q_eq. rewrite <- (cf_gm _ _ _ _ _ _ facts). replace (gm * (b * b) / gm) with (b * b) by (field; lra). symmetry. apply sqrt_square. pose proof (cf_b _ _ _ _ _ _ facts). lra.
Qed.
Lemma pace_eq : C = pace pos vel gm.
Proof. rewrite (cf_bq _ _ _ _ _ _ facts). unfold pace. rewrite <- b_eq, <- q_eq. reflexivity. Qed.
Lemma growth_eq x : grow f x = growth pos vel gm x.
Proof. unfold grow, growth. rewrite (cf_e _ _ _ _ _ _ facts). do 4 f_equal. ring. Qed.
Lemma near_moved dt x X d : Rabs (x - root dt) <= d -> Rabs x <= X -> Rabs (root dt) <= X ->
  vlength (vsub (fst (moved exact k dt x pos vel)) (fst (moved exact k dt (root dt) pos vel))) <= (q * X + C * vlength vel * (X * X / 2)) * grow f X * d /\
  vlength (vsub (snd (moved exact k dt x pos vel)) (snd (moved exact k dt (root dt) pos vel))) <= (vlength pos / C + (X * X / 2 / b + vlength vel * (b * vlength pos * X + b * b * Rabs (dot pos vel) * (X * X / 2)) / C) * grow f X) * d.
Proof.
  intros Hd Hx Hr. pose proof (C_pos pos vel gm b q facts) as cp. pose proof (A_pos pos vel gm b q cross_ne facts) as ap.
  pose proof (cf_b _ _ _ _ _ _ facts) as bp. pose proof (cf_q _ _ _ _ _ _ facts) as qp. pose proof (cf_bq _ _ _ _ _ _ facts) as CE. pose proof (cf_br0 _ _ _ _ _ _ facts) as AE. pose proof (cf_b2rv _ _ _ _ _ _ facts) as BE. assert (rp : 0 < vlength pos) by (apply (r0_pos pos vel cross_ne)).
  assert (X0 : 0 <= X) by (pose proof (Rabs_pos x); lra). assert (d0 : 0 <= d) by (pose proof (Rabs_pos (x - root dt)); lra). pose proof (grow_ge f X) as g1.
  pose proof (vlength_pos vel) as vp. set (g := grow f X) in *. set (M1 := X * g). set (M2 := X * X / 2 * g).
  assert (m1 : 0 <= M1) by (unfold M1; nra). assert (m2 : 0 <= M2) by (unfold M2; apply Rmult_le_pos; nra).
  assert (GB : forall z, Rabs z <= X -> Rabs (G1 f z) <= M1 /\ Rabs (G2 f z) <= M2) by (intros z Hz; exact (G_bound_at f z X Hz)).
  rewrite !(moved_eq pos vel gm b q cross_ne facts). cbn [fst snd]. split.
  - assert (L1 : Rabs (pc pos vel gm x - pc pos vel gm (root dt)) <= C / A * M1 * Rabs (x - root dt)).
    { apply (lipschitz (pc pos vel gm) (fun z => - (C / A) * G1 f z) _ X); [intros z; apply pc_derive| |assumption|assumption].
      intros z Hz. rewrite Rabs_mult, Rabs_Ropp, (Rabs_right (C / A)) by (apply Rle_ge, Rlt_le, Rdiv_lt_0_compat; assumption). apply Rmult_le_compat_l; [apply Rlt_le, Rdiv_lt_0_compat; assumption|apply GB; assumption]. }
    assert (L2 : Rabs (G3 f x - G3 f (root dt)) <= M2 * Rabs (x - root dt)).
    { apply (lipschitz (G3 f) (G2 f) _ X); [intros z; apply (G_derive f z)| |assumption|assumption]. intros z Hz. apply GB. assumption. }
    set (dp := pc pos vel gm x - pc pos vel gm (root dt)) in *. set (dg := G3 f x - G3 f (root dt)) in *.
    replace (vsub _ _) with (vadd (smul dp pos) (smul (- (C * dg)) vel)) by (unfold dp, dg; generalize C; intros; apply vec_ext; cbn; ring).
    eapply Rle_trans; [apply triangle|]. rewrite !smul_length, Rabs_Ropp, Rabs_mult, (Rabs_right C) by lra.
    assert (T1 : Rabs dp * vlength pos <= q * M1 * d).
    { apply Rle_trans with (C / A * M1 * d * vlength pos); [apply Rmult_le_compat_r; [lra|]; eapply Rle_trans; [exact L1|]; apply Rmult_le_compat_l; [apply Rmult_le_pos; [apply Rlt_le, Rdiv_lt_0_compat; assumption|assumption]|assumption]|].
      apply Req_le. rewrite CE, AE. field. lra. }
    assert (T2 : Rabs dg <= M2 * d) by (eapply Rle_trans; [exact L2|]; apply Rmult_le_compat_l; assumption).
    assert (T3 : C * Rabs dg * vlength vel <= C * (M2 * d) * vlength vel) by (apply Rmult_le_compat_r; [assumption|]; apply Rmult_le_compat_l; lra).
    unfold M1, M2 in *. lra.
  - assert (Br : forall z, C * C <= br z * br z) by (intros z; pose proof (br_ge pos vel gm b q cross_ne facts z); apply Rmult_le_compat; lra).
    assert (Dv : forall y z Y, Rabs y <= Y -> Rabs (y / (br z * br z)) <= Y / (C * C)).
    { intros y z Y Hy. specialize (Br z). assert (0 < C * C) by nra. unfold Rdiv. rewrite Rabs_mult, (Rabs_right (/ (br z * br z))) by (apply Rle_ge, Rlt_le, Rinv_0_lt_compat; lra). apply Rmult_le_compat; [apply Rabs_pos|apply Rlt_le, Rinv_0_lt_compat; lra|assumption|apply Rinv_le_contravar; lra]. }
    assert (L1 : Rabs (pcdot pos vel gm x - pcdot pos vel gm (root dt)) <= (C / A * (A + C * M2)) / (C * C) * Rabs (x - root dt)).
    { apply (lipschitz (pcdot pos vel gm) (fun z => - (C / A) * (A - C * G2 f z) / (br z * br z)) _ X); [intros z; apply (pcdot_derive pos vel gm b q cross_ne facts)| |assumption|assumption].
      intros z Hz. apply Dv. rewrite Rabs_mult, Rabs_Ropp, (Rabs_right (C / A)) by (apply Rle_ge, Rlt_le, Rdiv_lt_0_compat; assumption). apply Rmult_le_compat_l; [apply Rlt_le, Rdiv_lt_0_compat; assumption|].
      unfold Rminus. eapply Rle_trans; [apply Rabs_triang|]. rewrite Rabs_Ropp, Rabs_mult, (Rabs_right C), (Rabs_right A) by lra. apply Rplus_le_compat_l, Rmult_le_compat_l; [lra|apply GB; assumption]. }
    assert (L2 : Rabs (vcdot pos vel gm x - vcdot pos vel gm (root dt)) <= (C * (A * M1 + Rabs B * M2)) / (C * C) * Rabs (x - root dt)).
    { apply (lipschitz (vcdot pos vel gm) (fun z => - C * vc pos vel gm z / (br z * br z)) _ X); [intros z; apply (vcdot_derive pos vel gm b q cross_ne facts)| |assumption|assumption].
      intros z Hz. apply Dv. rewrite Rabs_mult, Rabs_Ropp, (Rabs_right C) by lra. apply Rmult_le_compat_l; [lra|]. unfold vc. eapply Rle_trans; [apply Rabs_triang|]. rewrite !Rabs_mult, (Rabs_right A) by lra.
      destruct (GB z Hz). apply Rplus_le_compat; apply Rmult_le_compat_l; try assumption; [lra|apply Rabs_pos]. }
    set (dp := pcdot pos vel gm x - pcdot pos vel gm (root dt)) in *. set (dv := vcdot pos vel gm x - vcdot pos vel gm (root dt)) in *.
    replace (vsub _ _) with (vadd (smul dp pos) (smul dv vel)) by (unfold dp, dv; apply vec_ext; cbn; ring).
    eapply Rle_trans; [apply triangle|]. rewrite !smul_length.
    assert (P1 : 0 <= (C / A * (A + C * M2)) / (C * C)). { apply Rmult_le_pos; [apply Rmult_le_pos; [apply Rlt_le, Rdiv_lt_0_compat; assumption|nra]|apply Rlt_le, Rinv_0_lt_compat; nra]. }
    assert (P2 : 0 <= (C * (A * M1 + Rabs B * M2)) / (C * C)). { pose proof (Rabs_pos B). apply Rmult_le_pos; [|apply Rlt_le, Rinv_0_lt_compat; nra]. apply Rmult_le_pos; [lra|]. apply Rplus_le_le_0_compat; apply Rmult_le_pos; lra. }
    assert (T1 : Rabs dp * vlength pos <= (vlength pos / C + M2 / b) * d).
    { apply Rle_trans with ((C / A * (A + C * M2)) / (C * C) * d * vlength pos); [apply Rmult_le_compat_r; [lra|]; eapply Rle_trans; [exact L1|]; apply Rmult_le_compat_l; assumption|].
      apply Req_le. rewrite CE, AE. field. lra. }
    assert (T2 : Rabs dv * vlength vel <= (A * M1 + Rabs B * M2) / C * vlength vel * d).
    { apply Rle_trans with ((C * (A * M1 + Rabs B * M2)) / (C * C) * d * vlength vel); [apply Rmult_le_compat_r; [lra|]; eapply Rle_trans; [exact L2|]; apply Rmult_le_compat_l; assumption|].
      apply Req_le. field. lra. }
    rewrite AE, BE, Rabs_mult, (Rabs_right (b * b)) in T2 by nra. eapply Rle_trans; [apply Rplus_le_compat; [exact T1|exact T2]|]. apply Req_le. unfold M1, M2. field. lra.
Qed.
(** The effect of approximate Stumpff functions. *)
Variables (eps : R) (st : R -> R * R * R * R).
Hypothesis st_close : forall x, close4 eps (st x) (exact x).
Lemma moved_near dt x X (o := off pos vel gm eps X) : Rabs x <= X -> o <= C / 2 ->
  vlength (vsub (fst (moved st k dt x pos vel)) (fst (moved exact k dt x pos vel))) <= (q * (X * X) + C * vlength vel * X ^ 3) * eps /\
  vlength (vsub (snd (moved st k dt x pos vel)) (snd (moved exact k dt x pos vel))) <=
    q * (2 * X / C * eps + 2 * (X * grow f X) * o / (C * C)) + vlength vel * (2 * (X * X) * eps + 2 * (X * X / 2 * grow f X) * o / C).
Proof.
  intros Hx Ho. pose proof (C_pos pos vel gm b q facts) as cp. pose proof (A_pos pos vel gm b q cross_ne facts) as ap. pose proof (eps_pos eps st st_close) as ep.
  pose proof (cf_bq _ _ _ _ _ _ facts) as CE. pose proof (cf_br0 _ _ _ _ _ _ facts) as AE. pose proof (cf_qovr0 _ _ _ _ _ _ facts) as QE. assert (rp : 0 < vlength pos) by (apply (r0_pos pos vel cross_ne)).
  pose proof (cf_b _ _ _ _ _ _ facts) as bp. pose proof (cf_q _ _ _ _ _ _ facts) as qp.
  assert (GB : Rabs (G1 f x) <= X * grow f X /\ Rabs (G2 f x) <= X * X / 2 * grow f X) by exact (G_bound_at f x X Hx).
  pose proof (br_ge pos vel gm b q cross_ne facts x) as BR. pose proof (Rabs_pos x) as x0. pose proof (vlength_pos vel) as vp.
  assert (o0 : 0 <= o) by (apply (off_pos pos vel gm b q eps st cross_ne facts st_close); lra).
  unfold o, off in *. clear o. unfold moved. unfold Kepler_Proofs5.br, G0, G1, G2 in *. pose proof (st_close (f * x * x)) as SC. unfold exact in *. destruct (st (f * x * x)) as [[[a0 a1] a2] a3]. unfold close4 in SC. destruct SC as (S0 & S1 & S2 & S3).
  set (c0 := stumpff0 _) in *. set (c1 := stumpff1 _) in *. set (c2 := stumpff2 _) in *. set (c3 := stumpff3 _) in *. clearbody c0 c1 c2 c3. cbn [fst snd].
  assert (QA : 0 < k_qovr0 k) by (rewrite QE; apply Rdiv_lt_0_compat; lra). assert (Qr : k_qovr0 k * vlength pos = q) by (rewrite QE; field; lra). clear QE CE AE.
  clear facts cross_ne gm_pos. generalize dependent (k_qovr0 k). generalize dependent A. generalize dependent B. generalize dependent C. intros c cp bb a Ho ap BR oo Q QA Qr.
  assert (Xe : 0 <= X) by lra. assert (X2 : Rabs x * Rabs x <= X * X) by (apply Rmult_le_compat; lra). assert (X3 : Rabs x ^ 3 <= X ^ 3) by (apply pow_incr; lra).
  split.
  - replace (vsub _ _) with (vadd (smul (- (Q * (x * x) * (a2 - c2))) pos) (smul (- (c * x ^ 3 * (a3 - c3))) vel)) by (apply vec_ext; cbn; ring).
    eapply Rle_trans; [apply triangle|]. rewrite !smul_length, !Rabs_Ropp, !Rabs_mult, <- RPow_abs, (Rabs_right Q), (Rabs_right c) by lra.
    assert (T1 : Q * (Rabs x * Rabs x) * Rabs (a2 - c2) * vlength pos <= q * (X * X) * eps).
    { rewrite <- Qr. replace (Q * vlength pos * (X * X) * eps) with (Q * (X * X) * eps * vlength pos) by ring. apply Rmult_le_compat_r; [lra|]. apply Rmult_le_compat; [|apply Rabs_pos| |assumption]; [apply Rmult_le_pos; [lra|apply Rmult_le_pos; assumption]|apply Rmult_le_compat_l; lra]. }
    assert (T2 : c * Rabs x ^ 3 * Rabs (a3 - c3) * vlength vel <= c * X ^ 3 * eps * vlength vel).
    { apply Rmult_le_compat_r; [assumption|]. apply Rmult_le_compat; [|apply Rabs_pos| |assumption]; [apply Rmult_le_pos; [lra|apply pow_le; assumption]|apply Rmult_le_compat_l; lra]. }
    lra.
  - set (b' := a * a0 + x * (bb * a1 + x * c * a2)). set (bx := a * c0 + x * (bb * c1 + x * c * c2)). assert (Ebx : bx = a * c0 + bb * (x * c1) + c * (x * x * c2)) by (unfold bx; ring). rewrite <- Ebx in BR.
    assert (Db : Rabs (b' - bx) <= (a + Rabs bb * X + c * (X * X)) * eps).
    { unfold b', bx. replace (_ - _) with (a * (a0 - c0) + (bb * x * (a1 - c1) + c * (x * x) * (a2 - c2))) by ring. eapply Rle_trans; [apply tri3|]. rewrite !Rabs_mult, (Rabs_right a), (Rabs_right c) by lra. pose proof (Rabs_pos bb).
      assert (a * Rabs (a0 - c0) <= a * eps) by (apply Rmult_le_compat_l; lra).
      assert (Rabs bb * Rabs x * Rabs (a1 - c1) <= Rabs bb * X * eps) by (apply Rmult_le_compat; [apply Rmult_le_pos; assumption|apply Rabs_pos|apply Rmult_le_compat_l; assumption|assumption]).
      assert (c * (Rabs x * Rabs x) * Rabs (a2 - c2) <= c * (X * X) * eps) by (apply Rmult_le_compat; [apply Rmult_le_pos; [lra|apply Rmult_le_pos; assumption]|apply Rabs_pos|apply Rmult_le_compat_l; lra|assumption]). lra. }
    set (o := (a + Rabs bb * X + c * (X * X)) * eps) in *. clearbody o b' bx. assert (Hb' : c / 2 <= b') by (apply Rabs_le_between in Db; lra).
    destruct GB as [GB1 GB2].
    assert (D1 : Rabs (x * a1 / b' - x * c1 / bx) <= 2 * (X * eps) / c + 2 * (X * grow f X) * o / (c * c)).
    { apply quotient_near; try assumption. replace (x * a1 - x * c1) with (x * (a1 - c1)) by ring. rewrite Rabs_mult. apply Rmult_le_compat; try apply Rabs_pos; assumption. }
    assert (D2 : Rabs (x * x * a2 / b' - x * x * c2 / bx) <= 2 * (X * X * eps) / c + 2 * (X * X / 2 * grow f X) * o / (c * c)).
    { apply quotient_near; try assumption. replace (x * x * a2 - x * x * c2) with (x * x * (a2 - c2)) by ring. rewrite !Rabs_mult. apply Rmult_le_compat; try apply Rabs_pos; try assumption. apply Rmult_le_pos; assumption. }
    replace (vsub _ _) with (vadd (smul (- (Q * (x * a1 / b' - x * c1 / bx))) pos) (smul (- (c * (x * x * a2 / b' - x * x * c2 / bx))) vel)) by (apply vec_ext; cbn; field; lra).
    eapply Rle_trans; [apply triangle|]. rewrite !smul_length, !Rabs_Ropp, (Rabs_mult Q), (Rabs_mult c), (Rabs_right Q), (Rabs_right c) by lra.
    apply Rplus_le_compat.
    + rewrite <- Qr. rewrite Rmult_assoc, (Rmult_comm (Rabs _)), <- Rmult_assoc. apply Rmult_le_compat_l; [rewrite Qr; lra|]. eapply Rle_trans; [exact D1|]. apply Req_le. field. lra.
    + rewrite (Rmult_comm _ (vlength vel)). apply Rmult_le_compat_l; [assumption|]. apply Rle_trans with (c * (2 * (X * X * eps) / c + 2 * (X * X / 2 * grow f X) * o / (c * c))); [apply Rmult_le_compat_l; lra|]. apply Req_le. field. lra.
Qed.
End Result.
(** Everything about [propagate] with Stumpff functions that are nearly exact. *)
Lemma propagate_checks st fuel bound pos vel t0 t gm : 0 < gm -> cross pos vel <> vzero ->
  propagate st fuel bound pos vel t0 t gm = match bracket st fuel (conic_of pos vel gm) bound (t - t0) with None => None | Some (l, u) => match bisect st fuel (conic_of pos vel gm) (t - t0) l u (middle l u) 0 1000 with None => None | Some x => Some (moved st (conic_of pos vel gm) (t - t0) x pos vel) end end.
Proof.
  intros Hg Hc. unfold propagate. destruct (Rle_dec gm 0); [lra|]. pose proof (st_r pos vel Hc) as Rp. 
  destruct (Req_EM_T (vlength vel) 0) as [Z|_]. { apply vlength_zero in Z. exfalso. apply Hc. rewrite Z. unfold cross, vzero. cbn. f_equal; ring. }
  destruct (Req_EM_T (vlength pos) 0); [lra|]. destruct (Req_EM_T (dot (crossp pos vel) (crossp pos vel)) 0) as [Z|_]; [|reflexivity].
  exfalso. apply Hc. apply vlength_zero. apply Rsqr_0_uniq. unfold Rsqr. rewrite <- dot_length. exact Z.
Qed.
Lemma length_via a c d : vlength (vsub a d) <= vlength (vsub c d) + vlength (vsub a c).
Proof. rewrite Rplus_comm. replace (vsub a d) with (vadd (vsub a c) (vsub c d)) by (apply vec_ext; cbn; ring). apply triangle. Qed.
Lemma propagate_follows st fuel bound pos vel t0 gm : (forall x, close4 (1 / 10 ^ 18) (st x) (exact x)) -> 0 < gm -> cross pos vel <> vzero -> (1064 <= fuel)%nat ->
  exists P V, newtonian gm P V /\ P t0 = pos /\ V t0 = vel /\
    forall t, 2 * reach pos vel gm (t - t0) <= bound -> drift pos vel gm (2 * reach pos vel gm (t - t0)) <= pace pos vel gm / 2 ->
    exists p v, propagate st fuel bound pos vel t0 t gm = Some (p, v) /\
       vlength (vsub p (P t)) <= position_slack pos vel gm (t - t0) /\ vlength (vsub v (V t)) <= velocity_slack pos vel gm (t - t0).
Proof.
  intros Hs Hg Hc Hf. destruct (conic_ok pos vel gm Hg Hc) as (b & q & F). pose proof (cf_b _ _ _ _ _ _ F) as bp.
  exists (path pos vel gm b q Hc F t0), (speed pos vel gm b q Hc F t0). split; [apply path_newtonian|]. split; [apply path_start|]. split; [apply speed_start|].
  intros t Hb Hd. rewrite (propagate_checks st fuel bound pos vel t0 t gm Hg Hc). set (dt := t - t0) in *. set (k := conic_of pos vel gm) in *. set (X := 2 * (Rabs dt / k_bq k)).
  assert (XE : 2 * reach pos vel gm dt = X) by (unfold X, reach, k; rewrite (pace_eq pos vel gm b q Hg F); reflexivity).
  assert (OE : drift pos vel gm X = off pos vel gm (1 / 10 ^ 18) X).
  { unfold drift, off. rewrite <- (b_eq pos vel gm b q Hg F), <- (pace_eq pos vel gm b q Hg F). fold k. rewrite (cf_br0 _ _ _ _ _ _ F), (cf_b2rv _ _ _ _ _ _ F), Rabs_mult, (Rabs_right (b * b)) by nra. unfold Rdiv. ring. }
  rewrite XE in Hb, Hd. rewrite OE, <- (pace_eq pos vel gm b q Hg F) in Hd. fold k in Hd.
  destruct (solved pos vel gm b q (1 / 10 ^ 18) st Hc F Hs fuel bound dt Hf Hb Hd) as (l & u & x & E1 & E2 & D & L). fold k X in E1, E2, D, L. rewrite E1, E2.
  destruct (moved st k dt x pos vel) as [p v] eqn:M. exists p, v. split; [reflexivity|].
  pose proof (root_bound pos vel gm b q Hc F dt) as RB. fold k in RB. assert (RX : Rabs (root pos vel gm b q Hc F dt) <= X) by (unfold X; pose proof (Rabs_pos (root pos vel gm b q Hc F dt)); lra).
  pose proof (near_moved pos vel gm b q Hc F dt x X _ D L RX) as [T1 T2]. fold k in T1, T2.
  pose proof (moved_near pos vel gm b q Hc F (1 / 10 ^ 18) st Hs dt x X L Hd) as [T3 T4]. fold k in T3, T4. rewrite M in T3, T4.
  assert (MR : moved exact k dt (root pos vel gm b q Hc F dt) pos vel = (path pos vel gm b q Hc F t0 t, speed pos vel gm b q Hc F t0 t)) by (unfold dt, k; apply (moved_root pos vel gm b q Hc F t0 t)).
  rewrite MR in T1, T2. cbn [fst snd] in *.
  unfold position_slack, velocity_slack, miss. cbv zeta. rewrite XE, OE. rewrite <- (b_eq pos vel gm b q Hg F), <- (pace_eq pos vel gm b q Hg F), <- (q_eq pos vel gm b q Hg F), <- (growth_eq pos vel gm b q F). fold k. split.
  - eapply Rle_trans; [apply length_via|]. apply Rplus_le_compat; [exact T1|]. eapply Rle_trans; [exact T3|]. apply Req_le. field.
  - eapply Rle_trans; [apply length_via|]. rewrite Rplus_assoc. apply Rplus_le_compat; [exact T2|]. eapply Rle_trans; [exact T4|]. apply Req_le. unfold Rdiv. ring.
Qed.
(** The same for every motion that starts in the given state. *)
Lemma propagate_near st fuel bound pos vel t0 gm P V : (forall x, close4 (1 / 10 ^ 18) (st x) (exact x)) -> 0 < gm -> cross pos vel <> vzero -> (1064 <= fuel)%nat ->
  newtonian gm P V -> P t0 = pos -> V t0 = vel -> forall t, 2 * reach pos vel gm (t - t0) <= bound -> drift pos vel gm (2 * reach pos vel gm (t - t0)) <= pace pos vel gm / 2 ->
    exists p v, propagate st fuel bound pos vel t0 t gm = Some (p, v) /\
       vlength (vsub p (P t)) <= position_slack pos vel gm (t - t0) /\ vlength (vsub v (V t)) <= velocity_slack pos vel gm (t - t0).
Proof.
  intros Hs Hg Hc Hf N E1 E2 t. destruct (propagate_follows st fuel bound pos vel t0 gm Hs Hg Hc Hf) as (P' & V' & N' & F1 & F2 & H). specialize (H t).
  destruct (unique gm P V P' V' t0 Hg N N' ltac:(congruence) ltac:(congruence) t) as [-> ->]. exact H.
Qed.
Lemma motion_exists pos vel t0 gm : 0 < gm -> cross pos vel <> vzero -> exists P V, newtonian gm P V /\ P t0 = pos /\ V t0 = vel.
Proof.
  intros Hg Hc. destruct (conic_ok pos vel gm Hg Hc) as (b & q & F). exists (path pos vel gm b q Hc F t0), (speed pos vel gm b q Hc F t0). split; [apply path_newtonian|]. split; [apply path_start|apply speed_start].
Qed.
Lemma motion_closest pos vel t0 gm P V : 0 < gm -> cross pos vel <> vzero -> newtonian gm P V -> P t0 = pos -> V t0 = vel -> forall t, closest pos vel gm <= vlength (P t).
Proof.
  intros Hg Hc N E1 E2 t. destruct (conic_ok pos vel gm Hg Hc) as (b & q & F).
  destruct (unique gm P V (path pos vel gm b q Hc F t0) (speed pos vel gm b q Hc F t0) t0 Hg N (path_newtonian _ _ _ _ _ Hc F t0) ltac:(rewrite path_start; assumption) ltac:(rewrite speed_start; assumption) t) as [-> _].
  rewrite <- (q_eq pos vel gm b q Hg F). apply path_perihelion.
Qed.
Lemma propagate_start st fuel bound pos vel t0 gm : 0 < gm -> cross pos vel <> vzero -> propagate st fuel bound pos vel t0 t0 gm = Some (pos, vel).
Proof.
  intros Hg Hc. rewrite propagate_checks by assumption. rewrite Rminus_diag_eq by reflexivity. unfold bracket. destruct (Rlt_dec 0 0); [lra|].
  assert (M : middle 0 0 = 0) by (unfold middle; destruct (Rle_dec 0 0); lra). rewrite M. assert (Bi : bisect st fuel (conic_of pos vel gm) 0 0 0 0 0 1000 = Some 0) by (destruct fuel; cbn [bisect]; (destruct (Rlt_dec 0 0); [lra|reflexivity])). rewrite Bi.
  unfold moved. destruct (st _) as [[[c0 c1] c2] c3]. f_equal. f_equal; apply vec_ext; cbn; ring.
Qed.
Lemma propagate_refuses st fuel bound pos vel t0 t gm : gm <= 0 \/ cross pos vel = vzero -> propagate st fuel bound pos vel t0 t gm = None.
Proof.
  intros H. unfold propagate. destruct (Rle_dec gm 0) as [|N]; [reflexivity|]. destruct H as [H|H]; [lra|]. destruct (Req_EM_T _ _); [reflexivity|]. destruct (Req_EM_T _ _); [reflexivity|].
  destruct (Req_EM_T _ _) as [|N2]; [reflexivity|]. exfalso. apply N2. change (crossp pos vel) with (cross pos vel). rewrite H. unfold dot, vzero. cbn. ring.
Qed.
(** Out of the bracket the code refuses rather than return something else. *)
