From Coq Require Import Reals Lra Lia Psatz.
From Coquelicot Require Import Coquelicot.
From Verif Require Import Real_Math Real_Math_Proofs Vector_Model Vector_Proofs Vector_Proofs2 Geo_Model Geo_Spec Geo_Proofs Kepler_Model Kepler_Spec Kepler_Proofs3 Kepler_Proofs4 Kepler_Proofs5.
Open Scope R_scope.

(** * Bounds of the functions *)
Lemma sinh_odd x : sinh (- x) = - sinh x.
Proof. unfold sinh. rewrite Ropp_involutive. field. Qed.
Lemma cosh_even x : cosh (- x) = cosh x.
Proof. unfold cosh. rewrite Ropp_involutive. field. Qed.
Lemma cosh_abs x : cosh (Rabs x) = cosh x.
Proof. unfold Rabs. destruct (Rcase_abs x); [apply cosh_even|reflexivity]. Qed.
Lemma sinh_nonneg x : 0 <= x -> 0 <= sinh x.
Proof. intros H. pose proof (sinh_ge x H). lra. Qed.
Lemma cosh_le a b : 0 <= a -> a <= b -> cosh a <= cosh b.
Proof.
  intros Ha H. destruct (Req_dec a b) as [->|N]; [lra|]. assert (a < b) by lra.
  destruct (MVT_cor2 cosh sinh a b) as (c & E & I); [assumption| |].
  - intros. apply is_derive_Reals. auto_derive; [trivial|ring].
  - assert (0 <= sinh c) by (apply sinh_nonneg; lra). nra.
Qed.
Lemma cosh_le_abs a b : Rabs a <= Rabs b -> cosh a <= cosh b.
Proof. intros H. rewrite <- (cosh_abs a), <- (cosh_abs b). apply cosh_le; [apply Rabs_pos|assumption]. Qed.
Lemma sinh_le_nonneg x : 0 <= x -> sinh x <= x * cosh x.
Proof.
  intros H. destruct (Req_dec x 0) as [->|N]; [rewrite sinh_zero; lra|]. assert (0 < x) by lra.
  destruct (MVT_cor2 sinh cosh 0 x) as (c & E & I); [assumption| |].
  - intros. apply is_derive_Reals. auto_derive; [trivial|ring].
  - rewrite sinh_zero in E. assert (cosh c <= cosh x) by (apply cosh_le; lra). nra.
Qed.
Lemma sinh_le x : Rabs (sinh x) <= Rabs x * cosh x.
Proof.
  destruct (Rle_dec 0 x) as [H|H].
  - rewrite (Rabs_right x) by lra. rewrite Rabs_right by (apply Rle_ge, sinh_nonneg; assumption). apply sinh_le_nonneg. assumption.
  - rewrite (Rabs_left x) by lra. rewrite <- (cosh_even x). rewrite <- Rabs_Ropp, <- sinh_odd. rewrite Rabs_right by (apply Rle_ge, sinh_nonneg; lra). apply sinh_le_nonneg. lra.
Qed.
Lemma cosh_double y : cosh y = 1 + 2 * (sinh (y / 2) * sinh (y / 2)).
Proof.
  unfold cosh, sinh. replace (exp y) with (exp (y / 2) * exp (y / 2)) by (rewrite <- exp_plus; f_equal; lra). replace (exp (- y)) with (exp (- (y / 2)) * exp (- (y / 2))) by (rewrite <- exp_plus; f_equal; lra).
  assert (E : exp (y / 2) * exp (- (y / 2)) = 1) by (rewrite <- exp_plus, Rplus_opp_r; apply exp_0). set (a := exp (y / 2)) in *. set (c := exp (- (y / 2))) in *. clearbody a c.
  replace (2 * ((a - c) / 2 * ((a - c) / 2))) with ((a * a + c * c) / 2 - a * c) by field. rewrite E. field.
Qed.
Lemma cosh_m1 y : 0 <= cosh y - 1 <= y * y / 2 * cosh y.
Proof.
  split; [pose proof (hyp_pos y); lra|]. rewrite cosh_double at 1. pose proof (sinh_le (y / 2)) as S. pose proof (hyp_sq (y / 2)) as Q. pose proof (cosh_double y) as D.
  set (s := sinh (y / 2)) in *. set (c := cosh (y / 2)) in *. assert (Cp : 1 <= c) by apply hyp_pos.
  assert (SS : s * s <= (y / 2) * (y / 2) * (c * c)).
  { replace (s * s) with (Rabs s * Rabs s) by (rewrite <- Rabs_mult; apply Rabs_right; nra). replace (y / 2 * (y / 2)) with (Rabs (y / 2) * Rabs (y / 2)) by (rewrite <- Rabs_mult; apply Rabs_right; nra).
    pose proof (Rabs_pos s). pose proof (Rabs_pos (y / 2)). apply Rle_trans with (Rabs (y / 2) * c * (Rabs (y / 2) * c)); [apply Rmult_le_compat; assumption|apply Req_le; ring]. }
  assert (cosh y <= cosh y) by lra. assert (c * c <= cosh y) by (rewrite D; nra).
  assert (0 <= y / 2 * (y / 2)) by nra. assert (y / 2 * (y / 2) * (c * c) <= y / 2 * (y / 2) * cosh y) by (apply Rmult_le_compat_l; assumption). lra.
Qed.
Lemma cos_m1 y : 0 <= 1 - cos y <= y * y / 2.
Proof.
  split; [pose proof (COS_bound y); lra|]. replace y with (2 * (y / 2)) at 1 by field. rewrite cos_2a_sin. pose proof (sin_lip' (y / 2) 0) as S. rewrite sin_0, !Rminus_0_r in S.
  assert (sin (y / 2) * sin (y / 2) <= (y / 2) * (y / 2)). { replace (sin (y / 2) * sin (y / 2)) with (Rabs (sin (y / 2)) * Rabs (sin (y / 2))) by (rewrite <- Rabs_mult; apply Rabs_right; nra). replace (y / 2 * (y / 2)) with (Rabs (y / 2) * Rabs (y / 2)) by (rewrite <- Rabs_mult; apply Rabs_right; nra).
    apply Rmult_le_compat; try apply Rabs_pos; assumption. }
  lra.
Qed.
Definition grow (f x : R) : R := cosh (sqrt (Rmax 0 (- f)) * x).
Lemma grow_ge f x : 1 <= grow f x. Proof. apply hyp_pos. Qed.
Lemma grow_le f x y : Rabs x <= y -> grow f x <= grow f y.
Proof.
  intros H. apply cosh_le_abs. rewrite !Rabs_mult. apply Rmult_le_compat_l; [apply Rabs_pos|]. pose proof (Rle_abs y). lra.
Qed.
Lemma G_bound f x : Rabs (G1 f x) <= Rabs x * grow f x /\ Rabs (G2 f x) <= x * x / 2 * grow f x.
Proof.
  pose proof (grow_ge f x) as Gr. pose proof (Rabs_pos x) as Ax.
  destruct (Rtotal_order f 0) as [H|[H|H]].
  - destruct (G_negative f x H) as (W & Wp & _ & E1 & E2 & _). rewrite E1, E2. unfold grow. rewrite Rmax_right by lra. set (w := sqrt (- f)) in *. split.
    + unfold Rdiv. rewrite Rabs_mult, (Rabs_right (/ w)) by (apply Rle_ge, Rlt_le, Rinv_0_lt_compat; assumption). apply Rmult_le_reg_r with w; [assumption|]. rewrite Rmult_assoc, Rinv_l, Rmult_1_r by lra.
      pose proof (sinh_le (w * x)) as S. rewrite Rabs_mult, (Rabs_right w) in S by lra. lra.
    + destruct (cosh_m1 (w * x)) as [L U]. assert (Wq : 0 < w * w) by nra. rewrite Rabs_right by (apply Rle_ge; unfold Rdiv; apply Rmult_le_pos; [assumption|apply Rlt_le, Rinv_0_lt_compat; assumption]).
      apply Rmult_le_reg_r with (w * w); [assumption|]. replace ((cosh (w * x) - 1) / (w * w) * (w * w)) with (cosh (w * x) - 1) by (field; lra). lra.
  - subst f. destruct (G_zero x) as (_ & -> & -> & _). split; [nra|]. rewrite Rabs_right by nra. nra.
  - destruct (G_positive f x H) as (W & Wp & _ & E1 & E2 & _). rewrite E1, E2. set (w := sqrt f) in *. split.
    + apply Rle_trans with (Rabs x); [|nra]. unfold Rdiv. rewrite Rabs_mult, (Rabs_right (/ w)) by (apply Rle_ge, Rlt_le, Rinv_0_lt_compat; assumption). apply Rmult_le_reg_r with w; [assumption|]. rewrite Rmult_assoc, Rinv_l, Rmult_1_r by lra.
      pose proof (sin_lip' (w * x) 0) as S. rewrite sin_0, !Rminus_0_r, Rabs_mult, (Rabs_right w) in S by lra. lra.
    + apply Rle_trans with (x * x / 2); [|nra]. destruct (cos_m1 (w * x)) as [L U]. assert (Wq : 0 < w * w) by nra. rewrite Rabs_right by (apply Rle_ge; unfold Rdiv; apply Rmult_le_pos; [assumption|apply Rlt_le, Rinv_0_lt_compat; assumption]).
      apply Rmult_le_reg_r with (w * w); [assumption|]. replace ((1 - cos (w * x)) / (w * w) * (w * w)) with (1 - cos (w * x)) by (field; lra). nra.
Qed.
Lemma G_bound_at f x y : Rabs x <= y -> Rabs (G1 f x) <= y * grow f y /\ Rabs (G2 f x) <= y * y / 2 * grow f y.
Proof.
  intros H. destruct (G_bound f x) as [L U]. pose proof (grow_le f x y H) as Gr. pose proof (grow_ge f x) as G1'. pose proof (Rabs_pos x) as Ax. split.
  - eapply Rle_trans; [exact L|]. apply Rmult_le_compat; lra.
  - eapply Rle_trans; [exact U|]. replace (x * x) with (Rabs x * Rabs x) by (rewrite <- Rabs_mult; apply Rabs_right; nra). apply Rmult_le_compat; [nra|lra|nra|lra].
Qed.
(** A bounded derivative. *)
Lemma lipschitz (g g' : R -> R) (L X x y : R) : (forall z, is_derive g z (g' z)) -> (forall z, Rabs z <= X -> Rabs (g' z) <= L) -> Rabs x <= X -> Rabs y <= X -> Rabs (g x - g y) <= L * Rabs (x - y).
Proof.
  intros D B Hx Hy. apply Rabs_le_between in Hx. apply Rabs_le_between in Hy.
  assert (W : forall a c, a < c -> - X <= a -> c <= X -> Rabs (g c - g a) <= L * Rabs (c - a)).
  { intros a c H Ha Hc. destruct (MVT_cor2 g g' a c H) as (z & E & I); [intros; apply is_derive_Reals, D|]. rewrite E, Rabs_mult. apply Rmult_le_compat_r; [apply Rabs_pos|]. apply B. apply Rabs_le. lra. }
  destruct (Rtotal_order x y) as [H|[H|H]].
  - rewrite Rabs_minus_sym, (Rabs_minus_sym x). apply W; lra.
  - subst. rewrite !Rminus_diag_eq, Rabs_R0 by reflexivity. lra.
  - apply W; lra.
Qed.

Section Solve.
Variables (pos vel : vec) (gm b q eps : R) (st : R -> R * R * R * R).
Hypothesis gm_pos : 0 < gm.
Hypothesis cross_ne : cross pos vel <> vzero.
Hypothesis facts : conic_facts pos vel gm (conic_of pos vel gm) b q.
Hypothesis st_close : forall x, close4 eps (st x) (exact x).
Notation k := (conic_of pos vel gm).
Notation A := (k_br0 k).
Notation B := (k_b2rv k).
Notation C := (k_bq k).
Notation K := (K pos vel gm).
Notation root := (root pos vel gm b q cross_ne facts).
Notation kepler := (kepler st k).
Lemma eps_pos : 0 <= eps.
Proof. pose proof (st_close 0) as H. destruct (st 0) as [[[a0 a1] a2] a3]. unfold close4, exact in H. destruct H as [H _]. pose proof (Rabs_pos (a0 - stumpff0 0)). lra. Qed.
Definition off (x : R) : R := (A + Rabs B * x + C * (x * x)) * eps.
Lemma Cp : 0 < C. Proof. apply (C_pos pos vel gm b q facts). Qed.
Lemma Ap : 0 < A. Proof. apply (A_pos pos vel gm b q cross_ne facts). Qed.
Lemma off_le x y : 0 <= x -> x <= y -> off x <= off y.
Proof.
  intros H0 H. pose proof Cp. pose proof Ap. pose proof (Rabs_pos B). pose proof eps_pos. unfold off. apply Rmult_le_compat_r; [assumption|]. apply Rplus_le_compat; [apply Rplus_le_compat_l, Rmult_le_compat_l; assumption|]. apply Rmult_le_compat_l; [lra|]. apply Rmult_le_compat; lra.
Qed.
Lemma off_pos x : 0 <= x -> 0 <= off x.
Proof. intros H. pose proof Cp. pose proof Ap. pose proof (Rabs_pos B). pose proof eps_pos. unfold off. apply Rmult_le_pos; [|assumption]. assert (0 <= Rabs B * x) by (apply Rmult_le_pos; assumption). assert (0 <= C * (x * x)) by (apply Rmult_le_pos; nra). lra. Qed.
Lemma tri3 u v w : Rabs (u + (v + w)) <= Rabs u + (Rabs v + Rabs w).
Proof. eapply Rle_trans; [apply Rabs_triang|]. apply Rplus_le_compat_l, Rabs_triang. Qed.
Lemma kepler_near x X : Rabs x <= X -> Rabs (kepler x - K x) <= X * off X.
Proof.
  intros Hx. pose proof (Rabs_pos x) as x0. pose proof Cp as cp. pose proof Ap as ap. pose proof (Rabs_pos B) as bp. pose proof eps_pos as ep. apply Rle_trans with (Rabs x * off (Rabs x)); [|apply Rmult_le_compat; [assumption|apply off_pos; assumption|assumption|apply off_le; assumption]].
  rewrite <- kepler_K. unfold Kepler_Model.kepler. pose proof (st_close (k_f k * x * x)) as H. unfold exact in *. destruct (st (k_f k * x * x)) as [[[a0 a1] a2] a3]. unfold close4 in H. destruct H as (_ & H1 & H2 & H3).
  set (c1 := stumpff1 _) in *. set (c2 := stumpff2 _) in *. set (c3 := stumpff3 _) in *. clearbody c1 c2 c3. unfold off. generalize dependent A. generalize dependent B. generalize dependent C. intros c cp b0 bp a ap.
  replace (x * (a * a1 + x * (b0 * a2 + x * c * a3)) - x * (a * c1 + x * (b0 * c2 + x * c * c3))) with (x * (a * (a1 - c1) + (b0 * x * (a2 - c2) + c * (x * x) * (a3 - c3)))) by ring.
  rewrite Rabs_mult. apply Rmult_le_compat_l; [assumption|]. eapply Rle_trans; [apply tri3|]. rewrite !Rabs_mult, (Rabs_right a), (Rabs_right c) by lra.
  assert (a * Rabs (a1 - c1) <= a * eps) by (apply Rmult_le_compat_l; lra). assert (0 <= Rabs b0 * Rabs x) by (apply Rmult_le_pos; assumption). assert (Rabs b0 * Rabs x * Rabs (a2 - c2) <= Rabs b0 * Rabs x * eps) by (apply Rmult_le_compat_l; assumption).
  assert (0 <= c * (Rabs x * Rabs x)) by (apply Rmult_le_pos; [lra|apply Rmult_le_pos; assumption]). assert (c * (Rabs x * Rabs x) * Rabs (a3 - c3) <= c * (Rabs x * Rabs x) * eps) by (apply Rmult_le_compat_l; assumption). lra.
Qed.
Lemma root_lt dt x : dt < K x -> root dt < x.
Proof.
  intros H. destruct (Rlt_dec (root dt) x) as [|N]; [assumption|exfalso]. rewrite <- (root_K pos vel gm b q cross_ne facts dt) in H. destruct (Req_dec x (root dt)) as [E|E].
  - rewrite <- E in H. lra.
  - assert (L : x < root dt) by lra. apply (K_incr pos vel gm b q cross_ne facts) in L. lra.
Qed.
Lemma root_gt dt x : K x < dt -> x < root dt.
Proof.
  intros H. destruct (Rlt_dec x (root dt)) as [|N]; [assumption|exfalso]. rewrite <- (root_K pos vel gm b q cross_ne facts dt) in H. destruct (Req_dec x (root dt)) as [E|E].
  - rewrite <- E in H. lra.
  - assert (L : root dt < x) by lra. apply (K_incr pos vel gm b q cross_ne facts) in L. lra.
Qed.
Lemma root_le dt x : dt <= K x -> root dt <= x.
Proof.
  intros [H|H]; [apply Rlt_le, root_lt; assumption|]. apply Req_le. apply (K_inj pos vel gm b q cross_ne facts). rewrite root_K. assumption.
Qed.
Lemma root_ge dt x : K x <= dt -> x <= root dt.
Proof.
  intros [H|H]; [apply Rlt_le, root_gt; assumption|]. apply Req_le. apply (K_inj pos vel gm b q cross_ne facts). rewrite root_K. assumption.
Qed.
(** From the value of the approximate function, the side of the root up to [h]. *)
Lemma side_low dt x X : Rabs x <= X -> kepler x <= dt -> x <= root dt + X * off X / C.
Proof.
  intros Hx H. pose proof (kepler_near x X Hx) as N. apply Rabs_le_between in N. pose proof Cp as cp. assert (Z : 0 <= X * off X / C). { pose proof (Rabs_pos x). apply Rmult_le_pos; [apply Rmult_le_pos; [lra|apply off_pos; lra]|apply Rlt_le, Rinv_0_lt_compat; assumption]. }
  destruct (Rle_dec x (root dt)) as [L|L]; [lra|]. assert (L' : root dt < x) by lra. pose proof (K_slope pos vel gm b q cross_ne facts _ _ L') as S. rewrite root_K in S.
  apply Rmult_le_reg_l with C; [assumption|]. rewrite Rmult_plus_distr_l. replace (C * (X * off X / C)) with (X * off X) by (field; lra). lra.
Qed.
Lemma side_high dt x X : Rabs x <= X -> dt <= kepler x -> root dt - X * off X / C <= x.
Proof.
  intros Hx H. pose proof (kepler_near x X Hx) as N. apply Rabs_le_between in N. pose proof Cp as cp. assert (Z : 0 <= X * off X / C). { pose proof (Rabs_pos x). apply Rmult_le_pos; [apply Rmult_le_pos; [lra|apply off_pos; lra]|apply Rlt_le, Rinv_0_lt_compat; assumption]. }
  destruct (Rle_dec (root dt) x) as [L|L]; [lra|]. assert (L' : x < root dt) by lra. pose proof (K_slope pos vel gm b q cross_ne facts _ _ L') as S. rewrite root_K in S.
  apply Rmult_le_reg_l with C; [assumption|]. unfold Rminus. rewrite Rmult_plus_distr_l. replace (C * - (X * off X / C)) with (- (X * off X)) by (field; lra). lra.
Qed.
Lemma bracket_some fuel bound dt (X0 := Rabs dt / C) (X := 2 * X0) (h := X * off X / C) : (1 <= fuel)%nat -> X <= bound -> off X <= C / 2 ->
  exists l u, bracket st fuel k bound dt = Some (l, u) /\ l <= root dt + h /\ root dt - h <= u /\ l <= u /\ u - l <= X0 /\ - X <= l /\ u <= X.
Proof.
  intros Hf Hb Ho. pose proof Cp as cp. pose proof (root_bound pos vel gm b q cross_ne facts dt) as RB. fold X0 in RB. pose proof (K_0 pos vel gm) as K0.
  assert (RK : K (root dt) = dt) by apply root_K. unfold bracket. set (r := root dt) in *.
  assert (Z : 0 <= X0). { apply Rmult_le_pos; [apply Rabs_pos|apply Rlt_le, Rinv_0_lt_compat; assumption]. }
  assert (CX : C * X0 = Rabs dt) by (unfold X0; field; lra). assert (XE : X = 2 * X0) by reflexivity. clearbody X0.
  assert (oX : 0 <= off X) by (apply off_pos; lra). assert (Hh : 0 <= h). { unfold h. apply Rmult_le_pos; [apply Rmult_le_pos; lra|apply Rlt_le, Rinv_0_lt_compat; assumption]. }
  assert (Eta : X * off X <= Rabs dt). { rewrite <- CX. apply Rle_trans with (X * (C / 2)); [apply Rmult_le_compat_l; lra|rewrite XE; lra]. }
  destruct fuel as [|fuel]; [lia|].
  assert (Nr : forall x, Rabs x <= X -> kepler x <= dt -> x <= r + h) by (intros x; apply side_low).
  assert (Nh : forall x, Rabs x <= X -> dt <= kepler x -> r - h <= x) by (intros x; apply side_high).
  destruct (Rlt_dec dt 0) as [D|D]; [|destruct (Rlt_dec 0 dt) as [D'|D']].
  - rewrite Rabs_left in CX, Eta by assumption. assert (Xc : dt / C = - X0). { apply Rmult_eq_reg_l with C; [|lra]. replace (C * (dt / C)) with dt by (field; lra). lra. } rewrite Xc. assert (0 < X0) by nra.
    assert (Cl : rclip (- X0) bound = - X0). { unfold rclip. destruct (Rlt_dec (- X0) (- bound)); [lra|]. destruct (Rlt_dec bound (- X0)); lra. } rewrite Cl.
    assert (r <= 0) by (apply root_le; lra). rewrite Rabs_left1 in RB by assumption. cbn [widen_past]. destruct (Rlt_dec dt (kepler (- X0))) as [L|L].
    + assert (Cl2 : rclip (- X0 * 2) bound = - X). { unfold rclip. destruct (Rlt_dec (- X0 * 2) (- bound)); [lra|]. destruct (Rlt_dec bound (- X0 * 2)); lra. } rewrite Cl2. destruct (Req_EM_T (- X) (- X0)) as [Q|_]; [lra|].
      assert (Lo : kepler (- X) <= dt). { pose proof (kepler_near (- X) X ltac:(rewrite Rabs_Ropp, Rabs_right; lra)) as N. apply Rabs_le_between in N. pose proof (K_slope pos vel gm b q cross_ne facts (- X) (- X0) ltac:(lra)) as S1. pose proof (K_slope pos vel gm b q cross_ne facts (- X0) 0 ltac:(lra)) as S2. rewrite K0 in S2. assert (E1 : C * (- X0 - - X) = C * X0) by (rewrite XE; ring). lra. }
      exists (- X), (- X0). replace (- X0 * 2) with (- X) by lra. assert (r - h <= - X0) by (apply Nh; [rewrite Rabs_Ropp, Rabs_right; lra|lra]).
      destruct fuel as [|fuel]; cbn [widen_past]; (destruct (Rlt_dec dt (kepler (- X))); [lra|]); repeat split; lra.
    + exists (- X0), 0. repeat split; try lra. 
  - rewrite Rabs_right in CX, Eta by lra. assert (Xc : dt / C = X0). { apply Rmult_eq_reg_l with C; [|lra]. replace (C * (dt / C)) with dt by (field; lra). lra. } rewrite Xc. assert (0 < X0) by nra.
    assert (Cl : rclip X0 bound = X0). { unfold rclip. destruct (Rlt_dec X0 (- bound)); [lra|]. destruct (Rlt_dec bound X0); lra. } rewrite Cl.
    assert (0 <= r) by (apply root_ge; lra). rewrite Rabs_right in RB by lra. cbn [widen_future]. destruct (Rlt_dec (kepler X0) dt) as [L|L].
    + assert (Cl2 : rclip (X0 * 2) bound = X). { unfold rclip. destruct (Rlt_dec (X0 * 2) (- bound)); [lra|]. destruct (Rlt_dec bound (X0 * 2)); lra. } rewrite Cl2. destruct (Req_EM_T X X0) as [Q|_]; [lra|].
      assert (Lo : dt <= kepler X). { pose proof (kepler_near X X ltac:(rewrite Rabs_right; lra)) as N. apply Rabs_le_between in N. pose proof (K_slope pos vel gm b q cross_ne facts X0 X ltac:(lra)) as S1. pose proof (K_slope pos vel gm b q cross_ne facts 0 X0 ltac:(lra)) as S2. rewrite K0 in S2. assert (E1 : C * (X - X0) = C * X0) by (rewrite XE; ring). lra. }
      exists X0, X. replace (X0 * 2) with X by lra. assert (X0 <= r + h) by (apply Nr; [rewrite Rabs_right; lra|lra]).
      destruct fuel as [|fuel]; cbn [widen_future]; (destruct (Rlt_dec (kepler X) dt); [lra|]); repeat split; lra.
    + exists 0, X0. repeat split; lra.
  - assert (dt = 0) by lra. assert (R0 : r = 0). { apply (K_inj pos vel gm b q cross_ne facts). lra. }
    exists 0, 0. rewrite R0. repeat split; lra.
Qed.
Lemma middle_in l u : l <= u -> middle l u = (l + u) / 2.
Proof. intros H. unfold middle. destruct (Rle_dec l u); lra. Qed.
Lemma bisect_ok W X dt fuel (h := X * off X / C) : forall l u lc mc, 0 <= W -> 0 <= X -> - X <= l -> u <= X -> l <= root dt + h -> root dt - h <= u -> l <= u -> u - l <= W / 2 ^ lc ->
  (mc = 1000 /\ 1064 - lc <= fuel \/ mc = 64 /\ 64 - lc <= fuel)%nat ->
  exists x, bisect st fuel k dt l u (middle l u) lc mc = Some x /\ Rabs (x - root dt) <= W / 2 ^ 65 + h /\ l <= x <= u.
Proof.
  induction fuel as [|fuel IH]; intros l u lc mc HW HX Bl Bu Il Iu Lu Wd Fu; rewrite middle_in by lra; set (m := (l + u) / 2).
  all: assert (W0 : 0 <= W / 2 ^ 65) by (apply Rmult_le_pos; [assumption|apply Rlt_le, Rinv_0_lt_compat, pow_lt; lra]).
  all: assert (Stop : forall n, (64 <= n)%nat -> u - l <= W / 2 ^ n -> Rabs (m - root dt) <= W / 2 ^ 65 + h).
  1, 3: intros n Hn Wn; assert (W / 2 ^ n <= W / 2 ^ 64) by (apply Rmult_le_compat_l; [assumption|]; apply Rinv_le_contravar; [apply pow_lt; lra|apply Rle_pow; [lra|assumption]]);
    assert (W64 : W / 2 ^ 65 = W / 2 ^ 64 / 2) by (replace (2 ^ 65) with (2 * 2 ^ 64) by reflexivity; field; apply pow_nonzero; lra); apply Rabs_le; unfold m; lra.
  all: assert (Same : l = u -> Rabs (m - root dt) <= W / 2 ^ 65 + h).
  1, 3: intros E; apply Rabs_le; unfold m; lra.
  all: assert (Im : l <= m <= u) by (unfold m; lra).
  all: cbn [bisect]; destruct (Rlt_dec l m) as [L1|L1]; [|exists m; repeat split; try lra; apply Same; unfold m in *; lra].
  all: destruct (Rlt_dec m u) as [L2|L2]; [|exists m; repeat split; try lra; apply Same; unfold m in *; lra].
  all: destruct (Nat.ltb_spec lc mc) as [Lc|Lc]; [|exists m; repeat split; try lra; apply (Stop lc); [lia|assumption]].
  - exfalso. lia.
  - assert (Am : Rabs m <= X) by (apply Rabs_le; lra). set (u' := if Rlt_dec (kepler m) dt then u else m). set (l' := if Rlt_dec dt (kepler m) then l else m).
    assert (Ij : l' <= root dt + h /\ root dt - h <= u' /\ l' <= u' /\ u' - l' <= (u - l) / 2 /\ l <= l' /\ u' <= u).
    { pose proof (side_low dt m X Am) as SL. pose proof (side_high dt m X Am) as SH. fold h in SL, SH. unfold l', u'. destruct (Rlt_dec (kepler m) dt) as [H|H].
      - destruct (Rlt_dec dt (kepler m)); [lra|]. specialize (SL ltac:(lra)). unfold m in *. lra.
      - specialize (SH ltac:(lra)). destruct (Rlt_dec dt (kepler m)); [unfold m in *; lra|]. specialize (SL ltac:(lra)). unfold m in *. lra. }
    destruct Ij as (I1 & I1' & I0 & I2 & I3 & I4). clearbody u' l'.
    assert (W2 : u' - l' <= W / 2 ^ S lc). { replace (W / 2 ^ S lc) with (W / 2 ^ lc / 2) by (cbn [pow]; field; apply pow_nonzero; lra). lra. }
    assert (Go : forall lc' mc', u' - l' <= W / 2 ^ lc' -> (mc' = 1000 /\ 1064 - lc' <= fuel \/ mc' = 64 /\ 64 - lc' <= fuel)%nat ->
      exists x, bisect st fuel k dt l' u' (middle l' u') lc' mc' = Some x /\ Rabs (x - root dt) <= W / 2 ^ 65 + h /\ l <= x <= u).
    { intros lc' mc' H1 H2. destruct (IH l' u' lc' mc' HW HX ltac:(lra) ltac:(lra) I1 I1' I0 H1 H2) as (x & E & Q & R). exists x. repeat split; try assumption; lra. }
    assert (W1 : u' - l' <= W / 2 ^ 1). { eapply Rle_trans; [exact W2|]. apply Rmult_le_compat_l; [assumption|]. apply Rinv_le_contravar; [lra|]. apply Rle_pow; [lra|lia]. }
    destruct (Nat.ltb_spec 64 mc) as [Hm|Hm].
    + destruct (Req_EM_T u' 0); [|destruct (Req_EM_T l' 0)]; apply Go; (assumption || lia).
    + apply Go; [assumption|lia].
Qed.
(** The root the code uses. *)
Lemma solved fuel bound dt (X := 2 * (Rabs dt / C)) : (1064 <= fuel)%nat -> X <= bound -> off X <= C / 2 ->
  exists l u x, bracket st fuel k bound dt = Some (l, u) /\ bisect st fuel k dt l u (middle l u) 0 1000 = Some x /\
    Rabs (x - root dt) <= X / 2 ^ 66 + X * off X / C /\ Rabs x <= X.
Proof.
  intros Hf Hb Ho. destruct (bracket_some fuel bound dt ltac:(lia) Hb Ho) as (l & u & E & I1 & I2 & I3 & Wd & Lo & Hi). pose proof Cp as cp.
  assert (Z : 0 <= Rabs dt / C). { apply Rmult_le_pos; [apply Rabs_pos|apply Rlt_le, Rinv_0_lt_compat; assumption]. }
  destruct (bisect_ok (Rabs dt / C) X dt fuel l u 0 1000 Z ltac:(unfold X; lra) Lo Hi I1 I2 I3) as (x & E2 & Q & R).
  - cbn [pow]. lra.
  - left. split; [reflexivity|]. lia.
  - exists l, u, x. split; [assumption|]. split; [assumption|]. split.
    + replace (X / 2 ^ 66) with (Rabs dt / C / 2 ^ 65); [assumption|]. unfold X. replace (2 ^ 66) with (2 * 2 ^ 65) by reflexivity. field. lra.
    + apply Rabs_le. fold X in Lo, Hi. lra.
Qed.
End Solve.
