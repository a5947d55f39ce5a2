From Coq Require Import Reals Lra Lia Psatz ZArith List Bool.
From Coquelicot Require Import Coquelicot.
From Verif Require Import Real_Math Real_Math_Proofs Vector_Model Vector_Proofs Vector_Proofs2 Geo_Model Geo_Spec Geo_Proofs Kepler_Model Kepler_Spec Kepler_Proofs Kepler_Proofs2 Kepler_Proofs3 Kepler_Proofs4 Kepler_Proofs5 Kepler_Proofs6 Kepler_Proofs7 Kepler_Proofs8 Elements_Model.
Open Scope R_scope.

Lemma G2_large f x : f <= 0 -> x * x / 2 <= G2 f x.
Proof.
  intros f_neg.
  destruct (Rle_lt_or_eq_dec _ _ f_neg) as [H|H].
  - destruct (G_negative f x H) as (W & Wp & _ & _ & -> & _). set (w := sqrt (- f)) in *. rewrite cosh_double.
    assert (S : (w * x / 2) * (w * x / 2) <= sinh (w * x / 2) * sinh (w * x / 2)).
    { destruct (Rle_lt_dec 0 (w * x / 2)) as [L|L]; [pose proof (sinh_ge _ L); nra|]. pose proof (sinh_ge (- (w * x / 2)) ltac:(lra)) as G. rewrite sinh_odd in G. nra. }
    apply Rmult_le_reg_r with (w * w); [nra|]. replace ((1 + 2 * (sinh (w * x / 2) * sinh (w * x / 2)) - 1) / (w * w) * (w * w)) with (2 * (sinh (w * x / 2) * sinh (w * x / 2))) by (field; lra). nra.
  - rewrite H. destruct (G_zero x) as (_ & _ & -> & _). lra.
Qed.

(** * The motion in the universal variable *)
Section Motion.
Variables (pos vel : vec) (gm b q t0 : R) (P V : R -> vec).
Hypothesis gm_pos : 0 < gm.
Hypothesis cross_ne : cross pos vel <> vzero.
Hypothesis facts : conic_facts pos vel gm (conic_of pos vel gm) b q.
Hypothesis N : newtonian gm P V.
Hypothesis P0 : P t0 = pos.
Hypothesis V0 : V t0 = vel.
Let k := conic_of pos vel gm.
Let A := k_br0 k.
Let B := k_b2rv k.
Let C := k_bq k.
Let f := k_f k.
Let K := Kepler_Proofs5.K pos vel gm.
Let br := Kepler_Proofs5.br pos vel gm.
Let root := Kepler_Proofs5.root pos vel gm b q cross_ne facts.

Lemma root_of x : root (K x) = x.
Proof. apply (K_inj pos vel gm b q cross_ne facts). apply (root_K pos vel gm b q cross_ne facts). Qed.
Lemma motion_path t : P t = path pos vel gm b q cross_ne facts t0 t /\ V t = speed pos vel gm b q cross_ne facts t0 t.
Proof.
  apply (unique gm P V _ _ t0 gm_pos N (path_newtonian pos vel gm b q cross_ne facts t0)); [rewrite path_start|rewrite speed_start]; assumption.
Qed.
Lemma motion_x x : P (t0 + K x) = vadd (smul (1 - C / A * G2 f x) pos) (smul (A * G1 f x + B * G2 f x) vel) /\
  V (t0 + K x) = vadd (smul (- (C / A) * G1 f x / br x) pos) (smul (1 - C * G2 f x / br x) vel).
Proof.
  destruct (motion_path (t0 + K x)) as [-> ->]. unfold path, speed. replace (t0 + K x - t0) with (K x) by ring.
  fold root. rewrite root_of. split; reflexivity.
Qed.
Lemma motion_size x : vlength (P (t0 + K x)) = br x / b.
Proof. destruct (motion_x x) as [-> _]. apply (motion_length pos vel gm b q cross_ne facts). Qed.
Lemma reach_t t : exists x, t = t0 + K x.
Proof. exists (root (t - t0)). unfold K, root. rewrite (root_K pos vel gm b q cross_ne facts). ring. Qed.

Lemma never_back x : P (t0 + K x) = P t0 -> G2 f x = 0.
Proof.
  intros H. destruct (motion_x x) as [E _]. rewrite E, P0 in H.
  assert (Ap : 0 < A) by apply (A_pos pos vel gm b q cross_ne facts). assert (Cp : 0 < C) by apply (C_pos pos vel gm b q facts).
  set (u := 1 - C / A * G2 f x) in *. set (v := A * G1 f x + B * G2 f x) in *.
  assert (H2 : smul (u - 1) (cross pos vel) = vzero).
  { transitivity (cross (vsub (vadd (smul u pos) (smul v vel)) pos) vel); [apply vec_ext; unfold cross; cbn; ring|]. rewrite H. apply vec_ext; unfold cross; cbn; ring. }
  assert (U : u - 1 = 0).
  { destruct (Req_dec (u - 1) 0) as [|D]; [assumption|]. exfalso. apply cross_ne.
    assert (cross pos vel = smul (/ (u - 1)) (smul (u - 1) (cross pos vel))) by (apply vec_ext; cbn; field; assumption). rewrite H0, H2. apply vec_ext; cbn; ring. }
  unfold u in U. assert (Z : C / A * G2 f x = 0) by lra. assert (0 < C / A) by (apply Rdiv_lt_0_compat; assumption).
  apply Rmult_integral in Z. destruct Z; [lra|assumption].
Qed.

(** ** Closed orbits *)
Section Closed.
Hypothesis f_pos : 0 < f.
Let w := sqrt f.
Let X := 2 * PI / w.
Lemma w_pos : 0 < w. Proof. apply sqrt_lt_R0. assumption. Qed.
Lemma w_sq : w * w = f. Proof. apply sqrt_sqrt. lra. Qed.
Lemma full_K : K X = 2 * PI * C / (w * w * w).
Proof.
  pose proof w_pos as Wp. unfold K, Kepler_Proofs5.K. fold A B C k f. destruct (G_positive f X f_pos) as (_ & _ & _ & E1 & E2 & E3). fold w in E1, E2, E3.
  rewrite E1, E2, E3. replace (w * X) with (2 * PI) by (unfold X; field; lra). rewrite sin_2PI, cos_2PI. unfold X, C. field. lra.
Qed.
Let T := 2 * PI * C / (w * w * w).
Lemma T_pos : 0 < T.
Proof. pose proof w_pos. pose proof PI_RGT_0. pose proof (C_pos pos vel gm b q facts) as Cp. fold k C in Cp. unfold T. assert (0 < w * w * w) by (apply Rmult_lt_0_compat; nra). apply Rdiv_lt_0_compat; [nra|assumption]. Qed.
Lemma full_turn : P (t0 + T) = pos /\ V (t0 + T) = vel.
Proof.
  unfold T. rewrite <- full_K. destruct (motion_x X) as [-> ->]. pose proof w_pos as Wp.
  destruct (G_positive f X f_pos) as (_ & _ & _ & E1 & E2 & E3). fold w in E1, E2, E3.
  rewrite E1, E2. replace (w * X) with (2 * PI) by (unfold X; field; lra). rewrite sin_2PI, cos_2PI.
  assert (Bp : 0 < br X) by apply (br_pos pos vel gm b q cross_ne facts). assert (Ap : 0 < A) by apply (A_pos pos vel gm b q cross_ne facts).
  replace (1 - C / A * ((1 - 1) / (w * w))) with 1 by (field; split; lra). replace (A * (0 / w) + B * ((1 - 1) / (w * w))) with 0 by (field; lra).
  replace (- (C / A) * (0 / w) / br X) with 0 by (field; repeat split; lra). replace (1 - C * ((1 - 1) / (w * w)) / br X) with 1 by (field; split; lra).
  split; apply vec_ext; cbn; ring.
Qed.
Lemma shifted (s : R) : newtonian gm (fun t => P (t + s)) (fun t => V (t + s)).
Proof.
  intros t. destruct (N (t + s)) as (Ne & D1 & D2). split; [exact Ne|].
  assert (S : forall (F : R -> R) l, derivable_pt_lim F (t + s) l -> derivable_pt_lim (fun u => F (u + s)) t l).
  { intros F l D. apply is_derive_Reals. apply is_derive_Reals in D. evar_last; [apply (is_derive_comp F (fun u => u + s) t); [exact D|auto_derive; [trivial|reflexivity]]|]. unfold scal; cbn; unfold mult; cbn; ring. }
  split; [destruct D1 as (a & c & d)|destruct D2 as (a & c & d)]; (split; [|split]); [apply (S (fun u => vx (P u))) in a|apply (S (fun u => vy (P u))) in c|apply (S (fun u => vz (P u))) in d|apply (S (fun u => vx (V u))) in a|apply (S (fun u => vy (V u))) in c|apply (S (fun u => vz (V u))) in d]; assumption.
Qed.
Lemma periodic t : P (t + T) = P t /\ V (t + T) = V t.
Proof.
  destruct (unique gm (fun t => P (t + T)) (fun t => V (t + T)) P V t0 gm_pos (shifted T) N) with (t := t) as [E1 E2]; [rewrite P0; apply full_turn|rewrite V0; apply full_turn|]. split; assumption.
Qed.
Lemma periodic_Z t (n : Z) : P (t + IZR n * T) = P t /\ V (t + IZR n * T) = V t.
Proof.
  revert t. assert (Hn : forall (m : nat) t, P (t + INR m * T) = P t /\ V (t + INR m * T) = V t).
  { induction m as [|m IH]; intros t; [cbn; rewrite Rmult_0_l, Rplus_0_r; auto|]. rewrite S_INR. replace (t + (INR m + 1) * T) with ((t + INR m * T) + T) by ring.
    destruct (periodic (t + INR m * T)) as [-> ->]. apply IH. }
  intros t. destruct (Z_le_gt_dec 0 n) as [H|H].
  - rewrite <- (Z2Nat.id n H), <- INR_IZR_INZ. apply Hn.
  - destruct (Hn (Z.to_nat (- n)) (t + IZR n * T)) as [E1 E2]. rewrite INR_IZR_INZ, Z2Nat.id, opp_IZR in E1, E2 by lia.
    replace (t + IZR n * T + - IZR n * T) with t in E1, E2 by ring. split; symmetry; assumption.
Qed.
Lemma shortest s : 0 < s < T -> P (t0 + s) <> P t0.
Proof.
  intros Hs E. destruct (reach_t (t0 + s)) as [x Hx]. assert (Kx : K x = s) by lra. rewrite Hx in E. apply never_back in E.
  pose proof w_pos as Wp. destruct (G_positive f x f_pos) as (_ & _ & _ & _ & E2 & _). fold w in E2. rewrite E2 in E.
  assert (Cx : cos (w * x) = 1). { assert (0 < w * w) by nra. apply Rmult_eq_compat_r with (r := w * w) in E. unfold Rdiv in E. rewrite Rmult_assoc, Rinv_l in E by lra. lra. }
  assert (Xl : 0 < x). { destruct (Rlt_le_dec 0 x) as [|L]; [assumption|exfalso]. assert (K x <= 0). { destruct (Rle_lt_or_eq_dec _ _ L) as [L'|L']. - pose proof (K_incr pos vel gm b q cross_ne facts x 0 L') as I. rewrite (K_0 pos vel gm) in I. fold K in I. lra. - rewrite L'. unfold K. rewrite (K_0 pos vel gm). lra. } lra. }
  assert (Xu : x < X). { destruct (Rlt_le_dec x X) as [|L]; [assumption|exfalso]. assert (K X <= K x). { destruct (Rle_lt_or_eq_dec _ _ L) as [L'|L']; [left; apply (K_incr pos vel gm b q cross_ne facts); assumption|rewrite L'; lra]. } rewrite full_K in H. fold T in H. lra. }
  assert (R1 : 0 < w * x < 2 * PI). { split; [nra|]. apply Rmult_lt_compat_l with (r := w) in Xu; [|assumption]. replace (w * X) with (2 * PI) in Xu by (unfold X; field; lra). assumption. }
  replace (w * x) with (2 * (w * x / 2)) in Cx by field. rewrite cos_2a_sin in Cx. pose proof (sin_gt_0 (w * x / 2) ltac:(lra) ltac:(lra)). nra.
Qed.
Lemma farthest t : vlength (P t) <= q * (2 - f) / f.
Proof.
  destruct (reach_t t) as [x ->]. rewrite motion_size. pose proof (br_energy pos vel gm b q cross_ne facts x) as E. fold k f C br in E.
  pose proof (br_ge pos vel gm b q cross_ne facts x) as G. fold k C br in G. pose proof (C_eq pos vel gm b q facts) as Ce. fold k C in Ce.
  pose proof (cf_b _ _ _ _ _ _ facts) as Bp. pose proof (cf_q _ _ _ _ _ _ facts) as Qp. set (y := br x) in *.
  assert (L : f * y <= C * (2 - f)).
  { destruct (Rle_lt_or_eq_dec _ _ G) as [G'|G'].
    - assert (0 <= (y - C) * (2 * C - f * (y + C))) by (rewrite <- E; nra). assert (0 <= 2 * C - f * (y + C)); [|lra].
      apply Rmult_le_reg_l with (y - C); lra.
    - rewrite <- G'. pose proof (f_le pos vel gm b q facts) as F1. fold k f in F1. assert (0 < C) by (rewrite Ce; nra). nra. }
  rewrite Ce in L. apply Rmult_le_reg_r with (b * f); [nra|]. replace (y / b * (b * f)) with (f * y) by (field; lra). replace (q * (2 - f) / f * (b * f)) with (b * q * (2 - f)) by (field; lra). exact L.
Qed.
End Closed.

(** ** Open orbits *)
Section Open_.
Hypothesis f_neg : f <= 0.
Lemma G2_big x : x * x / 2 <= G2 f x.
Proof. apply G2_large. assumption. Qed.
Lemma never_twice t : t <> t0 -> P t <> P t0.
Proof.
  intros Ht E. destruct (reach_t t) as [x Hx]. rewrite Hx in E. apply never_back in E. pose proof (G2_big x) as G. assert (x = 0) by nra. subst x.
  apply Ht. rewrite Hx. unfold K. rewrite (K_0 pos vel gm). ring.
Qed.
Lemma G_even x : G0 f (- x) = G0 f x /\ G1 f (- x) = - G1 f x /\ G2 f (- x) = G2 f x.
Proof. unfold G0, G1, G2. replace (f * - x * - x) with (f * x * x) by ring. repeat split; ring. Qed.
Lemma far_away M : exists t, M < vlength (P t).
Proof.
  pose proof (cf_b _ _ _ _ _ _ facts) as Bp. pose proof (C_pos pos vel gm b q facts) as Cp. fold k C in Cp. pose proof (A_pos pos vel gm b q cross_ne facts) as Ap. fold k A in Ap.
  set (m := Rabs M * b). pose proof (Rabs_pos M) as Mp. pose proof (RRle_abs M) as Ml.
  set (x := 2 * (m / C + 1)).
  assert (Mm : 0 <= m / C) by (unfold m; apply Rmult_le_pos; [nra|left; apply Rinv_0_lt_compat; assumption]).
  assert (Big : m < C * (x * x) / 2). { assert (E : m = C * (m / C)) by (field; lra). rewrite E at 1. unfold x. set (y := m / C) in *. nra. }
  assert (S : 2 * m < br x + br (- x)).
  { unfold br, Kepler_Proofs5.br. fold k A B C f. destruct (G_even x) as (-> & -> & ->). pose proof (G2_big x) as G. destruct (G_algebra f x) as (-> & _ & _). assert (0 <= - f * G2 f x) by (apply Rmult_le_pos; nra). nra. }
  assert (Fin : forall y, m < br y -> exists t, M < vlength (P t)).
  { intros y Hy. exists (t0 + K y). rewrite motion_size. apply Rle_lt_trans with (Rabs M); [assumption|]. apply Rmult_lt_reg_r with b; [assumption|]. replace (br y / b * b) with (br y) by (field; lra). exact Hy. }
  destruct (Rlt_le_dec m (br x)) as [L|L]; [apply (Fin x L)|apply (Fin (- x)); lra].
Qed.
End Open_.
End Motion.
