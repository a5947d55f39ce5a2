From Coq Require Import Reals Lra Lia Psatz.
From Verif Require Import Real_Math Real_Math_Proofs Vector_Model Vector_Proofs Vector_Proofs2 Geo_Model Geo_Spec Geo_Proofs Geo_Proofs2 Geo_Proofs3 Kepler_Model Kepler_Spec Kepler_Proofs2.
Open Scope R_scope.

(** * Half angles *)
Lemma trig_2atan x : cos (2 * atan x) = (1 - x * x) / (1 + x * x) /\ sin (2 * atan x) = 2 * x / (1 + x * x).
Proof.
  destruct (atan_cos_sin x) as [C S1]. assert (P : 0 < 1 + x * x) by nra.
  pose proof (sqrt_sqrt (1 + x * x) ltac:(lra)) as Q. assert (P2 : 0 < sqrt (1 + x * x)) by (apply sqrt_lt_R0; assumption).
  rewrite sin_2a, cos_2a, C, S1. set (s := sqrt (1 + x * x)) in *. rewrite <- Q. split; field_simplify; try lra; replace (s ^ 2) with (1 + x * x) by (rewrite <- Q; ring); field; nra.
Qed.
Lemma trig_half E : cos (E / 2) <> 0 -> let T := tan (E / 2) in
  cos E = (1 - T * T) / (1 + T * T) /\ sin E = 2 * T / (1 + T * T).
Proof.
  intros N T. assert (E0 : E = 2 * (E / 2)) by field. assert (C0 : cos E = cos (2 * (E / 2))) by (f_equal; exact E0). assert (S0 : sin E = sin (2 * (E / 2))) by (f_equal; exact E0).
  rewrite C0, S0, sin_2a, cos_2a. unfold T, tan. pose proof (sc2 (E / 2)) as Q.
  set (s := sin (E / 2)) in *. set (c := cos (E / 2)) in *.
  assert (D : 1 + s / c * (s / c) = / (c * c)). { transitivity ((s * s + c * c) / (c * c)); [field; assumption|]. rewrite Q. field. assumption. }
  rewrite D. split; field; assumption.
Qed.
Lemma hyp_pos x : 1 <= cosh x.
Proof. unfold cosh. pose proof (exp_pos x) as A. rewrite exp_Ropp. assert (B : exp x * / exp x = 1) by (apply Rinv_r; lra). assert (0 < / exp x) by (apply Rinv_0_lt_compat; assumption). set (a := exp x) in *. set (b := / a) in *. clearbody a b. pose proof (Rle_0_sqr (a - 1)) as Z. unfold Rsqr in Z. assert (0 <= (a - 1) * (a - 1) * b) by (apply Rmult_le_pos; lra). replace ((a - 1) * (a - 1) * b) with (a * (a * b) - 2 * (a * b) + b) in * by ring. rewrite B in *. lra. Qed.
Lemma hyp_sq x : cosh x * cosh x - sinh x * sinh x = 1.
Proof. unfold cosh, sinh. rewrite exp_Ropp. field. pose proof (exp_pos x). lra. Qed.
Lemma tanh_half F : let T := tanh (F / 2) in T * T < 1 /\ cosh F = (1 + T * T) / (1 - T * T) /\ sinh F = 2 * T / (1 - T * T).
Proof.
  intros T. unfold T, tanh. pose proof (hyp_sq (F / 2)) as Q. pose proof (hyp_pos (F / 2)) as P.
  assert (E1 : cosh F = cosh (F / 2) * cosh (F / 2) + sinh (F / 2) * sinh (F / 2)).
  { unfold cosh, sinh. replace F with (F / 2 + F / 2) at 1 2 by field. rewrite Ropp_plus_distr, !exp_plus, !exp_Ropp. field. pose proof (exp_pos (F / 2)). lra. }
  assert (E2 : sinh F = 2 * (sinh (F / 2) * cosh (F / 2))).
  { unfold cosh, sinh. replace F with (F / 2 + F / 2) at 1 2 by field. rewrite Ropp_plus_distr, !exp_plus, !exp_Ropp. field. pose proof (exp_pos (F / 2)). lra. }
  rewrite E1, E2. set (s := sinh (F / 2)) in *. set (c := cosh (F / 2)) in *.
  assert (D : 1 - s / c * (s / c) = / (c * c)). { transitivity ((c * c - s * s) / (c * c)); [field; lra|]. rewrite Q. field. lra. }
  assert (0 < / (c * c)) by (apply Rinv_0_lt_compat; nra).
  split; [lra|]. rewrite D. split; field; lra.
Qed.
Lemma sinh_incr a b : a < b -> sinh a < sinh b.
Proof. intros H. unfold sinh. pose proof (exp_increasing a b H). pose proof (exp_increasing (- b) (- a) ltac:(lra)). lra. Qed.
Lemma sinh_inj a b : sinh a = sinh b -> a = b.
Proof. intros E. destruct (Rtotal_order a b) as [H|[H|H]]; [|assumption|]; apply sinh_incr in H; lra. Qed.
Lemma sinh_zero : sinh 0 = 0. Proof. unfold sinh. rewrite Ropp_0, exp_0. field. Qed.
Lemma sinh_ge x : 0 <= x -> x <= sinh x.
Proof.
  intros H. destruct (Req_dec x 0) as [->|N]; [rewrite sinh_zero; lra|].
  assert (P : 0 < x) by lra. destruct (MVT_cor2 sinh cosh 0 x P) as (c & E & _); [intros; apply derivable_pt_lim_sinh|].
  rewrite sinh_zero in E. pose proof (hyp_pos c). nra.
Qed.
Lemma k_sq a b : 0 <= a -> 0 < b -> sqrt (a / b) * sqrt (a / b) = a / b.
Proof. intros. apply sqrt_sqrt. apply Rmult_le_pos; [assumption|]. apply Rlt_le, Rinv_0_lt_compat. assumption. Qed.
Lemma closed_seen e E : 0 <= e < 1 -> cos (E / 2) <> 0 -> seen_elliptic e E (true_anomaly_closed e E).
Proof.
  intros He Hc. unfold seen_elliptic, true_anomaly_closed. destruct (trig_half E Hc) as [C S1]. set (T := tan (E / 2)) in *.
  pose proof (k_sq (1 + e) (1 - e) ltac:(lra) ltac:(lra)) as K. set (k := sqrt ((1 + e) / (1 - e))) in *.
  destruct (trig_2atan (k * T)) as [C2 S2]. rewrite C2, S2, C, S1.
  assert (P : 0 < 1 + T * T) by nra.
  assert (Ke : sqrt (1 - e * e) = k * (1 - e)).
  { unfold k. replace (1 - e * e) with ((1 + e) / (1 - e) * ((1 - e) * (1 - e))) by (field; lra).
    rewrite sqrt_mult, sqrt_square by (nra || (apply Rmult_le_pos; [lra|apply Rlt_le, Rinv_0_lt_compat; lra])). reflexivity. }
  assert (D : 1 + k * T * (k * T) = (1 - e + (1 + e) * (T * T)) / (1 - e)).
  { transitivity (1 + (k * k) * (T * T)); [ring|]. rewrite K. field. lra. }
  assert (N : 0 < 1 - e + (1 + e) * (T * T)) by nra.
  assert (D3 : 1 - e * ((1 - T * T) / (1 + T * T)) = (1 - e + (1 + e) * (T * T)) / (1 + T * T)) by (field; lra).
  rewrite D, D3. split.
  - replace (1 - k * T * (k * T)) with (1 - (k * k) * (T * T)) by ring. rewrite K. field. repeat split; lra.
  - rewrite Ke. field. repeat split; lra.
Qed.
Lemma hyperbolic_seen e F : 1 < e -> seen_hyperbolic e F (true_anomaly_hyperbolic e F).
Proof.
  intros He. unfold seen_hyperbolic, true_anomaly_hyperbolic. destruct (tanh_half F) as (B & C & S1). set (T := tanh (F / 2)) in *.
  pose proof (k_sq (e + 1) (e - 1) ltac:(lra) ltac:(lra)) as K. set (k := sqrt ((e + 1) / (e - 1))) in *.
  destruct (trig_2atan (k * T)) as [C2 S2]. rewrite C2, S2, C, S1.
  assert (Ke : sqrt (e * e - 1) = k * (e - 1)).
  { unfold k. replace (e * e - 1) with ((e + 1) / (e - 1) * ((e - 1) * (e - 1))) by (field; lra).
    rewrite sqrt_mult, sqrt_square by (nra || (apply Rmult_le_pos; [lra|apply Rlt_le, Rinv_0_lt_compat; lra])). reflexivity. }
  assert (D : 1 + k * T * (k * T) = (e - 1 + (e + 1) * (T * T)) / (e - 1)).
  { transitivity (1 + (k * k) * (T * T)); [ring|]. rewrite K. field. lra. }
  assert (N : 0 < e - 1 + (e + 1) * (T * T)) by nra.
  assert (D3 : e * ((1 + T * T) / (1 - T * T)) - 1 = (e - 1 + (e + 1) * (T * T)) / (1 - T * T)) by (field; lra).
  rewrite D, D3. split.
  - replace (1 - k * T * (k * T)) with (1 - (k * k) * (T * T)) by ring. rewrite K. field. repeat split; lra.
  - rewrite Ke. field. repeat split; lra.
Qed.
Lemma seen_hyperbolic_inj e F G v : 1 < e -> seen_hyperbolic e F v -> seen_hyperbolic e G v -> F = G.
Proof.
  intros He [C S1] [C' S']. pose proof (hyp_pos F) as PF. pose proof (hyp_pos G) as PG. set (a := cosh F) in *. set (b := cosh G) in *.
  assert (DF : 0 < e * a - 1) by nra. assert (DG : 0 < e * b - 1) by nra.
  assert (AB : a = b).
  { rewrite C in C'. apply (f_equal (fun z => z * ((e * a - 1) * (e * b - 1)))) in C'.
    replace ((e - a) / (e * a - 1) * ((e * a - 1) * (e * b - 1))) with ((e - a) * (e * b - 1)) in C' by (field; lra).
    replace ((e - b) / (e * b - 1) * ((e * a - 1) * (e * b - 1))) with ((e - b) * (e * a - 1)) in C' by (field; lra).
    assert ((e * e - 1) * (a - b) = 0) by lra. assert (0 < e * e - 1) by nra. apply Rmult_integral in H. destruct H; lra. }
  rewrite S1 in S'. rewrite <- AB in S'. assert (K : 0 < sqrt (e * e - 1)) by (apply sqrt_lt_R0; nra).
  apply sinh_inj. apply Rmult_eq_reg_l with (sqrt (e * e - 1) / (e * a - 1)); [|apply Rgt_not_eq, Rdiv_lt_0_compat; assumption].
  replace (sqrt (e * e - 1) / (e * a - 1) * sinh F) with (sqrt (e * e - 1) * sinh F / (e * a - 1)) by (field; lra).
  replace (sqrt (e * e - 1) / (e * a - 1) * sinh G) with (sqrt (e * e - 1) * sinh G / (e * a - 1)) by (field; lra). assumption.
Qed.

(** * The iteration *)
Lemma halley_last n e M E0 E : halley n e M E0 = Some E -> exists X d,
  d = (1 - e * cos X) * (1 - e * cos X) - 1 / 2 * (X - e * sin X - M) * (e * sin X) /\ d <> 0 /\
  let dE := (X - e * sin X - M) * (1 - e * cos X) / d in Rabs dE < 1 / 10 ^ 14 /\ E = X - dE.
Proof.
  revert E0. induction n as [|n IH]; intros E0; cbn [halley]; [discriminate|].
  destruct (Req_EM_T _ 0) as [|N]; [discriminate|]. destruct (Rlt_dec _ _) as [L|_].
  - intros Q. injection Q as <-. exists E0. eexists. split; [reflexivity|]. split; [exact N|]. split; [exact L|reflexivity].
  - apply IH.
Qed.
Lemma sin_lip' a b : Rabs (sin a - sin b) <= Rabs (a - b).
Proof. apply sin_lip. Qed.
Lemma Rabs_bounds x c : Rabs x <= c <-> - c <= x <= c.
Proof. split; [intros H; unfold Rabs in H; destruct (Rcase_abs x); lra|intros H; apply Rabs_le; assumption]. Qed.
Lemma halley_residual n e M E0 E : 0 < e <= 1 - 1 / 10 ^ 13 -> halley n e M E0 = Some E ->
  Rabs (elliptic_mean_anomaly e E - M) <= 5 / 10 ^ 14.
Proof.
  intros He H. destruct (halley_last n e M E0 E H) as (X & d & Ed & Nd & L & EE). clear H. cbv zeta in *.
  set (dE := (X - e * sin X - M) * (1 - e * cos X) / d) in *.
  pose proof (COS_bound X) as Cb. pose proof (SIN_bound X) as Sb.
  assert (F1 : 1 / 10 ^ 13 <= 1 - e * cos X <= 2) by nra. assert (F2 : -1 <= e * sin X <= 1) by nra.
  assert (K : (X - e * sin X - M) * ((1 - e * cos X) + dE * (e * sin X) / 2) = dE * ((1 - e * cos X) * (1 - e * cos X))).
  { assert (D1 : dE * d = (X - e * sin X - M) * (1 - e * cos X)) by (unfold dE; field; assumption). rewrite Ed in D1. lra. }
  assert (Lf : Rabs (X - e * sin X - M) <= 22 / 10 ^ 15).
  { set (f := X - e * sin X - M) in *. set (f1 := 1 - e * cos X) in *. set (f2 := e * sin X) in *. clearbody f f1 f2. clearbody dE. clear Ed EE Cb Sb.
    assert (L2 : - (1 / 10 ^ 14) <= dE <= 1 / 10 ^ 14) by (apply Rabs_bounds; lra).
    assert (G0 : - (1 / 10 ^ 14) <= dE * f2 <= 1 / 10 ^ 14) by (split; nra).
    assert (G : 19 / 20 * f1 <= f1 + dE * f2 / 2) by lra.
    set (g := f1 + dE * f2 / 2) in *. clearbody g.
    assert (A : Rabs f * g <= 1 / 10 ^ 14 * (f1 * f1)).
    { rewrite <- (Rabs_right g) by lra. rewrite <- Rabs_mult, K, Rabs_mult, (Rabs_right (f1 * f1)) by nra. apply Rmult_le_compat_r; [nra|lra]. }
    assert (Rabs f * (19 / 20 * f1) <= 1 / 10 ^ 14 * (f1 * f1)). { eapply Rle_trans; [|exact A]. apply Rmult_le_compat_l; [apply Rabs_pos|assumption]. }
    assert (Rabs f * (19 / 20) <= 1 / 10 ^ 14 * f1). { apply Rmult_le_reg_r with f1; lra. } lra. }
  unfold elliptic_mean_anomaly. rewrite EE.
  replace (X - dE - e * sin (X - dE) - M) with ((X - e * sin X - M) + (- dE) + e * (sin X - sin (X - dE))) by ring.
  pose proof (sin_lip' X (X - dE)) as SL. replace (X - (X - dE)) with dE in SL by ring.
  eapply Rle_trans; [apply Rabs_triang|]. eapply Rle_trans; [apply Rplus_le_compat_r, Rabs_triang|]. rewrite Rabs_Ropp, Rabs_mult, (Rabs_right e) by lra.
  assert (e * Rabs (sin X - sin (X - dE)) <= Rabs dE). { pose proof (Rabs_pos (sin X - sin (X - dE))). nra. } lra.
Qed.
Lemma rsign_cases x : (0 < x /\ rsign x = 1) \/ (x < 0 /\ rsign x = -1) \/ (x = 0 /\ rsign x = 0).
Proof. unfold rsign. destruct (Rlt_dec 0 x); [left; auto|]. destruct (Rlt_dec x 0); [right; left; auto|]. right; right. split; [lra|reflexivity]. Qed.
Lemma eccentric_residual e M E : 0 < e <= 1 - 1 / 10 ^ 13 -> eccentric_anomaly e M = Some E ->
  exists k : Z, Rabs (elliptic_mean_anomaly e E - (M + tau * IZR k)) <= 5 / 10 ^ 14.
Proof.
  intros He. unfold eccentric_anomaly. destruct (Req_EM_T e 0); [discriminate|]. destruct (Req_EM_T _ 0); [discriminate|].
  set (N := normpi M). destruct (halley _ _ _ _) as [E1|] eqn:HH; [|discriminate]. intros Q. injection Q as <-.
  apply halley_residual in HH; [|assumption].
  assert (B : Rabs (elliptic_mean_anomaly e (E1 * rsign N) - N) <= 5 / 10 ^ 14).
  { unfold elliptic_mean_anomaly in *. destruct (rsign_cases N) as [[P Es]|[[P Es]|[P Es]]]; rewrite Es in *.
    - rewrite !Rmult_1_r in *. assumption.
    - replace (E1 * -1) with (- E1) by ring. rewrite sin_neg. rewrite <- Rabs_Ropp. replace (- (- E1 - e * - sin E1 - N)) with (E1 - e * sin E1 - N * -1) by ring. assumption.
    - rewrite P, Rmult_0_r, sin_0. replace (0 - e * 0 - 0) with 0 by ring. rewrite Rabs_R0. lra. }
  destruct (rmod_shift (M + PI) tau) as [k Ek]. exists k. replace (M + tau * IZR k) with N; [exact B|]. unfold N, normpi. rewrite Ek. ring.
Qed.

Lemma anomaly_elliptic e p gm M v : 0 < e <= 1 - 1 / 10 ^ 13 -> anomaly_of e p gm M = Some v ->
  exists E (k : Z), Rabs (elliptic_mean_anomaly e E - (M + tau * IZR k)) <= 5 / 10 ^ 14 /\ (cos (E / 2) <> 0 -> seen_elliptic e E v).
Proof.
  intros He. unfold anomaly_of. destruct (Rlt_dec e 1) as [L|N]; [|lra]. destruct (eccentric_anomaly e M) as [E|] eqn:HE; [|discriminate].
  intros Q. injection Q as <-. destruct (eccentric_residual e M E He HE) as [k B]. exists E, k. split; [assumption|]. intros C. apply closed_seen; [lra|assumption].
Qed.
Lemma halley_solved n e M E : E - e * sin E - M = 0 -> 1 - e * cos E <> 0 -> halley (S n) e M E = Some E.
Proof.
  intros F F1. cbn [halley]. rewrite F. replace ((1 - e * cos E) * (1 - e * cos E) - 1 / 2 * 0 * (e * sin E)) with ((1 - e * cos E) * (1 - e * cos E)) by ring.
  destruct (Req_EM_T _ 0) as [Z|_]; [exfalso; nra|]. replace (0 * (1 - e * cos E) / ((1 - e * cos E) * (1 - e * cos E))) with 0 by (field; assumption).
  rewrite Rabs_R0. destruct (Rlt_dec 0 (1 / 10 ^ 14)) as [_|N]; [|lra]. f_equal. ring.
Qed.
(** A run that ends at once: a quarter of the orbit in eccentric anomaly. *)
Lemma quarter_run e M : 0 < e < 3 / 4 -> M = PI / 2 - e -> eccentric_anomaly e M = Some (PI / 2).
Proof.
  intros He ->. pose proof PI_RGT_0 as P. pose proof PI2_3_2 as P3. unfold PI2 in P3. pose proof PI_4 as P4.
  unfold eccentric_anomaly. rewrite normpi_id by lra. destruct (rsign_cases (PI / 2 - e)) as [[_ Es]|[[L _]|[L _]]]; [|lra|lra]. rewrite Es, Rmult_1_r.
  destruct (Req_EM_T e 0); [lra|]. set (b := 1 / 4 * PI / e - 1).
  assert (Eb : e * (b + 1) = PI / 4) by (unfold b; field; lra).
  assert (Pb : 0 < b). { assert (e < PI / 4) by lra. nra. }
  destruct (Req_EM_T b 0); [lra|]. destruct (rsign_cases b) as [[_ Eb1]|[[L _]|[L _]]]; [|lra|lra]. rewrite Eb1.
  assert (Sq : 1 + (PI / 2 - e) / (e * b * b) = ((b + 1) / b) * ((b + 1) / b)).
  { replace (PI / 2) with (2 * (e * (b + 1))) by lra. field. lra. }
  rewrite Sq, sqrt_square by (apply Rlt_le, Rdiv_lt_0_compat; lra).
  replace (1 / 2 * PI * b * (1 * ((b + 1) / b) - 1)) with (PI / 2) by (field; lra).
  rewrite (halley_solved 9 e (PI / 2 - e) (PI / 2)); [f_equal; ring|rewrite sin_PI2; ring|rewrite cos_PI2; lra].
Qed.
(** * Where the claim fails *)
Lemma circular_fails M : eccentric_anomaly 0 M = None.
Proof. unfold eccentric_anomaly. destruct (Req_EM_T 0 0); [reflexivity|lra]. Qed.
Lemma sin_half_below x : 0 <= x <= 1 -> x / 2 <= sin x.
Proof.
  intros H. destruct (Req_dec x 0) as [->|N]; [rewrite sin_0; lra|]. pose proof PI2_3_2 as P3. unfold PI2 in P3.
  destruct (MVT_cor2 sin cos 0 x ltac:(lra)) as (c & E & B); [intros; apply derivable_pt_lim_sin|]. rewrite sin_0 in E.
  assert (1 / 2 <= cos c). { rewrite cos_sin_1 || idtac. pose proof (cos_bound c 0) as Q. destruct Q as [Q _]; [lra|lra|]. unfold cos_approx, cos_term in Q. cbn in Q. nra. }
  nra.
Qed.
Lemma hyperbolic_never : ~ exists E, eccentric_anomaly 2 (1 / 2) = Some E /\ Rabs (hyperbolic_mean_anomaly 2 E - 1 / 2) <= 1 / 1000.
Proof.
  intros (E & H & B). pose proof PI_RGT_0 as P. pose proof PI2_3_2 as P3. unfold PI2 in P3.
  unfold eccentric_anomaly in H. rewrite normpi_id in H by lra. destruct (rsign_cases (1 / 2)) as [[_ Es]|[[L _]|[L _]]]; [|lra|lra]. rewrite Es, Rmult_1_r in H.
  destruct (Req_EM_T 2 0); [discriminate|]. destruct (Req_EM_T _ 0); [discriminate|]. destruct (halley _ _ _ _) as [E1|] eqn:HH; [|discriminate]. injection H as H. rewrite Rmult_1_r in H. subst E1.
  destruct (halley_last _ _ _ _ _ HH) as (X & d & Ed & Nd & L & EE). clear HH. cbv zeta in *. apply Rabs_bounds in B. unfold hyperbolic_mean_anomaly in B.
  assert (E0 : 0 < E). { destruct (Rlt_dec 0 E); [assumption|]. assert (sinh E <= E). { pose proof (sinh_ge (- E) ltac:(lra)) as Q. unfold sinh in *. rewrite Ropp_involutive in Q. lra. } lra. }
  assert (E5 : E <= 501 / 1000). { pose proof (sinh_ge E ltac:(lra)). lra. }
  set (dE := (X - 2 * sin X - 1 / 2) * (1 - 2 * cos X) / d) in *.
  assert (L2 : - (1 / 10 ^ 14) <= dE <= 1 / 10 ^ 14) by (apply Rabs_bounds; lra).
  assert (X1 : - (1 / 10 ^ 14) <= X <= 502 / 1000) by lra.
  assert (C : 86 / 100 <= cos X <= 1). { split; [|apply COS_bound]. pose proof (cos_bound X 0) as Q. destruct Q as [Q _]; [lra|lra|]. unfold cos_approx, cos_term in Q. cbn in Q. nra. }
  assert (S1 : X - 2 * sin X <= 1 / 10 ^ 13 /\ -21 / 10 <= X - 2 * sin X).
  { split; [|pose proof (SIN_bound X); lra]. destruct (Rle_dec 0 X); [pose proof (sin_half_below X ltac:(lra)); lra|].
    pose proof (sin_lip' X 0) as Q. rewrite sin_0, !Rminus_0_r in Q. rewrite (Rabs_left X) in Q by lra. apply Rabs_bounds in Q. lra. }
  pose proof (SIN_bound X) as SB.
  assert (D1 : dE * d = (X - 2 * sin X - 1 / 2) * (1 - 2 * cos X)) by (unfold dE; field; assumption).
  set (f := X - 2 * sin X - 1 / 2) in *. set (f1 := 1 - 2 * cos X) in *. clearbody dE.
  assert (F : -3 <= f <= -49 / 100) by (unfold f; lra). assert (F1 : -1 <= f1 <= -72 / 100) by (unfold f1; lra).
  assert (Nn : 35 / 100 <= f * f1) by nra.
  assert (Dd : -10 <= d <= 10). { rewrite Ed. assert (0 <= f1 * f1 <= 1) by (split; nra). assert (-3 <= f * sin X <= 3) by (split; nra). lra. }
  assert (Rabs (dE * d) <= 1 / 10 ^ 14 * 10). { rewrite Rabs_mult. apply Rmult_le_compat; [apply Rabs_pos|apply Rabs_pos|lra|apply Rabs_bounds; lra]. }
  rewrite D1 in H. apply Rabs_bounds in H. lra.
Qed.
Lemma hyperbolic_wrong p gm : ~ exists v F, anomaly_of 2 p gm (1 / 2) = Some v /\ seen_hyperbolic 2 F v /\ Rabs (hyperbolic_mean_anomaly 2 F - 1 / 2) <= 1 / 1000.
Proof.
  intros (v & F & H & S1 & B). unfold anomaly_of in H. destruct (Rlt_dec 2 1); [lra|]. destruct (Rlt_dec 1 2); [|lra].
  destruct (eccentric_anomaly 2 (1 / 2)) as [E|] eqn:HE; [|discriminate]. injection H as <-.
  apply hyperbolic_never. exists E. split; [assumption|]. rewrite (seen_hyperbolic_inj 2 E F _ ltac:(lra) (hyperbolic_seen 2 E ltac:(lra)) S1). assumption.
Qed.
Lemma cube_of_root x : 0 < x -> cube_root x ^ 3 = x /\ 0 < cube_root x.
Proof.
  intros H. unfold cube_root. split; [|apply exp_pos]. rewrite <- Rpower_pow by apply exp_pos. rewrite Rpower_mult. replace (1 / 3 * INR 3) with 1 by (cbn; field). apply Rpower_1. assumption.
Qed.
Lemma parabolic_iff p gm M : 0 < p -> 0 < gm ->
  (parabolic_time (p / 2) gm (true_anomaly_parabolic p gm M) = sqrt (2 * p ^ 3 / gm) * M <-> M = 0).
Proof.
  intros Hp Hg. unfold parabolic_time, true_anomaly_parabolic. set (dt := sqrt (2 * p ^ 3 / gm) * M). set (q := p / 2).
  assert (Hq : 0 < q) by (unfold q; lra). assert (Hq3 : 0 < q ^ 3) by (apply pow_lt; assumption).
  set (A := 3 / 2 * sqrt (gm / (2 * q ^ 3)) * dt).
  assert (Sp : 0 < A + (A * A + 1)) by nra. destruct (cube_of_root _ Sp) as [B3 Bp]. set (B := cube_root (A + (A * A + 1))) in *.
  replace (2 * atan (B - 1 / B) / 2) with (atan (B - 1 / B)) by field. replace (tan (atan (B - 1 / B))) with (B - 1 / B) by (symmetry; apply tan_atan || apply atan_right_inv).
  set (k := sqrt (2 * q ^ 3 / gm)). set (m := sqrt (gm / (2 * q ^ 3))) in *.
  assert (Kp : 0 < k). { unfold k. apply sqrt_lt_R0. apply Rdiv_lt_0_compat; lra. }
  assert (KM : k * m = 1). { unfold k, m. rewrite <- sqrt_mult; [|apply Rlt_le, Rdiv_lt_0_compat; lra|apply Rlt_le, Rdiv_lt_0_compat; lra]. replace (2 * q ^ 3 / gm * (gm / (2 * q ^ 3))) with 1 by (field; lra). apply sqrt_1. }
  assert (Sd : dt = 2 / 3 * A * k). { unfold A. replace (2 / 3 * (3 / 2 * m * dt) * k) with (dt * (k * m)) by field. rewrite KM. ring. }
  assert (D3 : B - 1 / B + (B - 1 / B) ^ 3 / 3 = (B ^ 3 - 1 / B ^ 3) / 3) by (field; lra).
  rewrite D3, B3. assert (P3 : 0 < p ^ 3) by (apply pow_lt; assumption). assert (Zp : 0 < sqrt (2 * p ^ 3 / gm)) by (apply sqrt_lt_R0, Rdiv_lt_0_compat; lra).
  assert (A0 : A = 0 <-> M = 0).
  { unfold A, dt. assert (Mp : 0 < m) by (unfold m; apply sqrt_lt_R0, Rdiv_lt_0_compat; lra). split; intros Z.
    - apply Rmult_integral in Z. destruct Z as [Z|Z]; [|apply Rmult_integral in Z; destruct Z; lra]. apply Rmult_integral in Z. destruct Z; lra.
    - rewrite Z. ring. }
  rewrite <- A0, Sd. set (s := A + (A * A + 1)) in *. split; intros Z.
  - assert (Z2 : s - 1 / s = 2 * A). { apply Rmult_eq_reg_l with (k / 3); [|apply Rgt_not_eq; lra]. lra. }
    assert (Z3 : s * s - 1 = 2 * A * s). { rewrite <- Z2. field. lra. } unfold s in Z3. assert (A * A * (A * A + 1) = 0) by nra. nra.
  - unfold s. rewrite Z. field.
Qed.

(** * The time since periapsis *)
Lemma tan_half_elliptic e v : 0 <= e < 1 -> cos (v / 2) <> 0 -> seen_elliptic e (2 * atan (sqrt ((1 - e) / (1 + e)) * tan (v / 2))) v.
Proof.
  intros He Hc. set (T := tan (v / 2)). set (k := sqrt ((1 - e) / (1 + e))). set (E := 2 * atan (k * T)).
  assert (CE : cos (E / 2) <> 0). { unfold E. replace (2 * atan (k * T) / 2) with (atan (k * T)) by field. apply Rgt_not_eq. destruct (atan_cos_sin (k * T)) as [C _]. rewrite C. apply Rinv_0_lt_compat, sqrt_lt_R0. nra. }
  pose proof (closed_seen e E He CE) as [C S1].
  assert (Tv : sqrt ((1 + e) / (1 - e)) * tan (E / 2) = T).
  { unfold E. replace (2 * atan (k * T) / 2) with (atan (k * T)) by field. replace (tan (atan (k * T))) with (k * T) by (symmetry; apply tan_atan || apply atan_right_inv).
    unfold k. rewrite <- Rmult_assoc, <- sqrt_mult by (apply Rmult_le_pos; [lra|apply Rlt_le, Rinv_0_lt_compat; lra]). replace ((1 + e) / (1 - e) * ((1 - e) / (1 + e))) with 1 by (field; lra). rewrite sqrt_1. ring. }
  unfold true_anomaly_closed in C, S1. rewrite Tv in C, S1. destruct (trig_half v Hc) as [C2 S2]. fold T in C2, S2. destruct (trig_2atan T) as [C3 S3].
  split; [rewrite <- C, C3|rewrite <- S1, S3]; assumption.
Qed.
Lemma elliptic_time el mu : 0 < el_p el -> 0 <= el_e el < 1 -> cos (el_v el / 2) <> 0 ->
  let a := el_p el / (1 - el_e el * el_e el) in let n := sqrt (mu / a ^ 3) * 86400 in too_small <= n ->
  exists E (k : Z), seen_elliptic (el_e el) E (el_v el) /\ n * days_since_periapsis el mu = elliptic_mean_anomaly (el_e el) E + tau * IZR k /\
    0 <= n * days_since_periapsis el mu < tau.
Proof.
  intros Hp He Hc a n Hn. pose proof tau_pos as T. assert (Pa : 0 < a). { unfold a. apply Rdiv_lt_0_compat; nra. }
  set (E := 2 * atan (sqrt ((1 - el_e el) / (1 + el_e el)) * tan (el_v el / 2))).
  assert (D : days_since_periapsis el mu = rmod (elliptic_mean_anomaly (el_e el) E) tau / n).
  { unfold days_since_periapsis, mean_anomaly_of, eccentric_anomaly_of, semi_major_axis, time_since_periapsis, mean_motion.
    destruct (Rlt_dec (el_e el) 1); [|lra]. destruct (Req_EM_T (el_e el) 1); [lra|]. fold a. rewrite (Rabs_right a) by lra. unfold DAY_S. fold n.
    destruct (Rle_dec too_small n); [|lra]. reflexivity. }
  assert (Nn : 0 < n) by (unfold too_small in Hn; lra).
  assert (D2 : n * days_since_periapsis el mu = rmod (elliptic_mean_anomaly (el_e el) E) tau) by (rewrite D; field; lra).
  destruct (rmod_shift (elliptic_mean_anomaly (el_e el) E) tau) as [k Ek]. exists E, k. split; [apply tan_half_elliptic; assumption|].
  rewrite D2. split; [exact Ek|]. apply rmod_bounds. assumption.
Qed.
Lemma arctanh_tanh x : arctanh (tanh x) = x.
Proof.
  unfold arctanh, tanh. pose proof (hyp_pos x) as P.
  assert (E : (1 + sinh x / cosh x) / (1 - sinh x / cosh x) = exp (2 * x)).
  { assert (A : cosh x - sinh x = exp (- x)) by (unfold cosh, sinh; field). assert (B : cosh x + sinh x = exp x) by (unfold cosh, sinh; field). pose proof (exp_pos (- x)) as Q.
    transitivity ((cosh x + sinh x) / (cosh x - sinh x)); [field; split; lra|]. rewrite A, B. replace (2 * x) with (x + - - x) by ring. rewrite exp_plus, (exp_Ropp (- x)). field. lra. }
  rewrite E, ln_exp. field.
Qed.
Lemma hyperbolic_anomaly_eq e F : 1 < e -> tan (true_anomaly_hyperbolic e F / 2) / sqrt ((e + 1) / (e - 1)) = tanh (F / 2).
Proof.
  intros He. unfold true_anomaly_hyperbolic. replace (2 * atan _ / 2) with (atan (sqrt ((e + 1) / (e - 1)) * tanh (F / 2))) by field.
  replace (tan (atan (sqrt ((e + 1) / (e - 1)) * tanh (F / 2)))) with (sqrt ((e + 1) / (e - 1)) * tanh (F / 2)) by (symmetry; apply tan_atan || apply atan_right_inv). field.
  apply Rgt_not_eq, sqrt_lt_R0, Rdiv_lt_0_compat; lra.
Qed.
Lemma hyperbolic_time p e F i Om w mu : 0 < p -> 1 < e ->
  let el := Elements p e i Om w (true_anomaly_hyperbolic e F) in let a := p / (e * e - 1) in let n := sqrt (mu / a ^ 3) * 86400 in too_small <= n ->
  seen_hyperbolic e F (el_v el) /\ n * days_since_periapsis el mu = hyperbolic_mean_anomaly e (normpi F).
Proof.
  intros Hp He el a n Hn. split; [apply hyperbolic_seen; assumption|]. assert (Pa : 0 < a). { unfold a. apply Rdiv_lt_0_compat; nra. }
  unfold days_since_periapsis, mean_anomaly_of, eccentric_anomaly_of, semi_major_axis, time_since_periapsis, mean_motion, el. cbn [el_p el_e el_v].
  destruct (Rlt_dec e 1); [lra|]. destruct (Rlt_dec 1 e); [|lra]. destruct (Req_EM_T e 1); [lra|].
  replace (Rabs (p / (1 - e * e))) with a.
  2:{ replace (p / (1 - e * e)) with (- a) by (unfold a; field; split; nra). rewrite Rabs_Ropp, Rabs_right by lra. reflexivity. }
  unfold DAY_S. fold n. destruct (Rle_dec too_small n); [|lra]. rewrite hyperbolic_anomaly_eq, arctanh_tanh by assumption.
  replace (2 * (F / 2)) with F by field. unfold hyperbolic_mean_anomaly. field. unfold too_small in Hn. lra.
Qed.
Lemma hyperbolic_time_wrong p e F i Om w mu : 0 < p -> 1 < e -> PI < F < tau ->
  let el := Elements p e i Om w (true_anomaly_hyperbolic e F) in let a := p / (e * e - 1) in let n := sqrt (mu / a ^ 3) * 86400 in too_small <= n ->
  0 < hyperbolic_mean_anomaly e F /\ days_since_periapsis el mu < 0.
Proof.
  intros Hp He HF el a n Hn. destruct (hyperbolic_time p e F i Om w mu Hp He Hn) as [_ D]. fold el in D. cbv zeta in D. fold a in D. fold n in D.
  pose proof PI_RGT_0 as P. assert (NF : normpi F = F - tau). { unfold normpi. rewrite (rmod_unique _ tau (F - PI) 1); unfold tau in *; lra. }
  split. { unfold hyperbolic_mean_anomaly. pose proof (sinh_ge F ltac:(lra)). nra. }
  rewrite NF in D. unfold hyperbolic_mean_anomaly in D. pose proof (sinh_ge (tau - F) ltac:(lra)) as G.
  replace (sinh (F - tau)) with (- sinh (tau - F)) in D by (unfold sinh; replace (- (F - tau)) with (tau - F) by ring; replace (- (tau - F)) with (F - tau) by ring; field).
  assert (n * days_since_periapsis el mu < 0) by (rewrite D; nra). assert (0 < n) by (unfold too_small in Hn; lra). nra.
Qed.
Lemma parabolic_time_ok p v i Om w mu : 0 < p -> 0 < mu ->
  days_since_periapsis (Elements p 1 i Om w v) mu * 86400 = parabolic_time (p / 2) mu v.
Proof.
  intros Hp Hm. unfold days_since_periapsis, mean_anomaly_of, eccentric_anomaly_of, semi_major_axis, time_since_periapsis, mean_motion, parabolic_time. cbn [el_p el_e el_v].
  destruct (Rlt_dec 1 1); [lra|]. destruct (Req_EM_T 1 1); [|lra]. unfold DAY_S. rewrite Rmult_0_l. destruct (Rle_dec too_small 0) as [B|_]; [unfold too_small in B; lra|].
  assert (Q3 : 0 < (p / 2) ^ 3) by (apply pow_lt; lra).
  replace (2 * (p / 2) ^ 3 / (mu * (86400 * 86400))) with (2 * (p / 2) ^ 3 / mu * (/ 86400 * / 86400)) by (field; lra).
  rewrite sqrt_mult, sqrt_square by (lra || (apply Rlt_le, Rdiv_lt_0_compat; lra)). field.
Qed.
