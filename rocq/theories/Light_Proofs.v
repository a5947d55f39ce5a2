From Coq Require Import Reals Lra Lia Psatz ZArith List Bool.
From Verif Require Import Real_Math Real_Math_Proofs Vector_Model Vector_Proofs Vector_Proofs2 Geo_Model Geo_Spec Geo_Proofs Light_Model Light_Spec.
Open Scope R_scope.

Lemma c_pos : 0 < C_AUDAY. Proof. unfold C_AUDAY, C, DAY_S, AU_M. lra. Qed.
Lemma dot_self a : dot a a = vlength a * vlength a. Proof. symmetry. apply vlength_sq. Qed.
Lemma dot_smul_l k a b : dot (smul k a) b = k * dot a b. Proof. unfold dot, smul. cbn. ring. Qed.
Lemma dot_smul_r k a b : dot a (smul k b) = k * dot a b. Proof. unfold dot, smul. cbn. ring. Qed.
Lemma dot_add_l a b c : dot (vadd a b) c = dot a c + dot b c. Proof. unfold dot, vadd. cbn. ring. Qed.
Lemma dot_add_r a b c : dot c (vadd a b) = dot c a + dot c b. Proof. unfold dot, vadd. cbn. ring. Qed.
Lemma dot_sub_l a b c : dot (vsub a b) c = dot a c - dot b c. Proof. unfold dot, vsub. cbn. ring. Qed.
Lemma dot_sub_r a b c : dot c (vsub a b) = dot c a - dot c b. Proof. unfold dot, vsub. cbn. ring. Qed.
Lemma dot_opp_l a c : dot (vopp a) c = - dot a c. Proof. unfold dot, vopp. cbn. ring. Qed.
Lemma dot_opp_r a c : dot c (vopp a) = - dot c a. Proof. unfold dot, vopp. cbn. ring. Qed.
Ltac dots := repeat rewrite ?dot_smul_l, ?dot_smul_r, ?dot_add_l, ?dot_add_r, ?dot_sub_l, ?dot_sub_r, ?dot_opp_l, ?dot_opp_r.
Lemma plus_tiny_ne x : x <> 0 -> plus_tiny x = x. Proof. unfold plus_tiny. destruct (Req_EM_T x 0); [contradiction|reflexivity]. Qed.
Lemma or_one_ne x : x <> 0 -> or_one x = x. Proof. unfold or_one. destruct (Req_EM_T x 0); [contradiction|reflexivity]. Qed.
Lemma tiny_pos : 0 < tiny. Proof. apply Rinv_0_lt_compat, pow_lt. lra. Qed.
Lemma cauchy_abs a b : Rabs (dot a b) <= vlength a * vlength b.
Proof.
  apply Rabs_le. split; [|apply cauchy]. pose proof (cauchy (vopp a) b) as H. replace (vlength (vopp a)) with (vlength a) in H by (unfold vlength; f_equal; cbn; ring). unfold dot. cbn in H. lra.
Qed.
Lemma length_of_sq a x : 0 <= x -> dot a a = x * x -> vlength a = x.
Proof. intros H E. rewrite dot_self in E. pose proof (vlength_pos a). nra. Qed.

Lemma vlength_vzero : vlength vzero = 0.
Proof. unfold vlength, vzero. cbn. replace (0 * 0 + 0 * 0 + 0 * 0) with 0 by ring. apply sqrt_0. Qed.

(** * Aberration *)
(** In units of the speed of light, for a direction [u]. *)
Definition ab (g : R) (u w : vec) : vec :=
  let s := dot u w in smul (/ (1 + s)) (vadd (smul g u) (smul (1 + s / (1 + g)) w)).
Section Ab.
Variables (g : R) (u w : vec).
Hypothesis Hu : dot u u = 1.
Hypothesis Hg : 0 < g.
Hypothesis Hw : dot w w = 1 - g * g.
Let s := dot u w.
Lemma s_bound : -1 < s < 1.
Proof.
  assert (Lu : vlength u = 1) by (apply length_of_sq; lra). pose proof (cauchy_abs u w) as H. rewrite Lu, Rmult_1_l in H. fold s in H.
  assert (Lw : vlength w < 1) by (pose proof (dot_self w) as E; pose proof (vlength_pos w); rewrite Hw in E; nra).
  assert (Rabs s < 1) as H1 by lra. apply Rabs_def2 in H1. lra.
Qed.
Lemma ab_unit : dot (ab g u w) (ab g u w) = 1.
Proof.
  pose proof s_bound. unfold ab. fold s. dots. rewrite (dot_sym w u). fold s. rewrite Hu, Hw. field. split; lra.
Qed.
Lemma ab_dot : dot (ab g u w) w = (s + (1 - g * g)) / (1 + s).
Proof. pose proof s_bound. unfold ab. fold s. dots. fold s. rewrite Hw. field. split; lra. Qed.
End Ab.
Lemma ab_inverse g u w : dot u u = 1 -> 0 < g -> dot w w = 1 - g * g -> ab g (ab g u w) (vopp w) = u.
Proof.
  intros Hu Hg Hw. pose proof (s_bound g u w Hu Hg Hw) as Hs. pose proof (ab_dot g u w Hu Hg Hw) as E.
  unfold ab at 1. rewrite dot_opp_r, E. unfold ab. set (s := dot u w) in *. clearbody s. clear E Hw Hu.
  assert (1 + - ((s + (1 - g * g)) / (1 + s)) <> 0). { replace (1 + - ((s + (1 - g * g)) / (1 + s))) with (g * g / (1 + s)) by (field; lra). apply Rgt_not_eq. apply Rdiv_lt_0_compat; nra. }
  apply vec_ext; cbn; field; repeat split; try lra; intros Z; apply H; field_simplify_eq; try lra; nra.
Qed.
Lemma aberration_ab p v : p <> vzero -> vlength v < C_AUDAY ->
  add_aberration p v (vlength p / C_AUDAY) =
  smul (vlength p) (ab (sqrt (1 - dot (smul (/ C_AUDAY) v) (smul (/ C_AUDAY) v))) (unit_of p) (smul (/ C_AUDAY) v)).
Proof.
  intros Hp Hv. pose proof (vlength_ne p Hp) as HL. pose proof c_pos as Hc. pose proof (vlength_pos v) as HV. unfold add_aberration.
  replace (vlength p / C_AUDAY * C_AUDAY) with (vlength p) by (field; lra).
  replace (1 - vlength v / C_AUDAY * (vlength v / C_AUDAY)) with (1 - dot (smul (/ C_AUDAY) v) (smul (/ C_AUDAY) v)) by (dots; rewrite dot_self; field; lra).
  assert (G0 : 0 <= sqrt (1 - dot (smul (/ C_AUDAY) v) (smul (/ C_AUDAY) v))) by apply sqrt_pos.
  set (g := sqrt _) in *. clearbody g.
  assert (E : vlength v / C_AUDAY * (dot p v / plus_tiny (vlength p * vlength v)) = dot (unit_of p) (smul (/ C_AUDAY) v)).
  { unfold unit_of. dots. destruct (Req_dec (vlength v) 0) as [Z|Z].
    - rewrite Z. rewrite (vlength_zero v Z). unfold dot, vzero. cbn. unfold Rdiv. ring.
    - rewrite plus_tiny_ne by nra. field. repeat split; lra. }
  rewrite E. unfold ab. set (s := dot (unit_of p) _) in *. clearbody s.
  unfold unit_of. apply vec_ext; cbn; unfold Rdiv; set (z := / (1 + s)); set (y := / (1 + g)); field; lra.
Qed.
Section Aberration.
Variables (p v : vec).
Hypothesis Hp : p <> vzero.
Hypothesis Hv : vlength v < C_AUDAY.
Let w := smul (/ C_AUDAY) v.
Let g := sqrt (1 - dot w w).
Lemma w_sq : dot w w < 1.
Proof. unfold w. dots. rewrite dot_self. pose proof c_pos. pose proof (vlength_pos v). assert (vlength v / C_AUDAY < 1) by (apply Rmult_lt_reg_r with C_AUDAY; [assumption|]; unfold Rdiv; rewrite Rmult_assoc, Rinv_l by lra; lra). assert (0 <= vlength v / C_AUDAY) by (apply Rmult_le_pos; [assumption|apply Rlt_le, Rinv_0_lt_compat; assumption]). unfold Rdiv in *. nra. Qed.
Lemma w_pos : 0 <= dot w w. Proof. rewrite dot_self. pose proof (vlength_pos w). nra. Qed.
Lemma g_pos : 0 < g. Proof. apply sqrt_lt_R0. pose proof w_sq. lra. Qed.
Lemma g_sq : dot w w = 1 - g * g. Proof. unfold g. rewrite sqrt_sqrt; [ring|]. pose proof w_sq. lra. Qed.
Lemma unit_sq : dot (unit_of p) (unit_of p) = 1.
Proof. unfold unit_of. dots. rewrite dot_self. pose proof (vlength_ne p Hp). field. lra. Qed.
Lemma aberration_length : vlength (add_aberration p v (vlength p / C_AUDAY)) = vlength p.
Proof.
  rewrite aberration_ab by assumption. rewrite smul_length. replace (vlength (ab _ _ _)) with 1; [rewrite Rabs_pos_eq by apply vlength_pos; ring|].
  symmetry. apply length_of_sq; [lra|]. fold w. fold g. rewrite (ab_unit g (unit_of p) w unit_sq g_pos g_sq). ring.
Qed.
Lemma aberration_inverse : add_aberration (add_aberration p v (vlength p / C_AUDAY)) (vopp v) (vlength p / C_AUDAY) = p.
Proof.
  pose proof aberration_length as L. pose proof (vlength_ne p Hp) as HL.
  rewrite <- L at 2. rewrite aberration_ab.
  - rewrite L. replace (smul (/ C_AUDAY) (vopp v)) with (vopp w) by (apply vec_ext; cbn; ring).
    replace (dot (vopp w) (vopp w)) with (dot w w) by (dots; ring). fold g.
    replace (unit_of (add_aberration p v (vlength p / C_AUDAY))) with (ab g (unit_of p) w).
    + rewrite (ab_inverse g (unit_of p) w unit_sq g_pos g_sq). unfold unit_of. apply vec_ext; cbn; field; lra.
    + unfold unit_of at 2. rewrite L, aberration_ab by assumption. fold w g. apply vec_ext; cbn [smul vx vy vz]; field; lra.
  - intros Z. rewrite Z, vlength_vzero in L. lra.
  - replace (vlength (vopp v)) with (vlength v); [assumption|]. unfold vlength. cbn. f_equal. ring.
Qed.
Lemma aberration_lorentz : v <> vzero ->
  add_aberration p v (vlength p / C_AUDAY) = smul (vlength p) (seen_from w (unit_of p)).
Proof.
  intros Hv0. rewrite aberration_ab by assumption. fold w g. f_equal. pose proof (s_bound g (unit_of p) w unit_sq g_pos g_sq) as Hs. pose proof g_pos as Hg.
  assert (Hw : dot w w <> 0). { unfold w. dots. rewrite dot_self. pose proof (vlength_ne v Hv0). pose proof (Rinv_0_lt_compat _ c_pos). apply Rgt_not_eq. apply Rmult_lt_0_compat; [assumption|]. apply Rmult_lt_0_compat; [assumption|]. nra. }
  unfold seen_from, boosted_energy, boosted_momentum, lorentz_factor. fold g. dots. rewrite (dot_sym w (unit_of p)). unfold ab. set (s := dot (unit_of p) w) in *.
  pose proof g_sq as E. rewrite E in *. clear E. assert (1 - g * g <> 0) by assumption. assert (1 - g <> 0) by (intros Z; apply H; nra).
  assert (E1 : s / (1 + g) = (1 - g) * s / (1 - g * g)) by (field; split; lra). rewrite E1.
  set (uu := unit_of p) in *. clearbody s uu. clear - H Hg Hs Hw. assert (1 + s <> 0) by lra.
  clearbody g. clearbody w. apply vec_ext; cbn; field; repeat split; lra.
Qed.
(** The apparent direction is nearer to the direction of motion. *)
Lemma aberration_cos : v <> vzero ->
  let b := vlength v / C_AUDAY in let x := cos (angle_between p v) in
  cos (angle_between (add_aberration p v (vlength p / C_AUDAY)) v) = (x + b) / (1 + b * x).
Proof.
  intros Hv0 b x. pose proof (vlength_ne p Hp) as HL. pose proof (vlength_ne v Hv0) as HV. pose proof c_pos as Hc.
  assert (Ha : add_aberration p v (vlength p / C_AUDAY) <> vzero).
  { intros Z. pose proof aberration_length as L. rewrite Z, vlength_vzero in L. lra. }
  assert (X : x = dot p v / (vlength p * vlength v)). { unfold x. pose proof (angle_ok p v Hp Hv0) as [_ H]. rewrite <- H. field. lra. }
  pose proof (angle_ok _ v Ha Hv0) as [_ H]. rewrite aberration_length in H.
  assert (E : dot (add_aberration p v (vlength p / C_AUDAY)) v = vlength p * vlength v * ((x + b) / (1 + b * x))).
  { rewrite aberration_ab by assumption. fold w g. rewrite dot_smul_l.
    replace (dot (ab g (unit_of p) w) v) with (C_AUDAY * dot (ab g (unit_of p) w) w) by (unfold w at 2; rewrite dot_smul_r; field; lra).
    rewrite (ab_dot g _ w unit_sq g_pos g_sq). pose proof (s_bound g (unit_of p) w unit_sq g_pos g_sq) as Hs.
    assert (S : dot (unit_of p) w = b * x) by (rewrite X; unfold unit_of, w, b; dots; field; lra).
    rewrite S in *. rewrite <- g_sq. replace (dot w w) with (b * b) by (unfold w, b; dots; rewrite dot_self; field; lra).
    replace (vlength v) with (b * C_AUDAY) by (unfold b; field; lra). clearbody b x. field. lra. }
  rewrite E in H. apply Rmult_eq_reg_l with (vlength p * vlength v); [exact H|]. nra.
Qed.
Lemma aberration_towards : v <> vzero -> angle_between (add_aberration p v (vlength p / C_AUDAY)) v <= angle_between p v.
Proof.
  intros Hv0. pose proof (aberration_cos Hv0) as E. cbv zeta in E. pose proof c_pos as Hc. pose proof (vlength_ne v Hv0) as HV. pose proof (vlength_ne p Hp) as HL.
  assert (Ha : add_aberration p v (vlength p / C_AUDAY) <> vzero) by (intros Z; pose proof aberration_length as L; rewrite Z, vlength_vzero in L; lra).
  pose proof (angle_ok _ v Ha Hv0) as [B1 _]. pose proof (angle_ok p v Hp Hv0) as [B2 _].
  destruct (Rle_dec (angle_between (add_aberration p v (vlength p / C_AUDAY)) v) (angle_between p v)) as [|N]; [assumption|]. exfalso.
  apply Rnot_le_lt in N. apply cos_decreasing_1 in N; try lra. rewrite E in N. pose proof (COS_bound (angle_between p v)) as HX. set (x := cos (angle_between p v)) in *.
  assert (Hb : 0 < vlength v / C_AUDAY < 1). { split; [apply Rdiv_lt_0_compat; assumption|]. apply Rmult_lt_reg_r with C_AUDAY; [assumption|]. unfold Rdiv. rewrite Rmult_assoc, Rinv_l by lra. lra. }
  set (b := vlength v / C_AUDAY) in *. clearbody b x. assert (D : 0 < 1 + b * x) by nra.
  apply (Rmult_lt_compat_r (1 + b * x)) in N; [|assumption]. unfold Rdiv in N. rewrite Rmult_assoc, Rinv_l, Rmult_1_r in N by lra.
  clear - N HX Hb. assert (0 <= b * (1 - x * x)) by (apply Rmult_le_pos; nra). lra.
Qed.
End Aberration.
Lemma no_aberration p lt : p <> vzero -> add_aberration p vzero lt = p.
Proof.
  intros Hp. unfold add_aberration. rewrite vlength_vzero. replace (dot p vzero) with 0 by (unfold dot; cbn; ring).
  replace (0 / C_AUDAY) with 0 by (unfold Rdiv; ring). rewrite !Rmult_0_l. replace (1 - 0) with 1 by ring. rewrite sqrt_1, Rplus_0_r, Rinv_1. apply vec_ext; cbn; ring.
Qed.
Lemma aberration_rotated M p v lt : orthogonal M -> add_aberration (mxv M p) (mxv M v) lt = mxv M (add_aberration p v lt).
Proof.
  intros HM. unfold add_aberration. rewrite !(orth_length M) by assumption. rewrite (orth_dot M) by assumption.
  set (q := (1 + _) * lt). set (r := / (1 + _)). set (g := sqrt _). apply vec_ext; gsimp; ring.
Qed.
