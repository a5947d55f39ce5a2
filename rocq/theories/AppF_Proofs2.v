(** How aberration changes with the position. *)
From Coq Require Import ZArith Reals Lia Lra Psatz Bool.
From Flocq Require Import Core.
From Verif Require Import Real_Math Vector_Model Vector_Proofs2 Geo_Model Light_Model Light_Spec Light_Proofs RotF_Proofs2 AberF_Proofs2 AppF_Proofs.
Open Scope R_scope.

Section Moved.
Variables (u x w : vec) (T : R).
Hypotheses (U : 0 < vlength u) (W : 0 < vlength w <= 1) (HT : Rabs (T * C_AUDAY - vlength u) <= / 1000 * vlength u) (HX : vlength (vsub x u) <= / 1000 * vlength u).
Let L := vlength u. Let V := vlength w. Let D := vlength (vsub x u). Let TC := T * C_AUDAY.
Let g := sqrt (1 - V / C_AUDAY * (V / C_AUDAY)).
Let c := / (TC * C_AUDAY).
Let p (y : vec) := c * dot y w.
Lemma TC_range : 0.999 * L <= TC <= 1.001 * L. Proof. apply Rabs_le_inv in HT. unfold TC, L. lra. Qed.
Lemma T_pos : 0 < T. Proof. pose proof speed_range as C. pose proof TC_range as R. unfold TC, L in R. apply Rmult_lt_reg_r with C_AUDAY; lra. Qed.
Lemma abr_is y : add_aberration y w T = smul (/ (1 + p y)) (vadd (smul g y) (smul ((1 + p y / (1 + g)) * T) w)).
Proof.
  pose proof speed_range as C. pose proof T_pos as T0. assert (V0 : 0 < V) by (unfold V; lra). assert (N : T * C_AUDAY * V <> 0) by (apply Rgt_not_eq; apply Rmult_lt_0_compat; [apply Rmult_lt_0_compat; lra|exact V0]).
  unfold add_aberration. cbv zeta. fold V g. unfold plus_tiny. destruct (Req_EM_T (T * C_AUDAY * V) 0) as [Z|_]; [contradiction|].
  assert (E : V / C_AUDAY * (dot y w / (T * C_AUDAY * V)) = p y) by (unfold p, c, TC; field; repeat split; lra). rewrite E. reflexivity.
Qed.
Lemma beta_small : 0 <= V / C_AUDAY <= / 173.
Proof. pose proof speed_range as C. assert (I : 0 < / C_AUDAY <= / 173) by (split; [apply Rinv_0_lt_compat; lra|apply Rinv_le; lra]). assert (V01 : 0 <= V <= 1) by (unfold V; lra). unfold Rdiv. split; [apply Rmult_le_pos; lra|]. replace (/ 173) with (1 * / 173) by ring. apply Rmult_le_compat; lra. Qed.
Lemma g_range : 0 <= g <= 1.
Proof. split; [apply sqrt_pos|]. unfold g. pose proof beta_small as B. apply Rle_trans with (sqrt 1); [|rewrite sqrt_1; lra]. apply sqrt_le_1_alt. pose proof (Rle_0_sqr (V / C_AUDAY)). unfold Rsqr in *. lra. Qed.
Lemma c_range : 0 < c /\ c * V <= 0.0058 * / L.
Proof.
  pose proof speed_range as C. pose proof TC_range as R. assert (L0 : 0 < L) by exact U. assert (P : 0 < TC * C_AUDAY) by (apply Rmult_lt_0_compat; lra). split; [apply Rinv_0_lt_compat, P|]. assert (I : c <= / (0.999 * L * 173)). { apply Rinv_le; [lra|]. apply Rmult_le_compat; lra. }
  assert (V01 : 0 <= V <= 1) by (unfold V; lra). assert (c0 : 0 <= c) by (apply Rlt_le, Rinv_0_lt_compat, P). apply Rle_trans with (c * 1); [apply Rmult_le_compat_l; lra|]. rewrite Rmult_1_r. apply Rle_trans with (1 := I). replace (0.999 * L * 173) with (172.827 * L) by lra. rewrite Rinv_mult. apply Rmult_le_compat_r; [apply Rlt_le, Rinv_0_lt_compat, L0|lra].
Qed.
Lemma p_le y : Rabs (p y) <= 0.0058 * (vlength y / L).
Proof.
  destruct c_range as [c0 cV]. unfold p. rewrite Rabs_mult, (Rabs_pos_eq c) by lra. pose proof (cauchy_abs y w) as CA. fold V in CA. apply Rle_trans with (c * (vlength y * V)); [apply Rmult_le_compat_l; lra|]. replace (c * (vlength y * V)) with (c * V * vlength y) by ring. replace (0.0058 * (vlength y / L)) with (0.0058 * / L * vlength y) by (unfold Rdiv; lra). apply Rmult_le_compat_r; [apply vlength_pos|exact cV].
Qed.
Lemma p_sub : p x - p u = p (vsub x u). Proof. unfold p. rewrite dot_sub_l. ring. Qed.
Lemma aberration_moved : vlength (vsub (add_aberration x w T) (add_aberration u w T)) <= 1.02 * D.
Proof.
  pose proof speed_range as C. pose proof T_pos as T0. pose proof TC_range as R. pose proof g_range as G. pose proof beta_small as B. destruct c_range as [c0 cV]. assert (L0 : 0 < L) by exact U. assert (D0 : 0 <= D) by apply vlength_pos. assert (V01 : 0 < V <= 1) by exact W.
  pose proof (p_le u) as Pu. replace (vlength u / L) with 1 in Pu by (unfold L; field; unfold L in L0; lra). pose proof (p_le (vsub x u)) as Pd. fold D in Pd. assert (DL : 0 <= D / L <= / 1000). { split; [apply Rmult_le_pos; [exact D0|apply Rlt_le, Rinv_0_lt_compat, L0]|]. apply Rmult_le_reg_r with L; [exact L0|]. replace (D / L * L) with D by (field; lra). exact HX. }
  pose proof p_sub as PS. set (pu := p u) in *. set (px := p x) in *. set (pd := p (vsub x u)) in *. apply Rabs_le_inv in Pu. assert (Pd' := Pd). apply Rabs_le_inv in Pd'. assert (ru : 0.99 <= 1 + pu <= 1.01) by lra. assert (rx : 0.99 <= 1 + px <= 1.01) by lra.
  assert (Ix : 0 < / (1 + px) <= 1.0102) by (split; [apply Rinv_0_lt_compat; lra|replace 1.0102 with (/ (/ 1.0102)) by (apply Rinv_inv); apply Rinv_le; lra]). assert (Iu : 0 < / (1 + pu) <= 1.0102) by (split; [apply Rinv_0_lt_compat; lra|replace 1.0102 with (/ (/ 1.0102)) by (apply Rinv_inv); apply Rinv_le; lra]).
  assert (Ig : 0 < / (1 + g) <= 1) by (split; [apply Rinv_0_lt_compat; lra|apply Rle_trans with (/ 1); [apply Rinv_le; lra|lra]]).
  rewrite !abr_is. fold pu px. set (n := vadd (smul g u) (smul ((1 + pu / (1 + g)) * T) w)).
  replace (vsub (smul (/ (1 + px)) (vadd (smul g x) (smul ((1 + px / (1 + g)) * T) w))) (smul (/ (1 + pu)) n)) with (vadd (smul (/ (1 + px)) (vadd (smul g (vsub x u)) (smul (pd * / (1 + g) * T) w))) (smul (- (pd * / (1 + px) * / (1 + pu))) n)).
  2:{ unfold n. rewrite <- PS. unfold vadd, vsub, smul. cbn [vx vy vz]. f_equal; field; repeat split; lra. }
  apply Rle_trans with (1 := triangle _ _). rewrite !len_smul, Rabs_Ropp.
  assert (TV : T * V <= 0.0058 * L). { replace (T * V) with (TC * (V / C_AUDAY)) by (unfold TC; field; lra). apply Rle_trans with (1.001 * L * / 173); [apply Rmult_le_compat; lra|lra]. } assert (TV0 : 0 <= T * V) by (apply Rmult_le_pos; lra).
  assert (PL : Rabs pd * L <= 0.0058 * D). { apply Rle_trans with (0.0058 * (D / L) * L); [apply Rmult_le_compat_r; lra|]. apply Req_le. unfold Rdiv. rewrite !Rmult_assoc, Rinv_l by lra. lra. } pose proof (Rabs_pos pd) as Ap.
  assert (A1 : vlength (vadd (smul g (vsub x u)) (smul (pd * / (1 + g) * T) w)) <= 1.0001 * D).
  { apply Rle_trans with (1 := triangle _ _). rewrite !len_smul, (Rabs_pos_eq g) by lra. fold D V. assert (g * D <= 1 * D) by (apply Rmult_le_compat_r; lra). rewrite !Rabs_mult, (Rabs_pos_eq T), (Rabs_pos_eq (/ (1 + g))) by lra. assert (Rabs pd * / (1 + g) * T * V <= 0.0001 * D).
    { apply Rle_trans with (Rabs pd * (0.0058 * L)); [|apply Rle_trans with (0.0058 * (Rabs pd * L)); [lra|]; lra]. replace (Rabs pd * / (1 + g) * T * V) with (Rabs pd * (/ (1 + g) * (T * V))) by ring. apply Rmult_le_compat_l; [exact Ap|]. apply Rle_trans with (1 * (T * V)); [apply Rmult_le_compat_r; lra|lra]. } lra. }
  assert (A2 : vlength n <= 1.02 * L).
  { unfold n. apply Rle_trans with (1 := triangle _ _). rewrite !len_smul, (Rabs_pos_eq g) by lra. fold L V. assert (g * L <= 1 * L) by (apply Rmult_le_compat_r; lra). rewrite Rabs_mult, (Rabs_pos_eq T) by lra. assert (Q : Rabs (1 + pu / (1 + g)) <= 2). { apply Rabs_le. unfold Rdiv. assert (Rabs (pu * / (1 + g)) <= 0.01 * 1). { rewrite Rabs_mult, (Rabs_pos_eq (/ (1 + g))) by lra. apply Rmult_le_compat; [apply Rabs_pos|lra|apply Rabs_le; lra|lra]. } apply Rabs_le_inv in H0. lra. }
    assert (Rabs (1 + pu / (1 + g)) * T * V <= 2 * (0.0058 * L)) by (rewrite Rmult_assoc; apply Rmult_le_compat; [apply Rabs_pos|lra|exact Q|exact TV]). lra. }
  rewrite (Rabs_pos_eq (/ (1 + px))) by lra. rewrite !Rabs_mult, (Rabs_pos_eq (/ (1 + px))), (Rabs_pos_eq (/ (1 + pu))) by lra.
  assert (B1 : / (1 + px) * vlength (vadd (smul g (vsub x u)) (smul (pd * / (1 + g) * T) w)) <= 1.0102 * (1.0001 * D)) by (apply Rmult_le_compat; [lra|apply vlength_pos|lra|exact A1]).
  assert (B2 : Rabs pd * / (1 + px) * / (1 + pu) * vlength n <= 0.0065 * D).
  { apply Rle_trans with (Rabs pd * 1.0102 * 1.0102 * (1.02 * L)); [|lra]. apply Rmult_le_compat; [repeat apply Rmult_le_pos; lra|apply vlength_pos| |exact A2]. apply Rmult_le_compat; [apply Rmult_le_pos; lra|lra| |lra]. apply Rmult_le_compat; lra. }
  lra.
Qed.
End Moved.
