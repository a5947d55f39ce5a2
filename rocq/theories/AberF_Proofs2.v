(** Aberration in floats. *)
From Coq Require Import ZArith Reals Lia Lra Psatz Bool.
From Flocq Require Import Core BinarySingleNaN.
From Verif Require Import Float64 Float64_Proofs Float_Time_Proofs Float_Time_Proofs4 CalF_Proofs2 SexaF_Proofs2 Real_Math Vector_Model Vector_Proofs2 Geo_Model Light_Model SepF_Model SepF_Spec SepF_Proofs SepF_Proofs2 SphF_Spec SphF_Proofs RotF_Spec RotF_Proofs2 RotF_Proofs4 FrameF_Proofs LightF_Model LightF_Spec LightF_Proofs GeodF_Proofs GeodF_Proofs2 AberF_Model AberF_Spec AberF_Proofs.
Open Scope R_scope.

Lemma over_1 x : x / 1 = x. Proof. field. Qed.
Lemma scale_in x : / 2 ^ 190 <= x <= 2 ^ 190 -> scale x.
Proof. intros [L U]. rewrite pow_bpow in L, U. rewrite <- bpow_opp in L. split; [apply Rle_trans with (2 := L)|apply Rle_trans with (1 := U)]; apply bpow_le; lia. Qed.
Lemma scale_mul s t : / 2 ^ 95 <= s <= 2 ^ 95 -> / 2 ^ 95 <= t <= 2 ^ 95 -> scale (s * t).
Proof.
  intros S T. assert (P : 0 < / 2 ^ 95) by (apply Rinv_0_lt_compat, pow_lt; lra). apply scale_in. replace (2 ^ 190) with (2 ^ 95 * 2 ^ 95) by (rewrite <- pow_add; reflexivity). rewrite Rinv_mult. split; apply Rmult_le_compat; lra.
Qed.
Lemma wider x m n : (m <= n)%nat -> / 2 ^ m <= x <= 2 ^ m -> / 2 ^ n <= x <= 2 ^ n.
Proof. intros H X. assert (2 ^ m <= 2 ^ n) by (apply Rle_pow; [lra|exact H]). assert (/ 2 ^ n <= / 2 ^ m) by (apply Rinv_le; [apply pow_lt; lra|assumption]). lra. Qed.
Lemma speed_is : C_AUDAY = light_speed. Proof. unfold C_AUDAY, light_speed, Light_Model.C, DAY_S, AU_M. lra. Qed.
Lemma speed_range : 173 <= C_AUDAY <= 174. Proof. rewrite speed_is. unfold light_speed. lra. Qed.
Lemma scale_c : / 2 ^ 10 <= C_AUDAY <= 2 ^ 10. Proof. pose proof speed_range. lra. Qed.
Lemma speed_at : at_scale C_AUDAY C_AUDAY 1 2.01 C_AUDAY64.
Proof.
  destruct speed_bf as (c & -> & Fc & Vc). pose proof speed_range as R. rewrite <- speed_is in Vc. apply known; [|rewrite Rabs_pos_eq; lra|lra|lra|apply scale_in; apply (wider _ 10); [lia|exact scale_c]]. exists c. split; [reflexivity|]. split; [exact Fc|]. apply Rle_trans with (1 := Vc). pose proof eps_small. apply Rmult_le_compat_r; [lra|]. apply Rmult_le_compat_r; lra.
Qed.
Lemma tiny_at s : / 2 ^ 190 <= s -> scale s -> at_scale s 0 0 0.01 tiny64.
Proof.
  intros L Hs. destruct (fl_bf 1 (-1022)) as (t & E & Ft & Vt); [unfold small; lia|]. unfold tiny64. rewrite E. assert (Vt' : B2R t = bpow radix2 (-1022)) by (rewrite Vt; unfold F2R; cbn [Fnum Fexp]; ring). apply known; [|rewrite Rabs_R0; lra|lra|lra|exact Hs]. exists t. split; [reflexivity|]. split; [exact Ft|]. rewrite Vt', Rminus_0_r, Rabs_pos_eq by apply bpow_ge_0.
  apply Rle_trans with (bpow radix2 (-70) * / 2 ^ 190); [rewrite pow_bpow, <- bpow_opp, <- bpow_plus; apply bpow_le; lia|]. apply Rmult_le_compat; [apply bpow_ge_0|apply Rlt_le, Rinv_0_lt_compat, pow_lt; lra|unfold eps; change (bpow radix2 (-70)) with (/ 1180591620717411303424); lra|exact L].
Qed.
Lemma length_at p w : stands_for p w -> / 2 ^ 190 <= vlength w <= 2 ^ 190 -> at_scale (vlength w) (vlength w) 1 2.54 (length64 p).
Proof.
  intros S H. destruct (length64_rel p w S (wider _ 190 400 ltac:(lia) H)) as (b & -> & F & _ & V). apply known; [|rewrite Rabs_pos_eq by apply vlength_pos; lra|lra|lra|apply scale_in; exact H]. exists b. split; [reflexivity|]. split; [exact F|]. exact V.
Qed.
Lemma dots_at p q u v : stands_for p u -> stands_for q v -> / 2 ^ 95 <= vlength u <= 2 ^ 95 -> / 2 ^ 95 <= vlength v <= 2 ^ 95 -> forall f, good_dot3 f -> at_scale (vlength u * vlength v) (dot u v) 1 4.01 (f p q).
Proof.
  intros Su Sv U V f Gf. assert (Hs := scale_mul _ _ U V). assert (Big : 2 ^ 95 <= 2 ^ 201) by (apply Rle_pow; [lra|lia]). destruct (Gf p q u v Su Sv ltac:(lra) ltac:(lra)) as (b & -> & F & B).
  assert (D : dot (vabs u) (vabs v) = Rabs (vx u * vx v) + Rabs (vy u * vy v) + Rabs (vz u * vz v)) by (unfold dot, vabs; cbn [vx vy vz]; rewrite !Rabs_mult; reflexivity).
  assert (DL : dot (vabs u) (vabs v) <= vlength u * vlength v). { apply Rle_trans with (1 := Rle_abs _). apply Rle_trans with (1 := dot_le _ _). rewrite !vabs_length. lra. }
  apply known; [|rewrite Rmult_1_l; exact (dot_le u v)|lra|lra|exact Hs]. exists b. split; [reflexivity|]. split; [exact F|]. rewrite <- D in B. change (vx u * vx v + vy u * vy v + vz u * vz v) with (dot u v) in B. apply Rle_trans with (1 := B). destruct (scale_facts _ Hs) as (P & _ & _).
  assert (T : / 2 ^ 800 <= 0.01 * eps * (vlength u * vlength v)). { destruct Hs as [Lo _]. apply Rle_trans with (bpow radix2 (-70) * bpow radix2 (-200)); [rewrite pow_bpow, <- bpow_opp, <- bpow_plus; apply bpow_le; lia|]. apply Rmult_le_compat; [apply bpow_ge_0|apply bpow_ge_0|unfold eps; change (bpow radix2 (-70)) with (/ 1180591620717411303424); lra|exact Lo]. }
  unfold eps in *. lra.
Qed.
Lemma coordinates p w : stands_for p w -> scale (vlength w) -> at_scale (vlength w) (vx w) 1 0 (fx p) /\ at_scale (vlength w) (vy w) 1 0 (fy p) /\ at_scale (vlength w) (vz w) 1 0 (fz p).
Proof.
  intros (x & y & z & -> & Fx & Fy & Fz & ->) Hs. pose proof (comp_le (V3 (B2R x) (B2R y) (B2R z))) as (X & Y & Z). cbn [fx fy fz vx vy vz] in *. split; [|split]; (apply exactly; [assumption|lra|lra|exact Hs]).
Qed.

Section Aberration.
Variables (p v : fvec) (u w : vec) (lt : b64) (T : R).
Hypotheses (Sp : stands_for p u) (Sv : stands_for v w) (Lu : far_enough u) (Vw : slow_enough w) (Ht : Rabs (T * C_AUDAY - vlength u) <= / 1000 * vlength u) (Hl : at_scale T T 1 6 lt).
Let L := vlength u. Let V := vlength w. Let c := C_AUDAY. Let M := T * c.
Lemma M_range : 0.999 * L <= M <= 1.001 * L. Proof. apply Rabs_le_inv in Ht. unfold M, L, c. lra. Qed.
Lemma L_pos : 0 < L. Proof. pose proof (proj1 Lu) as H. fold L in H. assert (0 < / 2 ^ 80) by (apply Rinv_0_lt_compat, pow_lt; lra). lra. Qed.
Lemma V_pos : 0 < V. Proof. pose proof (proj1 Vw) as H. fold V in H. assert (0 < / 2 ^ 60) by (apply Rinv_0_lt_compat, pow_lt; lra). lra. Qed.
Lemma L_size : / 2 ^ 80 <= L <= 2 ^ 80. Proof. exact Lu. Qed.
Lemma V_size : / 2 ^ 60 <= V <= 2 ^ 60. Proof. destruct Vw as [A B]. fold V in A, B. split; [exact A|]. apply Rle_trans with (1 := B). apply pow_R1_Rle. lra. Qed.
Lemma M_size : / 2 ^ 81 <= M <= 2 ^ 81.
Proof. pose proof M_range as R. pose proof L_pos as P. pose proof L_size as S. replace (2 ^ 81) with (2 * 2 ^ 80) by (rewrite <- tech_pow_Rmult; reflexivity). rewrite Rinv_mult. assert (0 < / 2 ^ 80) by (apply Rinv_0_lt_compat, pow_lt; lra). split; lra. Qed.
Lemma T_pos : 0 < T. Proof. pose proof Hl as (_ & _ & _ & _ & S). apply (scale_facts T S). Qed.
Lemma b_range : 0 < V / c <= 0.0058. Proof. pose proof V_pos as P. pose proof speed_range as R. fold c in R. destruct Vw as [_ B]. fold V in B. split; [apply Rdiv_lt_0_compat; lra|]. apply Rmult_le_reg_r with c; [lra|]. unfold Rdiv. rewrite Rmult_assoc, Rinv_l by lra. lra. Qed.
Lemma b_size : / 2 ^ 68 <= V / c <= 2 ^ 68.
Proof.
  pose proof b_range as R. pose proof V_size as S. pose proof speed_range as C. fold c in C. split; [|apply Rle_trans with 1; [lra|apply pow_R1_Rle; lra]]. replace (2 ^ 68) with (2 ^ 60 * 2 ^ 8) by (rewrite <- pow_add; reflexivity). rewrite Rinv_mult. assert (0 < / 2 ^ 60) by (apply Rinv_0_lt_compat, pow_lt; lra). assert (I : / 2 ^ 8 <= / c) by (apply Rinv_le; lra). apply Rmult_le_compat; try lra.
Qed.
Lemma VT_le : V * T <= 0.0059 * L.
Proof. pose proof speed_range as C. fold c in C. pose proof b_range as B. pose proof M_range as R. pose proof L_pos as P. replace (V * T) with (V / c * M) by (unfold M; field; lra). apply Rle_trans with (0.0058 * (1.001 * L)); [apply Rmult_le_compat; lra|lra]. Qed.
Lemma VT_scale : scale (V * T).
Proof. pose proof speed_range as C. fold c in C. replace (V * T) with (V / c * M) by (unfold M; field; lra). apply scale_mul; [apply (wider _ 68); [lia|exact b_size]|apply (wider _ 81); [lia|exact M_size]]. Qed.
Lemma beta_at : at_scale (V / c) (V / c) 1 5.78 (fdiv (length64 v) C_AUDAY64).
Proof.
  pose proof speed_at as C. fold c in C. pose proof speed_range as CR. fold c in CR. pose proof (length_at v w Sv (wider _ 60 190 ltac:(lia) V_size)) as Vm. fold V in Vm.
  eapply looser; [apply (div_ss _ _ _ _ _ _ _ _ _ _ Vm C); [lra|apply scale_in, (wider _ 68); [lia|exact b_size]|lra|lra]|lra|rewrite Rabs_pos_eq by (pose proof b_range; lra); lra|lra].
Qed.
Lemma cosd_at : at_scale 1 (dot u w / (M * V)) 1.0011 19.8 (fdiv (dots64 p v) (fadd (fmul (fmul lt C_AUDAY64) (length64 v)) tiny64)).
Proof.
  pose proof speed_at as C. fold c in C. pose proof M_range as MR. pose proof L_pos as LP. pose proof V_pos as VP. pose proof (length_at v w Sv (wider _ 60 190 ltac:(lia) V_size)) as Vm. fold V in Vm.
  assert (SM : scale M) by (apply scale_in, (wider _ 81); [lia|exact M_size]). assert (S2 : / 2 ^ 141 <= M * V <= 2 ^ 141). { replace (2 ^ 141) with (2 ^ 81 * 2 ^ 60) by (rewrite <- pow_add; reflexivity). rewrite Rinv_mult. pose proof M_size. pose proof V_size. assert (0 < / 2 ^ 81) by (apply Rinv_0_lt_compat, pow_lt; lra). assert (0 < / 2 ^ 60) by (apply Rinv_0_lt_compat, pow_lt; lra). split; apply Rmult_le_compat; lra. }
  assert (SMV : scale (M * V)) by (apply scale_in, (wider _ 141); [lia|exact S2]). pose proof (mul_ss _ _ _ _ _ _ _ _ _ _ Hl C SM ltac:(lra) ltac:(lra)) as P1. fold M in P1.
  pose proof (mul_ss _ _ _ _ _ _ _ _ _ _ P1 Vm SMV ltac:(lra) ltac:(lra)) as P2. assert (MVp : 0 < M * V) by (apply Rmult_lt_0_compat; lra).
  pose proof (add_at _ _ _ _ _ 1 _ _ _ _ P2 (tiny_at _ (proj1 (wider _ 141 190 ltac:(lia) S2)) SMV) ltac:(rewrite Rplus_0_r, Rabs_pos_eq; lra) ltac:(lra) ltac:(lra)) as P3. rewrite Rplus_0_r in P3.
  pose proof (dots_at p v u w Sp Sv (wider _ 80 95 ltac:(lia) L_size) (wider _ 60 95 ltac:(lia) V_size) _ dot_left_good) as D. fold L V in D.
  assert (LV : L * V <= 1.0011 * (M * V)) by (rewrite <- Rmult_assoc; apply Rmult_le_compat_r; lra). pose proof (finer _ _ _ _ _ 1.0011 _ D ltac:(lra) LV ltac:(lra) ltac:(lra) SMV) as D2.
  assert (One : M * V / (M * V) = 1) by (field; lra). pose proof (div_ss _ _ _ _ _ _ _ _ _ _ D2 P3 ltac:(lra) ltac:(rewrite One; exact scale_1) ltac:(lra) ltac:(lra)) as Q. rewrite One in Q.
  eapply looser; [exact Q|lra| |lra]. unfold Rdiv. rewrite Rabs_mult, (Rabs_pos_eq (/ (M * V))) by (apply Rlt_le, Rinv_0_lt_compat; lra). apply Rmult_le_reg_r with (M * V); [lra|]. rewrite Rmult_assoc, Rinv_l by lra. pose proof (dot_le u w). fold L V in H. lra.
Qed.
Lemma aberration_at : let r := add_aberration u w T in
  at_scale L (vx r) 1.04 6.2 (fx (add_aberration64 p v lt)) /\ at_scale L (vy r) 1.04 6.2 (fy (add_aberration64 p v lt)) /\ at_scale L (vz r) 1.04 6.2 (fz (add_aberration64 p v lt)).
Proof.
  intros r. pose proof beta_at as B. pose proof cosd_at as Cd. pose proof b_range as BR. pose proof L_pos as LP. pose proof V_pos as VP. pose proof T_pos as TP. pose proof M_range as MR. set (b := V / c) in *. set (cosd := dot u w / (M * V)) in *. set (fb := fdiv (length64 v) C_AUDAY64) in *. set (fc := fdiv (dots64 p v) _) in *.
  pose proof (mul_at _ _ _ _ _ _ _ _ _ B Cd ltac:(lra) ltac:(lra)) as P. pose proof (finer _ 1 _ _ _ 0.0058 _ P ltac:(lra) ltac:(lra) ltac:(lra) ltac:(lra) scale_1) as P1. pose proof (finer _ 1 _ _ _ 0.0058 _ B ltac:(lra) ltac:(lra) ltac:(lra) ltac:(lra) scale_1) as B1.
  pose proof (mul_at _ _ _ _ _ _ _ _ _ B1 B1 ltac:(lra) ltac:(lra)) as BB. assert (B2 : 0 <= b * b <= 0.00004) by (split; nra).
  pose proof (sub_at _ _ _ _ _ 1 _ _ _ _ one_at BB ltac:(rewrite Rabs_pos_eq; lra) ltac:(lra) ltac:(lra)) as G0. pose proof (sqrt_at _ _ _ _ G0 ltac:(lra)) as Gm. set (gm := sqrt (1 - b * b)) in *.
  assert (GR : 0.9999 <= gm <= 1). { pose proof (sqrt_pos (1 - b * b)). assert (gm * gm = 1 - b * b) by (apply sqrt_sqrt; lra). fold gm in H. split; nra. }
  pose proof (add_at _ _ _ _ _ 2 _ _ _ _ one_at Gm ltac:(rewrite Rabs_pos_eq; lra) ltac:(lra) ltac:(lra)) as G1.
  assert (S2 : scale 2) by (apply scale_in, (wider _ 1); [lia|lra]). assert (SH : scale (1 / 2)) by (apply scale_in, (wider _ 1); [lia|lra]).
  pose proof (finer _ 2 _ _ _ (1 / 2) _ G1 ltac:(lra) ltac:(lra) ltac:(lra) ltac:(lra) S2) as G2.
  pose proof (div_ss _ _ _ _ _ _ _ _ _ _ P1 G2 ltac:(lra) SH ltac:(lra) ltac:(lra)) as E0. pose proof (finer _ 1 _ _ _ (1 / 2) _ E0 ltac:(lra) ltac:(lra) ltac:(lra) ltac:(lra) scale_1) as E1. set (ee := b * cosd / (1 + gm)) in *.
  assert (Ee : Rabs ee <= 0.003). { pose proof (proj1 (proj2 E1)) as H. lra. }
  pose proof (add_at _ _ _ _ _ 1.003 _ _ _ _ one_at E1 ltac:(apply Rle_trans with (1 := Rabs_triang _ _); rewrite Rabs_R1; lra) ltac:(lra) ltac:(lra)) as Q0.
  assert (ST : scale (1 * T)) by (rewrite Rmult_1_l; apply Hl). pose proof (mul_ss _ _ _ _ _ _ _ _ _ _ Q0 Hl ST ltac:(lra) ltac:(lra)) as Q. rewrite (Rmult_1_l T) in Q. set (qq := (1 + ee) * T) in *.
  assert (Pb : Rabs (b * cosd) <= 0.006). { pose proof (proj1 (proj2 P1)) as H. lra. } pose proof (Rabs_le_inv _ _ Pb) as Pb'.
  pose proof (add_at _ _ _ _ _ 1.006 _ _ _ _ one_at P1 ltac:(rewrite Rabs_pos_eq; lra) ltac:(lra) ltac:(lra)) as R.
  assert (SL : scale L) by (apply scale_in, (wider _ 80); [lia|exact L_size]). assert (SV : scale V) by (apply scale_in, (wider _ 60); [lia|exact V_size]). assert (SL1 : scale (L / 1)) by (rewrite over_1; exact SL).
  destruct (coordinates p u Sp SL) as (Ux & Uy & Uz). destruct (coordinates v w Sv SV) as (Wx & Wy & Wz). fold L in Ux, Uy, Uz. fold V in Wx, Wy, Wz.
  assert (Each : forall x y a d, at_scale L x 1 0 a -> at_scale V y 1 0 d -> at_scale L (/ (1 + b * cosd) * (gm * x + qq * y)) 1.04 6.2 (fdiv (fadd (fmul a (fsqrt (fsub (of_Z 1) (fmul fb fb)))) (fmul d (fmul (fadd (of_Z 1) (fdiv (fmul fb fc) (fadd (of_Z 1) (fsqrt (fsub (of_Z 1) (fmul fb fb)))))) lt))) (fadd (of_Z 1) (fmul fb fc)))).
  { intros x y a d Hx Hy. pose proof (mul_at _ _ _ _ _ _ _ _ _ Hx Gm ltac:(lra) ltac:(lra)) as X. pose proof (mul_ss _ _ _ _ _ _ _ _ _ _ Hy Q VT_scale ltac:(lra) ltac:(lra)) as Y0. pose proof (finer _ L _ _ _ 0.0059 _ Y0 ltac:(lra) VT_le ltac:(lra) ltac:(lra) SL) as Y.
    pose proof (proj1 (proj2 X)) as Xb. pose proof (proj1 (proj2 Y)) as Yb. assert (Sb : Rabs (x * gm + y * qq) <= 1.006 * L) by (apply Rle_trans with (1 := Rabs_triang _ _); lra).
    pose proof (add_at _ _ _ _ _ 1.006 _ _ _ _ X Y Sb ltac:(lra) ltac:(lra)) as Sm. pose proof (div_ss _ _ _ _ _ _ _ _ _ _ Sm R ltac:(lra) SL1 ltac:(lra) ltac:(lra)) as Dv. rewrite over_1 in Dv.
    replace (/ (1 + b * cosd) * (gm * x + qq * y)) with ((x * gm + y * qq) / (1 + b * cosd)) by (field; lra). eapply looser; [exact Dv|lra| |lra]. apply Rle_trans with (1 := proj1 (proj2 Dv)). apply Rmult_le_compat_r; lra. }
  assert (PT : plus_tiny (M * V) = M * V). { unfold plus_tiny. destruct (Req_EM_T (M * V) 0) as [Z|_]; [|reflexivity]. exfalso. assert (0 < M * V) by (apply Rmult_lt_0_compat; lra). lra. }
  unfold r, add_aberration. fold c. fold M. fold V. rewrite PT. fold cosd. fold b. fold gm. fold ee. fold qq. cbn [smul vadd vx vy vz].
  split; [exact (Each _ _ _ _ Ux Wx)|]. split; [exact (Each _ _ _ _ Uy Wy)|exact (Each _ _ _ _ Uz Wz)].
Qed.
End Aberration.
