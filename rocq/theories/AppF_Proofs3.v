(** Apparent places in floats. *)
From Coq Require Import ZArith Reals Lia Lra Psatz Bool List.
From Flocq Require Import Core BinarySingleNaN.
From Verif Require Geo_Proofs.
From Verif Require Import Float64 Float64_Proofs Float_Time_Proofs Float_Time_Proofs4 CalF_Proofs2 SexaF_Proofs2 Real_Math Vector_Model Vector_Proofs2 Geo_Model Light_Model Light_Spec Light_Proofs Light_Proofs2 SepF_Model SepF_Spec SepF_Proofs SepF_Proofs2 SepF_Proofs3 SphF_Spec SphF_Proofs RotF_Spec RotF_Proofs RotF_Proofs2 RotF_Proofs4 FrameF_Proofs LightF_Model LightF_Spec LightF_Proofs GeodF_Proofs GeodF_Proofs2 AberF_Model AberF_Spec AberF_Proofs AberF_Proofs2 AberF_Proofs3 DeflF_Model DeflF_Spec DeflF_Proofs DeflF_Proofs2 DeflF_Proofs3 AppF_Model AppF_Spec AppF_Proofs AppF_Proofs2.
Import ListNotations.
Open Scope R_scope.

Lemma smul_bent u e : bent u e = turn (unit_of u) (vadd (unit_of (vadd u e)) (unit_of e)) (unit_of e).
Proof. unfold bent. apply turn_is. Qed.
Lemma shift_value u e (rm : bf) : plain u -> plain e -> plain (vadd u e) -> / 2 ^ 40 <= openness u e -> Rabs (alignment u e) <= 99999999999 / 10 ^ 11 -> compute_deflection u e (B2R rm) = Some (shift u e (strength e (B2R rm))).
Proof.
  intros A B C F H. rewrite (model_value u e rm A B C F). destruct (Rle_dec (Rabs (alignment u e)) (99999999999 / 10 ^ 11)) as [_|N]; [|contradiction]. rewrite Rmult_1_l, smul_bent. reflexivity.
Qed.
Lemma strength_pos e rm : 0 < vlength e -> 1 <= rm -> 0 <= strength e rm.
Proof. intros E R. unfold strength. apply Rmult_le_pos; [unfold GS; lra|]. apply Rlt_le, Rinv_0_lt_compat. unfold Light_Model.C, AU_M. repeat apply Rmult_lt_0_compat; lra. Qed.
Lemma mild_plain u e rm : mild u e rm -> plain u /\ plain (vadd u e).
Proof. intros (A & _ & B & _). split; apply (wider _ 49); try lia; assumption. Qed.
Lemma near_value w err p : near_vector w err p -> exists v, stands_for p v /\ Rabs (vx (vsub v w)) <= err /\ Rabs (vy (vsub v w)) <= err /\ Rabs (vz (vsub v w)) <= err.
Proof. destruct p as [p1 p2 p3]. intros ((a & Ea & Fa & Va) & (b & Eb & Fb & Vb) & (c & Ec & Fc & Vc)). cbn [fx fy fz] in *. exists (V3 (B2R a) (B2R b) (B2R c)). cbn [vsub vx vy vz]. split; [|auto]. exists a, b, c. subst. auto. Qed.
Lemma plus_value p q x y g : stands_for p x -> stands_for q y -> scale g -> vlength (vadd x y) <= 1.02 * g -> exists z, stands_for (fplus p q) z /\ vlength (vsub z (vadd x y)) <= 1.79 * (eps * g).
Proof.
  intros (a & b & c & -> & Fa & Fb & Fc & ->) (a' & b' & c' & -> & Fa' & Fb' & Fc' & ->) Sg B. destruct (scale_facts g Sg) as (G0 & Et & Gm). pose proof eps_small as Ep. destruct (coord_le (vadd (V3 (B2R a) (B2R b) (B2R c)) (V3 (B2R a') (B2R b') (B2R c')))) as (X & Y & Z). cbn [vadd vx vy vz] in X, Y, Z.
  assert (One : forall s t : bf, is_finite s = true -> is_finite t = true -> Rabs (B2R s + B2R t) <= 1.02 * g -> exists z : bf, fadd (B2SF s) (B2SF t) = B2SF z /\ is_finite z = true /\ Rabs (B2R z - (B2R s + B2R t)) <= 1.03 * (eps * g)).
  { intros s t Fs Ft H. destruct (fadd_val s t Fs Ft) as (z & E & Fz & Vz); [lra|]. exists z. split; [exact E|]. split; [exact Fz|]. rewrite Vz. apply Rle_trans with (1 := rnd_err _). pose proof (Rmult_le_compat_l eps _ _ ltac:(lra) H). assert (0 < eps * g) by (apply Rmult_lt_0_compat; lra). lra. }
  destruct (One a a' Fa Fa' ltac:(lra)) as (z1 & E1 & F1 & V1). destruct (One b b' Fb Fb' ltac:(lra)) as (z2 & E2 & F2 & V2). destruct (One c c' Fc Fc' ltac:(lra)) as (z3 & E3 & F3' & V3').
  exists (V3 (B2R z1) (B2R z2) (B2R z3)). split; [exists z1, z2, z3; unfold fplus; cbn [fx fy fz]; rewrite E1, E2, E3; auto|]. assert (EG : 0 < eps * g) by (apply Rmult_lt_0_compat; lra). apply Rle_trans with (1.7321 * (1.03 * (eps * g))); [|lra]. apply len_coord; cbn [vsub vadd vx vy vz]; assumption.
Qed.

Section Step.
Variables (p ef : fvec) (u x e : vec) (rm : bf) (r : R).
Hypotheses (M : mild u e (B2R rm)) (Sp : stands_for p x) (Se : stands_for ef e) (Fr : is_finite rm = true) (R0 : 0 <= r <= 4096) (Hx : vlength (vsub x u) <= r * eps * vlength u).
Let P := vlength u. Let Q := vlength (vadd u e). Let F := openness u e. Let k := strength e (B2R rm). Let D := vlength (vsub x u).
Lemma step_ok : exists d, compute_deflection u e (B2R rm) = Some d /\ exists z, stands_for (fplus p (compute_deflection64 p ef (B2SF rm))) z /\ vlength (vsub z (vadd u d)) <= (1.05 * r + blur u e (B2R rm)) * eps * vlength (vadd u d).
Proof.
  pose proof M as (Ru & Pe & Rq & Hr & HF & HA & HPQ & HK). destruct (mild_plain _ _ _ M) as [Pu Pq]. fold P Q F k in Ru, Rq, HF, HPQ, HK. fold D P in Hx. pose proof eps_small as Ep.
  assert (U : 0 < P) by (apply (sized_pos 49), Ru). assert (QU : 0 < Q) by (apply (sized_pos 49), Rq). assert (E0 : 0 < vlength e) by (apply plain_pos, Pe). assert (D0 : 0 <= D) by apply vlength_pos. assert (K0 : 0 <= k) by (apply strength_pos; lra).
  assert (re : 0 <= r * eps <= 4.6 / 10 ^ 13). { split; [apply Rmult_le_pos; lra|]. apply Rle_trans with (4096 * eps); [apply Rmult_le_compat_r; lra|unfold eps; lra]. } assert (DP : D <= 4.6 / 10 ^ 13 * P) by (apply Rle_trans with (1 := Hx); apply Rmult_le_compat_r; lra). assert (DQ : D <= 4.6 / 10 ^ 8 * Q) by lra.
  pose proof (len_diff x u) as LX. fold P D in LX. apply Rabs_le_inv in LX. pose proof (len_diff (vadd x e) (vadd u e)) as LQ. replace (vsub (vadd x e) (vadd u e)) with (vsub x u) in LQ by (unfold vsub, vadd; cbn [vx vy vz]; f_equal; ring). fold Q D in LQ. apply Rabs_le_inv in LQ.
  assert (H2 : / 2 ^ 49 = 2 * / 2 ^ 50) by (replace (2 ^ 50) with (2 * 2 ^ 49) by (simpl; ring); rewrite Rinv_mult; lra). assert (H3 : 2 ^ 50 = 2 * 2 ^ 49) by (simpl; ring).
  assert (Px : plain x) by (unfold plain; lra). assert (Pxq : plain (vadd x e)) by (unfold plain; lra). pose proof (plain_pos _ Px) as X0. pose proof (plain_pos _ Pxq) as QX0.
  (* the opening seen from x *)
  set (w := vadd (unit_of (vadd u e)) (unit_of e)). set (s := vlength w). pose proof (F_is u e E0 QU) as EF. fold F w s in EF. pose proof (s_moved u x e QU QX0) as SM. fold w s in SM. fold D Q in SM. set (s' := vlength (vadd (unit_of (vadd x e)) (unit_of e))) in *. pose proof (F'_is x e E0 QX0) as EF'. fold s' in EF'. set (F' := openness x e) in *.
  assert (S0 : 1.4 / 10 ^ 5 <= s). { apply Rsqr_incr_0_var; [|apply vlength_pos]. unfold Rsqr. lra. } pose proof (s_le2 u e E0 QU) as S2. fold w s in S2.
  assert (DQ' : D / Q <= 4.6 / 10 ^ 8). { apply Rmult_le_reg_r with Q; [exact QU|]. replace (D / Q * Q) with D by (field; lra). exact DQ. } assert (Small : 2 * (D / Q) <= s / 100) by lra. apply Rabs_le_inv in SM. assert (S1 : 0.99 * s <= s' <= 1.01 * s) by lra.
  assert (SS : 0 < s * s) by (apply Rmult_lt_0_compat; lra). assert (F1 : 0.98 * F <= F'). { rewrite EF, EF'. assert ((0.99 * s) * (0.99 * s) <= s' * s') by (apply Rmult_le_compat; lra). lra. } assert (F0 : 0 < F) by lra.
  assert (HF40 : / 2 ^ 40 <= F) by lra. assert (HF40' : / 2 ^ 40 <= F') by lra.
  (* the alignment *)
  assert (HA' : Rabs (alignment x e) <= 99999999999 / 10 ^ 11 - 18 / 2 ^ 53).
  { pose proof (unit_moved x u X0 U) as UM. fold D P in UM. assert (DP' : D / P <= 4.6 / 10 ^ 13). { apply Rmult_le_reg_r with P; [exact U|]. replace (D / P * P) with D by (field; lra). exact DP. } pose proof (cauchy_abs (unit_of e) (vsub (unit_of x) (unit_of u))) as CA. rewrite (len_unit e E0), Rmult_1_l, dot_sub_r in CA. fold (alignment x e) (alignment u e) in CA.
    replace (alignment x e) with (alignment u e + (alignment x e - alignment u e)) by ring. apply Rle_trans with (1 := Rabs_triang _ _). lra. }
  (* the two deflections *)
  exists (shift u e k). split; [apply shift_value; try assumption; lra|]. destruct (bent_ok p ef x e rm Sp Se Px Pe Pxq Fr Hr HF40' HA') as (dx & Edx & Ndx). rewrite (shift_value x e rm Px Pe Pxq HF40' ltac:(lra)) in Edx. assert (Edx' : dx = shift x e k) by (unfold k; congruence). subst dx. clear Edx. fold k F' in Ndx.
  destruct (near_value _ _ _ Ndx) as (y & Sy & Y1 & Y2 & Y3). pose proof (len_coord _ _ Y1 Y2 Y3) as LY.
  pose proof (shift_moved u x e k U X0 E0 QU QX0 K0 ltac:(fold w s; lra) Small) as MV. fold P Q F D in MV. assert (KF : k * (1 + P / Q) / F <= / 500). { apply Rmult_le_reg_r with F; [exact F0|]. replace (k * (1 + P / Q) / F * F) with (k * (1 + P / Q)) by (field; lra). lra. } assert (MV' : vlength (vsub (shift x e k) (shift u e k)) <= 0.026 * D). { apply Rle_trans with (1 := MV). apply Rmult_le_compat_r; lra. }
  assert (KF1 : k / F <= / 500). { assert (PQ0 : 0 <= P / Q) by (apply Rmult_le_pos; [lra|apply Rlt_le, Rinv_0_lt_compat, QU]). apply Rle_trans with (2 := KF). unfold Rdiv at 1 2. apply Rmult_le_compat_r; [apply Rlt_le, Rinv_0_lt_compat, F0|]. assert (0 <= k * (P / Q)) by (apply Rmult_le_pos; lra). lra. } assert (KF0 : 0 <= k / F) by (apply Rmult_le_pos; [lra|apply Rlt_le, Rinv_0_lt_compat, F0]).
  pose proof (shift_len u e k U E0 QU K0 ltac:(fold w s; lra)) as SL. fold P w s F in SL. assert (SL' : vlength (shift u e k) <= 0.008 * P). { apply Rle_trans with (1 := SL). replace (k * P * s * 2 / F) with (k / F * (P * s * 2)) by (field; lra). apply Rle_trans with (/ 500 * (P * 2 * 2)); [|lra]. apply Rmult_le_compat; [lra|repeat apply Rmult_le_pos; lra|lra|]. apply Rmult_le_compat_r; [lra|]. apply Rmult_le_compat_l; lra. }
  (* the error of the floats *)
  set (B := k / (F * sqrt F)). assert (RF : 0 < sqrt F) by (apply sqrt_lt_R0, F0). assert (RF' : 0.989 * sqrt F <= sqrt F'). { apply Rsqr_incr_0_var; [|apply sqrt_pos]. unfold Rsqr. rewrite sqrt_sqrt by lra. replace (0.989 * sqrt F * (0.989 * sqrt F)) with (0.989 * 0.989 * (sqrt F * sqrt F)) by lra. rewrite sqrt_sqrt by lra. lra. }
  assert (FF : 0.969 * (F * sqrt F) <= F' * sqrt F'). { apply Rle_trans with ((0.98 * F) * (0.989 * sqrt F)); [pose proof (Rmult_lt_0_compat _ _ F0 RF); lra|]. apply Rmult_le_compat; lra. } assert (FF0 : 0 < F * sqrt F) by (apply Rmult_lt_0_compat; assumption).
  assert (B0 : 0 <= B) by (apply Rmult_le_pos; [lra|apply Rlt_le, Rinv_0_lt_compat, FF0]).
  assert (EB : 141 / 2 ^ 53 * (k * vlength x / (F' * sqrt F')) <= 145.8 * B * (eps * P)).
  { assert (I : 0 < / (F' * sqrt F') <= 1.032 * / (F * sqrt F)). { split; [apply Rinv_0_lt_compat; lra|]. apply Rle_trans with (/ (0.969 * (F * sqrt F))); [apply Rinv_le; lra|]. rewrite Rinv_mult. apply Rmult_le_compat_r; [apply Rlt_le, Rinv_0_lt_compat, FF0|lra]. }
    assert (J : k * vlength x * / (F' * sqrt F') <= k * (1.001 * P) * (1.032 * / (F * sqrt F))) by (apply Rmult_le_compat; [apply Rmult_le_pos; lra|lra|apply Rmult_le_compat_l; lra|lra]). unfold Rdiv at 2. assert (0 <= B * P) by (apply Rmult_le_pos; lra). replace (k * (1.001 * P) * (1.032 * / (F * sqrt F))) with (1.001 * 1.032 * (B * P)) in J by (unfold B, Rdiv; lra). replace (145.8 * B * (eps * P)) with (145.8 * eps * (B * P)) by lra. unfold eps. lra. }
  assert (BT0 : 0 <= B * (eps * P)) by (apply Rmult_le_pos; [exact B0|apply Rmult_le_pos; lra]).
  assert (LY' : vlength (vsub y (shift x e k)) <= 252.6 * B * (eps * P)) by lra.
  assert (B1 : B <= 300). { unfold B, Rdiv. rewrite Rinv_mult. rewrite <- Rmult_assoc. assert (R5 : 0.99 / 10 ^ 5 <= sqrt F). { apply Rsqr_incr_0_var; [|apply sqrt_pos]. unfold Rsqr. rewrite sqrt_sqrt by lra. lra. } assert (I5 : 0 < / sqrt F <= 110000) by (split; [apply Rinv_0_lt_compat, RF|replace 110000 with (/ / 110000) by (apply Rinv_inv); apply Rinv_le; lra]). unfold Rdiv in KF0, KF1. apply Rle_trans with (/ 500 * 110000); [apply Rmult_le_compat; lra|lra]. }
  assert (T0 : 0 < eps * P) by (apply Rmult_lt_0_compat; lra). assert (BT : B * (eps * P) <= 300 * (eps * P)) by (apply Rmult_le_compat_r; lra). assert (TP : eps * P <= / 10 ^ 15 * P) by (apply Rmult_le_compat_r; [lra|unfold eps; lra]).
  assert (LXY : vlength (vadd x y) <= 1.02 * P). { pose proof (triangle x y) as T1. pose proof (len_far y (shift x e k)) as T2. pose proof (len_far (shift x e k) (shift u e k)) as T3. lra. }
  assert (SP : scale P) by (apply (sized_scale 49); [lia|exact Ru]). destruct (plus_value p _ x y P Sp Sy SP LXY) as (z & Sz & Vz). exists z. split; [exact Sz|].
  assert (Tot : vlength (vsub z (vadd u (shift u e k))) <= (1.026 * r + 252.6 * B + 1.79) * (eps * P)).
  { pose proof (len_via z (vadd x y) (vadd u (shift u e k))) as V1. assert (V2 : vlength (vsub (vadd x y) (vadd u (shift u e k))) <= D + (vlength (vsub y (shift x e k)) + vlength (vsub (shift x e k) (shift u e k)))). { replace (vsub (vadd x y) (vadd u (shift u e k))) with (vadd (vsub x u) (vsub y (shift u e k))) by (unfold vsub, vadd; cbn [vx vy vz]; f_equal; ring). apply Rle_trans with (1 := triangle _ _). fold D. pose proof (len_via y (shift x e k) (shift u e k)). lra. } replace (r * eps * P) with (r * (eps * P)) in Hx by ring. lra. }
  assert (PP : 0.992 * P <= vlength (vadd u (shift u e k))). { pose proof (len_far u (vadd u (shift u e k))) as T1. replace (vsub u (vadd u (shift u e k))) with (smul (-(1)) (shift u e k)) in T1 by (unfold vsub, vadd, smul; cbn [vx vy vz]; f_equal; ring). rewrite len_smul, Rabs_Ropp, Rabs_R1, Rmult_1_l in T1. fold P in T1. lra. }
  apply Rle_trans with (1 := Tot). unfold blur. fold k F B. set (c := 1.05 * r + (270 * B + 2)). apply Rle_trans with (c * eps * (0.992 * P)); [|apply Rmult_le_compat_l; [apply Rmult_le_pos; [unfold c; lra|lra]|exact PP]].
  replace (c * eps * (0.992 * P)) with (0.992 * c * (eps * P)) by lra. apply Rmult_le_compat_r; [lra|]. unfold c. lra.
Qed.
End Step.
