(** The deflection of light in floats: the two cases. *)
From Coq Require Import ZArith Reals Lia Lra Psatz Bool.
From Flocq Require Import Core BinarySingleNaN.
From Verif Require Geo_Proofs.
From Verif Require Import Float64 Float64_Proofs Float_Time_Proofs Float_Time_Proofs4 CalF_Proofs2 SexaF_Proofs2 Real_Math Vector_Model Vector_Proofs2 Geo_Model Light_Model Light_Spec Light_Proofs Light_Proofs2 SepF_Model SepF_Spec SepF_Proofs SepF_Proofs2 SepF_Proofs3 SphF_Spec SphF_Proofs RotF_Spec RotF_Proofs RotF_Proofs2 RotF_Proofs4 FrameF_Proofs LightF_Model LightF_Spec LightF_Proofs GeodF_Proofs GeodF_Proofs2 AberF_Model AberF_Spec AberF_Proofs AberF_Proofs2 AberF_Proofs3 DeflF_Model DeflF_Spec DeflF_Proofs DeflF_Proofs2.
Open Scope R_scope.

Section Cases.
Variables (p e : fvec) (u v : vec) (rm : bf).
Hypotheses (Sp : stands_for p u) (Se : stands_for e v) (Pu : plain u) (Pv : plain v) (Pw : plain (vadd u v)) (Fr : is_finite rm = true) (Hr : 1 <= B2R rm <= 2 ^ 30) (Ho : / 2 ^ 40 <= openness u v).
Let ph := fshrink p (or_one64 (length64 p)). Let eh := fshrink e (or_one64 (length64 e)). Let qh := fshrink (fplus p e) (or_one64 (length64 (fplus p e))).
Lemma aligned_near : exists (b l : bf), fleb (fabs (dots64 eh ph)) deflection_limit64 = Rle_bool (Rabs (B2R b)) (B2R l) /\ Rabs (B2R b - alignment u v) <= 16.88 * eps /\ Rabs (B2R l - 99999999999 / 10 ^ 11) <= eps.
Proof.
  destruct (a_at p e u v rm Sp Se Pu Pv Pw) as ((b & E & Fb & Vb) & _). rewrite Rmult_1_r in Vb. destruct (fabs_val b Fb) as (z & Ez & Fz & Vz). destruct limit_val as (l & El & Fl & Vl). exists b, l. split; [|split; assumption]. unfold eh, ph. rewrite E, Ez, El, fleb_val by assumption. rewrite Vz. reflexivity.
Qed.
Lemma model_value : compute_deflection u v (B2R rm) = Some (smul ((if Rle_dec (Rabs (alignment u v)) (99999999999 / 10 ^ 11) then 1 else 0) * strength v (B2R rm) / openness u v * vlength u) (bent u v)).
Proof.
  unfold compute_deflection. rewrite !hat_is by assumption. destruct (Req_EM_T (vlength v) 0) as [Z|_]; [exfalso; pose proof (plain_pos _ Pv); lra|]. fold (openness u v). destruct (Req_EM_T (openness u v) 0) as [Z|_]; [exfalso; assert (0 < / 2 ^ 40) by (apply Rinv_0_lt_compat, pow_lt; lra); lra|]. reflexivity.
Qed.
Lemma coords_bent : vx (bent u v) * vx (bent u v) <= dot (bent u v) (bent u v) /\ vy (bent u v) * vy (bent u v) <= dot (bent u v) (bent u v) /\ vz (bent u v) * vz (bent u v) <= dot (bent u v) (bent u v).
Proof. set (n := bent u v). unfold dot. pose proof (Rle_0_sqr (vx n)). pose proof (Rle_0_sqr (vy n)). pose proof (Rle_0_sqr (vz n)). unfold Rsqr in *. repeat split; lra. Qed.
Lemma bent_ok : Rabs (alignment u v) <= 99999999999 / 10 ^ 11 - 18 / 2 ^ 53 ->
  exists d, compute_deflection u v (B2R rm) = Some d /\ near_vector d (141 / 2 ^ 53 * (strength v (B2R rm) * vlength u / (openness u v * sqrt (openness u v)))) (compute_deflection64 p e (B2SF rm)).
Proof.
  intros Ha. eexists. split; [apply model_value|]. destruct (Rle_dec (Rabs (alignment u v)) (99999999999 / 10 ^ 11)) as [_|N]; [|exfalso; apply N; lra].
  destruct aligned_near as (b & l & Ef & Vb & Vl). assert (Fl : fleb (fabs (dots64 eh ph)) deflection_limit64 = true). { rewrite Ef. apply Rle_bool_true. apply Rabs_le_inv in Vl. assert (Rabs (B2R b) <= Rabs (alignment u v) + 16.88 * eps). { replace (B2R b) with (alignment u v + (B2R b - alignment u v)) by ring. apply Rle_trans with (1 := Rabs_triang _ _). lra. } unfold eps in *. lra. }
  destruct (hats p e u v rm Sp Se Pu Pv Pw) as (_ & (Ex & Ey & Ez) & (Qx & Qy & Qz)). destruct coords_bent as (Bx & By & Bz). destruct (s_facts u v rm Pu Pv Pw Ho) as (SS & Ss & _ & F0 & _). pose proof (sized_pos _ _ Ss) as S0.
  assert (Eq : strength v (B2R rm) * vlength u / (openness u v * sqrt (openness u v)) = strength v (B2R rm) / (sqrt (openness u v) * sqrt (openness u v) * sqrt (openness u v)) * vlength u) by (rewrite SS; field; split; lra). rewrite Eq.
  pose proof (fun x y q H1 H2 xf yf H3 H4 => coordinate p e u v rm Sp Se Pu Pv Pw Fr Hr Ho (of_Z 1) x y q H1 H2 xf yf H3 H4 eq_refl) as Co.
  unfold near_vector, compute_deflection64. fold ph eh qh. rewrite Fl. cbv zeta.
  assert (E1 : vx (unit_of v) * dot (unit_of u) (unit_of (vadd u v)) - vx (unit_of (vadd u v)) * dot (unit_of v) (unit_of u) = vx (bent u v)) by (unfold bent; cbn [vsub smul vx vy vz]; ring).
  assert (E2 : vy (unit_of v) * dot (unit_of u) (unit_of (vadd u v)) - vy (unit_of (vadd u v)) * dot (unit_of v) (unit_of u) = vy (bent u v)) by (unfold bent; cbn [vsub smul vx vy vz]; ring).
  assert (E3 : vz (unit_of v) * dot (unit_of u) (unit_of (vadd u v)) - vz (unit_of (vadd u v)) * dot (unit_of v) (unit_of u) = vz (bent u v)) by (unfold bent; cbn [vsub smul vx vy vz]; ring).
  split; [exact (at_near _ _ _ _ _ 141 (Co _ _ _ E1 Bx _ _ Ex Qx) (Rle_refl _))|]. split; [exact (at_near _ _ _ _ _ 141 (Co _ _ _ E2 By _ _ Ey Qy) (Rle_refl _))|exact (at_near _ _ _ _ _ 141 (Co _ _ _ E3 Bz _ _ Ez Qz) (Rle_refl _))].
Qed.
Lemma straight_ok : 99999999999 / 10 ^ 11 + 18 / 2 ^ 53 <= Rabs (alignment u v) -> compute_deflection u v (B2R rm) = Some vzero /\ stands_for (compute_deflection64 p e (B2SF rm)) vzero.
Proof.
  intros Ha. split; [rewrite model_value; destruct (Rle_dec (Rabs (alignment u v)) (99999999999 / 10 ^ 11)) as [L|_]; [exfalso; lra|]; f_equal; unfold smul, vzero, Rdiv; f_equal; ring|].
  destruct aligned_near as (b & l & Ef & Vb & Vl). assert (Fl : fleb (fabs (dots64 eh ph)) deflection_limit64 = false). { rewrite Ef. apply Rle_bool_false. apply Rabs_le_inv in Vl. assert (Rabs (alignment u v) <= Rabs (B2R b) + 16.88 * eps). { replace (alignment u v) with (B2R b - (B2R b - alignment u v)) by ring. unfold Rminus at 1. apply Rle_trans with (1 := Rabs_triang _ _). rewrite Rabs_Ropp. lra. } unfold eps in *. lra. }
  destruct (hats p e u v rm Sp Se Pu Pv Pw) as (_ & (Ex & Ey & Ez) & (Qx & Qy & Qz)). destruct (s_facts u v rm Pu Pv Pw Ho) as (SS & Ss & _ & F0 & _).
  assert (Vz : val 0 (of_Z 0)) by (destruct (of_Z_bf 0 ltac:(unfold fits; lia)) as (z & E & Fz & V); exists z; auto). assert (Vat : forall s x B k r, at_scale s x B k r -> exists y, val y r) by (intros s x B k r ((z & E & Fz & _) & _); exists (B2R z), z; auto).
  destruct (Vat _ _ _ _ _ (fac1_at e v rm Se Pv Fr Hr)) as (k & Vk). pose proof (val_0mul _ _ _ Vz Vk) as F0k.
  destruct (fac2_near p e u v rm Sp Se Pu Pv Pw Ho) as (f2 & E2 & Ff2 & V2). assert (N2 : B2R f2 <> 0). { apply Rabs_le_inv in V2. pose proof Ho. unfold eps in V2. lra. } assert (Vf2 : val (B2R f2) (fadd (of_Z 1) (dots64 qh eh))) by (exists f2; auto).
  destruct (Vat _ _ _ _ _ (length_at p u Sp (wider _ 50 190 ltac:(lia) Pu))) as (pm & Vp).
  assert (Co : forall x y xf yf, at_scale 1 x 1 3.71 xf -> at_scale 1 y 1 6.72 yf -> val 0 (fmul (fdiv (fmul (fsub (fmul xf (dots64 ph qh)) (fmul yf (dots64 eh ph))) (fmul (of_Z 0) (fdiv (fmul (of_Z 2) GS64) (fmul (fmul (fmul (fmul C64 C64) (length64 e)) AU_M64) (B2SF rm))))) (fadd (of_Z 1) (dots64 qh eh))) (length64 p))).
  { intros x y xf yf X Y. pose proof (mul_at _ _ _ _ _ _ _ _ _ X (m_at p e u v rm Sp Se Pu Pv Pw) ltac:(lra) ltac:(lra)) as XM. pose proof (mul_at _ _ _ _ _ _ _ _ _ Y (a_at p e u v rm Sp Se Pu Pv Pw) ltac:(lra) ltac:(lra)) as YA.
    pose proof (proj1 (proj2 XM)) as X2. pose proof (proj1 (proj2 YA)) as Y2. assert (U : Rabs (x * dot (unit_of u) (unit_of (vadd u v)) - y * dot (unit_of v) (unit_of u)) <= 2 * 1). { unfold Rminus. apply Rle_trans with (1 := Rabs_triang _ _). rewrite Rabs_Ropp. lra. }
    destruct (Vat _ _ _ _ _ (sub_at _ _ _ _ _ 2 _ _ _ _ XM YA U ltac:(lra) ltac:(lra))) as (n & Vn). eapply val_0mul; [eapply val_0div; [exact N2| |exact Vf2]|exact Vp]. eapply val_mul0; [exact Vn|exact F0k]. }
  unfold compute_deflection64. fold ph eh qh. rewrite Fl. cbv zeta.
  destruct (Co _ _ _ _ Ex Qx) as (x & Hx & Fx & Vx). destruct (Co _ _ _ _ Ey Qy) as (y & Hy & Fy & Vy). destruct (Co _ _ _ _ Ez Qz) as (z & Hz & Fz & Vzz). exists x, y, z. split; [|rewrite Vx, Vy, Vzz; auto]. exact (f_equal3 F3 Hx Hy Hz).
Qed.
End Cases.

(** Outside the limb of a mass no heavier than the Sun, half an au away or more. *)
Lemma limb_ok p e u v (rm : bf) : stands_for p u -> stands_for e v -> plain u -> plain v -> plain (vadd u v) -> is_finite rm = true -> 1 <= B2R rm <= 2 ^ 30 -> / 2 <= vlength v -> / 100000 <= openness u v -> Rabs (alignment u v) <= 99999999999 / 10 ^ 11 - 18 / 2 ^ 53 ->
  exists d, compute_deflection u v (B2R rm) = Some d /\ near_vector d (2 / 10 ^ 14 * vlength u) (compute_deflection64 p e (B2SF rm)).
Proof.
  intros Sp Se Pu Pv Pw Fr Hr He Ho Ha. destruct (bent_ok p e u v rm Sp Se Pu Pv Pw Fr Hr ltac:(lra) Ha) as (d & E & X & Y & Z). exists d. split; [exact E|].
  assert (B : 141 / 2 ^ 53 * (strength v (B2R rm) * vlength u / (openness u v * sqrt (openness u v))) <= 2 / 10 ^ 14 * vlength u).
  { set (F := openness u v) in *. assert (S : 0.00316 <= sqrt F). { apply Rsqr_incr_0_var; [|apply sqrt_pos]. rewrite Rsqr_sqrt by lra. unfold Rsqr. lra. } assert (D : 0.0000000316 <= F * sqrt F). { apply Rle_trans with (/ 100000 * 0.00316); [lra|]. apply Rmult_le_compat; lra. }
    assert (K : 0 <= strength v (B2R rm) <= 4 / 10 ^ 8). { unfold strength. set (V := vlength v) in *. set (r := B2R rm) in *. assert (VR : / 2 <= V * r) by (replace (/ 2) with (/ 2 * 1) by ring; apply Rmult_le_compat; lra). replace (2 * GS / (C * C * V * AU_M * r)) with (2 * GS / (C * C * AU_M) * / (V * r)) by (unfold C, AU_M; field; lra). assert (I : 0 < / (V * r) <= 2). { split; [apply Rinv_0_lt_compat; lra|]. replace 2 with (/ / 2) by (field). apply Rinv_le; lra. } assert (G : 0 <= 2 * GS / (C * C * AU_M) <= 1.99 / 10 ^ 8) by (unfold GS, C, AU_M; lra). split; [apply Rmult_le_pos; lra|]. apply Rle_trans with (1.99 / 10 ^ 8 * 2); [apply Rmult_le_compat; lra|lra]. }
    pose proof (plain_pos _ Pu) as P. assert (I : 0 < / (F * sqrt F) <= 31650000). { split; [apply Rinv_0_lt_compat; lra|]. replace 31650000 with (/ / 31650000) by (field). apply Rinv_le; lra. }
    assert (Q : strength v (B2R rm) * / (F * sqrt F) <= 4 / 10 ^ 8 * 31650000) by (apply Rmult_le_compat; lra). replace (141 / 2 ^ 53 * (strength v (B2R rm) * vlength u / (F * sqrt F))) with (141 / 2 ^ 53 * (strength v (B2R rm) * / (F * sqrt F)) * vlength u) by (unfold Rdiv; ring). apply Rmult_le_compat_r; [lra|]. lra. }
  split; [|split]; (eapply near_le; [eassumption|exact B]).
Qed.
Lemma some_bent : exists p e u v (rm : bf), stands_for p u /\ stands_for e v /\ plain u /\ plain v /\ plain (vadd u v) /\ is_finite rm = true /\ 1 <= B2R rm <= 2 ^ 30 /\ / 2 <= vlength v /\ / 100000 <= openness u v /\ Rabs (alignment u v) <= 99999999999 / 10 ^ 11 - 18 / 2 ^ 53.
Proof.
  destruct (of_Z_bf 3 ltac:(unfold fits; lia)) as (t & _ & Ft & Vt). destruct (of_Z_bf 4 ltac:(unfold fits; lia)) as (f & _ & Ff & Vf). destruct (of_Z_bf 0 ltac:(unfold fits; lia)) as (o & _ & Fo & Vo). destruct (of_Z_bf 1 ltac:(unfold fits; lia)) as (i & _ & Fi & Vi). cbn in Vt, Vf, Vo, Vi.
  exists (F3 (B2SF o) (B2SF t) (B2SF o)), (F3 (B2SF f) (B2SF o) (B2SF o)), (V3 (B2R o) (B2R t) (B2R o)), (V3 (B2R f) (B2R o) (B2R o)), i. split; [exists o, t, o; auto|]. split; [exists f, o, o; auto|]. rewrite Vt, Vf, Vo, Vi.
  assert (L : forall x y z k, 0 <= k -> x * x + y * y + z * z = k * k -> vlength (V3 x y z) = k) by (intros x y z k K H; unfold vlength, dot; cbn [vx vy vz]; rewrite H; apply sqrt_square; exact K).
  pose proof (L 0 3 0 3 ltac:(lra) ltac:(ring)) as L3. pose proof (L 4 0 0 4 ltac:(lra) ltac:(ring)) as L4. assert (W : vadd (V3 0 3 0) (V3 4 0 0) = V3 4 3 0) by (unfold vadd; cbn [vx vy vz]; f_equal; ring). pose proof (L 4 3 0 5 ltac:(lra) ltac:(ring)) as L5.
  unfold plain, openness, alignment, unit_of. rewrite W, L3, L4, L5. split; [apply (wider _ 3); [lia|lra]|]. split; [apply (wider _ 3); [lia|lra]|]. split; [apply (wider _ 3); [lia|lra]|]. split; [exact Fi|]. split; [split; [lra|apply pow_R1_Rle; lra]|]. split; [lra|]. unfold dot. cbn [smul vx vy vz]. split; [lra|]. replace (/ 4 * 4 * (/ 3 * 0) + / 4 * 0 * (/ 3 * 3) + / 4 * 0 * (/ 3 * 0)) with 0 by ring. rewrite Rabs_R0. lra.
Qed.
Lemma some_straight : exists p e u v (rm : bf), stands_for p u /\ stands_for e v /\ plain u /\ plain v /\ plain (vadd u v) /\ is_finite rm = true /\ 1 <= B2R rm <= 2 ^ 30 /\ / 2 ^ 40 <= openness u v /\ 99999999999 / 10 ^ 11 + 18 / 2 ^ 53 <= Rabs (alignment u v).
Proof.
  destruct (of_Z_bf 0 ltac:(unfold fits; lia)) as (o & _ & Fo & Vo). destruct (of_Z_bf 1 ltac:(unfold fits; lia)) as (i & _ & Fi & Vi). cbn in Vo, Vi.
  exists (F3 (B2SF i) (B2SF o) (B2SF o)), (F3 (B2SF i) (B2SF o) (B2SF o)), (V3 (B2R i) (B2R o) (B2R o)), (V3 (B2R i) (B2R o) (B2R o)), i. split; [exists i, o, o; auto|]. split; [exists i, o, o; auto|]. rewrite Vo, Vi.
  assert (L : forall x y z k, 0 <= k -> x * x + y * y + z * z = k * k -> vlength (V3 x y z) = k) by (intros x y z k K H; unfold vlength, dot; cbn [vx vy vz]; rewrite H; apply sqrt_square; exact K).
  pose proof (L 1 0 0 1 ltac:(lra) ltac:(ring)) as L1. assert (W : vadd (V3 1 0 0) (V3 1 0 0) = V3 2 0 0) by (unfold vadd; cbn [vx vy vz]; f_equal; ring). pose proof (L 2 0 0 2 ltac:(lra) ltac:(ring)) as L2.
  unfold plain, openness, alignment, unit_of. rewrite W, L1, L2. split; [apply (wider _ 2); [lia|lra]|]. split; [apply (wider _ 2); [lia|lra]|]. split; [apply (wider _ 2); [lia|lra]|]. split; [exact Fi|]. split; [split; [lra|apply pow_R1_Rle; lra]|]. unfold dot. cbn [smul vx vy vz]. split; [lra|]. replace (/ 1 * 1 * (/ 1 * 1) + / 1 * 0 * (/ 1 * 0) + / 1 * 0 * (/ 1 * 0)) with 1 by field. rewrite Rabs_R1. lra.
Qed.
