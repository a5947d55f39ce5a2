(** Aberration in floats and the Lorentz transformation; an observer at rest; when a ray
    passes closest to a body. *)
From Coq Require Import ZArith Reals Lia Lra Psatz Bool.
From Flocq Require Import Core BinarySingleNaN.
From Verif Require Geo_Proofs.
From Verif Require Import Float64 Float64_Proofs Float_Time_Proofs Float_Time_Proofs4 CalF_Proofs2 SexaF_Proofs2 Real_Math Vector_Model Vector_Proofs2 Geo_Model Light_Model Light_Spec Light_Proofs SepF_Model SepF_Spec SepF_Proofs SepF_Proofs2 SepF_Proofs3 SphF_Spec SphF_Proofs RotF_Spec RotF_Proofs RotF_Proofs2 RotF_Proofs4 FrameF_Proofs LightF_Model LightF_Spec LightF_Proofs GeodF_Proofs GeodF_Proofs2 AberF_Model AberF_Spec AberF_Proofs AberF_Proofs2.
Open Scope R_scope.

Lemma near_le x e e' r : near x e r -> e <= e' -> near x e' r.
Proof. intros (b & -> & F & V) H. exists b. split; [reflexivity|]. split; [exact F|lra]. Qed.
Lemma rnd_0 : rnd 0 = 0. Proof. unfold rnd. apply round_0. apply valid_rnd_N. Qed.
Lemma at_near s x B k a j : at_scale s x B k a -> k <= j -> near x (j / 2 ^ 53 * s) a.
Proof. intros (H & _ & K & _ & S) J. apply (near_le _ _ _ _ H). destruct (scale_facts _ S) as (P & _). apply Rmult_le_compat_r; [lra|]. unfold eps. lra. Qed.
Lemma T_scale u T : far_enough u -> Rabs (T * C_AUDAY - vlength u) <= / 1000 * vlength u -> 0 < T /\ scale T.
Proof.
  intros [A B] H. apply Rabs_le_inv in H. pose proof speed_range as C. assert (P : 0 < / 2 ^ 80) by (apply Rinv_0_lt_compat, pow_lt; lra). set (L := vlength u) in *.
  assert (T0 : L / 200 <= T). { apply Rmult_le_reg_r with C_AUDAY; [lra|]. apply Rle_trans with (0.999 * L); [|lra]. unfold Rdiv. rewrite Rmult_assoc. assert (/ 200 * C_AUDAY <= 0.9) by lra. apply Rle_trans with (L * 0.9); [apply Rmult_le_compat_l; lra|lra]. }
  assert (T1 : T <= L). { apply Rmult_le_reg_r with C_AUDAY; [lra|]. assert (L * 2 <= L * C_AUDAY) by (apply Rmult_le_compat_l; lra). lra. }
  split; [lra|]. apply scale_in, (wider _ 88); [lia|]. split; [|apply Rle_trans with (2 ^ 80); [lra|apply Rle_pow; [lra|lia]]]. replace (2 ^ 88) with (2 ^ 80 * 2 ^ 8) by (rewrite <- pow_add; reflexivity). rewrite Rinv_mult. lra.
Qed.
Lemma aberration_ok p v u w lt T : stands_for p u -> stands_for v w -> far_enough u -> slow_enough w -> Rabs (T * C_AUDAY - vlength u) <= / 1000 * vlength u -> near T (6 / 2 ^ 53 * T) lt ->
  near_vector (add_aberration u w T) (7 / 2 ^ 53 * vlength u) (add_aberration64 p v lt).
Proof.
  intros Sp Sv Lu Vw Ht Nl. destruct (T_scale u T Lu Ht) as [T0 Ts].
  assert (Hl : at_scale T T 1 6 lt). { apply known; [|rewrite Rabs_pos_eq; lra|lra|lra|exact Ts]. apply (near_le _ _ _ _ Nl). unfold eps. lra. }
  destruct (aberration_at p v u w lt T Sp Sv Lu Vw Ht Hl) as (X & Y & Z). split; [|split]; (eapply at_near; [eassumption|lra]).
Qed.
Lemma light_time_at p u : stands_for p u -> far_enough u -> at_scale (vlength u / C_AUDAY) (vlength u / C_AUDAY) 1 6 (light_time64 p).
Proof.
  intros Sp Lu. pose proof speed_range as C. pose proof (length_at p u Sp (wider _ 80 190 ltac:(lia) Lu)) as H. destruct (T_scale u (vlength u / C_AUDAY) Lu) as [P S]. { replace (vlength u / C_AUDAY * C_AUDAY - vlength u) with 0 by (field; lra). rewrite Rabs_R0. pose proof (vlength_pos u). lra. }
  eapply looser; [apply (div_ss _ _ _ _ _ _ _ _ _ _ H speed_at); [lra|exact S|lra|lra]|lra|rewrite Rabs_pos_eq by lra; lra|lra].
Qed.
Lemma lorentz_ok p v u w : stands_for p u -> stands_for v w -> far_enough u -> slow_enough w ->
  near_vector (smul (vlength u) (seen_from (smul (/ C_AUDAY) w) (unit_of u))) (7 / 2 ^ 53 * vlength u) (add_aberration64 p v (light_time64 p)).
Proof.
  intros Sp Sv Lu Vw. pose proof speed_range as C. assert (P80 : 0 < / 2 ^ 80) by (apply Rinv_0_lt_compat, pow_lt; lra). assert (P60 : 0 < / 2 ^ 60) by (apply Rinv_0_lt_compat, pow_lt; lra).
  assert (Z : vlength vzero = 0) by (unfold vlength, dot, vzero; cbn [vx vy vz]; replace (0 * 0 + 0 * 0 + 0 * 0) with 0 by ring; apply sqrt_0).
  rewrite <- aberration_lorentz; [|intros ->; destruct Lu; lra|destruct Vw; lra|intros ->; destruct Vw; lra].
  apply aberration_ok; try assumption; [replace (vlength u / C_AUDAY * C_AUDAY - vlength u) with 0 by (field; lra); rewrite Rabs_R0; pose proof (vlength_pos u); lra|].
  eapply at_near; [apply light_time_at; eassumption|lra].
Qed.

(** * At rest *)
Definition val (x : R) (r : b64) : Prop := exists b : bf, r = B2SF b /\ is_finite b = true /\ B2R b = x.
Lemma val_mul0 x a b : val x a -> val 0 b -> val 0 (fmul a b).
Proof. intros (p & -> & Fp & <-) (q & -> & Fq & Vq). destruct (fmul_val p q Fp Fq) as (z & -> & Fz & Vz & _); [rewrite Vq, Rmult_0_r, Rabs_R0; apply bpow_gt_0|]. exists z. split; [reflexivity|]. split; [exact Fz|]. rewrite Vz, Vq, Rmult_0_r. apply rnd_0. Qed.
Lemma val_0mul x a b : val 0 a -> val x b -> val 0 (fmul a b).
Proof. intros (p & -> & Fp & Vp) (q & -> & Fq & <-). destruct (fmul_val p q Fp Fq) as (z & -> & Fz & Vz & _); [rewrite Vp, Rmult_0_l, Rabs_R0; apply bpow_gt_0|]. exists z. split; [reflexivity|]. split; [exact Fz|]. rewrite Vz, Vp, Rmult_0_l. apply rnd_0. Qed.
Lemma val_mul1 x a b : Rabs x < bpow radix2 1007 -> val x a -> val 1 b -> val x (fmul a b).
Proof. intros B (p & -> & Fp & <-) (q & -> & Fq & Vq). destruct (fmul_val p q Fp Fq) as (z & -> & Fz & Vz & _); [rewrite Vq, Rmult_1_r; exact B|]. exists z. split; [reflexivity|]. split; [exact Fz|]. rewrite Vz, Vq, Rmult_1_r. apply rnd_self. Qed.
Lemma val_add0 x a b : Rabs x < bpow radix2 1007 -> val x a -> val 0 b -> val x (fadd a b).
Proof. intros B (p & -> & Fp & <-) (q & -> & Fq & Vq). destruct (fadd_val p q Fp Fq) as (z & -> & Fz & Vz); [rewrite Vq, Rplus_0_r; exact B|]. exists z. split; [reflexivity|]. split; [exact Fz|]. rewrite Vz, Vq, Rplus_0_r. apply rnd_self. Qed.
Lemma val_0add x a b : Rabs x < bpow radix2 1007 -> val 0 a -> val x b -> val x (fadd a b).
Proof. intros B (p & -> & Fp & Vp) (q & -> & Fq & <-). destruct (fadd_val p q Fp Fq) as (z & -> & Fz & Vz); [rewrite Vp, Rplus_0_l; exact B|]. exists z. split; [reflexivity|]. split; [exact Fz|]. rewrite Vz, Vp, Rplus_0_l. apply rnd_self. Qed.
Lemma val_sub0 x a b : Rabs x < bpow radix2 1007 -> val x a -> val 0 b -> val x (fsub a b).
Proof. intros B (p & -> & Fp & <-) (q & -> & Fq & Vq). destruct (fsub_val p q Fp Fq) as (z & -> & Fz & Vz); [rewrite Vq, Rminus_0_r; exact B|]. exists z. split; [reflexivity|]. split; [exact Fz|]. rewrite Vz, Vq, Rminus_0_r. apply rnd_self. Qed.
Lemma val_0div y a b : y <> 0 -> val 0 a -> val y b -> val 0 (fdiv a b).
Proof. intros N (p & -> & Fp & Vp) (q & -> & Fq & Vq). rewrite <- Vq in N. destruct (fdiv_val p q Fp N) as (z & -> & Fz & Vz); [rewrite Vp; unfold Rdiv; rewrite Rmult_0_l, Rabs_R0; apply bpow_gt_0|]. exists z. split; [reflexivity|]. split; [exact Fz|]. rewrite Vz, Vp. unfold Rdiv. rewrite Rmult_0_l. apply rnd_0. Qed.
Lemma val_div1 x a b : Rabs x < bpow radix2 1007 -> val x a -> val 1 b -> val x (fdiv a b).
Proof. intros B (p & -> & Fp & <-) (q & -> & Fq & Vq). destruct (fdiv_val p q Fp) as (z & -> & Fz & Vz); [rewrite Vq; lra|rewrite Vq, over_1; exact B|]. exists z. split; [reflexivity|]. split; [exact Fz|]. rewrite Vz, Vq, over_1. apply rnd_self. Qed.
Lemma val_sqrt0 a : val 0 a -> val 0 (fsqrt a).
Proof. intros (p & -> & Fp & Vp). destruct (fsqrt_val p Fp) as (z & -> & Fz & Vz); [lra|]. exists z. split; [reflexivity|]. split; [exact Fz|]. rewrite Vz, Vp, sqrt_0. apply rnd_0. Qed.
Lemma val_sqrt1 a : val 1 a -> val 1 (fsqrt a).
Proof. intros (p & -> & Fp & Vp). destruct (fsqrt_val p Fp) as (z & -> & Fz & Vz); [lra|]. exists z. split; [reflexivity|]. split; [exact Fz|]. rewrite Vz, Vp, sqrt_1, <- Vp. apply rnd_self. Qed.
Lemma val_one : val 1 (of_Z 1). Proof. destruct (of_Z_bf 1 ltac:(unfold fits; lia)) as (b & E & F & V). exists b. split; [exact E|]. split; [exact F|exact V]. Qed.
Lemma val_tiny : val (bpow radix2 (-1022)) tiny64.
Proof. destruct (fl_bf 1 (-1022)) as (t & E & Ft & Vt); [unfold small; lia|]. exists t. split; [exact E|]. split; [exact Ft|]. rewrite Vt. unfold F2R. cbn [Fnum Fexp]. ring. Qed.

Lemma rest_ok p v u (lt : bf) : stands_for p u -> stands_for v vzero -> is_finite lt = true -> Rabs (B2R lt) <= 2 ^ 100 -> vlength u <= 2 ^ 400 -> stands_for (add_aberration64 p v (B2SF lt)) u.
Proof.
  intros (x & y & z & -> & Fx & Fy & Fz & ->) (a & b & d & -> & Fa & Fb & Fd & Ev) Fl Bl Lu. pose proof (f_equal vx Ev) as Va. pose proof (f_equal vy Ev) as Vb. pose proof (f_equal vz Ev) as Vd. cbn [vzero vx vy vz] in Va, Vb, Vd. pose proof (comp_le (V3 (B2R x) (B2R y) (B2R z))) as (Cx & Cy & Cz). cbn [vx vy vz] in Cx, Cy, Cz.
  assert (Big : 2 ^ 400 < bpow radix2 1007) by (rewrite pow_bpow; apply bpow_lt; lia). assert (Z0 : Rabs 0 < bpow radix2 1007) by (rewrite Rabs_R0; apply bpow_gt_0). assert (Z1 : Rabs 1 < bpow radix2 1007) by (rewrite Rabs_R1; apply (bpow_lt radix2 0); lia).
  assert (X : val (B2R x) (B2SF x)) by (exists x; auto). assert (Y : val (B2R y) (B2SF y)) by (exists y; auto). assert (Zz : val (B2R z) (B2SF z)) by (exists z; auto).
  assert (A : val 0 (B2SF a)) by (exists a; auto). assert (B : val 0 (B2SF b)) by (exists b; auto). assert (D : val 0 (B2SF d)) by (exists d; auto). assert (Lt : val (B2R lt) (B2SF lt)) by (exists lt; auto).
  destruct speed_bf as (c & Ec & Fc & Vc). pose proof speed_range as CR. rewrite <- speed_is in Vc. assert (Vr : Rabs (B2R c - C_AUDAY) <= 1) by (apply Rle_trans with (1 := Vc); unfold eps; lra). apply Rabs_le_inv in Vr. assert (Cv : val (B2R c) C_AUDAY64) by (exists c; auto).
  assert (P1 : exists m, val m (fmul (B2SF lt) C_AUDAY64)). { rewrite Ec. destruct (fmul_val lt c Fl Fc) as (m & E & Fm & _ & _); [|exists (B2R m), m; auto]. rewrite Rabs_mult. apply Rle_lt_trans with (2 ^ 100 * 2 ^ 8); [apply Rmult_le_compat; try apply Rabs_pos; [exact Bl|rewrite Rabs_pos_eq; lra]|]. rewrite <- pow_add, pow_bpow. apply bpow_lt. lia. } destruct P1 as (m & P1).
  assert (Lv : val 0 (length64 (F3 (B2SF a) (B2SF b) (B2SF d)))) by (unfold length64; cbn [fx fy fz]; apply val_sqrt0; repeat (apply val_add0; [exact Z0| |]); eapply val_mul0; eassumption).
  assert (Dt : val 0 (dots64 (F3 (B2SF x) (B2SF y) (B2SF z)) (F3 (B2SF a) (B2SF b) (B2SF d)))) by (unfold dots64; cbn [fx fy fz]; repeat (apply val_add0; [exact Z0| |]); eapply val_mul0; eassumption).
  unfold add_aberration64. set (vm := length64 _) in *. set (dt := dots64 _ _) in *.
  assert (Be : val 0 (fdiv vm C_AUDAY64)) by (apply (val_0div (B2R c)); [lra|assumption|assumption]). set (be := fdiv vm C_AUDAY64) in *.
  assert (Cd : val 0 (fdiv dt (fadd (fmul (fmul (B2SF lt) C_AUDAY64) vm) tiny64))). { apply (val_0div (bpow radix2 (-1022))); [apply Rgt_not_eq, bpow_gt_0|exact Dt|]. apply val_0add; [rewrite Rabs_pos_eq by apply bpow_ge_0; apply bpow_lt; lia|apply (val_mul0 m); assumption|exact val_tiny]. } set (cd := fdiv dt _) in *.
  assert (Gm : val 1 (fsqrt (fsub (of_Z 1) (fmul be be)))) by (apply val_sqrt1, val_sub0; [exact Z1|exact val_one|apply (val_mul0 0); assumption]). set (gm := fsqrt _) in *.
  assert (Pp : val 0 (fmul be cd)) by (apply (val_mul0 0); assumption). set (pp := fmul be cd) in *.
  assert (G1 : val 2 (fadd (of_Z 1) gm)). { destruct val_one as (o & -> & Fo & Vo). destruct Gm as (g & -> & Fg & Vg). destruct (fadd_val o g Fo Fg) as (s & -> & Fs & Vs); [rewrite Vo, Vg; replace (1 + 1) with (bpow radix2 1) by (cbn; lra); rewrite Rabs_pos_eq by apply bpow_ge_0; apply bpow_lt; lia|]. exists s. split; [reflexivity|]. split; [exact Fs|]. rewrite Vs, Vo, Vg. destruct (of_Z_bf 2 ltac:(unfold fits; lia)) as (t & _ & _ & Vt). replace (1 + 1) with (B2R t) by (rewrite Vt; cbn; lra). rewrite rnd_self. exact Vt. }
  assert (Q1 : val 1 (fadd (of_Z 1) (fdiv pp (fadd (of_Z 1) gm)))) by (apply val_add0; [exact Z1|exact val_one|apply (val_0div 2); [lra|assumption|assumption]]). set (q1 := fadd (of_Z 1) (fdiv pp _)) in *.
  assert (Q : exists q, val q (fmul q1 (B2SF lt))). { destruct Q1 as (o & -> & Fo & Vo). destruct (fmul_val o lt Fo Fl) as (q & -> & Fq & _ & _); [|exists (B2R q), q; auto]. rewrite Vo, Rmult_1_l. apply Rle_lt_trans with (1 := Bl). rewrite pow_bpow. apply bpow_lt. lia. } destruct Q as (q & Q).
  assert (R1 : val 1 (fadd (of_Z 1) pp)) by (apply val_add0; [exact Z1|exact val_one|exact Pp]).
  unfold fshrink, fplus, fscale. cbn [fx fy fz].
  assert (Each : forall k a k0, Rabs k <= vlength (V3 (B2R x) (B2R y) (B2R z)) -> val k a -> val 0 k0 -> val k (fdiv (fadd (fmul a gm) (fmul k0 (fmul q1 (B2SF lt)))) (fadd (of_Z 1) pp))).
  { intros k e k0 Hk He H0. assert (Bk : Rabs k < bpow radix2 1007) by lra. apply val_div1; [exact Bk| |exact R1]. apply val_add0; [exact Bk| |apply (val_0mul q); assumption]. apply val_mul1; assumption. }
  destruct (Each _ _ _ Cx X A) as (x' & -> & Fx' & Vx'). destruct (Each _ _ _ Cy Y B) as (y' & -> & Fy' & Vy'). destruct (Each _ _ _ Cz Zz D) as (z' & -> & Fz' & Vz'). exists x', y', z'. rewrite Vx', Vy', Vz'. auto.
Qed.

(** * The closest approach of a ray *)
Lemma closest_ok dot3 p d u w : good_dot3 dot3 -> stands_for p u -> stands_for d w -> far_enough u -> far_enough w ->
  near (light_time_difference u w) (17 / 2 ^ 53 * (vlength w / C_AUDAY)) (light_time_difference64 dot3 p d).
Proof.
  intros Gd Sp Sd Lu Lw. pose proof speed_range as CR. pose proof (proj1 Lu) as Lo. pose proof (proj1 Lw) as Lo'. assert (P80 : 0 < / 2 ^ 80) by (apply Rinv_0_lt_compat, pow_lt; lra). set (L := vlength u) in *. set (D := vlength w) in *.
  assert (SL : scale L) by (apply scale_in, (wider _ 80); [lia|exact Lu]). assert (SD : scale D) by (apply scale_in, (wider _ 80); [lia|exact Lw]). assert (L0 : 0 < L) by lra. assert (D0 : 0 < D) by lra.
  pose proof (length_at p u Sp (wider _ 80 190 ltac:(lia) Lu)) as Ln. fold L in Ln. pose proof (add_at _ _ _ _ _ 1 _ _ _ _ Ln (tiny_at L (proj1 (wider _ 80 190 ltac:(lia) Lu)) SL) ltac:(rewrite Rplus_0_r, Rabs_pos_eq; lra) ltac:(lra) ltac:(lra)) as Dn. rewrite Rplus_0_r in Dn.
  destruct (coordinates p u Sp SL) as (Ux & Uy & Uz). fold L in Ux, Uy, Uz. assert (One : L / L = 1) by (field; lra).
  assert (Each : forall x a, at_scale L x 1 0 a -> exists b : bf, fdiv a (fadd (length64 p) tiny64) = B2SF b /\ is_finite b = true /\ Rabs (B2R b - / L * x) <= 4.8 * eps).
  { intros x a H. pose proof (div_ss _ _ _ _ _ _ _ _ _ _ H Dn ltac:(lra) ltac:(rewrite One; exact scale_1) ltac:(lra) ltac:(lra)) as (N & _). rewrite One in N. destruct N as (b & E & F & V). exists b. split; [exact E|]. split; [exact F|]. replace (/ L * x) with (x / L) by (field; lra). apply Rle_trans with (1 := V). rewrite Rmult_1_r. apply Rmult_le_compat_r; [unfold eps|]; lra. }
  destruct (Each _ _ Ux) as (x & Ex & Fx & Bx). destruct (Each _ _ Uy) as (y & Ey & Fy & By). destruct (Each _ _ Uz) as (z & Ez & Fz & Bz).
  set (n := V3 (B2R x) (B2R y) (B2R z)). set (n0 := smul (/ L) u). assert (Sn : stands_for (fshrink p (fadd (length64 p) tiny64)) n) by (exists x, y, z; unfold fshrink; rewrite Ex, Ey, Ez; auto).
  assert (L1 : vlength n0 = 1). { unfold n0. rewrite Geo_Proofs.smul_length. rewrite Rabs_pos_eq by (apply Rlt_le, Rinv_0_lt_compat; lra). fold L. field. lra. }
  assert (Df : forall t, Rabs (dot (vsub n n0) t) <= 4.8 * eps * (1.7321 * vlength t)) by (intros t; apply row_dot; [unfold eps; lra|exact Bx|exact By|exact Bz]).
  assert (Ln1 : vlength n <= 1.001). { assert (E : dot n n = dot n0 n + dot (vsub n n0) n) by (unfold dot, vsub; cbn [vx vy vz]; ring). pose proof (Df n) as H1. pose proof (dot_le n0 n) as H2. rewrite L1 in H2. apply Rabs_le_inv in H1. apply Rabs_le_inv in H2. rewrite dot_self in E. pose proof (vlength_pos n) as P. destruct (Rle_or_lt (vlength n) 1.001) as [|G]; [assumption|exfalso]. assert (4.8 * eps * (1.7321 * vlength n) <= 0.0001 * vlength n) by (rewrite <- Rmult_assoc; apply Rmult_le_compat_r; [lra|unfold eps; lra]). assert (1.001 * vlength n <= vlength n * vlength n) by (apply Rmult_le_compat_r; lra). lra. }
  assert (Big : 2 ^ 80 <= 2 ^ 201) by (apply Rle_pow; [lra|lia]). assert (Big1 : 1.001 <= 2 ^ 201) by (apply Rle_trans with (2 ^ 1); [lra|apply Rle_pow; [lra|lia]]).
  destruct (Gd _ _ n w Sn Sd ltac:(lra) ltac:(pose proof (proj2 Lw); lra)) as (b & Eb & Fb & Bb).
  assert (DD : dot (vabs n) (vabs w) = Rabs (vx n * vx w) + Rabs (vy n * vy w) + Rabs (vz n * vz w)) by (unfold dot, vabs; cbn [vx vy vz]; rewrite !Rabs_mult; reflexivity).
  assert (DL : dot (vabs n) (vabs w) <= 1.001 * D). { apply Rle_trans with (1 := Rle_abs _). apply Rle_trans with (1 := dot_le _ _). rewrite !vabs_length. apply Rmult_le_compat_r; [lra|exact Ln1]. }
  assert (Sm : / 2 ^ 800 <= 0.01 * eps * D). { destruct SD as [Lo2 _]. apply Rle_trans with (bpow radix2 (-70) * bpow radix2 (-200)); [rewrite pow_bpow, <- bpow_opp, <- bpow_plus; apply bpow_le; lia|]. apply Rmult_le_compat; [apply bpow_ge_0|apply bpow_ge_0|unfold eps; change (bpow radix2 (-70)) with (/ 1180591620717411303424); lra|exact Lo2]. }
  assert (At : at_scale D (dot n0 w) 1 12.4 (dot3 (fshrink p (fadd (length64 p) tiny64)) d)).
  { rewrite Eb. pose proof (dot_le n0 w) as Hd. rewrite L1 in Hd. fold D in Hd. apply known; [|lra|lra|lra|exact SD]. exists b. split; [reflexivity|]. split; [exact Fb|]. rewrite <- DD in Bb. change (vx n * vx w + vy n * vy w + vz n * vz w) with (dot n w) in Bb. pose proof (Df w) as Hw. fold D in Hw. assert (E : dot (vsub n n0) w = dot n w - dot n0 w) by (unfold dot, vsub; cbn [vx vy vz]; ring). rewrite E in Hw. apply Rabs_le_inv in Hw. apply Rabs_le_inv in Bb. assert (Q : dot (vabs n) (vabs w) / 2 ^ 51 <= 1.001 * D / 2 ^ 51) by lra. apply Rabs_le. unfold eps in *. lra. }
  assert (SDc : scale (D / C_AUDAY)). { apply (T_scale w (D / C_AUDAY) Lw). fold D. replace (D / C_AUDAY * C_AUDAY - D) with 0 by (field; lra). rewrite Rabs_R0. lra. }
  pose proof (div_ss _ _ _ _ _ _ _ _ _ _ At speed_at ltac:(lra) SDc ltac:(lra) ltac:(lra)) as Fin. unfold light_time_difference64, light_time_difference. fold L. rewrite plus_tiny_ne by lra. fold n0. eapply at_near; [exact Fin|lra].
Qed.

(** * Some vectors *)
Lemma some_observer : exists p v u w, stands_for p u /\ stands_for v w /\ far_enough u /\ slow_enough w /\ w <> vzero.
Proof.
  destruct (of_Z_bf 3 ltac:(unfold fits; lia)) as (t & _ & Ft & Vt). destruct (of_Z_bf 0 ltac:(unfold fits; lia)) as (o & _ & Fo & Vo). destruct (fl_bf 1 (-6)) as (s & _ & Fs & Vs); [unfold small; lia|].
  assert (Vs' : B2R s = / 64) by (rewrite Vs; unfold F2R; cbn; lra). cbn in Vt, Vo.
  exists (F3 (B2SF t) (B2SF o) (B2SF o)), (F3 (B2SF o) (B2SF s) (B2SF o)), (V3 (B2R t) (B2R o) (B2R o)), (V3 (B2R o) (B2R s) (B2R o)). split; [exists t, o, o; auto|]. split; [exists o, s, o; auto|]. rewrite Vt, Vo, Vs'.
  assert (L3 : vlength (V3 3 0 0) = 3) by (unfold vlength, dot; cbn [vx vy vz]; replace (3 * 3 + 0 * 0 + 0 * 0) with (3 * 3) by ring; apply sqrt_square; lra). assert (L6 : vlength (V3 0 (/ 64) 0) = / 64) by (unfold vlength, dot; cbn [vx vy vz]; replace (0 * 0 + / 64 * / 64 + 0 * 0) with (/ 64 * / 64) by ring; apply sqrt_square; lra).
  unfold far_enough, slow_enough. rewrite L3, L6. split; [apply (wider _ 2); [lia|lra]|]. split; [split; [apply (wider _ 6); [lia|lra]|lra]|]. intros H. apply (f_equal vy) in H. cbn in H. lra.
Qed.
