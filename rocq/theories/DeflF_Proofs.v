(** Unit vectors and their products in floats. *)
From Coq Require Import ZArith Reals Lia Lra Psatz Bool.
From Flocq Require Import Core BinarySingleNaN.
From Verif Require Geo_Proofs.
From Verif Require Import Float64 Float64_Proofs Float_Time_Proofs Float_Time_Proofs4 CalF_Proofs2 SexaF_Proofs2 Real_Math Vector_Model Vector_Proofs2 Geo_Model Light_Model Light_Spec Light_Proofs SepF_Model SepF_Spec SepF_Proofs SepF_Proofs2 SepF_Proofs3 SphF_Spec SphF_Proofs RotF_Spec RotF_Proofs RotF_Proofs2 RotF_Proofs4 FrameF_Proofs LightF_Model LightF_Spec LightF_Proofs GeodF_Proofs GeodF_Proofs2 AberF_Model AberF_Spec AberF_Proofs AberF_Proofs2 AberF_Proofs3 DeflF_Model DeflF_Spec.
Open Scope R_scope.

Definition sized (n : nat) (x : R) : Prop := / 2 ^ n <= x <= 2 ^ n.
Lemma sized_mul m n x y : sized m x -> sized n y -> sized (m + n) (x * y).
Proof. intros X Y. assert (0 < / 2 ^ m) by (apply Rinv_0_lt_compat, pow_lt; lra). assert (0 < / 2 ^ n) by (apply Rinv_0_lt_compat, pow_lt; lra). unfold sized in *. rewrite pow_add, Rinv_mult. split; apply Rmult_le_compat; lra. Qed.
Lemma sized_inv m x : sized m x -> sized m (/ x).
Proof. intros [A B]. assert (P : 0 < / 2 ^ m) by (apply Rinv_0_lt_compat, pow_lt; lra). split; [apply Rinv_le; lra|]. rewrite <- (Rinv_inv (2 ^ m)). apply Rinv_le; lra. Qed.
Lemma sized_div m n x y : sized m x -> sized n y -> sized (m + n) (x / y).
Proof. intros X Y. apply sized_mul; [exact X|apply sized_inv, Y]. Qed.
Lemma sized_scale n x : (n <= 190)%nat -> sized n x -> scale x. Proof. intros N H. apply scale_in, (wider _ n); assumption. Qed.
Lemma sized_pos n x : sized n x -> 0 < x. Proof. intros [H _]. assert (0 < / 2 ^ n) by (apply Rinv_0_lt_compat, pow_lt; lra). lra. Qed.

Lemma length_sq v : vlength v * vlength v = vx v * vx v + vy v * vy v + vz v * vz v.
Proof. rewrite <- dot_self. reflexivity. Qed.
Lemma length_moved a b g : 0 <= g -> Rabs (vx a - vx b) <= g -> Rabs (vy a - vy b) <= g -> Rabs (vz a - vz b) <= g -> Rabs (vlength a - vlength b) <= 1.7321 * g.
Proof.
  intros G X Y Z. pose proof (vlength_pos a) as Pa. pose proof (vlength_pos b) as Pb. pose proof (length_sq a) as Ea. pose proof (length_sq b) as Eb. pose proof (dot_le a b) as D. apply Rabs_le_inv in D. unfold dot in D.
  assert (Sq : forall t, Rabs t <= g -> t * t <= g * g). { intros t H. apply Rabs_le_inv in H. assert (0 <= (g - t) * (g + t)) by (apply Rmult_le_pos; lra). lra. }
  pose proof (Sq _ X). pose proof (Sq _ Y). pose proof (Sq _ Z). assert (T : (vlength a - vlength b) * (vlength a - vlength b) <= 3 * (g * g)) by lra.
  assert (GG : 0 <= g * g) by (apply Rmult_le_pos; lra).
  rewrite <- (Rabs_pos_eq (1.7321 * g)) by lra. apply Rsqr_le_abs_0. unfold Rsqr. lra.
Qed.
Lemma or_one_of s x B k a : at_scale s x B k a -> 98 / 100 * s <= x -> or_one64 a = a.
Proof.
  intros ((b & -> & F & V) & _ & K & _ & S) X. destruct (scale_facts s S) as (P & _ & _). pose proof (eps_scale s k S K) as E. apply Rabs_le_inv in V. assert (N : B2R b <> 0) by lra. destruct b as [sg|sg| |sg m e H]; try discriminate; [exfalso; apply N; reflexivity|reflexivity].
Qed.

(** A float vector near [w], divided by its length. *)
Definition unit_near (k : R) (w : vec) (p : fvec) : Prop := at_scale 1 (vx w) 1 k (fx p) /\ at_scale 1 (vy w) 1 k (fy p) /\ at_scale 1 (vz w) 1 k (fz p).
Lemma unit_comp w : 0 < vlength w -> vlength (unit_of w) = 1 /\ Rabs (vx w / vlength w) <= 1 /\ Rabs (vy w / vlength w) <= 1 /\ Rabs (vz w / vlength w) <= 1.
Proof.
  intros P. assert (L : vlength (unit_of w) = 1). { unfold unit_of. rewrite Geo_Proofs.smul_length, Rabs_pos_eq by (apply Rlt_le, Rinv_0_lt_compat; lra). field. lra. }
  split; [exact L|]. pose proof (comp_le (unit_of w)) as C. rewrite L in C. unfold unit_of in C. cbn [smul vx vy vz] in C. rewrite !(Rmult_comm (/ vlength w)) in C. exact C.
Qed.
Lemma shrink_near j k w p l : scale (vlength w) -> 0 <= j -> 0 <= k -> 1.03 * j + 1.05 * k + 1.04 <= 2000 -> at_scale (vlength w) (vx w) 1 j (fx p) -> at_scale (vlength w) (vy w) 1 j (fy p) -> at_scale (vlength w) (vz w) 1 j (fz p) -> at_scale (vlength w) (vlength w) 1 k l ->
  unit_near (1.03 * j + 1.05 * k + 1.04) (unit_of w) (fshrink p l).
Proof.
  intros S J K KK X Y Z L. destruct (scale_facts _ S) as (P & _ & _). destruct (unit_comp w P) as (_ & Cx & Cy & Cz). assert (One : vlength w / vlength w = 1) by (field; lra).
  assert (Each : forall x a, Rabs (x / vlength w) <= 1 -> at_scale (vlength w) x 1 j a -> at_scale 1 (/ vlength w * x) 1 (1.03 * j + 1.05 * k + 1.04) (fdiv a l)).
  { intros x a B H. pose proof (div_ss _ _ _ _ _ _ _ _ _ _ H L ltac:(lra) ltac:(rewrite One; exact scale_1) ltac:(lra) ltac:(lra)) as Q. rewrite One in Q. rewrite Rmult_comm. eapply looser; [exact Q|lra|fold (x / vlength w); lra|lra]. }
  unfold unit_near, unit_of, fshrink. cbn [smul vx vy vz fx fy fz]. split; [|split]; apply Each; assumption.
Qed.
Lemma near_stands k w p : unit_near k w p -> exists v, stands_for p v /\ Rabs (vx v - vx w) <= k * eps /\ Rabs (vy v - vy w) <= k * eps /\ Rabs (vz v - vz w) <= k * eps.
Proof.
  destruct p as [px py pz]. unfold unit_near. cbn [fx fy fz]. intros (((x & -> & Fx & X) & _) & ((y & -> & Fy & Y) & _) & ((z & -> & Fz & Z) & _)). rewrite Rmult_1_r in X, Y, Z. exists (V3 (B2R x) (B2R y) (B2R z)). split; [exists x, y, z; auto|]. cbn [vx vy vz]. auto.
Qed.
Lemma dots_units j k a b p q : 0 <= j <= 10 -> 0 <= k <= 10 -> vlength a = 1 -> vlength b = 1 -> unit_near j a p -> unit_near k b q -> at_scale 1 (dot a b) 1 (1.7322 * (j + k) + 4.02) (dots64 p q).
Proof.
  intros J K La Lb Np Nq. destruct (near_stands _ _ _ Np) as (a' & Sa & Ax & Ay & Az). destruct (near_stands _ _ _ Nq) as (b' & Sb & Bx & By & Bz). pose proof eps_small as E.
  assert (Pj : 0 <= j * eps <= 0.000001) by (unfold eps; lra). assert (Pk : 0 <= k * eps <= 0.000001) by (unfold eps; lra).
  pose proof (length_moved a' a _ (proj1 Pj) Ax Ay Az) as L1. pose proof (length_moved b' b _ (proj1 Pk) Bx By Bz) as L2. rewrite La in L1. rewrite Lb in L2. apply Rabs_le_inv in L1. apply Rabs_le_inv in L2.
  assert (Big : 2 <= 2 ^ 201) by (apply Rle_trans with (2 ^ 1); [lra|apply Rle_pow; [lra|lia]]). destruct (dot_left_good _ _ _ _ Sa Sb ltac:(lra) ltac:(lra)) as (r & Er & Fr & Br). change (dots64 p q) with (dot_left p q). rewrite Er.
  assert (DD : dot (vabs a') (vabs b') = Rabs (vx a' * vx b') + Rabs (vy a' * vy b') + Rabs (vz a' * vz b')) by (unfold dot, vabs; cbn [vx vy vz]; rewrite !Rabs_mult; reflexivity).
  assert (DL : dot (vabs a') (vabs b') <= 1.00001). { apply Rle_trans with (1 := Rle_abs _). apply Rle_trans with (1 := dot_le _ _). rewrite !vabs_length. apply Rle_trans with (1.000002 * 1.000002); [apply Rmult_le_compat; try apply vlength_pos; lra|lra]. }
  pose proof (row_dot (vsub a' a) b' _ (proj1 Pj) Ax Ay Az) as D1. pose proof (row_dot (vsub b' b) a _ (proj1 Pk) Bx By Bz) as D2. rewrite La in D2. apply Rabs_le_inv in D1. apply Rabs_le_inv in D2.
  assert (T : j * eps * (1.7321 * vlength b') <= j * eps * 1.73211) by (apply Rmult_le_compat_l; lra).
  assert (Eq : dot a' b' - dot a b = dot (vsub a' a) b' + dot (vsub b' b) a) by (unfold dot, vsub; cbn [vx vy vz]; ring).
  apply known; [|pose proof (dot_le a b) as H; rewrite La, Lb in H; lra|lra|lra|exact scale_1]. exists r. split; [reflexivity|]. split; [exact Fr|]. rewrite <- DD in Br. change (vx a' * vx b' + vy a' * vy b' + vz a' * vz b') with (dot a' b') in Br. apply Rabs_le_inv in Br. rewrite Rmult_1_r.
  assert (Sm : / 2 ^ 800 <= 0.001 * eps) by (rewrite pow_bpow, <- bpow_opp; apply Rle_trans with (bpow radix2 (-70)); [apply bpow_le; lia|unfold eps; change (bpow radix2 (-70)) with (/ 1180591620717411303424); lra]).
  assert (Q : dot (vabs a') (vabs b') / 2 ^ 51 <= 4.0001 * eps) by (unfold eps; lra). assert (0 <= j * eps) by lra. assert (0 <= k * eps) by lra. apply Rabs_le. replace ((1.7322 * (j + k) + 4.02) * eps) with (1.7322 * (j * eps) + 1.7322 * (k * eps) + 4.02 * eps) by ring. lra.
Qed.
(** The sum of two float vectors. *)
Lemma sum_near p e u v : stands_for p u -> stands_for e v -> plain u -> plain v -> plain (vadd u v) ->
  let w := vadd u v in at_scale (vlength w) (vx w) 1 1.02 (fx (fplus p e)) /\ at_scale (vlength w) (vy w) 1 1.02 (fy (fplus p e)) /\ at_scale (vlength w) (vz w) 1 1.02 (fz (fplus p e)) /\ at_scale (vlength w) (vlength w) 1 4.4 (length64 (fplus p e)).
Proof.
  intros (x & y & z & -> & Fx & Fy & Fz & ->) (x' & y' & z' & -> & Fx' & Fy' & Fz' & ->) Hu Hv Hw w. fold w in Hw. assert (S : scale (vlength w)) by (apply (sized_scale 50); [lia|exact Hw]). destruct (scale_facts _ S) as (P & Bg & Et). pose proof eps_small as E. pose proof (comp_le w) as (Cx & Cy & Cz).
  assert (Each : forall (a b : bf), is_finite a = true -> is_finite b = true -> Rabs (B2R a + B2R b) <= vlength w -> exists c : bf, fadd (B2SF a) (B2SF b) = B2SF c /\ is_finite c = true /\ Rabs (B2R c - (B2R a + B2R b)) <= 1.02 * eps * vlength w).
  { intros a b Fa Fb H. destruct (fadd_val a b Fa Fb) as (c & -> & Fc & Vc); [lra|]. exists c. split; [reflexivity|]. split; [exact Fc|]. rewrite Vc. apply Rle_trans with (1 := SexaF_Proofs2.rnd_err _). assert (eps * Rabs (B2R a + B2R b) <= eps * vlength w) by (apply Rmult_le_compat_l; lra). assert (0 <= eps * vlength w) by (apply Rmult_le_pos; lra). lra. }
  destruct (Each x x' Fx Fx' Cx) as (a & Ea & Fa & Va). destruct (Each y y' Fy Fy' Cy) as (b & Eb & Fb & Vb). destruct (Each z z' Fz Fz' Cz) as (c & Ec & Fc & Vc). unfold fplus. cbn [fx fy fz]. rewrite Ea, Eb, Ec.
  assert (K : forall t r, Rabs t <= vlength w -> near t (1.02 * eps * vlength w) r -> at_scale (vlength w) t 1 1.02 r) by (intros t r H N; apply known; [exact N|lra|lra|lra|exact S]).
  split; [apply K; [exact Cx|exists a; auto]|]. split; [apply K; [exact Cy|exists b; auto]|]. split; [apply K; [exact Cz|exists c; auto]|].
  set (v := V3 (B2R a) (B2R b) (B2R c)). assert (Sv : stands_for (F3 (B2SF a) (B2SF b) (B2SF c)) v) by (exists a, b, c; auto). assert (G0 : 0 <= 1.02 * eps * vlength w) by (apply Rmult_le_pos; lra).
  pose proof (length_moved v w _ G0 Va Vb Vc) as Lm. assert (Sm : 1.02 * eps * vlength w <= 0.0001 * vlength w) by (apply Rmult_le_compat_r; lra). apply Rabs_le_inv in Lm.
  assert (Sz : sized 190 (vlength v)). { destruct Hw as [A B]. assert (/ 2 ^ 190 <= / 2 ^ 51) by (apply Rinv_le; [apply pow_lt; lra|apply Rle_pow; [lra|lia]]). assert (2 ^ 51 <= 2 ^ 190) by (apply Rle_pow; [lra|lia]). replace (2 ^ 51) with (2 * 2 ^ 50) in * by (cbn; ring). rewrite Rinv_mult in H. split; lra. }
  destruct (length_at _ v Sv Sz) as ((r & -> & Fr & Vr) & _). apply known; [|rewrite Rabs_pos_eq; lra|lra|lra|exact S]. exists r. split; [reflexivity|]. split; [exact Fr|]. apply Rabs_le_inv in Vr. assert (2.54 * eps * vlength v <= 2.55 * eps * vlength w). { assert (2.54 * eps * vlength v <= 2.54 * eps * (1.001 * vlength w)) by (apply Rmult_le_compat_l; lra). assert (0 <= eps * vlength w) by (apply Rmult_le_pos; lra). lra. } assert (0 <= eps * vlength w) by (apply Rmult_le_pos; lra). apply Rabs_le. lra.
Qed.
