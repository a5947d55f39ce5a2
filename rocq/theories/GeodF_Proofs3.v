(** From a vector in floats to latitude, longitude and height. *)
From Coq Require Import ZArith Reals Lia Lra Psatz Bool.
From Flocq Require Import Core BinarySingleNaN.
From Verif Require Import Float64 Float64_Proofs Float_Time_Proofs Float_Time_Proofs4 CalF_Proofs2 SexaF_Proofs2 Real_Math Real_Math_Proofs Vector_Model Geo_Model SepF_Model SepF_Spec SepF_Proofs SepF_Proofs2 SphF_Spec SphF_Proofs RotF_Proofs4 FrameF_Model FrameF_Spec FrameF_Proofs FrameF_Proofs2 GeodF_Model GeodF_Spec GeodF_Proofs GeodF_Proofs2.
Open Scope R_scope.

Lemma rho_0 x y : 0 <= rho x y. Proof. apply sqrt_pos. Qed.
Lemma rho2 x y : rho x y * rho x y = x * x + y * y.
Proof. apply sqrt_sqrt. nra. Qed.
Lemma le_rho x y : Rabs x <= rho x y /\ Rabs y <= rho x y.
Proof.
  pose proof (rho2 x y) as Q. pose proof (rho_0 x y) as P. assert (H : forall a, a * a <= rho x y * rho x y -> Rabs a <= rho x y).
  { intros a Ha. apply Rsqr_incr_0; [|apply Rabs_pos|exact P]. unfold Rsqr. rewrite <- Rabs_mult, Rabs_pos_eq by nra. exact Ha. }
  split; apply H; nra.
Qed.
Lemma rho_cs x y u v : Rabs (x * u + y * v) <= rho x y * rho u v.
Proof.
  pose proof (rho_0 x y) as P. pose proof (rho_0 u v) as P2. apply Rsqr_incr_0; [|apply Rabs_pos|apply Rmult_le_pos; assumption]. unfold Rsqr. rewrite <- Rabs_mult, Rabs_pos_eq by apply Rle_0_sqr.
  replace (rho x y * rho u v * (rho x y * rho u v)) with ((rho x y * rho x y) * (rho u v * rho u v)) by ring. rewrite !rho2. pose proof (Rle_0_sqr (x * v - y * u)) as S. unfold Rsqr in S. nra.
Qed.
Lemma rho_le_sum x y : rho x y <= Rabs x + Rabs y.
Proof.
  pose proof (Rabs_pos x). pose proof (Rabs_pos y). apply Rsqr_incr_0; [|apply rho_0|lra]. unfold Rsqr. rewrite rho2.
  assert (x * x = Rabs x * Rabs x) by (rewrite <- Rabs_mult, Rabs_pos_eq; nra). assert (y * y = Rabs y * Rabs y) by (rewrite <- Rabs_mult, Rabs_pos_eq; nra). nra.
Qed.
Lemma rho_tri x y u v : rho (x + u) (y + v) <= rho x y + rho u v.
Proof.
  pose proof (rho_0 x y) as P. pose proof (rho_0 u v) as P2. apply Rsqr_incr_0; [|apply rho_0|lra]. unfold Rsqr. rewrite rho2. pose proof (rho2 x y). pose proof (rho2 u v). pose proof (Rabs_le_inv _ _ (rho_cs x y u v)). nra.
Qed.
Lemma rho_moved x y X Y : Rabs (rho X Y - rho x y) <= Rabs (X - x) + Rabs (Y - y).
Proof.
  pose proof (rho_tri x y (X - x) (Y - y)) as A. replace (x + (X - x)) with X in A by ring. replace (y + (Y - y)) with Y in A by ring. pose proof (rho_le_sum (X - x) (Y - y)).
  pose proof (rho_tri X Y (x - X) (y - Y)) as B. replace (X + (x - X)) with x in B by ring. replace (Y + (y - Y)) with y in B by ring. pose proof (rho_le_sum (x - X) (y - Y)). rewrite (Rabs_minus_sym x X), (Rabs_minus_sym y Y) in *. apply Rabs_le. lra.
Qed.

Lemma hyp2 (x y : bf) : is_finite x = true -> is_finite y = true -> rho (B2R x) (B2R y) <= bpow radix2 450 ->
  exists b : bf, fsqrt (fadd (fmul (B2SF x) (B2SF x)) (fmul (B2SF y) (B2SF y))) = B2SF b /\ is_finite b = true /\ 0 <= B2R b /\ Rabs (B2R b - rho (B2R x) (B2R y)) <= 2.53 * eps * rho (B2R x) (B2R y) + 2 * speck.
Proof.
  intros Fx Fy Big. pose proof (rho2 (B2R x) (B2R y)) as Q. pose proof (rho_0 (B2R x) (B2R y)) as P. set (k := rho (B2R x) (B2R y)) in *. pose proof eta_pos as HE. assert (B9 : bpow radix2 450 * bpow radix2 450 = bpow radix2 900) by (rewrite <- bpow_plus; reflexivity). assert (Huge : 1024 * bpow radix2 900 <= bpow radix2 1007) by (change 1024 with (bpow radix2 10); rewrite <- bpow_plus; apply bpow_le; lia).
  assert (One : 1 <= bpow radix2 900) by (change 1 with (bpow radix2 0); apply bpow_le; lia). assert (E1 : eta <= 1) by (change 1 with (bpow radix2 0); apply bpow_le; lia).
  assert (KK : k * k <= bpow radix2 900) by (rewrite <- B9; apply Rmult_le_compat; assumption).
  assert (Nx : 0 <= B2R x * B2R x) by nra. assert (Ny : 0 <= B2R y * B2R y) by nra.
  destruct (fmul_val x x Fx Fx) as (qx & -> & Gx & Vx & _); [rewrite Rabs_pos_eq by assumption; lra|]. destruct (fmul_val y y Fy Fy) as (qy & -> & Gy & Vy & _); [rewrite Rabs_pos_eq by assumption; lra|].
  set (X := B2R x * B2R x) in *. set (Y := B2R y * B2R y) in *.
  pose proof (rnd_pos_err X Nx) as Rx. pose proof (rnd_nonneg X Nx) as Px. rewrite <- Vx in Rx, Px. pose proof (rnd_pos_err Y Ny) as Ry. pose proof (rnd_nonneg Y Ny) as Py. rewrite <- Vy in Ry, Py.
  set (a := B2R qx) in *. set (b := B2R qy) in *. pose proof eps_small as Es. assert (Hs : forall t, 0 <= t -> 0 <= eps * t <= t * / 1000000000000000) by (intros; nra).
  pose proof (Hs X Nx) as Hx. pose proof (Hs Y Ny) as Hy.
  destruct (fadd_val qx qy Gx Gy) as (s & -> & Gs & Vs). { fold a b. rewrite Rabs_pos_eq by lra. lra. } fold a b in Vs. pose proof (rnd_pos_err (a + b) ltac:(lra)) as Rs. pose proof (rnd_nonneg (a + b) ltac:(lra)) as Ps. rewrite <- Vs in Rs, Ps. pose proof (Hs (a + b) ltac:(lra)) as Hab.
  destruct (fsqrt_val s Gs Ps) as (r & -> & Gr & Vr). exists r. split; [reflexivity|]. split; [exact Gr|]. split; [rewrite Vr; apply rnd_nonneg, sqrt_pos|].
  assert (Root : k * (1 - 1.51 * eps) - speck <= sqrt (B2R s) <= k * (1 + 1.51 * eps) + speck).
  { apply root_of_near; [exact P|exact Ps|apply Rlt_le, speck_pos|]. rewrite speck_sq, Q. unfold eps in *. lra. }
  pose proof (rnd_pos_err (sqrt (B2R s)) (sqrt_pos _)) as Rr. rewrite <- Vr in Rr. pose proof speck_pos. pose proof eta_speck. set (q := sqrt (B2R s)) in *. clearbody k q. apply Rabs_le. unfold eps in *. lra.
Qed.
Lemma hyp_at s x y B C U j k a b : at_scale s x B j a -> at_scale s y C k b -> rho x y <= U * s -> 0 <= U <= 4 -> j + k + 2.53 * U + 0.01 <= 2000 ->
  at_scale s (rho x y) U (j + k + 2.53 * U + 0.01) (fsqrt (fadd (fmul a a) (fmul b b))) /\ exists r : bf, fsqrt (fadd (fmul a a) (fmul b b)) = B2SF r /\ 0 <= B2R r.
Proof.
  intros ((p & -> & Fp & Vp) & X & J & BB & Hs) ((q & -> & Fq & Vq) & Y & K & CC & _) HU UU KK. destruct (scale_facts s Hs) as (P & H & G). pose proof eps_small as E. pose proof (eps_scale s j Hs J) as Js. pose proof (eps_scale s k Hs K) as Ks.
  pose proof (rho_moved x y (B2R p) (B2R q)) as D. pose proof (rho_0 x y) as P0. pose proof (rho_0 (B2R p) (B2R q)) as P1. assert (Us : U * s <= 4 * s) by (apply Rmult_le_compat_r; lra).
  assert (Sp : 2 * speck <= / 1000 * (eps * s)). { destruct Hs as [L _]. apply Rle_trans with (/ 1000 * (eps * bpow radix2 (-200))). - unfold speck. apply Rle_trans with (bpow radix2 (-264)); [change 2 with (bpow radix2 1); rewrite <- bpow_plus; apply bpow_le; lia|]. replace (bpow radix2 (-264)) with (bpow radix2 (-64) * bpow radix2 (-200)) by (rewrite <- bpow_plus; reflexivity). rewrite <- Rmult_assoc. apply Rmult_le_compat_r; [apply bpow_ge_0|]. unfold eps. change (bpow radix2 (-64)) with (/ 18446744073709551616). lra. - apply Rmult_le_compat_l; [lra|]. apply Rmult_le_compat_l; lra. }
  pose proof (Rabs_le_inv _ _ (Rle_trans _ _ _ D (Rplus_le_compat _ _ _ _ Vp Vq))) as D'.
  destruct (hyp2 p q Fp Fq) as (r & -> & Fr & Pr & Vr). { apply Rle_trans with (8 * s); [lra|]. destruct Hs as [_ L]. apply Rle_trans with (8 * bpow radix2 200); [lra|]. change 8 with (bpow radix2 3). rewrite <- bpow_plus. apply bpow_le. lia. }
  split; [|exists r; split; [reflexivity|exact Pr]]. apply known; [|rewrite Rabs_pos_eq; assumption|lra|lra|exact Hs]. exists r. split; [reflexivity|]. split; [exact Fr|].
  replace (B2R r - rho x y) with ((B2R r - rho (B2R p) (B2R q)) + (rho (B2R p) (B2R q) - rho x y)) by ring. apply Rle_trans with (1 := Rabs_triang _ _).
  assert (ES : 0 < eps * s) by (apply Rmult_lt_0_compat; lra).
  assert (2.53 * eps * rho (B2R p) (B2R q) <= 2.53 * eps * (U * s + / 1000 * s)) by (apply Rmult_le_compat_l; lra). lra.
Qed.

(** How far the direction of a point of the plane turns when the point moves. *)
Lemma turn_moved x y t X Y T e : 0 < rho x y -> x = rho x y * cos t -> y = rho x y * sin t -> X = rho X Y * cos T -> Y = rho X Y * sin T ->
  Rabs (X - x) + Rabs (Y - y) <= e * rho x y -> 0 <= e <= / 2000 -> 0 < cos (T - t) /\ Rabs (sin (T - t)) <= 1.001 * e * cos (T - t).
Proof.
  intros Q Ex Ey EX EY M He. set (q := rho x y) in *. set (Q' := rho X Y) in *. pose proof (rho_le_sum (X - x) (Y - y)) as D. pose proof (rho_cs x y (X - x) (Y - y)) as C1. pose proof (rho_cs (- y) x (X - x) (Y - y)) as C2.
  assert (Rq : rho (- y) x = q) by (unfold q, rho; f_equal; ring). rewrite Rq in C2. fold q in C1. pose proof (rho_0 (X - x) (Y - y)) as D0.
  assert (qD : q * rho (X - x) (Y - y) <= e * (q * q)). { apply Rle_trans with (q * (e * q)); [apply Rmult_le_compat_l; lra|lra]. }
  assert (Ec : q * Q' * cos (T - t) = q * q + (x * (X - x) + y * (Y - y))). { unfold q at 2 3. rewrite rho2. rewrite cos_minus. transitivity (x * X + y * Y); [|ring]. rewrite Ex, Ey, EX, EY. fold q. fold Q'. ring. }
  assert (Es : q * Q' * sin (T - t) = - y * (X - x) + x * (Y - y)). { rewrite sin_minus. transitivity (x * Y - y * X); [|ring]. rewrite Ex, Ey, EX, EY. fold q. fold Q'. ring. }
  pose proof (rho_0 X Y) as Q0. fold Q' in Q0. assert (qq : 0 < q * q) by (apply Rmult_lt_0_compat; exact Q). assert (eqq : e * (q * q) <= / 2000 * (q * q)) by (apply Rmult_le_compat_r; lra). apply Rabs_le_inv in C1.
  assert (Pq : 0 < Q'). { destruct Q0 as [|Z]; [assumption|]. rewrite <- Z in Ec. exfalso. lra. } assert (PP : 0 < q * Q') by (apply Rmult_lt_0_compat; assumption).
  assert (Low : (1 - / 2000) * (q * q) <= q * Q' * cos (T - t)) by lra. split.
  - apply Rmult_lt_reg_l with (q * Q'); [exact PP|]. rewrite Rmult_0_r. lra.
  - apply Rmult_le_reg_l with (q * Q'); [exact PP|]. rewrite <- (Rabs_pos_eq (q * Q')) at 1 by lra. rewrite <- Rabs_mult, Es. apply Rle_trans with (1 := C2). apply Rle_trans with (1 := qD). replace (q * Q' * (1.001 * e * cos (T - t))) with (1.001 * e * (q * Q' * cos (T - t))) by ring.
    apply Rle_trans with (1.001 * e * ((1 - / 2000) * (q * q))); [|apply Rmult_le_compat_l; lra]. assert (0 <= e * (q * q)) by (apply Rmult_le_pos; lra). lra.
Qed.
Lemma right_direction x y t : 0 < rho x y -> 0 <= x -> direction x y t -> - (PI / 2) <= t <= PI / 2.
Proof.
  intros P X (B & Ex & Ey). fold (rho x y) in Ex, Ey. assert (C : 0 <= cos t). { apply Rmult_le_reg_l with (rho x y); [exact P|]. rewrite Rmult_0_r, <- Ex. exact X. } pose proof PI_RGT_0 as PP.
  split; apply Rnot_lt_le; intros N; apply (Rle_not_lt _ _ C).
  - rewrite <- cos_neg. apply cos_lt_0; lra.
  - apply cos_lt_0; lra.
Qed.
Lemma arctan2_at s x y B C j k a b f : good_direction f -> at_scale s x B j a -> at_scale s y C k b -> (exists r : bf, a = B2SF r /\ 0 <= B2R r) -> 0 <= x -> 99 / 100 * s <= rho x y -> j + k <= 2000 ->
  near (atan2 y x) ((1.0112 * (j + k) + 4) * eps) (f b a).
Proof.
  intros Gf ((p & -> & Fp & Vp) & X & J & BB & Hs) ((q & -> & Fq & Vq) & Y & K & CC & _) (r & Er & Pr) X0 Low JK. destruct (scale_facts s Hs) as (P & H & G). pose proof eps_small as E. pose proof (eps_scale s j Hs J) as Js. pose proof (eps_scale s k Hs K) as Ks.
  assert (Pp : 0 <= B2R p) by (rewrite <- (SF2R_B2SF _ _ p), Er, SF2R_B2SF; exact Pr). clear r Er Pr.
  assert (Pos : 0 < rho x y) by lra. destruct (atan2_spec y x) as (Cx & Sy & _). { destruct (Req_dec x 0) as [->|]; [|left; assumption]. destruct (Req_dec y 0) as [->|]; [|right; assumption]. exfalso. unfold rho in Pos. rewrite Rmult_0_r, Rplus_0_r, sqrt_0 in Pos. lra. }
  pose proof (atan2_right y x X0) as Rt. destruct (Gf q p Fq Fp) as (T & D & N). pose proof D as (_ & EX & EY). fold (rho (B2R p) (B2R q)) in EX, EY.
  assert (Pos' : 0 < rho (B2R p) (B2R q)). { pose proof (Rabs_le_inv _ _ (rho_moved x y (B2R p) (B2R q))). lra. }
  pose proof (right_direction _ _ _ Pos' Pp D) as RT.
  assert (Mv : Rabs (B2R p - x) + Rabs (B2R q - y) <= (j + k) * eps * (100 / 99) * rho x y). { apply Rle_trans with ((j + k) * eps * (100 / 99) * (99 / 100 * s)); [lra|]. apply Rmult_le_compat_l; [|exact Low]. apply Rmult_le_pos; [apply Rmult_le_pos|]; lra. }
  assert (Ke : 0 <= (j + k) * eps <= / 100000000000). { split; [apply Rmult_le_pos; lra|]. apply Rle_trans with (2000 * eps); [apply Rmult_le_compat_r; lra|lra]. }
  destruct (turn_moved x y (atan2 y x) (B2R p) (B2R q) T ((j + k) * eps * (100 / 99)) Pos (eq_sym Cx) (eq_sym Sy) EX EY Mv ltac:(lra)) as [Cp Sn].
  pose proof (small_turn (T - atan2 y x) _ ltac:(lra) Cp Sn) as Turn. apply (near_more T (/ 2 ^ 51)); [exact N|]. apply Rle_trans with (1 := Turn). unfold eps in *. lra.
Qed.
