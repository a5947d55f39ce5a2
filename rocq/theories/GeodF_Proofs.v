(** Rounding errors of moderate quantities at some scale. *)
From Coq Require Import ZArith Reals Lia Lra Psatz Bool.
From Flocq Require Import Core BinarySingleNaN.
From Verif Require Import Float64 Float64_Proofs Float_Time_Proofs Float_Time_Proofs4 CalF_Proofs2 SexaF_Proofs2 Real_Math SepF_Model SepF_Spec SepF_Proofs SepF_Proofs2 SphF_Spec SphF_Proofs FrameF_Proofs.
Open Scope R_scope.

(** The float [a] is within [k] roundings of [x], at the scale [s], and [x] is [B] at most
    at that scale. *)
Definition scale (s : R) : Prop := bpow radix2 (-200) <= s <= bpow radix2 200.
Definition at_scale (s x B k : R) (a : b64) : Prop := near x (k * eps * s) a /\ Rabs x <= B * s /\ 0 <= k <= 2000 /\ 0 <= B <= 4 /\ scale s.
Lemma scale_1 : scale 1.
Proof. split; [change 1 with (bpow radix2 0); apply bpow_le; lia|change 1 with (bpow radix2 0); apply bpow_le; lia]. Qed.
Lemma scale_facts s : scale s -> 0 < s /\ eta <= / 1000 * (eps * s) /\ 64 * s < bpow radix2 1007.
Proof.
  intros [L U]. assert (P : 0 < s) by (pose proof (bpow_gt_0 radix2 (-200)); lra). split; [exact P|]. split.
  - pose proof eps_small. apply Rle_trans with (/ 1000 * (eps * bpow radix2 (-200))). 
    + unfold eta. apply Rle_trans with (bpow radix2 (-264)); [apply bpow_le; lia|]. replace (bpow radix2 (-264)) with (bpow radix2 (-64) * bpow radix2 (-200)) by (rewrite <- bpow_plus; reflexivity). rewrite <- Rmult_assoc. apply Rmult_le_compat_r; [apply bpow_ge_0|]. unfold eps. change (bpow radix2 (-64)) with (/ 18446744073709551616). lra.
    + apply Rmult_le_compat_l; [lra|]. apply Rmult_le_compat_l; lra.
  - apply Rle_lt_trans with (bpow radix2 6 * bpow radix2 200); [apply Rmult_le_compat; [lra|lra|change (bpow radix2 6) with 64; lra|exact U]|]. rewrite <- bpow_plus. apply bpow_lt. lia.
Qed.
Lemma known s x B k a : near x (k * eps * s) a -> Rabs x <= B * s -> 0 <= k <= 2000 -> 0 <= B <= 4 -> scale s -> at_scale s x B k a.
Proof. intros. unfold at_scale. tauto. Qed.
Lemma exactly s (x : bf) B : is_finite x = true -> Rabs (B2R x) <= B * s -> 0 <= B <= 4 -> scale s -> at_scale s (B2R x) B 0 (B2SF x).
Proof. intros F Hx HB Hs. apply known; try assumption; [|lra]. exists x. split; [reflexivity|]. split; [exact F|]. replace (B2R x - B2R x) with 0 by ring. rewrite Rabs_R0. lra. Qed.
Lemma looser s x B k B' k' a : at_scale s x B k a -> k <= k' <= 2000 -> Rabs x <= B' * s -> 0 <= B' <= 4 -> at_scale s x B' k' a.
Proof.
  intros ((b & E & F & V) & _ & K & _ & Hs) L HB BB. pose proof (scale_facts s Hs) as (P & _). pose proof eps_small. apply known; try assumption; [|lra]. exists b. split; [exact E|]. split; [exact F|]. apply Rle_trans with (1 := V). apply Rmult_le_compat_r; [lra|]. apply Rmult_le_compat_r; lra.
Qed.
Lemma eps_scale s k : scale s -> 0 <= k <= 2000 -> 0 <= k * eps * s <= / 100000000000 * s.
Proof. intros Hs K. pose proof (scale_facts s Hs) as (P & _). pose proof eps_small. split; [apply Rmult_le_pos; [apply Rmult_le_pos|]; lra|]. apply Rmult_le_compat_r; [lra|]. apply Rle_trans with (2000 * eps); [apply Rmult_le_compat_r; lra|lra]. Qed.

Lemma mul_at s x y B C j k a b : at_scale s x B j a -> at_scale 1 y C k b -> B * C <= 4 -> B * k + C * j + B * C + 0.01 <= 2000 -> at_scale s (x * y) (B * C) (B * k + C * j + B * C + 0.01) (fmul a b).
Proof.
  intros ((p & -> & Fp & Vp) & X & J & BB & Hs) ((q & -> & Fq & Vq) & Y & K & CC & _) BC KK. rewrite Rmult_1_r in Y, Vq. destruct (scale_facts s Hs) as (P & H & G). pose proof eps_small as E.
  pose proof (eps_scale s j Hs J) as Js. pose proof (eps_scale 1 k scale_1 K) as Ks. rewrite Rmult_1_r in Ks.
  set (d := B2R p - x) in *. set (e := B2R q - y) in *. assert (Ep : B2R p = x + d) by (unfold d; ring). assert (Eq : B2R q = y + e) by (unfold e; ring).
  assert (Pr : forall u t m n, Rabs u <= m -> Rabs t <= n -> Rabs (u * t) <= m * n). { intros u t m n A T. rewrite Rabs_mult. apply Rmult_le_compat; try apply Rabs_pos; assumption. }
  pose proof (Pr x e (B * s) (k * eps) X Vq) as P1. pose proof (Pr d y (j * eps * s) C Vp Y) as P2. pose proof (Pr d e (j * eps * s) (k * eps) Vp Vq) as P3. pose proof (Pr x y (B * s) C X Y) as P4.
  assert (JK : j * eps * s * (k * eps) <= / 1000 * (eps * s)). { replace (j * eps * s * (k * eps)) with (j * k * eps * (eps * s)) by ring. apply Rmult_le_compat_r; [apply Rmult_le_pos; lra|]. apply Rle_trans with (4000000 * eps); [apply Rmult_le_compat_r; [lra|]|lra]. replace 4000000 with (2000 * 2000) by ring. apply Rmult_le_compat; lra. }
  assert (D : Rabs (B2R p * B2R q - x * y) <= (B * k + C * j) * (eps * s) + / 1000 * (eps * s)). { rewrite Ep, Eq. replace ((x + d) * (y + e) - x * y) with (x * e + (d * y + d * e)) by ring. apply Rle_trans with (1 := Rabs_triang _ _). pose proof (Rabs_triang (d * y) (d * e)). lra. }
  assert (BKs : (B * k + C * j) * (eps * s) <= / 1000 * s). { rewrite <- Rmult_assoc. apply Rmult_le_compat_r; [lra|]. assert (B * k + C * j <= 2000) by (assert (0 <= B * C) by (apply Rmult_le_pos; lra); lra). apply Rle_trans with (2000 * eps); [apply Rmult_le_compat_r; lra|lra]. }
  assert (ES : 0 < eps * s <= / 1000 * s). { split; [apply Rmult_lt_0_compat; lra|]. apply Rmult_le_compat_r; lra. }
  assert (BCs : B * C * s <= 4 * s) by (apply Rmult_le_compat_r; lra).
  assert (S : Rabs (B2R p * B2R q) <= B * C * s + / 400 * s). { replace (B2R p * B2R q) with (x * y + (B2R p * B2R q - x * y)) by ring. apply Rle_trans with (1 := Rabs_triang _ _). lra. }
  destruct (fmul_val p q Fp Fq) as (z & -> & Fz & Vz & _); [lra|]. assert (N : 0 <= B * k /\ 0 <= C * j /\ 0 <= B * C) by (repeat split; apply Rmult_le_pos; lra). apply known; try assumption; [|lra|lra|lra]. exists z. split; [reflexivity|]. split; [exact Fz|]. pose proof (SexaF_Proofs2.rnd_err (B2R p * B2R q)) as R. rewrite <- Vz in R.
  replace (B2R z - x * y) with ((B2R z - B2R p * B2R q) + (B2R p * B2R q - x * y)) by ring. apply Rle_trans with (1 := Rabs_triang _ _). assert (eps * Rabs (B2R p * B2R q) <= eps * (B * C * s + / 400 * s)) by (apply Rmult_le_compat_l; lra). lra.
Qed.
Lemma add_at s x y B C U j k a b : at_scale s x B j a -> at_scale s y C k b -> Rabs (x + y) <= U * s -> 0 <= U <= 4 -> j + k + U + 0.01 <= 2000 -> at_scale s (x + y) U (j + k + U + 0.01) (fadd a b).
Proof.
  intros ((p & -> & Fp & Vp) & X & J & BB & Hs) ((q & -> & Fq & Vq) & Y & K & CC & _) HU UU KK. destruct (scale_facts s Hs) as (P & H & G). pose proof eps_small as E. pose proof (eps_scale s j Hs J) as Js. pose proof (eps_scale s k Hs K) as Ks.
  assert (D : Rabs (B2R p + B2R q - (x + y)) <= j * eps * s + k * eps * s). { replace (B2R p + B2R q - (x + y)) with ((B2R p - x) + (B2R q - y)) by ring. apply Rle_trans with (1 := Rabs_triang _ _). lra. }
  assert (Us : U * s <= 4 * s) by (apply Rmult_le_compat_r; lra). assert (ES : 0 < eps * s) by (apply Rmult_lt_0_compat; lra).
  assert (S : Rabs (B2R p + B2R q) <= U * s + / 400 * s). { replace (B2R p + B2R q) with ((x + y) + (B2R p + B2R q - (x + y))) by ring. apply Rle_trans with (1 := Rabs_triang _ _). lra. }
  destruct (fadd_val p q Fp Fq) as (z & -> & Fz & Vz); [lra|]. apply known; try assumption; [|lra]. exists z. split; [reflexivity|]. split; [exact Fz|]. pose proof (SexaF_Proofs2.rnd_err (B2R p + B2R q)) as R. rewrite <- Vz in R.
  replace (B2R z - (x + y)) with ((B2R z - (B2R p + B2R q)) + (B2R p + B2R q - (x + y))) by ring. apply Rle_trans with (1 := Rabs_triang _ _). assert (eps * Rabs (B2R p + B2R q) <= eps * (U * s + / 400 * s)) by (apply Rmult_le_compat_l; lra). lra.
Qed.
Lemma sub_at s x y B C U j k a b : at_scale s x B j a -> at_scale s y C k b -> Rabs (x - y) <= U * s -> 0 <= U <= 4 -> j + k + U + 0.01 <= 2000 -> at_scale s (x - y) U (j + k + U + 0.01) (fsub a b).
Proof.
  intros ((p & -> & Fp & Vp) & X & J & BB & Hs) ((q & -> & Fq & Vq) & Y & K & CC & _) HU UU KK. destruct (scale_facts s Hs) as (P & H & G). pose proof eps_small as E. pose proof (eps_scale s j Hs J) as Js. pose proof (eps_scale s k Hs K) as Ks.
  assert (D : Rabs (B2R p - B2R q - (x - y)) <= j * eps * s + k * eps * s). { replace (B2R p - B2R q - (x - y)) with ((B2R p - x) + - (B2R q - y)) by ring. apply Rle_trans with (1 := Rabs_triang _ _). rewrite Rabs_Ropp. lra. }
  assert (Us : U * s <= 4 * s) by (apply Rmult_le_compat_r; lra). assert (ES : 0 < eps * s) by (apply Rmult_lt_0_compat; lra).
  assert (S : Rabs (B2R p - B2R q) <= U * s + / 400 * s). { replace (B2R p - B2R q) with ((x - y) + (B2R p - B2R q - (x - y))) by ring. apply Rle_trans with (1 := Rabs_triang _ _). lra. }
  destruct (fsub_val p q Fp Fq) as (z & -> & Fz & Vz); [lra|]. apply known; try assumption; [|lra]. exists z. split; [reflexivity|]. split; [exact Fz|]. pose proof (SexaF_Proofs2.rnd_err (B2R p - B2R q)) as R. rewrite <- Vz in R.
  replace (B2R z - (x - y)) with ((B2R z - (B2R p - B2R q)) + (B2R p - B2R q - (x - y))) by ring. apply Rle_trans with (1 := Rabs_triang _ _). assert (eps * Rabs (B2R p - B2R q) <= eps * (U * s + / 400 * s)) by (apply Rmult_le_compat_l; lra). lra.
Qed.
(** A root and a quotient near one. *)
Lemma sqrt_at x B k a : at_scale 1 x B k a -> 98 / 100 <= x <= 1 -> at_scale 1 (sqrt x) 1 (51 / 100 * k + 1.01) (fsqrt a).
Proof.
  intros ((p & -> & Fp & Vp) & _ & K & BB & Hs) X. rewrite Rmult_1_r in Vp. pose proof eps_small as E. destruct (scale_facts 1 scale_1) as (_ & H & G). pose proof (eps_scale 1 k scale_1 K) as Ks. rewrite Rmult_1_r in Ks. pose proof (Rabs_le_inv _ _ Vp) as V.
  destruct (fsqrt_val p Fp ltac:(lra)) as (z & -> & Fz & Vz). set (r := sqrt x) in *. set (q := sqrt (B2R p)) in *.
  assert (R2 : r * r = x) by (apply sqrt_sqrt; lra). assert (Q2 : q * q = B2R p) by (apply sqrt_sqrt; lra). assert (R0 : 0 <= r) by apply sqrt_pos. assert (Q0 : 0 <= q) by apply sqrt_pos.
  assert (Rl : 985 / 1000 <= r <= 1) by (split; nra). assert (Ql : 985 / 1000 <= q <= 1.001) by (split; nra).
  assert (D : Rabs (q - r) <= 51 / 100 * (k * eps)). { apply Rmult_le_reg_r with (q + r); [lra|]. rewrite <- (Rabs_pos_eq (q + r)) at 1 by lra. rewrite <- Rabs_mult. replace ((q - r) * (q + r)) with (B2R p - x) by (rewrite <- R2, <- Q2; ring). apply Rle_trans with (1 := Vp). assert (51 / 100 * (k * eps) * (197 / 100) <= 51 / 100 * (k * eps) * (q + r)) by (apply Rmult_le_compat_l; lra). lra. }
  apply known; [|rewrite Rabs_pos_eq; lra|lra|lra|exact scale_1]. exists z. split; [reflexivity|]. split; [exact Fz|]. pose proof (SexaF_Proofs2.rnd_err q) as Re. rewrite Vz. rewrite (Rabs_pos_eq q) in Re by lra.
  replace (rnd q - r) with ((rnd q - q) + (q - r)) by ring. apply Rle_trans with (1 := Rabs_triang _ _). assert (eps * q <= eps * 1.001) by (apply Rmult_le_compat_l; lra). lra.
Qed.
Lemma div_at s x y B k j a b : at_scale s x B j a -> at_scale 1 y 1 k b -> 98 / 100 <= y -> 1.03 * B <= 4 -> 1.03 * j + 1.05 * (B * k) + 1.03 * B + 0.01 <= 2000 -> at_scale s (x / y) (1.03 * B) (1.03 * j + 1.05 * (B * k) + 1.03 * B + 0.01) (fdiv a b).
Proof.
  intros ((p & -> & Fp & Vp) & X & J & BB & Hs) ((q & -> & Fq & Vq) & Y & K & CC & _) LY BC KK. rewrite Rmult_1_r in Y, Vq. destruct (scale_facts s Hs) as (P & H & G). pose proof eps_small as E.
  pose proof (eps_scale s j Hs J) as Js. pose proof (eps_scale 1 k scale_1 K) as Ks. rewrite Rmult_1_r in Ks. pose proof (Rabs_le_inv _ _ Vq) as Vq'. apply Rabs_le_inv in Y.
  set (d := B2R p - x) in *. set (e := B2R q - y) in *. assert (Ep : B2R p = x + d) by (unfold d; ring). assert (Eq : B2R q = y + e) by (unfold e; ring).
  assert (Lq : 979 / 1000 <= B2R q) by lra. assert (I1 : 0 < / y <= 1.0205). { split; [apply Rinv_0_lt_compat; lra|]. apply Rmult_le_reg_r with y; [lra|]. rewrite Rinv_l by lra. lra. } assert (I2 : 0 < / B2R q <= 1.022). { split; [apply Rinv_0_lt_compat; lra|]. apply Rmult_le_reg_r with (B2R q); [lra|]. rewrite Rinv_l by lra. lra. }
  assert (XY : Rabs (x / y) <= 1.0205 * (B * s)). { unfold Rdiv. rewrite Rabs_mult, (Rabs_pos_eq (/ y)) by lra. rewrite (Rmult_comm 1.0205). apply Rmult_le_compat; try apply Rabs_pos; lra. }
  assert (D : Rabs (B2R p / B2R q - x / y) <= 1.022 * (j * eps * s) + 1.045 * (B * k * (eps * s))).
  { replace (B2R p / B2R q - x / y) with (d * / B2R q - x / y * e * / B2R q) by (rewrite Ep, Eq; field; lra). unfold Rminus. apply Rle_trans with (1 := Rabs_triang _ _). rewrite Rabs_Ropp, !Rabs_mult, (Rabs_pos_eq (/ B2R q)) by lra. apply Rplus_le_compat.
    - rewrite (Rmult_comm 1.022). apply Rmult_le_compat; try apply Rabs_pos; lra.
    - apply Rle_trans with (1.0205 * (B * s) * (k * eps) * 1.022).
      + apply Rmult_le_compat; [apply Rmult_le_pos; apply Rabs_pos|lra| |lra]. apply Rmult_le_compat; try apply Rabs_pos; lra.
      + replace (1.0205 * (B * s) * (k * eps) * 1.022) with (1.0205 * 1.022 * (B * k * (eps * s))) by ring. apply Rmult_le_compat_r; [|lra]. apply Rmult_le_pos; apply Rmult_le_pos; lra. }
  assert (N : 0 <= B * k * (eps * s)) by (apply Rmult_le_pos; apply Rmult_le_pos; lra). assert (BKs : B * k * (eps * s) <= / 1000 * s). { rewrite <- Rmult_assoc. apply Rmult_le_compat_r; [lra|]. apply Rle_trans with (2000 * eps); [apply Rmult_le_compat_r; lra|lra]. }
  assert (BCs : 1.0205 * (B * s) <= 4 * s). { rewrite <- Rmult_assoc. apply Rmult_le_compat_r; lra. } assert (ES : 0 < eps * s) by (apply Rmult_lt_0_compat; lra). assert (Bs : 0 <= B * s) by (apply Rmult_le_pos; lra).
  assert (S : Rabs (B2R p / B2R q) <= 1.0205 * (B * s) + / 400 * s). { replace (B2R p / B2R q) with (x / y + (B2R p / B2R q - x / y)) by ring. apply Rle_trans with (1 := Rabs_triang _ _). lra. }
  destruct (fdiv_val p q Fp) as (z & -> & Fz & Vz); [lra|lra|]. assert (NB : 0 <= B * k) by (apply Rmult_le_pos; lra). apply known; try assumption; [|lra|lra|lra]. exists z. split; [reflexivity|]. split; [exact Fz|]. pose proof (SexaF_Proofs2.rnd_err (B2R p / B2R q)) as R. rewrite <- Vz in R.
  replace (B2R z - x / y) with ((B2R z - B2R p / B2R q) + (B2R p / B2R q - x / y)) by ring. apply Rle_trans with (1 := Rabs_triang _ _). assert (M : eps * Rabs (B2R p / B2R q) <= eps * (1.0205 * (B * s) + / 400 * s)) by (apply Rmult_le_compat_l; lra). assert (0 <= eps * (B * s)) by (apply Rmult_le_pos; lra). assert (0 <= j * eps * s) by lra. lra.
Qed.
