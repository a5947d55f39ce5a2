(** More of the calculus of roundings: products and quotients of two scales. *)
From Coq Require Import ZArith Reals Lia Lra Psatz Bool.
From Flocq Require Import Core BinarySingleNaN.
From Verif Require Import Float64 Float64_Proofs Float_Time_Proofs Float_Time_Proofs4 CalF_Proofs2 SexaF_Proofs2 Real_Math SepF_Model SepF_Spec SepF_Proofs SepF_Proofs2 SphF_Spec SphF_Proofs FrameF_Proofs GeodF_Proofs.
Open Scope R_scope.

Lemma finer s t x B k b a : at_scale s x B k a -> 0 <= b -> s <= b * t -> B * b <= 4 -> k * b <= 2000 -> scale t -> at_scale t x (B * b) (k * b) a.
Proof.
  intros ((p & -> & Fp & Vp) & X & K & BB & Hs) Hb Hst BK KK Ht. pose proof eps_small as E. destruct (scale_facts s Hs) as (Ps & _). destruct (scale_facts t Ht) as (Pt & _).
  assert (0 <= B * b) by (apply Rmult_le_pos; lra). assert (0 <= k * b) by (apply Rmult_le_pos; lra). apply known; [|apply Rle_trans with (1 := X); rewrite Rmult_assoc; apply Rmult_le_compat_l; lra|lra|lra|exact Ht].
  exists p. split; [reflexivity|]. split; [exact Fp|]. apply Rle_trans with (1 := Vp). apply Rle_trans with (k * eps * (b * t)); [apply Rmult_le_compat_l; [apply Rmult_le_pos; lra|exact Hst]|lra].
Qed.
Lemma mul_ss s t x y B C j k a b : at_scale s x B j a -> at_scale t y C k b -> scale (s * t) -> B * C <= 4 -> B * k + C * j + B * C + 0.01 <= 2000 -> at_scale (s * t) (x * y) (B * C) (B * k + C * j + B * C + 0.01) (fmul a b).
Proof.
  intros ((p & -> & Fp & Vp) & X & J & BB & Hs) ((q & -> & Fq & Vq) & Y & K & CC & Ht) Hst BC KK. destruct (scale_facts s Hs) as (P & _ & _). destruct (scale_facts t Ht) as (P' & _ & _). destruct (scale_facts _ Hst) as (Pw & H & G). pose proof eps_small as E.
  set (d := B2R p - x) in *. set (e := B2R q - y) in *. assert (Ep : B2R p = x + d) by (unfold d; ring). assert (Eq : B2R q = y + e) by (unfold e; ring).
  assert (Pr : forall u t m n, Rabs u <= m -> Rabs t <= n -> Rabs (u * t) <= m * n). { intros u t0 m n A T. rewrite Rabs_mult. apply Rmult_le_compat; try apply Rabs_pos; assumption. }
  pose proof (Pr x e _ _ X Vq) as P1. pose proof (Pr d y _ _ Vp Y) as P2. pose proof (Pr d e _ _ Vp Vq) as P3. pose proof (Pr x y _ _ X Y) as P4. set (w := s * t) in *.
  assert (ES : 0 < eps * w <= / 1000 * w). { split; [apply Rmult_lt_0_compat; lra|]. apply Rmult_le_compat_r; lra. }
  replace (B * s * (k * eps * t)) with (B * k * (eps * w)) in P1 by (unfold w; ring). replace (j * eps * s * (C * t)) with (C * j * (eps * w)) in P2 by (unfold w; ring). replace (B * s * (C * t)) with (B * C * w) in P4 by (unfold w; ring).
  assert (JK : j * eps * s * (k * eps * t) <= / 1000 * (eps * w)). { replace (j * eps * s * (k * eps * t)) with (j * k * eps * (eps * w)) by (unfold w; ring). apply Rmult_le_compat_r; [lra|]. apply Rle_trans with (4000000 * eps); [apply Rmult_le_compat_r; [lra|]|lra]. replace 4000000 with (2000 * 2000) by ring. apply Rmult_le_compat; lra. }
  assert (D : Rabs (B2R p * B2R q - x * y) <= (B * k + C * j) * (eps * w) + / 1000 * (eps * w)). { rewrite Ep, Eq. replace ((x + d) * (y + e) - x * y) with (x * e + (d * y + d * e)) by ring. apply Rle_trans with (1 := Rabs_triang _ _). pose proof (Rabs_triang (d * y) (d * e)). lra. }
  assert (N : 0 <= B * k /\ 0 <= C * j /\ 0 <= B * C) by (repeat split; apply Rmult_le_pos; lra).
  assert (BKs : (B * k + C * j) * (eps * w) <= / 1000 * w). { rewrite <- Rmult_assoc. apply Rmult_le_compat_r; [lra|]. apply Rle_trans with (2000 * eps); [apply Rmult_le_compat_r; lra|lra]. }
  assert (BCs : B * C * w <= 4 * w) by (apply Rmult_le_compat_r; lra).
  assert (S : Rabs (B2R p * B2R q) <= B * C * w + / 400 * w). { replace (B2R p * B2R q) with (x * y + (B2R p * B2R q - x * y)) by ring. apply Rle_trans with (1 := Rabs_triang _ _). lra. }
  destruct (fmul_val p q Fp Fq) as (z & -> & Fz & Vz & _); [lra|]. apply known; [|exact P4|lra|lra|exact Hst]. exists z. split; [reflexivity|]. split; [exact Fz|]. pose proof (SexaF_Proofs2.rnd_err (B2R p * B2R q)) as R. rewrite <- Vz in R.
  replace (B2R z - x * y) with ((B2R z - B2R p * B2R q) + (B2R p * B2R q - x * y)) by ring. apply Rle_trans with (1 := Rabs_triang _ _). assert (eps * Rabs (B2R p * B2R q) <= eps * (B * C * w + / 400 * w)) by (apply Rmult_le_compat_l; lra). lra.
Qed.
(** A quotient by something of the size of its scale. *)
Lemma div_ss s t x y B C k j a b : at_scale s x B j a -> at_scale t y C k b -> 98 / 100 * t <= y -> scale (s / t) -> 1.03 * B <= 4 -> 1.03 * j + 1.05 * (B * k) + 1.03 * B + 0.01 <= 2000 ->
  at_scale (s / t) (x / y) (1.03 * B) (1.03 * j + 1.05 * (B * k) + 1.03 * B + 0.01) (fdiv a b).
Proof.
  intros ((p & -> & Fp & Vp) & X & J & BB & Hs) ((q & -> & Fq & Vq) & Y & K & CC & Ht) LY Hst BC KK. destruct (scale_facts s Hs) as (P & _ & _). destruct (scale_facts t Ht) as (P' & _ & _). destruct (scale_facts _ Hst) as (Pw & H & G). pose proof eps_small as E.
  pose proof (eps_scale t k Ht K) as Ks. pose proof (Rabs_le_inv _ _ Vq) as Vq'.
  set (d := B2R p - x) in *. set (e := B2R q - y) in *. assert (Ep : B2R p = x + d) by (unfold d; ring). assert (Eq : B2R q = y + e) by (unfold e; ring). set (w := s / t) in *. assert (Es : s = w * t) by (unfold w; field; lra).
  assert (Lq : 979 / 1000 * t <= B2R q) by lra. assert (I0 : 0 < / t) by (apply Rinv_0_lt_compat; lra). assert (I1 : 0 < / y <= 1.0205 * / t). { split; [apply Rinv_0_lt_compat; lra|]. replace (1.0205 * / t) with (/ (t * / 1.0205)) by (field; lra). apply Rinv_le; lra. } assert (I2 : 0 < / B2R q <= 1.022 * / t). { split; [apply Rinv_0_lt_compat; lra|]. replace (1.022 * / t) with (/ (t * / 1.022)) by (field; lra). apply Rinv_le; lra. }
  assert (XY : Rabs (x / y) <= 1.0205 * (B * w)). { unfold Rdiv. rewrite Rabs_mult, (Rabs_pos_eq (/ y)) by lra. apply Rle_trans with (B * s * (1.0205 * / t)); [apply Rmult_le_compat; try apply Rabs_pos; lra|]. apply Req_le. rewrite Es. field. lra. }
  assert (D : Rabs (B2R p / B2R q - x / y) <= 1.022 * (j * eps * w) + 1.045 * (B * k * (eps * w))).
  { replace (B2R p / B2R q - x / y) with (d * / B2R q - x / y * e * / B2R q) by (rewrite Ep, Eq; field; lra). unfold Rminus. apply Rle_trans with (1 := Rabs_triang _ _). rewrite Rabs_Ropp, !Rabs_mult, (Rabs_pos_eq (/ B2R q)) by lra. apply Rplus_le_compat.
    - apply Rle_trans with (j * eps * s * (1.022 * / t)); [apply Rmult_le_compat; try apply Rabs_pos; lra|]. apply Req_le. rewrite Es. field. lra.
    - apply Rle_trans with (1.0205 * (B * w) * (k * eps * t) * (1.022 * / t)).
      + apply Rmult_le_compat; [apply Rmult_le_pos; apply Rabs_pos|lra| |lra]. apply Rmult_le_compat; try apply Rabs_pos; lra.
      + replace (1.0205 * (B * w) * (k * eps * t) * (1.022 * / t)) with (1.0205 * 1.022 * (B * k * (eps * w))) by (field; lra). apply Rmult_le_compat_r; [|lra]. apply Rmult_le_pos; apply Rmult_le_pos; lra. }
  assert (N : 0 <= B * k * (eps * w)) by (apply Rmult_le_pos; apply Rmult_le_pos; lra). assert (NB : 0 <= B * k) by (apply Rmult_le_pos; lra). assert (BKs : B * k * (eps * w) <= / 1000 * w). { rewrite <- Rmult_assoc. apply Rmult_le_compat_r; [lra|]. apply Rle_trans with (2000 * eps); [apply Rmult_le_compat_r; lra|lra]. }
  assert (Js : 0 <= j * eps * w <= / 1000 * w). { split; [apply Rmult_le_pos; [apply Rmult_le_pos|]; lra|]. apply Rmult_le_compat_r; [lra|]. apply Rle_trans with (2000 * eps); [apply Rmult_le_compat_r; lra|lra]. }
  assert (BCs : 1.0205 * (B * w) <= 4 * w). { rewrite <- Rmult_assoc. apply Rmult_le_compat_r; lra. } assert (ES : 0 < eps * w) by (apply Rmult_lt_0_compat; lra). assert (Bs : 0 <= B * w) by (apply Rmult_le_pos; lra).
  assert (S : Rabs (B2R p / B2R q) <= 1.0205 * (B * w) + / 400 * w). { replace (B2R p / B2R q) with (x / y + (B2R p / B2R q - x / y)) by ring. apply Rle_trans with (1 := Rabs_triang _ _). lra. }
  destruct (fdiv_val p q Fp) as (z & -> & Fz & Vz); [lra|lra|]. apply known; [|lra|lra|lra|exact Hst]. exists z. split; [reflexivity|]. split; [exact Fz|]. pose proof (SexaF_Proofs2.rnd_err (B2R p / B2R q)) as R. rewrite <- Vz in R.
  replace (B2R z - x / y) with ((B2R z - B2R p / B2R q) + (B2R p / B2R q - x / y)) by ring. apply Rle_trans with (1 := Rabs_triang _ _). assert (M : eps * Rabs (B2R p / B2R q) <= eps * (1.0205 * (B * w) + / 400 * w)) by (apply Rmult_le_compat_l; lra). assert (0 <= eps * (B * w)) by (apply Rmult_le_pos; lra). lra.
Qed.
