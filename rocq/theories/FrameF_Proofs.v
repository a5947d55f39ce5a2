(** Matrices whose entries are written out: each is close to the rotation it stands for. *)
From Coq Require Import ZArith Reals Lia Lra Psatz Bool.
From Coq.Floats Require Import SpecFloat.
From Flocq Require Import Core BinarySingleNaN.
From Verif Require Import Float64 Float64_Proofs Float_Time_Proofs Float_Time_Proofs4 CalF_Proofs2 SexaF_Proofs2 Real_Math Vector_Model Vector_Proofs Vector_Proofs2 Geo_Model Geo_Proofs SepF_Model SepF_Spec SepF_Proofs SepF_Proofs2 SphF_Spec RotF_Model RotF_Spec RotF_Proofs RotF_Proofs2 RotF_Proofs4 FrameF_Model FrameF_Spec.
Open Scope R_scope.

(** ** Products and sums of moderate numbers *)
Definition nk (x k : R) (r : b64) : Prop := near x (k * eps) r.
Lemma eta_small : 0 < eta <= eps * / 1000.
Proof. split; [apply bpow_gt_0|]. unfold eta. apply Rle_trans with (bpow radix2 (-100)); [apply bpow_le; lia|]. unfold eps. change (bpow radix2 (-100)) with (/ 1267650600228229401496703205376). lra. Qed.
Lemma big16 : 16 < bpow radix2 1007.
Proof. change 16 with (bpow radix2 4). apply bpow_lt. lia. Qed.
Lemma mulk x y j k a b : nk x j a -> nk y k b -> Rabs x <= 1 -> Rabs y <= 1 -> 0 <= j <= 100 -> 0 <= k <= 100 -> nk (x * y) (j + k + 1.01) (fmul a b).
Proof.
  intros (p & -> & Fp & Vp) (q & -> & Fq & Vq) X Y J K. pose proof eps_small as E. pose proof eta_small as H. pose proof big16 as G.
  set (d := B2R p - x) in *. set (e := B2R q - y) in *. assert (Ep : B2R p = x + d) by (unfold d; ring). assert (Eq : B2R q = y + e) by (unfold e; ring).
  assert (Jd : j * eps <= / 1000) by (apply Rle_trans with (100 * eps); [apply Rmult_le_compat_r; lra|lra]). assert (Ke : k * eps <= / 1000) by (apply Rle_trans with (100 * eps); [apply Rmult_le_compat_r; lra|lra]).
  assert (J0 : 0 <= j * eps) by (apply Rmult_le_pos; lra). assert (K0 : 0 <= k * eps) by (apply Rmult_le_pos; lra).
  assert (Pr : forall s t m n, Rabs s <= m -> Rabs t <= n -> Rabs (s * t) <= m * n). { intros s t m n S T. rewrite Rabs_mult. apply Rmult_le_compat; try apply Rabs_pos; assumption. }
  pose proof (Pr x e 1 (k * eps) X Vq) as P1. pose proof (Pr d y (j * eps) 1 Vp Y) as P2. pose proof (Pr d e (j * eps) (k * eps) Vp Vq) as P3. pose proof (Pr x y 1 1 X Y) as P4.
  assert (JK : j * eps * (k * eps) <= / 1000 * eps). { replace (j * eps * (k * eps)) with (j * k * eps * eps) by ring. apply Rmult_le_compat_r; [lra|]. apply Rle_trans with (10000 * eps); [apply Rmult_le_compat_r; [lra|]|lra]. replace 10000 with (100 * 100) by ring. apply Rmult_le_compat; lra. }
  assert (D : Rabs (B2R p * B2R q - x * y) <= (j + k) * eps + / 1000 * eps). { rewrite Ep, Eq. replace ((x + d) * (y + e) - x * y) with (x * e + (d * y + d * e)) by ring. apply Rle_trans with (1 := Rabs_triang _ _). pose proof (Rabs_triang (d * y) (d * e)). lra. }
  assert (S : Rabs (B2R p * B2R q) <= 1.003). { replace (B2R p * B2R q) with (x * y + (B2R p * B2R q - x * y)) by ring. apply Rle_trans with (1 := Rabs_triang _ _). lra. }
  destruct (fmul_val p q Fp Fq) as (z & -> & Fz & Vz & _); [lra|]. exists z. split; [reflexivity|]. split; [exact Fz|]. pose proof (SexaF_Proofs2.rnd_err (B2R p * B2R q)) as R. rewrite <- Vz in R.
  replace (B2R z - x * y) with ((B2R z - B2R p * B2R q) + (B2R p * B2R q - x * y)) by ring. apply Rle_trans with (1 := Rabs_triang _ _). assert (eps * Rabs (B2R p * B2R q) <= eps * 1.003) by (apply Rmult_le_compat_l; lra). lra.
Qed.
Lemma addk x y j k B a b : nk x j a -> nk y k b -> Rabs x <= 4 -> Rabs y <= 4 -> Rabs (x + y) <= B -> 0 <= j <= 100 -> 0 <= k <= 100 -> nk (x + y) (j + k + B + 0.01) (fadd a b).
Proof.
  intros (p & -> & Fp & Vp) (q & -> & Fq & Vq) X Y HB J K. pose proof eps_small as E. pose proof eta_small as H. pose proof big16 as G. pose proof (Rabs_pos (x + y)) as B0.
  assert (Jd : 0 <= j * eps <= / 1000). { split; [apply Rmult_le_pos; lra|]. apply Rle_trans with (100 * eps); [apply Rmult_le_compat_r; lra|lra]. } assert (Ke : 0 <= k * eps <= / 1000). { split; [apply Rmult_le_pos; lra|]. apply Rle_trans with (100 * eps); [apply Rmult_le_compat_r; lra|lra]. }
  assert (D : Rabs (B2R p + B2R q - (x + y)) <= (j + k) * eps). { replace (B2R p + B2R q - (x + y)) with ((B2R p - x) + (B2R q - y)) by ring. apply Rle_trans with (1 := Rabs_triang _ _). lra. }
  assert (S : Rabs (B2R p + B2R q) <= B + / 500). { replace (B2R p + B2R q) with ((x + y) + (B2R p + B2R q - (x + y))) by ring. apply Rle_trans with (1 := Rabs_triang _ _). lra. }
  assert (S' : Rabs (B2R p + B2R q) <= 9). { pose proof (Rabs_triang x y). replace (B2R p + B2R q) with ((x + y) + (B2R p + B2R q - (x + y))) by ring. apply Rle_trans with (1 := Rabs_triang _ _). lra. }
  destruct (fadd_val p q Fp Fq) as (z & -> & Fz & Vz); [lra|]. exists z. split; [reflexivity|]. split; [exact Fz|]. pose proof (SexaF_Proofs2.rnd_err (B2R p + B2R q)) as R. rewrite <- Vz in R.
  replace (B2R z - (x + y)) with ((B2R z - (B2R p + B2R q)) + (B2R p + B2R q - (x + y))) by ring. apply Rle_trans with (1 := Rabs_triang _ _). assert (eps * Rabs (B2R p + B2R q) <= eps * (B + / 500)) by (apply Rmult_le_compat_l; lra). lra.
Qed.
Lemma negk x k a : nk x k a -> nk (- x) k (fneg a).
Proof. intros (p & -> & F & V). exists (Bopp p). split; [destruct p; reflexivity|]. split; [rewrite is_finite_Bopp; exact F|]. rewrite B2R_Bopp. replace (- B2R p - - x) with (- (B2R p - x)) by ring. rewrite Rabs_Ropp. exact V. Qed.
Lemma subk x y j k B a b : nk x j a -> nk y k b -> Rabs x <= 4 -> Rabs y <= 4 -> Rabs (x - y) <= B -> 0 <= j <= 100 -> 0 <= k <= 100 -> nk (x - y) (j + k + B + 0.01) (fsub a b).
Proof.
  intros (p & -> & Fp & Vp) (q & -> & Fq & Vq) X Y HB J K. pose proof eps_small as E. pose proof eta_small as H. pose proof big16 as G. pose proof (Rabs_pos (x - y)) as B0.
  assert (Jd : 0 <= j * eps <= / 1000). { split; [apply Rmult_le_pos; lra|]. apply Rle_trans with (100 * eps); [apply Rmult_le_compat_r; lra|lra]. } assert (Ke : 0 <= k * eps <= / 1000). { split; [apply Rmult_le_pos; lra|]. apply Rle_trans with (100 * eps); [apply Rmult_le_compat_r; lra|lra]. }
  assert (D : Rabs (B2R p - B2R q - (x - y)) <= (j + k) * eps). { replace (B2R p - B2R q - (x - y)) with ((B2R p - x) + - (B2R q - y)) by ring. apply Rle_trans with (1 := Rabs_triang _ _). rewrite Rabs_Ropp. lra. }
  assert (S : Rabs (B2R p - B2R q) <= B + / 500). { replace (B2R p - B2R q) with ((x - y) + (B2R p - B2R q - (x - y))) by ring. apply Rle_trans with (1 := Rabs_triang _ _). lra. }
  assert (S' : Rabs (B2R p - B2R q) <= 9). { pose proof (Rabs_triang x (- y)) as T. rewrite Rabs_Ropp in T. replace (B2R p - B2R q) with ((x + - y) + (B2R p - B2R q - (x - y))) by ring. apply Rle_trans with (1 := Rabs_triang _ _). lra. }
  destruct (fsub_val p q Fp Fq) as (z & -> & Fz & Vz); [lra|]. exists z. split; [reflexivity|]. split; [exact Fz|]. pose proof (SexaF_Proofs2.rnd_err (B2R p - B2R q)) as R. rewrite <- Vz in R.
  replace (B2R z - (x - y)) with ((B2R z - (B2R p - B2R q)) + (B2R p - B2R q - (x - y))) by ring. apply Rle_trans with (1 := Rabs_triang _ _). assert (eps * Rabs (B2R p - B2R q) <= eps * (B + / 500)) by (apply Rmult_le_compat_l; lra). lra.
Qed.
