(** Sums of three products, and rotations the code makes. *)
From Coq Require Import ZArith Reals Lia Lra Psatz Bool.
From Coq.Floats Require Import SpecFloat.
From Flocq Require Import Core BinarySingleNaN.
From Verif Require Import Float64 Float64_Proofs Float_Time_Proofs Float_Time_Proofs4 CalF_Proofs2 SexaF_Proofs2 Real_Math Vector_Model Vector_Proofs Vector_Proofs2 Geo_Model Geo_Proofs SepF_Model SepF_Spec SepF_Proofs SepF_Proofs2 SphF_Spec SphF_Proofs3 RotF_Model RotF_Spec RotF_Proofs RotF_Proofs2.
Open Scope R_scope.

(** From left to right, each operation rounded. *)
Definition dot_left (p q : fvec) : b64 := fadd (fadd (fmul (fx p) (fx q)) (fmul (fy p) (fy q))) (fmul (fz p) (fz q)).
Lemma eta_800 : 0 < eta /\ 10 * eta <= / 2 ^ 800.
Proof. split; [apply bpow_gt_0|]. apply Rle_trans with (bpow radix2 4 * eta); [apply Rmult_le_compat_r; [apply bpow_ge_0|cbn; lra]|]. unfold eta. rewrite <- bpow_plus, pow_bpow, <- bpow_opp. apply bpow_le. lia. Qed.
Lemma dot_left_good : good_dot3 dot_left.
Proof.
  intros p q u v (a & b & c & -> & Fa & Fb & Fc & ->) (a' & b' & c' & -> & Fa' & Fb' & Fc' & ->) U V. unfold dot_left. cbn [fx fy fz vx vy vz]. pose proof (comp_le (V3 (B2R a) (B2R b) (B2R c))) as (Ca & Cb & Cc). pose proof (comp_le (V3 (B2R a') (B2R b') (B2R c'))) as (Ca' & Cb' & Cc'). cbn [vx vy vz] in Ca, Cb, Cc, Ca', Cb', Cc'.
  rewrite pow_bpow in U, V. set (W := bpow radix2 (Z.of_nat 201)) in *. assert (W0 : 0 < W) by apply bpow_gt_0.
  assert (Pr : forall x y, Rabs x <= W -> Rabs y <= W -> Rabs (x * y) <= W * W). { intros x y X Y. rewrite Rabs_mult. apply Rmult_le_compat; try apply Rabs_pos; assumption. }
  assert (WW : W * W = bpow radix2 402) by (unfold W; rewrite <- bpow_plus; reflexivity). assert (Big : 16 * bpow radix2 402 < bpow radix2 1007) by (change 16 with (bpow radix2 4); rewrite <- bpow_plus; apply bpow_lt; lia).
  pose proof (Pr (B2R a) (B2R a') ltac:(lra) ltac:(lra)) as P1. pose proof (Pr (B2R b) (B2R b') ltac:(lra) ltac:(lra)) as P2. pose proof (Pr (B2R c) (B2R c') ltac:(lra) ltac:(lra)) as P3. rewrite WW in P1, P2, P3.
  pose proof eps_small as E. destruct eta_800 as [H0 H8]. set (h := eta) in *. assert (Hh : h <= bpow radix2 402). { apply bpow_le. lia. } assert (Wp : 0 < bpow radix2 402) by apply bpow_gt_0.
  destruct (fmul_val a a' Fa Fa') as (x & -> & Fx & Vx & _); [lra|]. destruct (fmul_val b b' Fb Fb') as (y & -> & Fy & Vy & _); [lra|]. destruct (fmul_val c c' Fc Fc') as (z & -> & Fz & Vz & _); [lra|].
  set (A := B2R a * B2R a') in *. set (B := B2R b * B2R b') in *. set (C := B2R c * B2R c') in *. pose proof (SexaF_Proofs2.rnd_err A) as EA. pose proof (SexaF_Proofs2.rnd_err B) as EB. pose proof (SexaF_Proofs2.rnd_err C) as EC. rewrite <- Vx in EA. rewrite <- Vy in EB. rewrite <- Vz in EC. fold h in EA, EB, EC.
  assert (Sz : forall r s k, Rabs (r - s) <= k -> Rabs r <= Rabs s + k). { intros r s k H. replace r with (s + (r - s)) by ring. apply Rle_trans with (1 := Rabs_triang _ _). lra. }
  assert (Ep : forall t, 0 <= t -> 0 <= eps * t <= / 1000000000000000 * t) by (intros t T; split; [apply Rmult_le_pos; lra|apply Rmult_le_compat_r; lra]).
  pose proof (Rabs_pos A) as A0. pose proof (Rabs_pos B) as B0. pose proof (Rabs_pos C) as C0. pose proof (Ep _ A0) as EpA. pose proof (Ep _ B0) as EpB. pose proof (Ep _ C0) as EpC. pose proof (Ep h ltac:(lra)) as Eph.
  pose proof (Sz _ _ _ EA) as SA. pose proof (Sz _ _ _ EB) as SB. pose proof (Sz _ _ _ EC) as SC. pose proof (Rabs_triang (B2R x) (B2R y)) as T1.
  destruct (fadd_val x y Fx Fy) as (s & -> & Fs & Vs); [lra|]. pose proof (SexaF_Proofs2.rnd_err (B2R x + B2R y)) as ES. rewrite <- Vs in ES. fold h in ES. assert (E1 : eps * Rabs (B2R x + B2R y) <= eps * (1.01 * (Rabs A + Rabs B) + 2 * h)) by (apply Rmult_le_compat_l; lra). pose proof (Sz _ _ _ ES) as SS. pose proof (Rabs_triang (B2R s) (B2R z)) as T2. pose proof (Rabs_pos (B2R x + B2R y)) as X0. pose proof (Ep _ X0) as EpX.
  destruct (fadd_val s z Fs Fz) as (r & -> & Fr & Vr); [lra|]. pose proof (SexaF_Proofs2.rnd_err (B2R s + B2R z)) as ER. rewrite <- Vr in ER. fold h in ER. assert (E2 : eps * Rabs (B2R s + B2R z) <= eps * (1.05 * (Rabs A + Rabs B + Rabs C) + 8 * h)) by (apply Rmult_le_compat_l; lra).
  exists r. split; [reflexivity|]. split; [exact Fr|]. replace (B2R r - (A + B + C)) with ((B2R r - (B2R s + B2R z)) + ((B2R s - (B2R x + B2R y)) + ((B2R x - A) + ((B2R y - B) + (B2R z - C))))) by ring.
  apply Rle_trans with (Rabs (B2R r - (B2R s + B2R z)) + (Rabs (B2R s - (B2R x + B2R y)) + (Rabs (B2R x - A) + (Rabs (B2R y - B) + Rabs (B2R z - C))))).
  - repeat (apply Rle_trans with (1 := Rabs_triang _ _); apply Rplus_le_compat_l). apply Rle_refl.
  - replace ((Rabs A + Rabs B + Rabs C) / 2 ^ 51) with (4 * eps * (Rabs A + Rabs B + Rabs C)) by (unfold eps; lra). lra.
Qed.

(** Nine products of three, by way of three sums of three. *)
Definition dot9_left (p : fvec) (M : fmat) (q : fvec) : b64 := dot_left p (mxv64 dot_left M q).
Lemma row_left p q u v : stands_for p u -> stands_for q v -> moderate u -> moderate v -> exists b : bf, dot_left p q = B2SF b /\ is_finite b = true /\ Rabs (B2R b - dot u v) <= 4 * eps * dot (vabs u) (vabs v) + / 2 ^ 800 /\ 0 <= dot (vabs u) (vabs v) <= 4.
Proof.
  intros P Q U V. unfold moderate in *. destruct (dot_left_good p q u v P Q (le_201 _ U) (le_201 _ V)) as (b & E & F & B). exists b. split; [exact E|]. split; [exact F|]. assert (D : dot (vabs u) (vabs v) = Rabs (vx u * vx v) + Rabs (vy u * vy v) + Rabs (vz u * vz v)) by (unfold dot, vabs; cbn [vx vy vz]; rewrite !Rabs_mult; reflexivity).
  split.
  - rewrite D. apply Rle_trans with (1 := B). apply Req_le. unfold eps. lra.
  - split; [rewrite D; pose proof (Rabs_pos (vx u * vx v)); pose proof (Rabs_pos (vy u * vy v)); pose proof (Rabs_pos (vz u * vz v)); lra|]. apply Rle_trans with (1 := Rle_abs _). apply Rle_trans with (1 := dot_le _ _). rewrite !vabs_length. pose proof (vlength_pos u). pose proof (vlength_pos v). assert (vlength u * vlength v <= 2 * 2) by (apply Rmult_le_compat; lra). lra.
Qed.
Lemma dot9_left_good : good_dot9 dot9_left.
Proof.
  intros p M q u A v P (M1 & M2 & M3') Q U V A1 A2 A3. destruct (row_left _ _ _ _ M1 Q A1 V) as (a & Ea & Fa & Va & Ba). destruct (row_left _ _ _ _ M2 Q A2 V) as (b & Eb & Fb & Vb & Bb). destruct (row_left _ _ _ _ M3' Q A3 V) as (c & Ec & Fc & Vc & Bc).
  unfold dot9_left, mxv64. rewrite Ea, Eb, Ec. pose proof eps_small as E. assert (T : 0 < / 2 ^ 800 <= / 2 ^ 720). { split; [apply Rinv_0_lt_compat, pow_lt; lra|]. apply Rinv_le; [apply pow_lt; lra|]. apply Rle_pow; [lra|lia]. } assert (T7 : 1000 * / 2 ^ 720 <= / 2 ^ 700). { replace (2 ^ 720) with (2 ^ 20 * 2 ^ 700) by (rewrite <- pow_add; reflexivity). rewrite Rinv_mult. assert (0 < / 2 ^ 700) by (apply Rinv_0_lt_compat, pow_lt; lra). assert (/ 2 ^ 20 <= / 1000) by lra. assert (/ 2 ^ 20 * / 2 ^ 700 <= / 1000 * / 2 ^ 700) by (apply Rmult_le_compat_r; lra). lra. }
  set (h := / 2 ^ 800) in *. assert (H1 : h <= / 1000). { apply Rle_trans with (1 := proj2 T). apply Rle_trans with (/ 2 ^ 10); [|lra]. apply Rinv_le; [apply pow_lt; lra|]. apply Rle_pow; [lra|lia]. }
  set (sa := dot (vabs (r1 A)) (vabs v)) in *. set (sb := dot (vabs (r2 A)) (vabs v)) in *. set (sc := dot (vabs (r3 A)) (vabs v)) in *.
  assert (Sz : forall r s m, 0 <= m <= 4 -> Rabs (r - s) <= 4 * eps * m + h -> Rabs s <= m -> Rabs r <= 1.001 * m + h). { intros r s m [M0 M4] H S. replace r with (s + (r - s)) by ring. apply Rle_trans with (1 := Rabs_triang _ _). assert (eps * m <= / 1000000000000000 * m) by (apply Rmult_le_compat_r; lra). lra. }
  assert (Dl : forall x y, Rabs (dot x y) <= dot (vabs x) (vabs y)). { intros x y. unfold dot, vabs. cbn [vx vy vz]. rewrite <- !Rabs_mult. apply Rle_trans with (1 := Rabs_triang _ _). apply Rplus_le_compat_r, Rabs_triang. }
  pose proof (Sz _ _ _ Ba Va (Dl _ _)) as Sa. pose proof (Sz _ _ _ Bb Vb (Dl _ _)) as Sb. pose proof (Sz _ _ _ Bc Vc (Dl _ _)) as Sc.
  assert (Lw : vlength (V3 (B2R a) (B2R b) (B2R c)) <= 2 ^ 201). { apply Rle_trans with (1.7321 * 5); [apply three_le; lra|]. apply Rle_trans with (2 ^ 4); [lra|]. apply Rle_pow; [lra|lia]. }
  destruct (dot_left_good p (F3 (B2SF a) (B2SF b) (B2SF c)) u (V3 (B2R a) (B2R b) (B2R c)) P ltac:(exists a, b, c; auto) (le_201 _ U) Lw) as (r & Er & Fr & Vr). exists r. split; [exact Er|]. split; [exact Fr|]. cbn [vx vy vz] in Vr.
  pose proof (comp_le u) as (Ux & Uy & Uz). unfold moderate in U. change (dot u (mxv A v)) with (vx u * dot (r1 A) v + vy u * dot (r2 A) v + vz u * dot (r3 A) v). fold h in Vr. set (ma := dot (r1 A) v) in *. set (mb := dot (r2 A) v) in *. set (mc := dot (r3 A) v) in *.
  assert (G : dot (vabs u) (mxv (mabs A) (vabs v)) = Rabs (vx u) * sa + Rabs (vy u) * sb + Rabs (vz u) * sc) by reflexivity. rewrite G.
  set (x := vx u) in *. set (y := vy u) in *. set (z := vz u) in *. pose proof (Rabs_pos x) as X0. pose proof (Rabs_pos y) as Y0. pose proof (Rabs_pos z) as Z0.
  assert (P1 : forall t k m, 0 <= Rabs t <= 2 -> Rabs k <= m -> Rabs (t * k) <= Rabs t * m). { intros t k m _ H. rewrite Rabs_mult. apply Rmult_le_compat_l; [apply Rabs_pos|exact H]. }
  pose proof (P1 x _ _ ltac:(lra) Va) as Da. pose proof (P1 y _ _ ltac:(lra) Vb) as Db. pose proof (P1 z _ _ ltac:(lra) Vc) as Dc. pose proof (P1 x _ _ ltac:(lra) Sa) as Ta. pose proof (P1 y _ _ ltac:(lra) Sb) as Tb. pose proof (P1 z _ _ ltac:(lra) Sc) as Tc.
  assert (Xh : Rabs x * h <= 2 * h) by (apply Rmult_le_compat_r; lra). assert (Yh : Rabs y * h <= 2 * h) by (apply Rmult_le_compat_r; lra). assert (Zh : Rabs z * h <= 2 * h) by (apply Rmult_le_compat_r; lra).
  assert (Pa : 0 <= Rabs x * sa) by (apply Rmult_le_pos; lra). assert (Pb : 0 <= Rabs y * sb) by (apply Rmult_le_pos; lra). assert (Pc : 0 <= Rabs z * sc) by (apply Rmult_le_pos; lra).
  set (S := Rabs x * sa + Rabs y * sb + Rabs z * sc) in *.
  assert (Er' : (Rabs (x * B2R a) + Rabs (y * B2R b) + Rabs (z * B2R c)) / 2 ^ 51 <= 4 * eps * (1.001 * S + 6 * h)). { replace (/ 2 ^ 51) with (4 * eps) by (unfold eps; lra). unfold Rdiv. rewrite Rmult_comm. replace (/ 2 ^ 51) with (4 * eps) by (unfold eps; lra). apply Rmult_le_compat_l; [lra|]. unfold S. lra. }
  replace (B2R r - (x * ma + y * mb + z * mc)) with ((B2R r - (x * B2R a + y * B2R b + z * B2R c)) + (x * (B2R a - ma) + y * (B2R b - mb) + z * (B2R c - mc))) by ring.
  assert (Tri : Rabs (x * (B2R a - ma) + y * (B2R b - mb) + z * (B2R c - mc)) <= 4 * eps * S + 6 * h). { apply Rle_trans with (1 := Rabs_triang _ _). assert (H2 := Rabs_triang (x * (B2R a - ma)) (y * (B2R b - mb))). unfold S. lra. }
  apply Rle_trans with (1 := Rabs_triang _ _). replace (12 * S / 2 ^ 53) with (12 * (eps * S)) by (unfold eps; lra). assert (0 <= eps * S) by (apply Rmult_le_pos; unfold S; lra). assert (eps * h <= / 1000 * h) by (apply Rmult_le_compat_r; lra). lra.
Qed.

(** ** The turns of the code *)
Lemma usual_Z k : (Z.abs k <= 7)%Z -> exists b : bf, of_Z k = B2SF b /\ is_finite b = true /\ Rabs (B2R b) <= 7.
Proof. intros K. destruct (of_Z_bf k) as (b & E & F & V); [unfold fits; lia|]. exists b. split; [exact E|]. split; [exact F|]. rewrite V, <- abs_IZR. apply IZR_le. exact K. Qed.
Lemma usual_neg a : (exists b : bf, a = B2SF b /\ is_finite b = true /\ Rabs (B2R b) <= 7) -> exists b : bf, fneg a = B2SF b /\ is_finite b = true /\ Rabs (B2R b) <= 7.
Proof. intros (b & -> & F & B). exists (Bopp b). split; [destruct b; reflexivity|]. split; [rewrite is_finite_Bopp; exact F|]. rewrite B2R_Bopp, Rabs_Ropp. exact B. Qed.
Lemma horizon_usual : usual_angles (horizon_turns (of_Z 1) (of_Z 2)).
Proof. split; [apply usual_Z; lia|apply usual_neg, usual_Z; lia]. Qed.
Lemma SF2R_fneg a : SF2R radix2 (fneg a) = - SF2R radix2 a.
Proof. destruct a as [s|s| |s m e]; cbn; try (symmetry; apply Ropp_0). rewrite <- F2R_Zopp. f_equal. destruct s; reflexivity. Qed.
Lemma horizon_exact lat lon v : carried (horizon_turns lat lon) false v = mxv (R_latlon (SF2R radix2 lat) (SF2R radix2 lon)) v.
Proof.
  unfold R_latlon. rewrite mxv_mxm. cbn [carried horizon_turns]. rewrite SF2R_fneg. destruct v as [x y z]. unfold mxv, R_lat, rot_y, rot_z, dot, swap, turn. cbn [r1 r2 r3 vx vy vz]. f_equal; ring.
Qed.
Lemma body_exact ra dec w v : carried (body_turns ra dec w) false v = mxv (mxm (rot_z (- SF2R radix2 w)) (mxm (rot_x (- SF2R radix2 dec)) (rot_z (- SF2R radix2 ra)))) v.
Proof.
  rewrite !mxv_mxm. cbn [carried body_turns]. rewrite !SF2R_fneg. destruct v as [x y z]. unfold mxv, rot_x, rot_z, dot, turn. cbn [r1 r2 r3 vx vy vz]. f_equal; ring.
Qed.
