(** The rounds of the latitude in floats, the height, and there and back. *)
From Coq Require Import ZArith Reals Lia Lra Psatz Bool.
From Flocq Require Import Core BinarySingleNaN.
From Verif Require Import Float64 Float64_Proofs Float_Time_Proofs Float_Time_Proofs4 Frames_Proofs CalF_Proofs2 SexaF_Proofs2 Real_Math Real_Math_Proofs Vector_Model Vector_Proofs2 Geo_Model SepF_Model SepF_Spec SepF_Proofs SepF_Proofs2 SphF_Spec SphF_Proofs RotF_Proofs4 FrameF_Model FrameF_Spec FrameF_Proofs FrameF_Proofs2 GeodF_Model GeodF_Spec GeodF_Proofs GeodF_Proofs2 GeodF_Proofs3.
Open Scope R_scope.

Section Rounds.
Variables (fatan : b64 -> b64 -> b64) (fsin fcos : b64 -> b64) (g : geoid64) (a finv : R) (p : fvec) (v : vec) (r K : R).
Hypotheses (Ga : good_direction fatan) (Gs : good_function fsin sin) (Gc : good_function fcos cos) (G : ellipsoid g a finv)
  (KK : 0 <= K <= 100) (Px : at_scale r (vx v) 1 K (fx p)) (Py : at_scale r (vy v) 1 K (fy p)) (Pz : at_scale r (vz v) 1 K (fz p)) (Lr : r = vlength v) (Ar : a <= 1.1 * r).
Let L := 3.1 * K + 8.
Lemma a_pos : 0 < a. Proof. destruct (radius_facts g a finv G) as (x & _ & _ & _ & H & _). exact H. Qed.
Lemma r_scale : scale r. Proof. apply Px. Qed.
Lemma r_pos : 0 < r. Proof. apply (scale_facts r r_scale). Qed.
Lemma whole : rho (rho (vx v) (vy v)) (vz v) = r.
Proof. rewrite Lr. unfold rho at 1, vlength. f_equal. unfold dot. rewrite rho2. reflexivity. Qed.
Lemma axis_at : at_scale r (rho (vx v) (vy v)) 1 (2 * K + 2.55) (radius_xy64 p) /\ exists b : bf, radius_xy64 p = B2SF b /\ 0 <= B2R b.
Proof.
  pose proof (le_rho (rho (vx v) (vy v)) (vz v)) as [H _]. rewrite whole in H. rewrite Rabs_pos_eq in H by apply rho_0.
  destruct (hyp_at r _ _ _ _ 1 _ _ _ _ Px Py ltac:(lra) ltac:(lra) ltac:(lra)) as [A B]. split; [|exact B]. eapply looser; [exact A|lra|rewrite Rabs_pos_eq by apply rho_0; lra|lra].
Qed.
(** A latitude within the rounding of [lat]. *)
Definition fair (lat : R) (f : b64) : Prop := near lat (L * eps) f /\ - (PI / 2) <= lat <= PI / 2.
Lemma Rg : 8 <= L <= 318. Proof. unfold L. lra. Qed.
Lemma fair_sin lat f : fair lat f -> at_scale 1 (sin lat) 1 (L + 2.01) (fsin f).
Proof.
  intros ((b & -> & Fb & Vb) & Rb). pose proof Rg as HL. pose proof eps_small as E. pose proof eta_small as T. pose proof PI_4 as P4. pose proof (Rabs_le_inv _ _ Vb) as V. assert (Le : L * eps <= 318 * eps) by (apply Rmult_le_compat_r; lra).
  destruct (Gs b Fb) as (c & E' & Fc & Vc); [apply Rabs_le; lra|]. rewrite E'. apply known; [|rewrite Rmult_1_r; apply Rabs_le; pose proof (SIN_bound lat); lra|lra|lra|exact scale_1]. exists c. split; [reflexivity|]. split; [exact Fc|].
  replace (B2R c - sin lat) with ((B2R c - sin (B2R b)) + (sin (B2R b) - sin lat)) by ring. apply Rle_trans with (1 := Rabs_triang _ _).
  assert (Sl : Rabs (sin (B2R b) - sin lat) <= L * eps). { apply Rle_trans with (2 := Vb). apply Frames_Proofs.sin_lip1. }
  assert (S1 : Rabs (sin (B2R b)) <= 1) by (apply Rabs_le; pose proof (SIN_bound (B2R b)); lra).
  assert (N9 : / 2 ^ 900 <= / 100 * eps). { apply Rle_trans with (/ 2 ^ 60); [apply Rinv_le; [apply pow_lt; lra|apply Rle_pow; [lra|lia]]|unfold eps; lra]. }
  rewrite Rmult_1_r. assert (Rabs (sin (B2R b)) / 2 ^ 52 <= 2 * eps). { unfold eps. lra. } lra.
Qed.
Lemma round_ok lat f : fair lat f -> let '(ac, hyp, lat') := latitude_round a finv (vx v) (vy v) (vz v) lat in let '(ac', hyp', f') := latitude_round64 fatan fsin g (radius_xy64 p) (fz p) f in
  at_scale r ac 1.11 (0.00825 * L + 3.02) ac' /\ at_scale r hyp 1.01 (K + 0.0079 * L + 1.17) hyp' /\ fair lat' f' /\ 0 <= ac /\ Rabs (hyp - vz v) <= 0.0078 * r.
Proof.
  intros Hf. pose proof (fair_sin lat f Hf) as S. pose proof Rg as HL. pose proof (e2_at g a finv G) as E2. pose proof (e2_range g a finv G) as E2r. pose proof a_pos as Pa. pose proof r_pos as Pr. destruct axis_at as (Ax & Nn).
  destruct (radius_facts g a finv G) as (ra & Era & Fra & Va & _ & _). assert (Aa : at_scale r a 1.1 0 (g_radius g)). { rewrite Era, Va. apply exactly; [exact Fra|rewrite <- Va, Rabs_pos_eq by lra; exact Ar|lra|exact r_scale]. }
  unfold latitude_round, latitude_round64. set (sl := sin lat) in *. fold (rho (vx v) (vy v)). assert (Sb : -1 <= sl <= 1) by (unfold sl; pose proof (SIN_bound lat); lra).
  pose proof (mul_at _ _ _ _ _ _ _ _ _ E2 S ltac:(lra) ltac:(lra)) as ES. pose proof (mul_at _ _ _ _ _ _ _ _ _ ES S ltac:(lra) ltac:(lra)) as ESS.
  assert (Q : 0 <= e2 finv * sl * sl <= 69 / 10000) by (assert (0 <= sl * sl <= 1) by nra; rewrite Rmult_assoc; split; nra).
  pose proof (sub_at _ _ _ _ _ 1 _ _ _ _ one_at ESS ltac:(rewrite Rabs_pos_eq; lra) ltac:(lra) ltac:(lra)) as D. pose proof (sqrt_at _ _ _ _ D ltac:(lra)) as Rt.
  set (q := 1 - e2 finv * sl * sl) in *. assert (Rq : 996 / 1000 <= sqrt q <= 1). { pose proof (sqrt_pos q). assert (sqrt q * sqrt q = q) by (apply sqrt_sqrt; unfold q; lra). assert (993 / 1000 <= q <= 1) by (unfold q; lra). split; nra. }
  assert (I : 1 <= / sqrt q <= 1.005). { split; apply Rmult_le_reg_r with (sqrt q); try lra; rewrite Rinv_l by lra; lra. }
  pose proof (div_at _ _ _ _ _ _ _ _ Aa Rt ltac:(lra) ltac:(lra) ltac:(lra)) as C0.
  assert (Bc : 0 <= a / sqrt q <= 1.11 * r). { unfold Rdiv. split; [apply Rmult_le_pos; lra|]. apply Rle_trans with (1.1 * r * 1.005); [apply Rmult_le_compat; lra|lra]. }
  assert (C : at_scale r (a / sqrt q) 1.11 (0.00825 * L + 3.02) (fdiv (g_radius g) (fsqrt (fsub (of_Z 1) (fmul (fmul (e2_64 g) (fsin f)) (fsin f)))))) by (apply (looser _ _ _ _ _ _ _ C0); [lra|rewrite Rabs_pos_eq; lra|lra]). clear C0.
  pose proof (mul_at _ _ _ _ _ _ _ _ _ C ES ltac:(lra) ltac:(lra)) as CE.
  assert (Small : Rabs (a / sqrt q * (e2 finv * sl)) <= 0.0078 * r). { apply Rle_trans with (1 := proj1 (proj2 CE)). lra. }
  assert (Zr : Rabs (vz v) <= r) by (pose proof (proj1 (proj2 Pz)); lra).
  assert (HU : Rabs (vz v + a / sqrt q * (e2 finv * sl)) <= 1.01 * r) by (apply Rle_trans with (1 := Rabs_triang _ _); lra).
  pose proof (add_at _ _ _ _ _ 1.01 _ _ _ _ Pz CE HU ltac:(lra) ltac:(lra)) as H0. assert (H : at_scale r (vz v + a / sqrt q * (e2 finv * sl)) 1.01 (K + 0.0079 * L + 1.17) (fadd (fz p) (fmul (fdiv (g_radius g) (fsqrt (fsub (of_Z 1) (fmul (fmul (e2_64 g) (fsin f)) (fsin f))))) (fmul (e2_64 g) (fsin f))))) by (apply (looser _ _ _ _ _ _ _ H0); [lra|exact HU|lra]). clear H0.
  split; [exact C|]. split; [exact H|]. split; [|split; [lra|match goal with |- Rabs ?t <= _ => replace t with (a / sqrt q * (e2 finv * sl)) by ring; exact Small end]]. set (hyp := vz v + a / sqrt q * (e2 finv * sl)) in *. pose proof (rho_0 (vx v) (vy v)) as Nx.
  assert (Low : 99 / 100 * r <= rho (rho (vx v) (vy v)) hyp). { pose proof (Rabs_le_inv _ _ (rho_moved (rho (vx v) (vy v)) (vz v) (rho (vx v) (vy v)) hyp)) as M. rewrite whole in M. replace (rho (vx v) (vy v) - rho (vx v) (vy v)) with 0 in M by ring. replace (hyp - vz v) with (a / sqrt q * (e2 finv * sl)) in M by (unfold hyp; ring). rewrite Rabs_R0 in M. lra. }
  split; [|apply atan2_right; exact Nx].
  destruct (arctan2_at _ _ _ _ _ _ _ _ _ _ Ga Ax H Nn Nx Low ltac:(lra)) as (b & E & F & V). exists b. split; [exact E|]. split; [exact F|]. apply Rle_trans with (1 := V). pose proof eps_small. apply Rmult_le_compat_r; [lra|]. unfold L. lra.
Qed.
Lemma first_ok : fair (atan2 (vz v) (rho (vx v) (vy v))) (fatan (fz p) (radius_xy64 p)).
Proof.
  destruct axis_at as (Ax & Nn). pose proof (rho_0 (vx v) (vy v)) as Nx. split; [|apply atan2_right; exact Nx]. pose proof r_pos as Pr.
  destruct (arctan2_at _ _ _ _ _ _ _ _ _ _ Ga Ax Pz Nn Nx) as (b & E & F & V); [rewrite whole; lra|lra|]. exists b. split; [exact E|]. split; [exact F|]. apply Rle_trans with (1 := V). pose proof eps_small. apply Rmult_le_compat_r; [lra|]. unfold L. lra.
Qed.
Lemma latitude_ok : let '(ac, hyp, lat) := compute_latitude a finv v in let '(ac', hyp', lat') := compute_latitude64 fatan fsin g p in
  near lat ((3.1 * K + 8) * eps) lat' /\ near (height_from (vx v) (vy v) ac hyp) ((3.1 * K + 11) * eps * r) (fsub (fsqrt (fadd (fmul hyp' hyp') (fmul (radius_xy64 p) (radius_xy64 p)))) ac').
Proof.
  unfold compute_latitude, compute_latitude64. pose proof first_ok as H1. unfold rho in H1. set (l0 := atan2 _ _) in *. set (f0 := fatan (fz p) _) in *.
  pose proof (round_ok l0 f0 H1) as H2. destruct (latitude_round a finv (vx v) (vy v) (vz v) l0) as [[ac1 hyp1] l1]. destruct (latitude_round64 fatan fsin g (radius_xy64 p) (fz p) f0) as [[ac1' hyp1'] f1]. destruct H2 as (_ & _ & H2 & _).
  pose proof (round_ok l1 f1 H2) as H3. destruct (latitude_round a finv (vx v) (vy v) (vz v) l1) as [[ac2 hyp2'] l2]. destruct (latitude_round64 fatan fsin g (radius_xy64 p) (fz p) f1) as [[ac2' hyp2''] f2]. destruct H3 as (_ & _ & H3 & _).
  pose proof (round_ok l2 f2 H3) as H4. destruct (latitude_round a finv (vx v) (vy v) (vz v) l2) as [[ac hyp] l3]. destruct (latitude_round64 fatan fsin g (radius_xy64 p) (fz p) f2) as [[ac' hyp'] f3]. destruct H4 as (C & H & (N & _) & Pc & Off).
  split; [exact N|]. destruct axis_at as (Ax & _). pose proof Rg as HL. pose proof r_pos as Pr. unfold height_from. fold (rho (vx v) (vy v)). set (q := rho (vx v) (vy v)) in *. assert (Q0 : 0 <= q) by apply rho_0. fold (rho hyp q).
  pose proof (proj1 (proj2 H)) as Hb. pose proof (proj1 (proj2 Ax)) as Qb. pose proof (proj1 (proj2 C)) as Cb.
  assert (U : rho hyp q <= 1.01 * r). { pose proof (Rabs_le_inv _ _ (rho_moved q (vz v) q hyp)) as M. pose proof whole as Wh. fold q in Wh. rewrite Wh in M. replace (q - q) with 0 in M by ring. rewrite Rabs_R0 in M. replace (rho hyp q) with (rho q hyp) by (unfold rho; f_equal; ring). lra. }
  destruct (hyp_at _ _ _ _ _ 1.01 _ _ _ _ H Ax U ltac:(lra) ltac:(lra)) as [HH _]. pose proof (rho_0 hyp q) as P0. rewrite (Rabs_pos_eq ac Pc) in Cb.
  assert (D : Rabs (rho hyp q - ac) <= 1.11 * r) by (apply Rabs_le; lra).
  pose proof (sub_at _ _ _ _ _ 1.11 _ _ _ _ HH C D ltac:(lra) ltac:(lra)) as (Z & _). destruct Z as (b & E & F & V). exists b. split; [exact E|]. split; [exact F|]. apply Rle_trans with (1 := V). apply Rmult_le_compat_r; [lra|]. apply Rmult_le_compat_r; [pose proof eps_small; lra|]. unfold L. lra.
Qed.
End Rounds.
