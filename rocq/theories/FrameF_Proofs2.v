(** Precession, nutation and the frame bias in floats. *)
From Coq Require Import ZArith Reals Lia Lra Psatz Bool.
From Coq.Floats Require Import SpecFloat.
From Flocq Require Import Core BinarySingleNaN.
From Verif Require Import Float64 Float64_Proofs Float_Time_Proofs Float_Time_Proofs4 CalF_Proofs2 SexaF_Proofs2 Real_Math Vector_Model Vector_Proofs Vector_Proofs2 Geo_Model Geo_Proofs SepF_Model SepF_Spec SepF_Proofs SepF_Proofs2 SphF_Spec RotF_Model RotF_Spec RotF_Proofs RotF_Proofs2 RotF_Proofs4 FrameF_Model FrameF_Spec FrameF_Proofs.
Open Scope R_scope.

Definition nu (x k : R) (r : b64) : Prop := nk x k r /\ Rabs x <= 1 /\ 0 <= k <= 30.
Lemma mulu x y j k a b : nu x j a -> nu y k b -> j + k <= 20 -> nu (x * y) (j + k + 1.01) (fmul a b).
Proof.
  intros (A & X & J) (B & Y & K) JK. split; [apply mulk; try assumption; lra|]. split; [|lra]. rewrite Rabs_mult. replace 1 with (1 * 1) by ring. apply Rmult_le_compat; try apply Rabs_pos; assumption.
Qed.
Lemma negu x k a : nu x k a -> nu (- x) k (fneg a).
Proof. intros (A & X & J). split; [apply negk; exact A|]. rewrite Rabs_Ropp. auto. Qed.
Lemma add2 x y j k a b : nu x j a -> nu y k b -> nk (x + y) (j + k + 2.01) (fadd a b) /\ Rabs (x + y) <= 2.
Proof. intros (A & X & J) (B & Y & K). assert (S : Rabs (x + y) <= 2) by (apply Rle_trans with (1 := Rabs_triang _ _); lra). split; [|exact S]. replace (j + k + 2.01) with (j + k + 2 + 0.01) by lra. apply addk; try assumption; lra. Qed.
Lemma sub2 x y j k a b : nu x j a -> nu y k b -> nk (x - y) (j + k + 2.01) (fsub a b).
Proof. intros (A & X & J) (B & Y & K). assert (S : Rabs (x - y) <= 2) by (unfold Rminus; apply Rle_trans with (1 := Rabs_triang _ _); rewrite Rabs_Ropp; lra). replace (j + k + 2.01) with (j + k + 2 + 0.01) by lra. apply subk; try assumption; lra. Qed.
Lemma add3 x y z j k l a b c : nu x j a -> nu y k b -> nu z l c -> nk (x + y + z) (j + k + l + 5.02) (fadd (fadd a b) c).
Proof.
  intros A B (C & Z & L). destruct (add2 _ _ _ _ _ _ A B) as [D S]. destruct A as (_ & _ & J). destruct B as (_ & _ & K). assert (S3 : Rabs (x + y + z) <= 3) by (apply Rle_trans with (1 := Rabs_triang _ _); lra). replace (j + k + l + 5.02) with (j + k + 2.01 + l + 3 + 0.01) by lra. apply addk; try assumption; lra.
Qed.
Lemma sub3 x y z j k l a b c : nu x j a -> nu y k b -> nu z l c -> nk (x + y - z) (j + k + l + 5.02) (fsub (fadd a b) c).
Proof.
  intros A B (C & Z & L). destruct (add2 _ _ _ _ _ _ A B) as [D S]. destruct A as (_ & _ & J). destruct B as (_ & _ & K). assert (S3 : Rabs (x + y - z) <= 3) by (unfold Rminus; apply Rle_trans with (1 := Rabs_triang _ _); rewrite Rabs_Ropp; lra). replace (j + k + l + 5.02) with (j + k + 2.01 + l + 3 + 0.01) by lra. apply subk; try assumption; lra.
Qed.
Lemma wider x j k a : nk x j a -> j <= k -> near x (k * eps) a.
Proof. intros (b & E & F & B) L. exists b. split; [exact E|]. split; [exact F|]. apply Rle_trans with (1 := B). apply Rmult_le_compat_r; [pose proof eps_small; lra|exact L]. Qed.
Lemma written_by M E k s : (forall v, mxv E v = carried s false v) ->
  near (vx (r1 E)) (4 * INR k * eps) (fx (q1 M)) -> near (vy (r1 E)) (4 * INR k * eps) (fy (q1 M)) -> near (vz (r1 E)) (4 * INR k * eps) (fz (q1 M)) ->
  near (vx (r2 E)) (4 * INR k * eps) (fx (q2 M)) -> near (vy (r2 E)) (4 * INR k * eps) (fy (q2 M)) -> near (vz (r2 E)) (4 * INR k * eps) (fz (q2 M)) ->
  near (vx (r3 E)) (4 * INR k * eps) (fx (q3 M)) -> near (vy (r3 E)) (4 * INR k * eps) (fy (q3 M)) -> near (vz (r3 E)) (4 * INR k * eps) (fz (q3 M)) -> written M k s.
Proof.
  intros H. destruct M as [[a b c] [d e f] [g h i]]. cbn [q1 q2 q3 fx fy fz]. intros (a' & -> & Fa & Va) (b' & -> & Fb & Vb) (c' & -> & Fc & Vc) (d' & -> & Fd & Vd) (e' & -> & Fe & Ve) (f' & -> & Ff & Vf) (g' & -> & Fg & Vg) (h' & -> & Fh & Vh) (i' & -> & Fi & Vi).
  exists (M3 (V3 (B2R a') (B2R b') (B2R c')) (V3 (B2R d') (B2R e') (B2R f')) (V3 (B2R g') (B2R h') (B2R i'))). split.
  - repeat split; cbn [q1 q2 q3 r1 r2 r3]; do 3 eexists; repeat split; assumption.
  - rewrite <- !H. unfold close, mxv, dot. cbn [r1 r2 r3 vx vy vz]. unfold Rdiv. rewrite <- eps_val. rewrite ?Rmult_1_r, ?Rmult_0_r, ?Rplus_0_r, ?Rplus_0_l. cbv zeta. repeat split; assumption.
Qed.
Lemma function_near g F a : good_function g F -> (forall x, Rabs (F x) <= 1) -> usual a -> nu (F (val a)) 2.01 (g a).
Proof.
  intros G B (b & -> & Fb & Bb). unfold val. rewrite SF2R_B2SF. split; [|split; [apply B|lra]]. destruct (G b Fb Bb) as (c & E & Fc & V). exists c. split; [exact E|]. split; [exact Fc|]. apply Rle_trans with (1 := V). pose proof tiny900 as T. specialize (B (B2R b)). assert (Rabs (F (B2R b)) / 2 ^ 52 <= 2 * eps). { replace (2 * eps) with (1 / 2 ^ 52) by (unfold eps; lra). apply Rmult_le_compat_r; lra. } lra.
Qed.
Lemma sin_1 x : Rabs (sin x) <= 1. Proof. apply Rabs_le, SIN_bound. Qed.
Lemma cos_1 x : Rabs (cos x) <= 1. Proof. apply Rabs_le, COS_bound. Qed.
Lemma val_neg a : val (fneg a) = - val a. Proof. apply SF2R_fneg. Qed.
Lemma usual_opp a : usual a -> usual (fneg a). Proof. apply usual_neg. Qed.

(** ** What the turns are *)
Lemma nutation_exact m t p v : mxv (build_nutation_matrix (val m) (val t) (val p)) v = carried (nutation_turns m t p) false v.
Proof.
  destruct v as [x y z]. cbn [carried nutation_turns]. fold (val m) (val t) (val p) (val (fneg m)). rewrite val_neg. unfold mxv, build_nutation_matrix, dot, turn. cbn [r1 r2 r3 vx vy vz]. rewrite cos_neg, sin_neg. f_equal; ring.
Qed.
Lemma precession_exact e p o c v : mxv (precession_of_angles (val e) (val p) (val o) (val c)) v = carried (precession_turns e p o c) false v.
Proof.
  destruct v as [x y z]. cbn [carried precession_turns]. fold (val e) (val p) (val o) (val c) (val (fneg c)) (val (fneg e)). rewrite !val_neg. unfold mxv, precession_of_angles, dot, turn. cbn [r1 r2 r3 vx vy vz]. rewrite !cos_neg, !sin_neg. f_equal; ring.
Qed.
Lemma bias_exact v : mxv exact_bias v = carried bias_turns false v.
Proof.
  unfold exact_bias. rewrite !mxv_mxm. destruct v as [x y z]. cbn [carried bias_turns]. fold (val (fneg xi0)) (val (fneg da0)) (val eta0). rewrite !val_neg. unfold mxv, rot_x, rot_y, rot_z, dot, turn. cbn [r1 r2 r3 vx vy vz]. f_equal; ring.
Qed.

(** ** Nutation and precession *)
Section Library.
Variables (fsin fcos : b64 -> b64).
Hypotheses (Gs : good_function fsin sin) (Gc : good_function fcos cos).
Lemma nutation_written m t p : usual m -> usual t -> usual p -> written (nutation64 fsin fcos m t p) 4 (nutation_turns m t p).
Proof.
  intros Um Ut Up. pose proof (function_near _ _ _ Gs sin_1 Um) as Sm. pose proof (function_near _ _ _ Gc cos_1 Um) as Cm. pose proof (function_near _ _ _ Gs sin_1 Ut) as St. pose proof (function_near _ _ _ Gc cos_1 Ut) as Ct. pose proof (function_near _ _ _ Gs sin_1 Up) as Sp. pose proof (function_near _ _ _ Gc cos_1 Up) as Cp.
  apply (written_by _ (build_nutation_matrix (val m) (val t) (val p))); [apply nutation_exact|..]; unfold nutation64, build_nutation_matrix; cbn [q1 q2 q3 fx fy fz r1 r2 r3 vx vy vz INR]; replace (4 * (1 + 1 + 1 + 1)) with 16 by ring.
  - apply (wider _ _ _ _ (proj1 Cp)). lra.
  - eapply wider; [apply mulu; [apply negu; exact Sp|exact Cm|lra]|lra].
  - eapply wider; [apply mulu; [apply negu; exact Sp|exact Sm|lra]|lra].
  - eapply wider; [apply mulu; [exact Sp|exact Ct|lra]|lra].
  - eapply wider; [apply add2; [apply mulu; [apply mulu; [exact Cp|exact Cm|lra]|exact Ct|lra]|apply mulu; [exact Sm|exact St|lra]]|lra].
  - eapply wider; [apply sub2; [apply mulu; [apply mulu; [exact Cp|exact Sm|lra]|exact Ct|lra]|apply mulu; [exact Cm|exact St|lra]]|lra].
  - eapply wider; [apply mulu; [exact Sp|exact St|lra]|lra].
  - eapply wider; [apply sub2; [apply mulu; [apply mulu; [exact Cp|exact Cm|lra]|exact St|lra]|apply mulu; [exact Sm|exact Ct|lra]]|lra].
  - eapply wider; [apply add2; [apply mulu; [apply mulu; [exact Cp|exact Sm|lra]|exact St|lra]|apply mulu; [exact Cm|exact Ct|lra]]|lra].
Qed.
Lemma precession_written e p o c : usual e -> usual p -> usual o -> usual c -> written (precession64 fsin fcos e p o c) 9 (precession_turns e p o c).
Proof.
  intros Ue Up Uo Uc. pose proof (function_near _ _ _ Gs sin_1 Ue) as Sa. pose proof (function_near _ _ _ Gc cos_1 Ue) as Ca. pose proof (function_near _ _ _ Gs sin_1 (usual_opp _ Up)) as Sb. pose proof (function_near _ _ _ Gc cos_1 (usual_opp _ Up)) as Cb. pose proof (function_near _ _ _ Gs sin_1 (usual_opp _ Uo)) as Sc. pose proof (function_near _ _ _ Gc cos_1 (usual_opp _ Uo)) as Cc. pose proof (function_near _ _ _ Gs sin_1 Uc) as Sd. pose proof (function_near _ _ _ Gc cos_1 Uc) as Cd.
  rewrite val_neg in Sb, Cb, Sc, Cc.
  apply (written_by _ (precession_of_angles (val e) (val p) (val o) (val c))); [apply precession_exact|..]; unfold precession64, precession_of_angles; cbn [q1 q2 q3 fx fy fz r1 r2 r3 vx vy vz INR]; replace (4 * (1 + 1 + 1 + 1 + 1 + 1 + 1 + 1 + 1)) with 36 by ring.
  - eapply wider; [apply sub2; [apply mulu; [exact Cd|exact Cb|lra]|apply mulu; [apply mulu; [exact Sb|exact Sd|lra]|exact Cc|lra]]|lra].
  - eapply wider; [apply sub3; [apply mulu; [apply mulu; [exact Cd|exact Sb|lra]|exact Ca|lra]|apply mulu; [apply mulu; [apply mulu; [exact Sd|exact Cc|lra]|exact Cb|lra]|exact Ca|lra]|apply mulu; [apply mulu; [exact Sa|exact Sd|lra]|exact Sc|lra]]|lra].
  - eapply wider; [apply add3; [apply mulu; [apply mulu; [exact Cd|exact Sb|lra]|exact Sa|lra]|apply mulu; [apply mulu; [apply mulu; [exact Sd|exact Cc|lra]|exact Cb|lra]|exact Sa|lra]|apply mulu; [apply mulu; [exact Ca|exact Sd|lra]|exact Sc|lra]]|lra].
  - eapply wider; [apply sub2; [apply mulu; [apply negu; exact Sd|exact Cb|lra]|apply mulu; [apply mulu; [exact Sb|exact Cd|lra]|exact Cc|lra]]|lra].
  - eapply wider; [apply sub3; [apply mulu; [apply mulu; [apply negu; exact Sd|exact Sb|lra]|exact Ca|lra]|apply mulu; [apply mulu; [apply mulu; [exact Cd|exact Cc|lra]|exact Cb|lra]|exact Ca|lra]|apply mulu; [apply mulu; [exact Sa|exact Cd|lra]|exact Sc|lra]]|lra].
  - eapply wider; [apply add3; [apply mulu; [apply mulu; [apply negu; exact Sd|exact Sb|lra]|exact Sa|lra]|apply mulu; [apply mulu; [apply mulu; [exact Cd|exact Cc|lra]|exact Cb|lra]|exact Sa|lra]|apply mulu; [apply mulu; [exact Ca|exact Cd|lra]|exact Sc|lra]]|lra].
  - eapply wider; [apply mulu; [exact Sb|exact Sc|lra]|lra].
  - eapply wider; [apply sub2; [apply mulu; [apply mulu; [apply negu; exact Sc|exact Cb|lra]|exact Ca|lra]|apply mulu; [exact Sa|exact Cc|lra]]|lra].
  - eapply wider; [apply add2; [apply mulu; [apply mulu; [apply negu; exact Sc|exact Cb|lra]|exact Sa|lra]|apply mulu; [exact Cc|exact Ca|lra]]|lra].
Qed.
End Library.
