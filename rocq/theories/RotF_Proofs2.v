(** Products of rotation matrices in floats. *)
From Coq Require Import ZArith Reals Lia Lra Psatz Bool.
From Coq.Floats Require Import SpecFloat.
From Flocq Require Import Core BinarySingleNaN.
From Verif Require Import Float64 Float64_Proofs Float_Time_Proofs Float_Time_Proofs4 CalF_Proofs2 SexaF_Proofs2 Real_Math Vector_Model Vector_Proofs Vector_Proofs2 Geo_Model Geo_Proofs Spin_Proofs2 SepF_Model SepF_Spec SepF_Proofs SepF_Proofs2 SphF_Spec RotF_Model RotF_Spec RotF_Proofs.
Open Scope R_scope.

Lemma tiny800 : 0 < / 2 ^ 800 <= eps * / 10000000000.
Proof.
  split; [apply Rinv_0_lt_compat, pow_lt; lra|]. rewrite pow_bpow, <- bpow_opp. apply Rle_trans with (bpow radix2 (-100)); [apply bpow_le; lia|]. unfold eps. change (bpow radix2 (-100)) with (/ 1267650600228229401496703205376). lra.
Qed.
Lemma stands_opp p w : stands_for p w -> exists a b c : bf, p = F3 (B2SF a) (B2SF b) (B2SF c) /\ is_finite a = true /\ is_finite b = true /\ is_finite c = true /\ w = V3 (B2R a) (B2R b) (B2R c).
Proof. exact (fun H => H). Qed.
Lemma ftransp_stands M A : fstands M A -> fstands (ftransp M) (transp A).
Proof.
  destruct M as [p q r], A as [u v w]. intros ((a & b & c & E1 & Fa & Fb & Fc & E2) & (d & e & f & E3 & Fd & Fe & Ff & E4) & (g & h & i & E5 & Fg & Fh & Fi & E6)). cbn [q1 q2 q3 r1 r2 r3] in *. subst p q r u v w. repeat split; cbn [ftransp transp q1 q2 q3 r1 r2 r3 fx fy fz vx vy vz]; do 3 eexists; repeat split; assumption.
Qed.
Lemma fflip_stands M A : fstands M A -> fstands (fflip M) (M3 (r3 A) (r2 A) (r1 A)).
Proof. intros (a & b & c). repeat split; assumption. Qed.

Section Dot.
Variable dot3 : fvec -> fvec -> b64.
Hypothesis Good : good_dot3 dot3.
Lemma dot_near p q u v k : stands_for p u -> stands_for q v -> vlength u * vlength v <= k -> vlength u <= 2 ^ 201 -> vlength v <= 2 ^ 201 ->
  exists b : bf, dot3 p q = B2SF b /\ is_finite b = true /\ Rabs (B2R b - dot u v) <= 4 * eps * k + / 2 ^ 800.
Proof.
  intros P Q K U V. destruct (Good p q u v P Q U V) as (b & E & F & B). exists b. split; [exact E|]. split; [exact F|]. unfold dot. apply Rle_trans with (1 := B). pose proof (abs_dot u v) as A. unfold eps. replace (/ 9007199254740992) with (/ 2 ^ 53) by (rewrite <- eps_val; reflexivity). set (s := Rabs (vx u * vx v) + Rabs (vy u * vy v) + Rabs (vz u * vz v)) in *. lra.
Qed.
Lemma le_201 x : x <= 2 -> x <= 2 ^ 201.
Proof. intros H. apply Rle_trans with (1 := H). replace 2 with (2 ^ 1) at 1 by ring. apply Rle_pow; [lra|lia]. Qed.
Lemma entry_near p q u v : stands_for p u -> stands_for q v -> vlength u <= 1.001 -> vlength v <= 1.001 -> exists b : bf, dot3 p q = B2SF b /\ is_finite b = true /\ Rabs (B2R b - dot u v) <= 4.01 * eps.
Proof.
  intros P Q U V. destruct (dot_near p q u v (1.001 * 1.001) P Q) as (b & E & F & B); [apply Rmult_le_compat; try apply vlength_pos; assumption|apply le_201; lra|apply le_201; lra|]. exists b. split; [exact E|]. split; [exact F|]. pose proof tiny800. lra.
Qed.
Lemma row_near p u T B : stands_for p u -> fstands T B -> vlength u <= 1.001 -> rows_le B 1.001 ->
  exists w, stands_for (F3 (dot3 p (q1 T)) (dot3 p (q2 T)) (dot3 p (q3 T))) w /\ let e := vsub w (V3 (dot u (r1 B)) (dot u (r2 B)) (dot u (r3 B))) in Rabs (vx e) <= 4.01 * eps /\ Rabs (vy e) <= 4.01 * eps /\ Rabs (vz e) <= 4.01 * eps.
Proof.
  intros P (T1 & T2 & T3) U (B1 & B2 & B3). destruct (entry_near p _ u _ P T1 U B1) as (a & -> & Fa & Va). destruct (entry_near p _ u _ P T2 U B2) as (b & -> & Fb & Vb). destruct (entry_near p _ u _ P T3 U B3) as (c & -> & Fc & Vc).
  exists (V3 (B2R a) (B2R b) (B2R c)). split; [exists a, b, c; auto|]. cbv zeta. cbn [vsub vx vy vz]. auto.
Qed.
Lemma mxm_near M N A B : fstands M A -> fstands N B -> rows_le A 1.001 -> rows_le (transp B) 1.001 -> exists C, fstands (mxm64 dot3 M N) C /\ entries_le (msub C (mxm A B)) (4.01 * eps).
Proof.
  intros (M1 & M2 & M3') HN (A1 & A2 & A3) HB. pose proof (ftransp_stands _ _ HN) as HT. destruct (row_near _ _ _ _ M1 HT A1 HB) as (u & Su & Eu). destruct (row_near _ _ _ _ M2 HT A2 HB) as (v & Sv & Ev). destruct (row_near _ _ _ _ M3' HT A3 HB) as (w & Sw & Ew).
  exists (M3 u v w). split; [repeat split; assumption|]. unfold entries_le, msub, mxm. cbn [r1 r2 r3]. cbv zeta in *. auto.
Qed.

(** ** A vector times a matrix *)
Lemma mxv_near d M A F p v : fstands M A -> rows_le A 1.001 -> acts d A F -> stands_for p v -> / 2 ^ 201 <= vlength v <= 2 ^ 201 ->
  exists w, stands_for (mxv64 dot3 M p) w /\ vlength (vsub w (F v)) <= (d + 7 * eps) * vlength v.
Proof.
  intros (M1 & M2 & M3') (A1 & A2 & A3) HA P [L U]. pose proof (vlength_pos v) as P0.
  assert (T : / 2 ^ 800 <= eps * / 10000000 * vlength v).
  { assert (/ 2 ^ 800 <= / 2 ^ 100 * / 2 ^ 201). { rewrite <- Rinv_mult, <- pow_add. apply Rinv_le; [apply pow_lt; lra|]. apply Rle_pow; [lra|lia]. } assert (/ 2 ^ 100 <= eps * / 10000000). { unfold eps. lra. } assert (0 < / 2 ^ 100) by lra. assert (0 < / 2 ^ 201) by (apply Rinv_0_lt_compat, pow_lt; lra). apply Rle_trans with (1 := H). apply Rmult_le_compat; lra. }
  assert (Big : 1.001 <= 2 ^ 201) by (apply le_201; lra). pose proof eps_small as Es.
  assert (Row : forall q u, stands_for q u -> vlength u <= 1.001 -> exists b : bf, dot3 q p = B2SF b /\ is_finite b = true /\ Rabs (B2R b - dot u v) <= 4.0041 * eps * vlength v).
  { intros q u Sq Uq. destruct (dot_near q p u v (1.001 * vlength v) Sq P) as (b & E & F' & B); [apply Rmult_le_compat_r; assumption|lra|exact U|]. exists b. split; [exact E|]. split; [exact F'|]. assert (0 <= eps * vlength v) by (apply Rmult_le_pos; lra). lra. }
  destruct (Row _ _ M1 A1) as (a & E1 & Fa & Va). destruct (Row _ _ M2 A2) as (b & E2 & Fb & Vb). destruct (Row _ _ M3' A3) as (c & E3 & Fc & Vc).
  exists (V3 (B2R a) (B2R b) (B2R c)). split; [exists a, b, c; unfold mxv64; rewrite E1, E2, E3; auto|]. apply Rle_trans with (1 := via _ (mxv A v) _). specialize (HA v).
  assert (0 <= eps * vlength v) by (apply Rmult_le_pos; lra). assert (K : vlength (vsub (V3 (B2R a) (B2R b) (B2R c)) (mxv A v)) <= 1.7321 * (4.0041 * eps * vlength v)). { unfold vsub, mxv. cbn [vx vy vz]. apply three_le; [lra|assumption|assumption|assumption]. } lra.
Qed.
End Dot.

(** ** Products of three matrices *)
Lemma vabs_length v : vlength (vabs v) = vlength v.
Proof. apply length_eq. unfold vabs. cbn [vx vy vz]. assert (S : forall t, Rabs t * Rabs t = t * t) by (intros t; rewrite <- Rabs_mult; apply Rabs_pos_eq, Rle_0_sqr). rewrite !S. reflexivity. Qed.
Lemma dot_le u v : Rabs (dot u v) <= vlength u * vlength v.
Proof. unfold dot. apply Rle_trans with (2 := abs_dot u v). apply Rle_trans with (1 := Rabs_triang _ _). apply Rplus_le_compat_r, Rabs_triang. Qed.
Lemma triple_size u A v : vlength u <= 1.001 -> vlength v <= 1.001 -> rows_le A 1.001 -> dot (vabs u) (mxv (mabs A) (vabs v)) <= 1.738.
Proof.
  intros U V (A1 & A2 & A3). apply Rle_trans with (1 := Rle_abs _). apply Rle_trans with (1 := dot_le _ _). rewrite vabs_length. pose proof (vlength_pos u) as U0. pose proof (vlength_pos v) as V0.
  assert (Row : forall r, vlength r <= 1.001 -> Rabs (dot (vabs r) (vabs v)) <= 1.002001). { intros r R. apply Rle_trans with (1 := dot_le _ _). rewrite !vabs_length. pose proof (vlength_pos r). assert (vlength r * vlength v <= 1.001 * 1.001) by (apply Rmult_le_compat; lra). lra. }
  assert (L : vlength (mxv (mabs A) (vabs v)) <= 1.7321 * 1.002001). { unfold mxv, mabs. cbn [r1 r2 r3]. apply three_le; [lra|apply Row; assumption|apply Row; assumption|apply Row; assumption]. }
  pose proof (vlength_pos (mxv (mabs A) (vabs v))). assert (vlength u * vlength (mxv (mabs A) (vabs v)) <= 1.001 * (1.7321 * 1.002001)) by (apply Rmult_le_compat; lra). lra.
Qed.
Section Dot9.
Variable dot9 : fvec -> fmat -> fvec -> b64.
Hypothesis Good : good_dot9 dot9.
Lemma tiny700 : 0 < / 2 ^ 700 <= eps * / 10000000000.
Proof.
  split; [apply Rinv_0_lt_compat, pow_lt; lra|]. rewrite pow_bpow, <- bpow_opp. apply Rle_trans with (bpow radix2 (-100)); [apply bpow_le; lia|]. unfold eps. change (bpow radix2 (-100)) with (/ 1267650600228229401496703205376). lra.
Qed.
Lemma entry9_near p M q u A v : stands_for p u -> fstands M A -> stands_for q v -> vlength u <= 1.001 -> vlength v <= 1.001 -> rows_le A 1.001 -> exists b : bf, dot9 p M q = B2SF b /\ is_finite b = true /\ Rabs (B2R b - dot u (mxv A v)) <= 20.9 * eps.
Proof.
  intros P SM Q U V RA. pose proof (triple_size u A v U V RA) as T. destruct RA as (A1 & A2 & A3). destruct (Good p M q u A v P SM Q) as (b & E & F & B); unfold moderate; try lra. exists b. split; [exact E|]. split; [exact F|]. apply Rle_trans with (1 := B). pose proof tiny700. set (x := dot (vabs u) (mxv (mabs A) (vabs v))) in *. replace (12 * x / 2 ^ 53) with (12 * x * eps) by (unfold eps; lra). assert (x * eps <= 1.738 * eps) by (apply Rmult_le_compat_r; [pose proof eps_small; lra|exact T]). lra.
Qed.
Lemma row9_near p u M A T C : stands_for p u -> fstands M A -> fstands T C -> vlength u <= 1.001 -> rows_le A 1.001 -> rows_le C 1.001 ->
  exists w, stands_for (F3 (dot9 p M (q1 T)) (dot9 p M (q2 T)) (dot9 p M (q3 T))) w /\ let e := vsub w (V3 (dot u (mxv A (r1 C))) (dot u (mxv A (r2 C))) (dot u (mxv A (r3 C)))) in Rabs (vx e) <= 20.9 * eps /\ Rabs (vy e) <= 20.9 * eps /\ Rabs (vz e) <= 20.9 * eps.
Proof.
  intros P SM (T1 & T2 & T3) U RA (C1 & C2 & C3). destruct (entry9_near p M _ u A _ P SM T1 U C1 RA) as (a & -> & Fa & Va). destruct (entry9_near p M _ u A _ P SM T2 U C2 RA) as (b & -> & Fb & Vb). destruct (entry9_near p M _ u A _ P SM T3 U C3 RA) as (c & -> & Fc & Vc).
  exists (V3 (B2R a) (B2R b) (B2R c)). split; [exists a, b, c; auto|]. cbv zeta. cbn [vsub vx vy vz]. auto.
Qed.
Lemma mxmxm_near L M N A B C : fstands L A -> fstands M B -> fstands N C -> rows_le A 1.001 -> rows_le B 1.001 -> rows_le (transp C) 1.001 -> exists D, fstands (mxmxm64 dot9 L M N) D /\ entries_le (msub D (mxm A (mxm B C))) (20.9 * eps).
Proof.
  intros (L1 & L2 & L3) HM HN (A1 & A2 & A3) HB HC. pose proof (ftransp_stands _ _ HN) as HT. destruct (row9_near _ _ _ _ _ _ L1 HM HT A1 HB HC) as (u & Su & Eu). destruct (row9_near _ _ _ _ _ _ L2 HM HT A2 HB HC) as (v & Sv & Ev). destruct (row9_near _ _ _ _ _ _ L3 HM HT A3 HB HC) as (w & Sw & Ew).
  exists (M3 u v w). split; [repeat split; assumption|]. unfold entries_le, msub, mxm. cbn [r1 r2 r3]. cbv zeta in *. auto.
Qed.
End Dot9.

(** ** Elementary turns *)
Lemma zero_one (a : bf) : is_finite a = true -> exists z u : bf, fmul (B2SF a) (of_Z 0) = B2SF z /\ is_finite z = true /\ B2R z = 0 /\ fadd (B2SF z) (of_Z 1) = B2SF u /\ is_finite u = true /\ B2R u = 1.
Proof.
  intros F. destruct (of_Z_bf 0) as (o & E0 & F0 & V0); [unfold fits; lia|]. destruct (of_Z_bf 1) as (i & E1 & F1 & V1); [unfold fits; lia|]. assert (H : 2 < bpow radix2 1007) by (apply Rlt_le_trans with (bpow radix2 2); [cbn; lra|apply bpow_le; lia]).
  destruct (fmul_val a o F F0) as (z & Ez & Fz & Vz & _); [rewrite V0, Rmult_0_r, Rabs_R0; lra|]. rewrite V0, Rmult_0_r in Vz. assert (Z : B2R z = 0) by (rewrite Vz; apply round_0; apply valid_rnd_N).
  destruct (fadd_val z i Fz F1) as (u & Eu & Fu & Vu); [rewrite Z, V1, Rplus_0_l, Rabs_R1; lra|]. exists z, u. rewrite E0, E1. repeat split; try assumption. rewrite Vu, Z, V1, Rplus_0_l. change 1 with (IZR 1). apply rnd_Z. unfold fits; lia.
Qed.
Lemma block dc ds x y k : 0 <= k -> dc * dc + ds * ds <= k * k -> (dc * x - ds * y) * (dc * x - ds * y) + (ds * x + dc * y) * (ds * x + dc * y) <= k * k * (x * x + y * y).
Proof. intros K H. replace ((dc * x - ds * y) * (dc * x - ds * y) + (ds * x + dc * y) * (ds * x + dc * y)) with ((dc * dc + ds * ds) * (x * x + y * y)) by ring. apply Rmult_le_compat_r; [|exact H]. pose proof (Rle_0_sqr x). pose proof (Rle_0_sqr y). unfold Rsqr in *. lra. Qed.
Lemma square_le d u k : Rabs d <= k * Rabs u + eps * / 1000 -> Rabs u <= 1 -> k = 2 * eps -> d * d <= 4 * (eps * eps) * (u * u) + 5 / 1000 * (eps * eps).
Proof.
  intros D U ->. pose proof eps_small as Es. replace (d * d) with (Rabs d * Rabs d) by (rewrite <- Rabs_mult; apply Rabs_pos_eq, Rle_0_sqr). replace (u * u) with (Rabs u * Rabs u) by (rewrite <- Rabs_mult; apply Rabs_pos_eq, Rle_0_sqr). pose proof (Rabs_pos d). pose proof (Rabs_pos u). set (x := Rabs d) in *. set (y := Rabs u) in *.
  apply Rle_trans with ((2 * eps * y + eps * / 1000) * (2 * eps * y + eps * / 1000)); [apply Rmult_le_compat; lra|]. assert (0 <= eps * eps) by (apply Rmult_le_pos; lra). assert (eps * eps * y <= eps * eps * 1) by (apply Rmult_le_compat_l; lra). lra.
Qed.
Section Leaf.
Variables (fsin fcos : b64 -> b64).
Hypotheses (Gs : good_function fsin sin) (Gc : good_function fcos cos).
Definition d1 : R := 2.01 * eps.
Lemma tiny900 : / 2 ^ 900 <= eps * / 1000.
Proof. rewrite pow_bpow, <- bpow_opp. apply Rle_trans with (bpow radix2 (-100)); [apply bpow_le; lia|]. unfold eps. change (bpow radix2 (-100)) with (/ 1267650600228229401496703205376). lra. Qed.
Lemma leaf x (a : bf) : is_finite a = true -> Rabs (B2R a) <= 7 -> exists A, fstands (turns64 fsin fcos (fun _ _ => of_Z 0) (fun _ _ _ => of_Z 0) (Turn x (B2SF a))) A /\ acts d1 A (turn x (B2R a)) /\ acts d1 (transp A) (turn x (- B2R a)).
Proof.
  intros F B. destruct (Gs a F B) as (s & Es & Fs & Vs). destruct (Gc a F B) as (c & Ec & Fc & Vc). destruct (zero_one a F) as (z & u & Ez & Fz & Vz & Eu & Fu & Vu). pose proof eps_small as E0. pose proof tiny900 as T.
  assert (En : fneg (B2SF s) = B2SF (Bopp s)) by (destruct s; reflexivity). assert (Fn : is_finite (Bopp s) = true) by (rewrite is_finite_Bopp; exact Fs). assert (Vn : B2R (Bopp s) = - B2R s) by apply B2R_Bopp.
  set (S := sin (B2R a)) in *. set (C := cos (B2R a)) in *. pose proof (cs1 (B2R a)) as CS. fold S in CS. fold C in CS.
  assert (BS : Rabs S <= 1) by (apply Rabs_le, SIN_bound). assert (BC : Rabs C <= 1) by (apply Rabs_le, COS_bound).
  assert (Q : (B2R c - C) * (B2R c - C) + (B2R s - S) * (B2R s - S) <= d1 * d1).
  { assert (W : forall t, t / 2 ^ 52 = 2 * eps * t) by (intros t; unfold eps; lra). rewrite W in Vs, Vc. pose proof (square_le (B2R c - C) C (2 * eps) ltac:(lra) BC eq_refl) as H1. pose proof (square_le (B2R s - S) S (2 * eps) ltac:(lra) BS eq_refl) as H2. unfold d1. assert (0 <= eps * eps) by (apply Rmult_le_pos; lra). replace (4 * (eps * eps) * (C * C)) with (4 * (eps * eps) * (1 - S * S)) in H1 by (rewrite <- CS; ring). lra. }
  assert (D0 : 0 <= d1) by (unfold d1; lra). set (dc := B2R c - C) in *. set (ds := B2R s - S) in *. assert (Q' : dc * dc + (- ds) * (- ds) <= d1 * d1) by lra. assert (Ec' : B2R c = C + dc) by (unfold dc; ring). assert (Es' : B2R s = S + ds) by (unfold ds; ring). clearbody dc ds.
  assert (Len : forall v w : vec, vx w * vx w + vy w * vy w + vz w * vz w <= d1 * d1 * (vx v * vx v + vy v * vy v + vz v * vz v) -> vlength w <= d1 * vlength v). { intros v w H. apply length_le; [apply Rmult_le_pos; [exact D0|apply vlength_pos]|]. replace (d1 * vlength v * (d1 * vlength v)) with (d1 * d1 * (vlength v * vlength v)) by ring. rewrite vlength_sq. exact H. }
  assert (DD : 0 <= d1 * d1) by (apply Rmult_le_pos; assumption).
  destruct x; cbn [turns64]; unfold rot_x64, rot_y64, rot_z64; cbv zeta; rewrite Es, Ec, Ez, Eu, En.
  - exists (M3 (V3 1 0 0) (V3 0 (B2R c) (- B2R s)) (V3 0 (B2R s) (B2R c))). split; [|split].
    + repeat split; cbn [q1 q2 q3 r1 r2 r3]; do 3 eexists; (split; [reflexivity|]); rewrite ?Vz, ?Vu, ?Vn; auto.
    + intros [p q r]. apply Len. unfold mxv, dot, vsub. cbn [turn r1 r2 r3 vx vy vz]. fold S. fold C. rewrite Ec', Es'. pose proof (block dc ds q r d1 D0 Q) as H. pose proof (Rmult_le_pos _ _ DD (Rle_0_sqr p)) as Hp. unfold Rsqr in Hp.
      replace (1 * p + 0 * q + 0 * r - p) with 0 by ring. replace (0 * p + (C + dc) * q + - (S + ds) * r - (C * q - S * r)) with (dc * q - ds * r) by ring. replace (0 * p + (S + ds) * q + (C + dc) * r - (S * q + C * r)) with (ds * q + dc * r) by ring. lra.
    + intros [p q r]. apply Len. unfold mxv, dot, vsub, transp. cbn [turn r1 r2 r3 vx vy vz]. rewrite cos_neg, sin_neg. fold S. fold C. rewrite Ec', Es'. pose proof (block dc (- ds) q r d1 D0 Q') as H. pose proof (Rmult_le_pos _ _ DD (Rle_0_sqr p)) as Hp. unfold Rsqr in Hp.
      replace (1 * p + 0 * q + 0 * r - p) with 0 by ring. replace (0 * p + (C + dc) * q + (S + ds) * r - (C * q - - S * r)) with (dc * q - - ds * r) by ring. replace (0 * p + - (S + ds) * q + (C + dc) * r - (- S * q + C * r)) with (- ds * q + dc * r) by ring. lra.
  - exists (M3 (V3 (B2R c) 0 (B2R s)) (V3 0 1 0) (V3 (- B2R s) 0 (B2R c))). split; [|split].
    + repeat split; cbn [q1 q2 q3 r1 r2 r3]; do 3 eexists; (split; [reflexivity|]); rewrite ?Vz, ?Vu, ?Vn; auto.
    + intros [p q r]. apply Len. unfold mxv, dot, vsub. cbn [turn r1 r2 r3 vx vy vz]. fold S. fold C. rewrite Ec', Es'. pose proof (block dc (- ds) p r d1 D0 Q') as H. pose proof (Rmult_le_pos _ _ DD (Rle_0_sqr q)) as Hp. unfold Rsqr in Hp.
      replace (0 * p + 1 * q + 0 * r - q) with 0 by ring. replace ((C + dc) * p + 0 * q + (S + ds) * r - (C * p + S * r)) with (dc * p - - ds * r) by ring. replace (- (S + ds) * p + 0 * q + (C + dc) * r - (C * r - S * p)) with (- ds * p + dc * r) by ring. lra.
    + intros [p q r]. apply Len. unfold mxv, dot, vsub, transp. cbn [turn r1 r2 r3 vx vy vz]. rewrite cos_neg, sin_neg. fold S. fold C. rewrite Ec', Es'. pose proof (block dc ds p r d1 D0 Q) as H. pose proof (Rmult_le_pos _ _ DD (Rle_0_sqr q)) as Hp. unfold Rsqr in Hp.
      replace (0 * p + 1 * q + 0 * r - q) with 0 by ring. replace ((C + dc) * p + 0 * q + - (S + ds) * r - (C * p + - S * r)) with (dc * p - ds * r) by ring. replace ((S + ds) * p + 0 * q + (C + dc) * r - (C * r - - S * p)) with (ds * p + dc * r) by ring. lra.
  - exists (M3 (V3 (B2R c) (- B2R s) 0) (V3 (B2R s) (B2R c) 0) (V3 0 0 1)). split; [|split].
    + repeat split; cbn [q1 q2 q3 r1 r2 r3]; do 3 eexists; (split; [reflexivity|]); rewrite ?Vz, ?Vu, ?Vn; auto.
    + intros [p q r]. apply Len. unfold mxv, dot, vsub. cbn [turn r1 r2 r3 vx vy vz]. fold S. fold C. rewrite Ec', Es'. pose proof (block dc ds p q d1 D0 Q) as H. pose proof (Rmult_le_pos _ _ DD (Rle_0_sqr r)) as Hp. unfold Rsqr in Hp.
      replace (0 * p + 0 * q + 1 * r - r) with 0 by ring. replace ((C + dc) * p + - (S + ds) * q + 0 * r - (C * p - S * q)) with (dc * p - ds * q) by ring. replace ((S + ds) * p + (C + dc) * q + 0 * r - (S * p + C * q)) with (ds * p + dc * q) by ring. lra.
    + intros [p q r]. apply Len. unfold mxv, dot, vsub, transp. cbn [turn r1 r2 r3 vx vy vz]. rewrite cos_neg, sin_neg. fold S. fold C. rewrite Ec', Es'. pose proof (block dc (- ds) p q d1 D0 Q') as H. pose proof (Rmult_le_pos _ _ DD (Rle_0_sqr r)) as Hp. unfold Rsqr in Hp.
      replace (0 * p + 0 * q + 1 * r - r) with 0 by ring. replace ((C + dc) * p + (S + ds) * q + 0 * r - (C * p - - S * q)) with (dc * p - - ds * q) by ring. replace (- (S + ds) * p + (C + dc) * q + 0 * r - (- S * p + C * q)) with (- ds * p + dc * q) by ring. lra.
Qed.
End Leaf.
