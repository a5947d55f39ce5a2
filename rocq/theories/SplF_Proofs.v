(** Proofs about splines in binary64: the place within a row, and its polynomial. *)
From Coq Require Import ZArith Reals List Bool Lia Lra.
From Coq.Floats Require Import SpecFloat.
From Flocq Require Import Core BinarySingleNaN.
From Verif Require Import Float64 Float64_Proofs Float_Time_Model Float_Time_Proofs Float_Time_Proofs4 SexaF_Proofs2 CalF_Proofs CalF_Proofs2 Curve_Model Curve_Spec SplF_Model SplF_Spec.
Import ListNotations.
Open Scope R_scope.

Definition HI : R := bpow radix2 300.
Definition LO : R := bpow radix2 (-300).
Definition TOP : R := bpow radix2 1007.
Lemma LO_pos : 0 < LO. Proof. apply bpow_gt_0. Qed.
Lemma HI_ge : 1 <= HI. Proof. change 1 with (bpow radix2 0). apply bpow_le. lia. Qed.
Lemma HI_LO : HI * LO = 1. Proof. unfold HI, LO. rewrite <- bpow_plus. reflexivity. Qed.
Lemma eta_LO : eta <= / 1000000 * (eps * LO).
Proof.
  unfold eta, LO. change eps with (bpow radix2 (-53)). rewrite <- bpow_plus. assert (B : bpow radix2 (-20) <= / 1000000) by (change (bpow radix2 (-20)) with (/ 1048576); lra).
  pose proof (bpow_gt_0 radix2 (-53 + -300)) as P. assert (bpow radix2 (-1075) <= bpow radix2 (-20) * bpow radix2 (-53 + -300)) by (rewrite <- bpow_plus; apply bpow_le; lia).
  assert (bpow radix2 (-20) * bpow radix2 (-53 + -300) <= / 1000000 * bpow radix2 (-53 + -300)) by (apply Rmult_le_compat_r; lra). lra.
Qed.
Lemma eta_HI : eta * HI <= / 1000000 * eps.
Proof.
  unfold eta, HI. change eps with (bpow radix2 (-53)). rewrite <- bpow_plus. assert (B : bpow radix2 (-20) <= / 1000000) by (change (bpow radix2 (-20)) with (/ 1048576); lra).
  pose proof (bpow_gt_0 radix2 (-53)) as P. assert (bpow radix2 (-1075 + 300) <= bpow radix2 (-20) * bpow radix2 (-53)) by (rewrite <- bpow_plus; apply bpow_le; lia).
  assert (bpow radix2 (-20) * bpow radix2 (-53) <= / 1000000 * bpow radix2 (-53)) by (apply Rmult_le_compat_r; lra). lra.
Qed.
Lemma TOP_ge : 1024 * HI <= TOP.
Proof. unfold HI, TOP. change 1024 with (bpow radix2 10). rewrite <- bpow_plus. apply bpow_le. lia. Qed.
Lemma eps_val : eps = / 9007199254740992. Proof. reflexivity. Qed.

(** ** The width of a row and the place within it *)
Lemma gap_close (a b : bf) : fair a -> fair b -> LO <= B2R b - B2R a ->
  exists w : bf, fsub (B2SF b) (B2SF a) = B2SF w /\ is_finite w = true /\ Rabs (B2R w - (B2R b - B2R a)) <= 11 / 10 * eps * (B2R b - B2R a) /\ 0 < B2R w <= 4 * HI.
Proof.
  intros (Fa & Ba) (Fb & Bb) G. fold HI in Ba, Bb. apply Rabs_le_inv in Ba, Bb. pose proof TOP_ge as T. pose proof HI_ge as H1. pose proof LO_pos as L0. pose proof eta_LO as EL. pose proof eps_val as Ev.
  destruct (fsub_val b a Fb Fa) as (w & E & Fw & Vw). { fold TOP. apply Rabs_lt. lra. }
  exists w. split; [exact E|]. split; [exact Fw|]. pose proof (rnd_err (B2R b - B2R a)) as R. rewrite <- Vw in R. set (g := B2R b - B2R a) in *. rewrite (Rabs_pos_eq g) in R by lra.
  assert (EL2 : eps * LO <= eps * g) by (apply Rmult_le_compat_l; lra). assert (EL3 : 0 < eps * LO) by (apply Rmult_lt_0_compat; lra). assert (R2 : Rabs (B2R w - g) <= 11 / 10 * eps * g) by lra. split; [exact R2|]. apply Rabs_le_inv in R2.
  assert (Gb : g <= 2 * HI) by (unfold g; lra). assert (EG : eps * g <= / 1000 * g) by (apply Rmult_le_compat_r; lra). lra.
Qed.
Lemma offset_close (x a : bf) (g : R) : fair x -> fair a -> LO <= g -> Rabs (B2R x - B2R a) <= g ->
  exists d : bf, fsub (B2SF x) (B2SF a) = B2SF d /\ is_finite d = true /\ Rabs (B2R d / g - (B2R x - B2R a) / g) <= 11 / 10 * eps /\ (0 <= B2R x - B2R a -> 0 <= B2R d).
Proof.
  intros (Fx & Bx) (Fa & Ba) G B. fold HI in Ba, Bx. apply Rabs_le_inv in Ba, Bx. pose proof TOP_ge as T. pose proof HI_ge as H1. pose proof LO_pos as L0. pose proof eta_LO as EL. pose proof eps_val as Ev.
  destruct (fsub_val x a Fx Fa) as (d & E & Fd & Vd). { fold TOP. apply Rabs_lt. lra. }
  exists d. split; [exact E|]. split; [exact Fd|]. pose proof (rnd_err (B2R x - B2R a)) as R. rewrite <- Vd in R. set (y := B2R x - B2R a) in *.
  assert (EL2 : eps * LO <= eps * g) by (apply Rmult_le_compat_l; lra). assert (EL3 : 0 < eps * LO) by (apply Rmult_lt_0_compat; lra). assert (EY : eps * Rabs y <= eps * g) by (apply Rmult_le_compat_l; lra).
  split.
  - replace (B2R d / g - y / g) with ((B2R d - y) / g) by (field; lra). unfold Rdiv. rewrite Rabs_mult, (Rabs_pos_eq (/ g)) by (left; apply Rinv_0_lt_compat; lra).
  apply (Rmult_le_reg_r g); [lra|]. replace (Rabs (B2R d - y) * / g * g) with (Rabs (B2R d - y)) by (field; lra). lra.
  - intros Y0. rewrite Vd. change 0 with (IZR 0). rewrite <- (rnd_Z 0) by fit. apply rnd_le. exact Y0.
Qed.
(** [g / w] for a rounded [w]. *)
Lemma shrink (g w : R) : 0 < g -> Rabs (w - g) <= 11 / 10 * eps * g -> Rabs (g / w - 1) <= 12 / 10 * eps.
Proof.
  intros P B. pose proof eps_val as Ev. apply Rabs_le_inv in B. assert (EG : eps * g <= / 1000 * g) by (apply Rmult_le_compat_r; lra). assert (W : 99 / 100 * g <= w) by lra. assert (W0 : 0 < w) by lra.
  replace (g / w - 1) with ((g - w) / w) by (field; lra). unfold Rdiv. rewrite Rabs_mult, (Rabs_pos_eq (/ w)) by (left; apply Rinv_0_lt_compat; lra).
  apply (Rmult_le_reg_r w); [lra|]. replace (Rabs (g - w) * / w * w) with (Rabs (g - w)) by (field; lra). assert (Rabs (g - w) <= 11 / 10 * eps * g) by (apply Rabs_le; lra).
  assert (eps * (99 / 100 * g) <= eps * w) by (apply Rmult_le_compat_l; lra). lra.
Qed.
Lemma times_near (a b q k l : R) : Rabs b <= 1 -> Rabs (a - b) <= k * eps -> Rabs (q - 1) <= l * eps -> 0 <= k <= 100 -> 0 <= l <= 100 -> Rabs (a * q - b) <= (k + l + / 100) * eps.
Proof.
  intros B A Q K L. pose proof eps_val as Ev. replace (a * q - b) with ((a - b) * q + b * (q - 1)) by ring. pose proof (Rabs_triang ((a - b) * q) (b * (q - 1))) as T. rewrite !Rabs_mult in T.
  assert (Q1 : Rabs q <= 1 + 100 * eps) by (replace q with (q - 1 + 1) by ring; pose proof (Rabs_triang (q - 1) 1) as T1; rewrite Rabs_R1 in T1; assert (l * eps <= 100 * eps) by (apply Rmult_le_compat_r; lra); lra).
  assert (T2 : Rabs (a - b) * Rabs q <= k * eps * (1 + 100 * eps)) by (apply Rmult_le_compat; (apply Rabs_pos || assumption)).
  assert (T3 : Rabs b * Rabs (q - 1) <= 1 * (l * eps)) by (apply Rmult_le_compat; (apply Rabs_pos || assumption)).
  assert (T4 : k * eps * (100 * eps) <= / 100 * eps). { replace (k * eps * (100 * eps)) with (k * (100 * eps) * eps) by ring. apply Rmult_le_compat_r; [lra|]. assert (k * (100 * eps) <= 100 * (100 * eps)) by (apply Rmult_le_compat_r; lra). lra. }
  lra.
Qed.
Lemma rnd_unit x y k : Rabs y <= 1 -> Rabs (x - y) <= k * eps -> 0 <= k <= 100 -> Rabs (rnd x - y) <= (k + 1 + / 100) * eps.
Proof.
  intros Y X K. pose proof eps_val as Ev. pose proof (rnd_err x) as R. pose proof eta_le_eps as E0. assert (EE : eta <= / 1000 * eps).
  { pose proof eta_HI as EH. pose proof HI_ge. pose proof eta_pos. assert (eta * 1 <= eta * HI) by (apply Rmult_le_compat_l; lra). lra. }
  assert (XA : Rabs x <= 1 + 100 * eps). { replace x with (x - y + y) by ring. pose proof (Rabs_triang (x - y) y). assert (k * eps <= 100 * eps) by (apply Rmult_le_compat_r; lra). lra. }
  assert (XE : eps * Rabs x <= eps * (1 + 100 * eps)) by (apply Rmult_le_compat_l; lra). assert (eps * (100 * eps) <= / 200 * eps) by (rewrite Rmult_comm; apply Rmult_le_compat_r; lra).
  replace (rnd x - y) with (rnd x - x + (x - y)) by ring. pose proof (Rabs_triang (rnd x - x) (x - y)). lra.
Qed.
Lemma place_close (x a b : bf) : fair x -> fair a -> fair b -> LO <= B2R b - B2R a -> Rabs (B2R x - B2R a) <= B2R b - B2R a ->
  exists t : bf, fdiv (fsub (B2SF x) (B2SF a)) (fsub (B2SF b) (B2SF a)) = B2SF t /\ is_finite t = true /\ Rabs (B2R t - (B2R x - B2R a) / (B2R b - B2R a)) <= 5 * eps.
Proof.
  intros Hx Ha Hb G B. destruct (gap_close a b Ha Hb G) as (w & -> & Fw & Vw & Pw). destruct (offset_close x a _ Hx Ha G B) as (d & -> & Fd & Vd & _). pose proof LO_pos as L0. pose proof eps_val as Ev. pose proof HI_ge. pose proof TOP_ge.
  set (g := B2R b - B2R a) in *. set (y := B2R x - B2R a) in *. assert (G0 : 0 < g) by lra. pose proof (shrink g (B2R w) G0 Vw) as Q.
  assert (Y : Rabs (y / g) <= 1). { unfold Rdiv. rewrite Rabs_mult, (Rabs_pos_eq (/ g)) by (left; apply Rinv_0_lt_compat; lra). apply (Rmult_le_reg_r g); [lra|]. replace (Rabs y * / g * g) with (Rabs y) by (field; lra). lra. }
  pose proof (times_near (B2R d / g) (y / g) (g / B2R w) _ _ Y Vd Q ltac:(lra) ltac:(lra)) as P. replace (B2R d / g * (g / B2R w)) with (B2R d / B2R w) in P by (field; lra).
  destruct (fdiv_val d w Fd) as (t & -> & Ft & Vt); [lra| |].
  { fold TOP. replace (B2R d / B2R w) with (B2R d / B2R w - y / g + y / g) by ring. pose proof (Rabs_triang (B2R d / B2R w - y / g) (y / g)). lra. }
  exists t. split; [reflexivity|]. split; [exact Ft|]. rewrite Vt. pose proof (rnd_unit _ _ _ Y P ltac:(lra)) as R. lra.
Qed.

(** ** The polynomial *)
Lemma scale_eta A : scale_ok A -> 0 < A /\ eta <= / 1000000 * (eps * A) /\ 1000000 * A <= TOP.
Proof.
  intros (L & U). pose proof (bpow_gt_0 radix2 (-900)) as P. split; [lra|]. split.
  - unfold eta. change eps with (bpow radix2 (-53)). assert (B : bpow radix2 (-20) <= / 1000000) by (change (bpow radix2 (-20)) with (/ 1048576); lra).
    assert (bpow radix2 (-1075) <= bpow radix2 (-20) * (bpow radix2 (-53) * bpow radix2 (-900))) by (rewrite <- !bpow_plus; apply bpow_le; lia).
    assert (Q : bpow radix2 (-53) * bpow radix2 (-900) <= bpow radix2 (-53) * A) by (apply Rmult_le_compat_l; [apply bpow_ge_0|exact L]). pose proof (bpow_gt_0 radix2 (-53)). assert (0 <= bpow radix2 (-53) * A) by (apply Rmult_le_pos; lra).
    assert (bpow radix2 (-20) * (bpow radix2 (-53) * bpow radix2 (-900)) <= / 1000000 * (bpow radix2 (-53) * A)). { apply Rmult_le_compat; [apply bpow_ge_0| |exact B|exact Q]. rewrite <- bpow_plus. apply bpow_ge_0. } lra.
  - assert (1048576 * bpow radix2 900 <= TOP) by (change 1048576 with (bpow radix2 20); unfold TOP; rewrite <- bpow_plus; apply bpow_le; lia). lra.
Qed.
Definition coef_ok (A : R) (c : bf) : Prop := is_finite c = true /\ Rabs (B2R c) <= A.
Lemma horner_fold (t : bf) (u A : R) : is_finite t = true -> Rabs u <= 1 -> Rabs (B2R t - u) <= 5 * eps -> scale_ok A ->
  forall (cs : list bf) (v : bf) (w j : R), Forall (coef_ok A) cs -> is_finite v = true -> 1 <= j -> j + INR (length cs) <= 1000 -> Rabs w <= j * A -> Rabs (B2R v - w) <= 4 * (j * j) * (eps * A) ->
  exists v' : bf, fold_left (fun value c => fadd (fmul value (B2SF t)) c) (map (fun c : bf => B2SF c) cs) (B2SF v) = B2SF v' /\ is_finite v' = true /\
    Rabs (B2R v' - fold_left (fun value c => value * u + c) (map (fun c : bf => B2R c) cs) w) <= 4 * ((j + INR (length cs)) * (j + INR (length cs))) * (eps * A).
Proof.
  intros Ft U T HA. destruct (scale_eta A HA) as (A0 & EA & TA). pose proof eps_val as Ev. induction cs as [|c cs IH]; intros v w j HC Fv J1 J2 W V.
  - exists v. split; [reflexivity|]. split; [exact Fv|]. cbn [map fold_left length]. change (INR 0) with 0. rewrite Rplus_0_r. exact V.
  - inversion HC as [|? ? (Fc & Bc) HC']; subst. cbn [length] in J2 |- *. rewrite S_INR in J2 |- *. pose proof (pos_INR (length cs)) as N0. cbn [map fold_left].
    set (a := eps * A) in *. assert (A1 : 0 < a) by (apply Rmult_lt_0_compat; lra). set (P1 := j * a). set (P2 := j * j * a). assert (P1a : a <= P1) by (unfold P1; rewrite <- (Rmult_1_l a) at 1; apply Rmult_le_compat_r; lra).
    assert (P21 : P2 <= 1000 * P1) by (unfold P2, P1; rewrite Rmult_assoc; apply Rmult_le_compat_r; [fold P1; lra|lra]). assert (P2p : 0 <= P2) by (unfold P2; repeat apply Rmult_le_pos; lra).
    assert (EP2 : eps * P2 <= / 1000000 * P1) by (assert (eps * P2 <= eps * (1000 * P1)) by (apply Rmult_le_compat_l; lra); assert (eps * (1000 * P1) <= / 1000000 * P1) by (replace (eps * (1000 * P1)) with (1000 * eps * P1) by ring; apply Rmult_le_compat_r; lra); lra).
    set (X := B2R v * B2R t). assert (XW : Rabs (X - w * u) <= 4 * P2 + 20 * (eps * P2) + 5 * P1).
    { replace (X - w * u) with ((B2R v - w) * B2R t + w * (B2R t - u)) by (unfold X; ring). pose proof (Rabs_triang ((B2R v - w) * B2R t) (w * (B2R t - u))) as TR. rewrite !Rabs_mult in TR.
      assert (BT : Rabs (B2R t) <= 1 + 5 * eps) by (replace (B2R t) with (B2R t - u + u) by ring; pose proof (Rabs_triang (B2R t - u) u); lra).
      assert (Q1 : Rabs (B2R v - w) * Rabs (B2R t) <= 4 * (j * j) * a * (1 + 5 * eps)) by (apply Rmult_le_compat; (apply Rabs_pos || assumption)).
      assert (Q2 : Rabs w * Rabs (B2R t - u) <= j * A * (5 * eps)) by (apply Rmult_le_compat; (apply Rabs_pos || assumption)).
      replace (j * A * (5 * eps)) with (5 * P1) in Q2 by (unfold P1, a; ring). replace (4 * (j * j) * a * (1 + 5 * eps)) with (4 * P2 + 20 * (eps * P2)) in Q1 by (unfold P2; ring). lra. }
    assert (WU : Rabs (w * u) <= j * A). { rewrite Rabs_mult. assert (Rabs w * Rabs u <= j * A * 1) by (apply Rmult_le_compat; (apply Rabs_pos || assumption)). lra. }
    assert (JA : A <= j * A) by (rewrite <- (Rmult_1_l A) at 1; apply Rmult_le_compat_r; lra). assert (JA2 : j * A <= 1000 * A) by (apply Rmult_le_compat_r; lra).
    assert (P1s : P1 <= / 1000000000 * (j * A)) by (unfold P1, a; replace (j * (eps * A)) with (eps * (j * A)) by ring; apply Rmult_le_compat_r; lra).
    assert (XB : Rabs X <= 1001 / 1000 * (j * A)) by (replace X with (X - w * u + w * u) by ring; pose proof (Rabs_triang (X - w * u) (w * u)); lra).
    destruct (fmul_val v t Fv Ft) as (m & Em & Fm & Vm & _); [fold X TOP; lra|]. rewrite Em. pose proof (rnd_err X) as RX. fold X in Vm. rewrite <- Vm in RX.
    assert (EX : eps * Rabs X <= 1001 / 1000 * P1) by (replace (1001 / 1000 * P1) with (eps * (1001 / 1000 * (j * A))) by (unfold P1, a; field); apply Rmult_le_compat_l; lra).
    set (Y := B2R m + B2R c). assert (YB : Rabs Y <= 1002 / 1000 * (j * A) + A). { unfold Y. replace (B2R m + B2R c) with (B2R m - X + (X + B2R c)) by ring. pose proof (Rabs_triang (B2R m - X) (X + B2R c)). pose proof (Rabs_triang X (B2R c)). lra. }
    destruct (fadd_val m c Fm Fc) as (v' & Ev' & Fv' & Vv'); [fold Y TOP; lra|]. rewrite Ev'. fold Y in Vv'. pose proof (rnd_err Y) as RY. rewrite <- Vv' in RY.
    assert (EY : eps * Rabs Y <= 1002 / 1000 * P1 + a) by (replace (1002 / 1000 * P1 + a) with (eps * (1002 / 1000 * (j * A) + A)) by (unfold P1, a; field); apply Rmult_le_compat_l; lra).
    destruct (IH v' (w * u + B2R c) (j + 1) HC' Fv' ltac:(lra) ltac:(lra)) as (v2 & E2 & F2 & V2).
    + pose proof (Rabs_triang (w * u) (B2R c)). lra.
    + replace (4 * ((j + 1) * (j + 1)) * a) with (4 * P2 + 8 * P1 + 4 * a) by (unfold P1, P2; ring).
      replace (B2R v' - (w * u + B2R c)) with (B2R v' - Y + ((B2R m - X) + (X - w * u))) by (unfold Y; ring).
      pose proof (Rabs_triang (B2R v' - Y) (B2R m - X + (X - w * u))). pose proof (Rabs_triang (B2R m - X) (X - w * u)). lra.
    + exists v2. split; [exact E2|]. split; [exact F2|]. replace (j + (INR (length cs) + 1)) with (j + 1 + INR (length cs)) by ring. exact V2.
Qed.
Lemma horner_close (t : bf) (u A : R) (cs : list bf) : is_finite t = true -> Rabs u <= 1 -> Rabs (B2R t - u) <= 5 * eps -> scale_ok A -> Forall (coef_ok A) cs -> (1 <= length cs <= 1000)%nat ->
  exists v : bf, horner64 (B2SF t) (map (fun c : bf => B2SF c) cs) = B2SF v /\ is_finite v = true /\
    Rabs (B2R v - horner u (map (fun c : bf => B2R c) cs)) <= 4 * (INR (length cs) * INR (length cs)) * (eps * A).
Proof.
  intros Ft U T HA HC N. destruct cs as [|c cs]; [cbn in N; lia|]. inversion HC as [|? ? (Fc & Bc) HC']; subst. cbn [map horner64 horner length] in *. destruct (scale_eta A HA) as (A0 & EA & TA). pose proof eps_val as Ev.
  assert (L : 1 + INR (length cs) <= 1000). { rewrite Rplus_comm, <- S_INR. change 1000 with (IZR 1000). rewrite INR_IZR_INZ. apply IZR_le. lia. }
  assert (A1 : 0 < eps * A) by (apply Rmult_lt_0_compat; lra).
  destruct (horner_fold t u A Ft U T HA cs c (B2R c) 1 HC' Fc (Rle_refl 1) L) as (v & E & F & V); [lra| |].
  - rewrite Rminus_eq_0, Rabs_R0. lra.
  - exists v. split; [exact E|]. split; [exact F|]. rewrite S_INR. replace (INR (length cs) + 1) with (1 + INR (length cs)) by ring. exact V.
Qed.
(** How fast a polynomial changes. *)
Lemma horner_moves (t u A : R) : Rabs t <= 1 -> Rabs u <= 1 -> 0 <= A -> forall (cs : list R) (v w j : R), Forall (fun c => Rabs c <= A) cs -> 0 <= j -> Rabs w <= j * A -> Rabs (v - w) <= j * j * A * Rabs (t - u) ->
  Rabs (fold_left (fun value c => value * t + c) cs v - fold_left (fun value c => value * u + c) cs w) <= (j + INR (length cs)) * (j + INR (length cs)) * A * Rabs (t - u).
Proof.
  intros T U A0. induction cs as [|c cs IH]; intros v w j HC J W V.
  - cbn [fold_left length]. change (INR 0) with 0. rewrite Rplus_0_r. exact V.
  - inversion HC as [|? ? Bc HC']; subst. cbn [fold_left length]. rewrite S_INR. replace (j + (INR (length cs) + 1)) with (j + 1 + INR (length cs)) by ring. pose proof (Rabs_pos (t - u)) as D0. apply IH; [exact HC'|lra| |].
    + pose proof (Rabs_triang (w * u) c) as TR. rewrite Rabs_mult in TR. assert (Rabs w * Rabs u <= j * A * 1) by (apply Rmult_le_compat; (apply Rabs_pos || assumption)). lra.
    + replace (v * t + c - (w * u + c)) with ((v - w) * t + w * (t - u)) by ring. pose proof (Rabs_triang ((v - w) * t) (w * (t - u))) as TR. rewrite !Rabs_mult in TR.
      assert (Q1 : Rabs (v - w) * Rabs t <= j * j * A * Rabs (t - u) * 1) by (apply Rmult_le_compat; (apply Rabs_pos || assumption)).
      assert (Q2 : Rabs w * Rabs (t - u) <= j * A * Rabs (t - u)) by (apply Rmult_le_compat_r; assumption).
      assert (Q3 : 0 <= j * A * Rabs (t - u)) by (repeat apply Rmult_le_pos; lra). assert (Q4 : 0 <= A * Rabs (t - u)) by (apply Rmult_le_pos; lra).
      replace ((j + 1) * (j + 1) * A * Rabs (t - u)) with (j * j * A * Rabs (t - u) + 2 * (j * A * Rabs (t - u)) + A * Rabs (t - u)) by ring. lra.
Qed.
Lemma horner_lipschitz (t u A : R) (cs : list R) : Rabs t <= 1 -> Rabs u <= 1 -> 0 <= A -> Forall (fun c => Rabs c <= A) cs -> Rabs (horner t cs - horner u cs) <= INR (length cs) * INR (length cs) * A * Rabs (t - u).
Proof.
  intros T U A0 HC. pose proof (Rabs_pos (t - u)) as D0. destruct cs as [|c cs]; cbn [horner length].
  - change (INR 0) with 0. rewrite Rminus_eq_0, Rabs_R0. lra.
  - inversion HC as [|? ? Bc HC']; subst. rewrite S_INR. replace (INR (length cs) + 1) with (1 + INR (length cs)) by ring. apply horner_moves; try assumption; [lra|lra|]. rewrite Rminus_eq_0, Rabs_R0. rewrite !Rmult_1_l. apply Rmult_le_pos; assumption.
Qed.
