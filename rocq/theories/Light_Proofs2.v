From Coq Require Import Reals Lra Lia Psatz ZArith List Bool.
From Verif Require Import Real_Math Real_Math_Proofs Vector_Model Vector_Proofs Vector_Proofs2 Geo_Model Geo_Spec Geo_Proofs Light_Model Light_Spec Light_Proofs.
Open Scope R_scope.

Lemma abs_between x r : Rabs x <= r -> - r <= x <= r.
Proof. intros H. pose proof (Rle_abs x). pose proof (Rle_abs (- x)). rewrite Rabs_Ropp in *. lra. Qed.
(** * Deflection *)
Lemma hat_unit v : v <> vzero -> dot (hat v) (hat v) = 1.
Proof. intros H. pose proof (vlength_ne v H). unfold hat. rewrite or_one_ne by lra. dots. rewrite dot_self. field. lra. Qed.
Lemma hat_back v : v <> vzero -> v = smul (vlength v) (hat v).
Proof. intros H. pose proof (vlength_ne v H). unfold hat. rewrite or_one_ne by lra. apply vec_ext; cbn; field; lra. Qed.
Lemma dot_back x v : v <> vzero -> dot x v = vlength v * dot x (hat v).
Proof. intros H. rewrite (hat_back v H) at 1. apply dot_smul_r. Qed.
Lemma unit_dot_bound a b : dot a a = 1 -> dot b b = 1 -> -1 <= dot a b <= 1.
Proof.
  intros Ha Hb. pose proof (cauchy_abs a b) as H. rewrite (length_of_sq a 1) in H by lra. rewrite (length_of_sq b 1) in H by lra.
  rewrite Rmult_1_l in H. apply abs_between in H. lra.
Qed.
Section Deflection.
Variables (p e : vec) (rmass : R).
Hypothesis Hp : p <> vzero.
Hypothesis He : e <> vzero.
Hypothesis Hq : vadd p e <> vzero.
Hypothesis Hm : 0 < rmass.
Notation P := (vlength p).
Notation E := (vlength e).
Notation Q := (vlength (vadd p e)).
Notation a := (dot (hat e) (hat p)).
Notation b := (dot (hat (vadd p e)) (hat e)).
Notation m := (dot (hat p) (hat (vadd p e))).
Notation K := (2 * GS / (C * C * E * AU_M * rmass)).
Lemma PEQ : 0 < P /\ 0 < E /\ 0 < Q. Proof. repeat split; apply vlength_ne; assumption. Qed.
Lemma K_pos : 0 < K.
Proof. pose proof PEQ as (_ & H & _). apply Rdiv_lt_0_compat; [unfold GS; lra|]. repeat apply Rmult_lt_0_compat; try assumption; unfold C, AU_M; lra. Qed.
Lemma q_combo : smul Q (hat (vadd p e)) = vadd (smul P (hat p)) (smul E (hat e)).
Proof. rewrite <- !hat_back by assumption. reflexivity. Qed.
Lemma Qb : Q * b = P * a + E.
Proof.
  pose proof (f_equal (fun v => dot v (hat e)) q_combo) as H. cbn beta in H. rewrite dot_smul_l, dot_add_l, !dot_smul_l, (hat_unit e He), (dot_sym (hat p)) in H. lra.
Qed.
Lemma Qm : Q * m = P + E * a.
Proof.
  pose proof (f_equal (fun v => dot (hat p) v) q_combo) as H. cbn beta in H. rewrite dot_smul_r, dot_add_r, !dot_smul_r, (hat_unit p Hp), (dot_sym (hat p) (hat e)) in H. lra.
Qed.
Lemma QQ : Q * Q = P * P + E * E + 2 * P * E * a.
Proof.
  rewrite <- dot_self. rewrite (hat_back p Hp) at 1 2. rewrite (hat_back e He) at 1 2. dots. rewrite (hat_unit p Hp), (hat_unit e He), (dot_sym (hat p) (hat e)). ring.
Qed.
Lemma a_bound : -1 <= a <= 1. Proof. apply unit_dot_bound; apply hat_unit; assumption. Qed.
Lemma b_bound : -1 <= b <= 1. Proof. apply unit_dot_bound; apply hat_unit; assumption. Qed.
Lemma sines : Q * Q * (1 - b * b) = P * P * (1 - a * a).
Proof. pose proof Qb. pose proof QQ. replace (Q * Q * (1 - b * b)) with (Q * Q - (Q * b) * (Q * b)) by ring. rewrite H, H0. ring. Qed.
Lemma cross_term : Q * (m - a * b) = P * (1 - a * a).
Proof. pose proof Qb. pose proof Qm. replace (Q * (m - a * b)) with (Q * m - a * (Q * b)) by ring. rewrite H, H0. ring. Qed.
Lemma gram : m * m + a * a - 2 * m * a * b = 1 - b * b.
Proof.
  pose proof PEQ as (HP & HE & HQ). apply Rmult_eq_reg_l with (Q * Q); [|nra].
  replace (Q * Q * (m * m + a * a - 2 * m * a * b)) with ((Q * m) * (Q * m) + Q * Q * (a * a) - 2 * (Q * m) * a * (Q * b)) by ring.
  rewrite Qm, Qb, sines, QQ. ring.
Qed.
Lemma between : a <= b.
Proof.
  pose proof PEQ as (HP & HE & HQ). pose proof a_bound as Ba. pose proof Qb as H1. pose proof QQ as H2.
  (* Q <= P + E and |a| <= 1 *)
  assert (Q <= P + E) by apply triangle. assert (P - E <= Q). { pose proof (triangle (vadd p e) (vopp e)) as T. replace (vadd (vadd p e) (vopp e)) with p in T by (apply vec_ext; cbn; ring). replace (vlength (vopp e)) with E in T by (unfold vlength; f_equal; cbn; ring). lra. }
  apply Rmult_le_reg_l with Q; [assumption|]. rewrite H1. destruct (Rle_dec 0 a); [nra|]. nra.
Qed.
Lemma deflection_defined : b <> -1 -> exists d, compute_deflection p e rmass = Some d.
Proof.
  intros Hb. unfold compute_deflection. pose proof PEQ as (HP & HE & HQ). destruct (Req_EM_T E 0); [lra|]. destruct (Req_EM_T (1 + b) 0); [lra|]. eauto.
Qed.
Lemma a_not_ends : Rabs a <= 99999999999 / 10 ^ 11 -> -1 < b.
Proof.
  intros Ha. apply abs_between in Ha. pose proof between. lra.
Qed.
Section Value.
Variable d : vec.
Hypothesis Hd : compute_deflection p e rmass = Some d.
Lemma d_value : exists f, (f = 0 \/ f = 1) /\ (Rabs a <= 99999999999 / 10 ^ 11 -> f = 1) /\ 1 + b <> 0 /\
  d = smul (f * K / (1 + b) * P) (vsub (smul m (hat e)) (smul a (hat (vadd p e)))).
Proof.
  unfold compute_deflection in Hd. destruct (Req_EM_T E 0); [discriminate|]. destruct (Req_EM_T (1 + b) 0); [discriminate|].
  destruct (Rle_dec (Rabs a) _) as [A|A]; [exists 1|exists 0]; (split; [auto|]); (split; [tauto|]); (split; [assumption|]); congruence.
Qed.
Lemma d_perpendicular : dot d p = 0.
Proof.
  destruct d_value as (f & _ & _ & H & ->). rewrite (dot_back _ p Hp). dots. rewrite (dot_sym (hat (vadd p e)) (hat p)). ring.
Qed.
Lemma d_away : 0 <= dot d e.
Proof.
  destruct d_value as (f & Hf & _ & H & ->). rewrite (dot_back _ e He). dots. rewrite (hat_unit e He). pose proof PEQ as (HP & HE & HQ). pose proof b_bound. pose proof K_pos as HK. pose proof a_bound.
  pose proof cross_term as X. assert (0 <= m - a * b). { apply Rmult_le_reg_l with Q; [assumption|]. rewrite X, Rmult_0_r. apply Rmult_le_pos; nra. }
  assert (0 < 1 + b) by lra.
  assert (0 <= f * K / (1 + b) * P). { apply Rmult_le_pos; [|lra]. apply Rmult_le_pos; [|apply Rlt_le, Rinv_0_lt_compat; assumption]. destruct Hf as [ -> | -> ]; lra. }
  apply Rmult_le_pos; [lra|]. apply Rmult_le_pos; [assumption|lra].
Qed.
Lemma d_square f : d = smul (f * K / (1 + b) * P) (vsub (smul m (hat e)) (smul a (hat (vadd p e)))) -> 1 + b <> 0 ->
  dot d d * (1 + b) = f * f * K * K * P * P * (1 - b).
Proof.
  intros -> H. dots. rewrite (hat_unit e He), (hat_unit _ Hq), (dot_sym (hat e) (hat (vadd p e))). set (k := K). clearbody k. pose proof gram as G.
  transitivity (f * f * k * k * P * P * (m * m + a * a - 2 * m * a * b) / (1 + b)); [field; assumption|]. rewrite G. field. assumption.
Qed.
Lemma d_size : Rabs a <= 99999999999 / 10 ^ 11 -> vlength d = K * P * sqrt ((1 - b) / (1 + b)).
Proof.
  intros Ha. destruct d_value as (f & _ & Hf & H & E0). rewrite (Hf Ha) in E0. pose proof (d_square 1 E0 H) as S. pose proof PEQ as (HP & HE & HQ). pose proof b_bound. pose proof K_pos.
  assert (0 < 1 + b) by lra. apply length_of_sq; [apply Rmult_le_pos; [nra|apply sqrt_pos]|].
  replace (K * P * sqrt ((1 - b) / (1 + b)) * (K * P * sqrt ((1 - b) / (1 + b)))) with (K * P * (K * P) * (sqrt ((1 - b) / (1 + b)) * sqrt ((1 - b) / (1 + b)))) by ring.
  rewrite sqrt_sqrt by (apply Rmult_le_pos; [lra|apply Rlt_le, Rinv_0_lt_compat; assumption]). apply Rmult_eq_reg_r with (1 + b); [|lra]. rewrite S. set (k := K). clearbody k. field. lra.
Qed.
Lemma d_longer : P <= vlength (vadd p d).
Proof.
  pose proof (dot_self (vadd p d)) as S. rewrite dot_add_l, !dot_add_r, (dot_sym p d), d_perpendicular, dot_self in S.
  pose proof (dot_self d). pose proof (vlength_pos d). pose proof (vlength_pos (vadd p d)). pose proof (vlength_pos p). nra.
Qed.
(** The image moves away from the mass, which is seen along [- e]. *)
Lemma d_angle : K <= 1 -> angle_between p (vopp e) <= angle_between (vadd p d) (vopp e).
Proof.
  intros HK1. pose proof PEQ as (HP & HE & HQ). pose proof d_longer as L. pose proof d_perpendicular as N. pose proof d_away as A. pose proof K_pos as HK. pose proof a_bound as Ba. pose proof b_bound as Bb. pose proof between as Bt.
  assert (Hpd : vadd p d <> vzero) by (intros Z; rewrite Z, vlength_vzero in L; lra).
  assert (Hoe : vopp e <> vzero). { intros Z. apply He. replace e with (vopp (vopp e)) by (apply vec_ext; cbn; ring). rewrite Z. apply vec_ext; cbn; ring. }
  assert (LE : vlength (vopp e) = E) by (unfold vlength; f_equal; cbn; ring).
  pose proof (angle_ok p (vopp e) Hp Hoe) as [B1 C1]. pose proof (angle_ok _ (vopp e) Hpd Hoe) as [B2 C2]. rewrite LE in C1, C2.
  destruct (Rle_dec (angle_between p (vopp e)) (angle_between (vadd p d) (vopp e))) as [|NN]; [assumption|exfalso]. apply Rnot_le_lt in NN. apply cos_decreasing_1 in NN; try lra.
  set (x := cos (angle_between p (vopp e))) in *. set (y := cos (angle_between (vadd p d) (vopp e))) in *.
  rewrite dot_opp_r in C1, C2. rewrite dot_add_l in C2. set (R' := vlength (vadd p d)) in *. set (z := dot d e) in *.
  assert (PE : dot p e = P * E * a) by (rewrite (hat_back p Hp) at 1; rewrite (hat_back e He) at 1; dots; rewrite (dot_sym (hat p)); ring).
  assert (X : x = - a) by (apply Rmult_eq_reg_l with (P * E); [lra|nra]).
  rewrite PE in C2.
  (* R' E y = - P E a - z *)
  destruct (Rle_dec a 0) as [a0|a0].
  - (* x >= 0 *) assert (R' * E * y <= P * E * x) by lra. assert (P * E * x <= R' * E * x) by (apply Rmult_le_compat_r; [lra|]; apply Rmult_le_compat_r; lra). assert (0 < R' * E) by nra. nra.
  - apply Rnot_le_lt in a0. destruct d_value as (f & Hf & _ & Hb1 & E0).
    assert (Sq : R' * R' = P * P + dot d d). { unfold R'. rewrite <- dot_self, dot_add_l, !dot_add_r, (dot_sym p d), N, (dot_self p). ring. }
    pose proof (d_square f E0 Hb1) as Sd.
    assert (Z1 : z * (1 + b) * Q = f * K * P * E * P * (1 - a * a)).
    { unfold z. rewrite E0. rewrite (dot_back _ e He). dots. rewrite (hat_unit e He). pose proof cross_term as X'. set (k := K). clearbody k.
      transitivity (f * k * P * E * (Q * (m - a * b))); [field; assumption|]. rewrite X'. ring. }
    pose proof sines as Si. pose proof QQ as Q2. set (dd := dot d d) in *. clearbody dd z. clear E0 C1 PE LE A.
    assert (0 < 1 + b) by lra. assert (F : 0 <= f <= 1) by (destruct Hf; lra). set (k := K) in *. clearbody k.
    (* want a contradiction from y > ... : R' y = - P a - z/E, and y > ... *)
    assert (Y : - R' * a < R' * y) by (rewrite X in NN; nra).
    assert (Y2 : R' * y = - P * a - z / E) by (apply Rmult_eq_reg_r with E; [|lra]; unfold Rdiv; field_simplify; lra).
    rewrite Y2 in Y. assert (Y3 : z / E < (R' - P) * a) by lra.
    set (fk := f * k) in *. assert (FK : 0 <= fk <= 1) by (unfold fk; nra).
    assert (Sd' : dd * (1 + b) = fk * fk * P * P * (1 - b)) by (unfold fk; lra). assert (Z1' : z / E * (1 + b) * Q = fk * P * P * (1 - a * a)) by (apply Rmult_eq_reg_r with E; [|lra]; transitivity (z * (1 + b) * Q); [field; lra|rewrite Z1; ring]).
    clearbody fk. clear Sd Z1 HK HK1. set (zz := z / E) in *. clearbody zz. clear C2 Y2 Y.
    (* R' - P <= dd / (2 P) *)
    assert (U : (R' - P) * (2 * P) <= dd) by nra.
    (* zz = fk P^2 (1-a^2)/(Q (1+b)), dd = fk^2 P^2 (1-b)/(1+b) *)
    assert (D0 : 0 <= dd) by (pose proof (Rmult_le_pos (fk * fk * P * P) (1 - b) ltac:(apply Rmult_le_pos; [apply Rmult_le_pos; nra|lra]) ltac:(lra)); rewrite <- Sd' in *; nra).
    assert (V : zz * (2 * P) < dd * a) by nra.
    assert (W : zz * (2 * P) * ((1 + b) * Q) < dd * a * ((1 + b) * Q)) by (apply Rmult_lt_compat_r; [nra|assumption]).
    assert (W1 : zz * (2 * P) * ((1 + b) * Q) = 2 * P * (fk * P * P * (1 - a * a))) by (rewrite <- Z1'; ring).
    assert (W2 : dd * a * ((1 + b) * Q) = fk * fk * P * P * (1 - b) * a * Q) by (rewrite <- Sd'; ring).
    rewrite W1, W2 in W.
    (* 2 P^3 (1-a^2) = 2 P Q^2 (1-b)(1+b) *)
    assert (W3 : 2 * P * (fk * P * P * (1 - a * a)) = 2 * P * fk * (Q * Q * (1 - b * b))) by (rewrite Si; ring).
    rewrite W3 in W.
    (* Q (1+b) >= P a + E + Q >= ... so 2 P fk Q (1-b) * (Q (1+b)) >= fk^2 P^2 (1-b) a Q since 2 Q(1+b) >= P a fk *)
    pose proof Qb as B3. assert (B4 : 2 * (Q * (1 + b)) >= fk * P * a). { replace (Q * (1 + b)) with (Q + Q * b) by ring. rewrite B3. assert (0 <= P * a) by (apply Rmult_le_pos; lra). replace (fk * P * a) with (fk * (P * a)) by ring. assert (fk * (P * a) <= 1 * (P * a)) by (apply Rmult_le_compat_r; lra). lra. }
    assert (0 <= fk * P * Q * (1 - b)) by (repeat apply Rmult_le_pos; lra).
    replace (2 * P * fk * (Q * Q * (1 - b * b))) with (fk * P * Q * (1 - b) * (2 * (Q * (1 + b)))) in W by ring.
    replace (fk * fk * P * P * (1 - b) * a * Q) with (fk * P * Q * (1 - b) * (fk * P * a)) in W by ring. nra.
Qed.
End Value.
End Deflection.
Lemma deflection_at_the_mass p rmass : compute_deflection p vzero rmass = None.
Proof. unfold compute_deflection. destruct (Req_EM_T (vlength vzero) 0) as [|N]; [reflexivity|]. exfalso. apply N, vlength_vzero. Qed.
