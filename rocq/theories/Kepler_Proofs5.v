From Coq Require Import Reals Lra Lia Psatz.
From Coquelicot Require Import Coquelicot.
From Verif Require Import Real_Math Real_Math_Proofs Vector_Model Vector_Proofs Vector_Proofs2 Geo_Model Geo_Spec Geo_Proofs Kepler_Model Kepler_Spec Kepler_Proofs3 Kepler_Proofs4.
Open Scope R_scope.

(** * The functions x^n c_n(f x^2) *)
Definition G0 (f x : R) : R := stumpff0 (f * x * x).
Definition G1 (f x : R) : R := x * stumpff1 (f * x * x).
Definition G2 (f x : R) : R := x * x * stumpff2 (f * x * x).
Definition G3 (f x : R) : R := x ^ 3 * stumpff3 (f * x * x).
Lemma sqrt_fxx f x : 0 <= f -> sqrt (f * x * x) = sqrt f * Rabs x.
Proof. intros H. rewrite Rmult_assoc, sqrt_mult by (assumption || nra). f_equal. replace (x * x) with (Rsqr x) by reflexivity. apply sqrt_Rsqr_abs. Qed.
Lemma cos_abs w x : cos (w * Rabs x) = cos (w * x).
Proof. unfold Rabs. destruct (Rcase_abs x); [|reflexivity]. replace (w * - x) with (- (w * x)) by ring. apply cos_neg. Qed.
Lemma cosh_neg x : cosh (- x) = cosh x. Proof. unfold cosh. rewrite Ropp_involutive. lra. Qed.
Lemma sinh_neg x : sinh (- x) = - sinh x. Proof. unfold sinh. rewrite Ropp_involutive. lra. Qed.
Lemma cosh_abs w x : cosh (w * Rabs x) = cosh (w * x).
Proof. unfold Rabs. destruct (Rcase_abs x); [|reflexivity]. replace (w * - x) with (- (w * x)) by ring. apply cosh_neg. Qed.
Lemma sin_abs w x : x <> 0 -> w <> 0 -> sin (w * Rabs x) / (w * Rabs x) = sin (w * x) / (w * x).
Proof. intros N W. unfold Rabs. destruct (Rcase_abs x); [|reflexivity]. replace (w * - x) with (- (w * x)) by ring. rewrite sin_neg. field. auto. Qed.
Lemma sinh_abs w x : x <> 0 -> w <> 0 -> sinh (w * Rabs x) / (w * Rabs x) = sinh (w * x) / (w * x).
Proof. intros N W. unfold Rabs. destruct (Rcase_abs x); [|reflexivity]. replace (w * - x) with (- (w * x)) by ring. rewrite sinh_neg. field. auto. Qed.
Lemma G_positive f x : 0 < f -> let w := sqrt f in w * w = f /\ 0 < w /\
  G0 f x = cos (w * x) /\ G1 f x = sin (w * x) / w /\ G2 f x = (1 - cos (w * x)) / (w * w) /\ G3 f x = (x - sin (w * x) / w) / (w * w).
Proof.
  intros Hf w. assert (W : w * w = f) by (apply sqrt_sqrt; lra). assert (Wp : 0 < w) by (apply sqrt_lt_R0; assumption).
  split; [assumption|]. split; [assumption|]. unfold G0, G1, G2, G3, stumpff3, stumpff2, stumpff1, stumpff0.
  destruct (Req_dec x 0) as [->|N].
  - replace (f * 0 * 0) with 0 by ring. rewrite Rmult_0_r, cos_0, sin_0. destruct (Rlt_dec 0 0); [lra|]. destruct (Req_EM_T 0 0); [|lra].
    rewrite Ropp_0, sqrt_0. unfold cosh. rewrite Ropp_0, exp_0. repeat split; field; lra.
  - assert (P : 0 < f * x * x) by (rewrite Rmult_assoc; apply Rmult_lt_0_compat; nra). destruct (Rlt_dec 0 (f * x * x)); [|lra]. destruct (Req_EM_T (f * x * x) 0); [lra|].
    rewrite sqrt_fxx by lra. fold w. rewrite cos_abs, sin_abs by (assumption || lra). rewrite <- W. repeat split; field; lra.
Qed.
Lemma G_negative f x : f < 0 -> let w := sqrt (- f) in w * w = - f /\ 0 < w /\
  G0 f x = cosh (w * x) /\ G1 f x = sinh (w * x) / w /\ G2 f x = (cosh (w * x) - 1) / (w * w) /\ G3 f x = (sinh (w * x) / w - x) / (w * w).
Proof.
  intros Hf w. assert (W : w * w = - f) by (apply sqrt_sqrt; lra). assert (Wp : 0 < w) by (apply sqrt_lt_R0; lra).
  split; [assumption|]. split; [assumption|]. unfold G0, G1, G2, G3, stumpff3, stumpff2, stumpff1, stumpff0.
  destruct (Req_dec x 0) as [->|N].
  - replace (f * 0 * 0) with 0 by ring. rewrite Rmult_0_r, sinh_zero. destruct (Rlt_dec 0 0); [lra|]. destruct (Req_EM_T 0 0); [|lra].
    rewrite Ropp_0, sqrt_0. unfold cosh. rewrite Ropp_0, exp_0. repeat split; field; lra.
  - assert (P : f * x * x < 0) by (rewrite Rmult_assoc; assert (0 < x * x) by nra; nra). destruct (Rlt_dec 0 (f * x * x)); [lra|]. destruct (Rlt_dec (f * x * x) 0); [|lra]. destruct (Req_EM_T (f * x * x) 0); [lra|].
    replace (- (f * x * x)) with (- f * x * x) by ring. rewrite sqrt_fxx by lra. fold w. rewrite cosh_abs, sinh_abs by (assumption || lra). replace f with (- (w * w)) by lra. repeat split; field; lra.
Qed.
Lemma G_zero x : G0 0 x = 1 /\ G1 0 x = x /\ G2 0 x = x * x / 2 /\ G3 0 x = x ^ 3 / 6.
Proof.
  unfold G0, G1, G2, G3, stumpff3, stumpff2, stumpff1, stumpff0. replace (0 * x * x) with 0 by ring. destruct (Rlt_dec 0 0); [lra|]. destruct (Req_EM_T 0 0); [|lra].
  rewrite Ropp_0, sqrt_0. unfold cosh. rewrite Ropp_0, exp_0. repeat split; field.
Qed.
Lemma G_algebra f x : G0 f x = 1 - f * G2 f x /\ G1 f x = x - f * G3 f x /\ G1 f x * G1 f x = 2 * G2 f x - f * (G2 f x * G2 f x).
Proof.
  destruct (Rtotal_order f 0) as [H|[H|H]].
  - destruct (G_negative f x H) as (W & Wp & -> & -> & -> & ->). set (w := sqrt (- f)) in *. replace f with (- (w * w)) by lra. pose proof (hyp_sq (w * x)) as Q.
    split; [field; lra|]. split; [field; lra|]. set (c := cosh (w * x)) in *. set (s := sinh (w * x)) in *.
    transitivity ((s * s) / (w * w)); [field; lra|]. replace (s * s) with (c * c - 1) by lra. field. lra.
  - subst f. destruct (G_zero x) as (-> & -> & -> & ->). repeat split; field.
  - destruct (G_positive f x H) as (W & Wp & -> & -> & -> & ->). set (w := sqrt f) in *. rewrite <- W. pose proof (sc2 (w * x)) as Q.
    split; [field; lra|]. split; [field; lra|]. set (c := cos (w * x)) in *. set (s := sin (w * x)) in *.
    transitivity ((s * s) / (w * w)); [field; lra|]. replace (s * s) with (1 - c * c) by lra. field. lra.
Qed.
Lemma G_at_0 f : G0 f 0 = 1 /\ G1 f 0 = 0 /\ G2 f 0 = 0 /\ G3 f 0 = 0.
Proof.
  destruct (G_algebra f 0) as (A & _ & _). unfold G1, G2, G3 in *. assert (E : G2 f 0 = 0) by (unfold G2; ring). repeat split; try ring. rewrite A. unfold G0 in *. ring_simplify. reflexivity || (rewrite A; ring).
Qed.
Lemma G_derive f x : is_derive (G0 f) x (- f * G1 f x) /\ is_derive (G1 f) x (G0 f x) /\ is_derive (G2 f) x (G1 f x) /\ is_derive (G3 f) x (G2 f x).
Proof.
  destruct (Rtotal_order f 0) as [H|[H|H]].
  - destruct (G_negative f x H) as (W & Wp & E0 & E1 & E2 & E3). rewrite E0, E1, E2. set (w := sqrt (- f)) in *. replace f with (- (w * w)) at 2 by lra.
    split; [|split; [|split]].
    + apply is_derive_ext with (fun y => cosh (w * y)); [intros y; symmetry; apply (G_negative f y H)|]. auto_derive; [trivial|field; lra].
    + apply is_derive_ext with (fun y => sinh (w * y) / w); [intros y; symmetry; apply (G_negative f y H)|]. auto_derive; [trivial|field; lra].
    + apply is_derive_ext with (fun y => (cosh (w * y) - 1) / (w * w)); [intros y; symmetry; apply (G_negative f y H)|]. auto_derive; [trivial|field; lra].
    + apply is_derive_ext with (fun y => (sinh (w * y) / w - y) / (w * w)); [intros y; symmetry; apply (G_negative f y H)|]. auto_derive; [trivial|field; lra].
  - subst f. destruct (G_zero x) as (-> & -> & -> & _).
    split; [|split; [|split]].
    + apply is_derive_ext with (fun _ => 1); [intros y; symmetry; apply (G_zero y)|]. auto_derive; [trivial|ring].
    + apply is_derive_ext with (fun y => y); [intros y; symmetry; apply (G_zero y)|]. auto_derive; [trivial|ring].
    + apply is_derive_ext with (fun y => y * y / 2); [intros y; symmetry; apply (G_zero y)|]. auto_derive; [trivial|field].
    + apply is_derive_ext with (fun y => y ^ 3 / 6); [intros y; symmetry; apply (G_zero y)|]. auto_derive; [trivial|field].
  - destruct (G_positive f x H) as (W & Wp & E0 & E1 & E2 & E3). rewrite E0, E1, E2. set (w := sqrt f) in *. rewrite <- W at 2.
    split; [|split; [|split]].
    + apply is_derive_ext with (fun y => cos (w * y)); [intros y; symmetry; apply (G_positive f y H)|]. auto_derive; [trivial|field; lra].
    + apply is_derive_ext with (fun y => sin (w * y) / w); [intros y; symmetry; apply (G_positive f y H)|]. auto_derive; [trivial|field; lra].
    + apply is_derive_ext with (fun y => (1 - cos (w * y)) / (w * w)); [intros y; symmetry; apply (G_positive f y H)|]. auto_derive; [trivial|field; lra].
    + apply is_derive_ext with (fun y => (y - sin (w * y) / w) / (w * w)); [intros y; symmetry; apply (G_positive f y H)|]. auto_derive; [trivial|field; lra].
Qed.

(** * The numbers of an orbit *)
Record conic_facts (pos vel : vec) (gm : R) (k : conic) (b q : R) : Prop := {
  cf_b : 0 < b; cf_q : 0 < q; cf_gm : gm * (b * b) = q; cf_f : k_f k <= 1; cf_bq : k_bq k = b * q; cf_b2rv : k_b2rv k = b * b * dot pos vel;
  cf_br0 : k_br0 k = b * vlength pos; cf_qovr0 : k_qovr0 k = q / vlength pos; cf_v : b * b * dot vel vel = 2 * q / vlength pos - k_f k;
  cf_hh : dot (cross pos vel) (cross pos vel) = gm * q * (2 - k_f k);
  cf_e : k_f k = 1 - vlength (laplace pos vel gm) }.
Lemma lagrange a b : dot (cross a b) (cross a b) = dot a a * dot b b - dot a b * dot a b.
Proof. unfold dot, cross. cbn. ring. Qed.
Lemma conic_ok pos vel gm : 0 < gm -> cross pos vel <> vzero -> exists b q, conic_facts pos vel gm (conic_of pos vel gm) b q.
Proof.
  intros Hg Hn. pose proof (st_r pos vel Hn) as Rp. pose proof (st_h pos vel Hn) as Hh. pose proof (st_hh pos vel) as HH.
  set (H := cross pos vel) in *. set (h := vlength H) in *. set (r := vlength pos) in *.
  set (E := laplace pos vel gm).
  assert (EQ : vadd (smul (/ gm) (crossp vel (crossp pos vel))) (smul (/ r) (vopp pos)) = E).
  { unfold E, laplace. fold r. unfold crossp, cross. apply vec_ext; cbn; ring. }
  set (e := vlength E). assert (Ep : 0 <= e) by apply vlength_pos. assert (EE : e * e = dot E E) by apply vlength_sq.
  set (q := h * h / (gm * (1 + e))). assert (Qp : 0 < q) by (unfold q; apply Rdiv_lt_0_compat; nra).
  set (b := sqrt (q / gm)). assert (Bp : 0 < b) by (unfold b; apply sqrt_lt_R0, Rdiv_lt_0_compat; assumption).
  assert (BB : b * b = q / gm) by (unfold b; apply sqrt_sqrt, Rlt_le, Rdiv_lt_0_compat; assumption).
  assert (K : conic_of pos vel gm = Conic (1 - e) (b * q) (b * b * dot pos vel) (b * r) (q / r)).
  { unfold conic_of. fold r. rewrite EQ. fold e. change (crossp pos vel) with H. rewrite <- HH. reflexivity. }
  exists b, q. rewrite K. constructor; cbn [k_f k_bq k_b2rv k_br0 k_qovr0]; try assumption; try reflexivity; try lra.
  - rewrite BB. field. lra.
  - assert (V : gm * gm * (e * e) = dot vel vel * (h * h) - 2 * gm * (h * h) / r + gm * gm).
    { rewrite EE. pose proof (st_H_vel pos vel) as HV. fold H in HV.
      assert (C1 : dot (cross vel H) (cross vel H) = dot vel vel * (h * h)). { rewrite lagrange, HH. replace (dot vel H) with (dot H vel) by (unfold dot; ring). rewrite HV. ring. }
      assert (C2 : dot pos (cross vel H) = h * h). { rewrite HH. unfold H, dot, cross. cbn. ring. }
      assert (C3 : dot pos pos = r * r) by (symmetry; apply vlength_sq).
      unfold E, laplace. fold H r. transitivity (dot (cross vel H) (cross vel H) - 2 * gm / r * dot pos (cross vel H) + gm * gm / (r * r) * dot pos pos).
      - generalize (cross vel H). intros c. unfold dot. cbn. field. lra.
      - rewrite C1, C2, C3. field. lra. }
    assert (HQ : h * h = q * (gm * (1 + e))) by (unfold q; field; lra).
    rewrite BB. apply Rmult_eq_reg_l with (gm * (gm * (1 + e))); [|apply Rgt_not_eq; apply Rmult_lt_0_compat; nra].
    transitivity (dot vel vel * (h * h)); [rewrite HQ; field; lra|].
    replace (dot vel vel * (h * h)) with (gm * gm * (e * e) - gm * gm + 2 * gm * (h * h) / r) by lra. rewrite HQ. fold r. field. lra.
  - fold H. rewrite <- HH. unfold q. field. lra.
Qed.
Section Conic.
Variables (pos vel : vec) (gm b q : R).
Hypothesis gm_pos : 0 < gm.
Let k := conic_of pos vel gm.
Hypothesis cross_ne : cross pos vel <> vzero.
Hypothesis facts : conic_facts pos vel gm k b q.
Let A := k_br0 k.
Let B := k_b2rv k.
Let C := k_bq k.
Let f := k_f k.
Let r0 := vlength pos.
Lemma r0_pos : 0 < r0. Proof. apply (st_r pos vel cross_ne). Qed.
Lemma A_eq : A = b * r0. Proof. apply (cf_br0 _ _ _ _ _ _ facts). Qed.
Lemma C_eq : C = b * q. Proof. apply (cf_bq _ _ _ _ _ _ facts). Qed.
Lemma B_eq : B = b * b * dot pos vel. Proof. apply (cf_b2rv _ _ _ _ _ _ facts). Qed.
Lemma A_pos : 0 < A. Proof. rewrite A_eq. pose proof r0_pos. pose proof (cf_b _ _ _ _ _ _ facts). nra. Qed.
Lemma C_pos : 0 < C. Proof. rewrite C_eq. pose proof (cf_q _ _ _ _ _ _ facts). pose proof (cf_b _ _ _ _ _ _ facts). nra. Qed.
Lemma f_le : f <= 1. Proof. apply (cf_f _ _ _ _ _ _ facts). Qed.
Lemma qovr_eq : k_qovr0 k = C / A.
Proof. rewrite A_eq, C_eq. pose proof r0_pos. pose proof (cf_b _ _ _ _ _ _ facts). rewrite (cf_qovr0 _ _ _ _ _ _ facts). fold r0. field. split; lra. Qed.
Lemma star : 2 * A * C - f * (A * A) - B * B = 2 * (C * C) - f * (C * C).
Proof.
  pose proof r0_pos as Rp. pose proof (cf_b _ _ _ _ _ _ facts) as Bp. pose proof (cf_q _ _ _ _ _ _ facts) as Qp. pose proof (cf_gm _ _ _ _ _ _ facts) as GB. pose proof (cf_v _ _ _ _ _ _ facts) as VV. fold r0 f in VV.
  assert (HH : (b * b * (b * b)) * dot (cross pos vel) (cross pos vel) = C * C * (2 - f)).
  { pose proof (cf_hh _ _ _ _ _ _ facts) as HQ. fold f in HQ. rewrite HQ, C_eq.
    replace (b * b * (b * b) * (gm * q * (2 - f))) with (gm * (b * b) * (b * b * q * (2 - f))) by ring. rewrite GB. ring. }
  rewrite lagrange in HH. replace (dot pos pos) with (r0 * r0) in HH by apply vlength_sq.
  assert (E1 : (b * b * (b * b)) * (r0 * r0 * dot vel vel - dot pos vel * dot pos vel) = A * A * (b * b * dot vel vel) - B * B). { rewrite A_eq, B_eq. ring. }
  rewrite E1, VV in HH. replace (2 * q / r0) with (2 * (C / A)) in HH by (rewrite A_eq, C_eq; field; split; lra).
  pose proof A_pos as Ap. replace (A * A * (2 * (C / A) - f)) with (2 * A * C - f * (A * A)) in HH by (field; lra). lra.
Qed.
(** Distance times [b], as a function of the universal variable. *)
Definition br (x : R) : R := A * G0 f x + B * G1 f x + C * G2 f x.
Definition br' (x : R) : R := - f * A * G1 f x + B * G0 f x + C * G1 f x.
Lemma br_derive x : is_derive br x (br' x).
Proof.
  destruct (G_derive f x) as (D0 & D1 & D2 & _). unfold br, br'. auto_derive.
  - repeat split; eexists; eassumption.
  - change (fun x0 => G0 f x0) with (G0 f). change (fun x0 => G1 f x0) with (G1 f). change (fun x0 => G2 f x0) with (G2 f).
    rewrite (is_derive_unique _ _ _ D0), (is_derive_unique _ _ _ D1), (is_derive_unique _ _ _ D2). ring.
Qed.
Lemma br_energy x : br' x * br' x = (br x - C) * (2 * C - f * (br x + C)).
Proof.
  destruct (G_algebra f x) as (E0 & _ & E2). pose proof star as S. unfold br, br'. rewrite E0. set (g1 := G1 f x) in *. set (g2 := G2 f x) in *.
  assert (BB : B * B = 2 * A * C - f * (A * A) - 2 * (C * C) + f * (C * C)) by lra.
  transitivity ((C - f * A) * (C - f * A) * (g1 * g1) + 2 * ((C - f * A) * B * (1 - f * g2) * g1) + (B * B) * ((1 - f * g2) * (1 - f * g2))); [ring|].
  transitivity ((2 * C - f * C) * (A * (1 - f * g2) + C * g2 - C) - f * (A * (1 - f * g2) + C * g2 - C) * (A * (1 - f * g2) + C * g2) + g1 * (B * (2 * C - f * C) - f * B * (2 * (A * (1 - f * g2) + C * g2) - C)) - f * (B * B) * (g1 * g1)); [|ring].
  rewrite BB, E2. ring.
Qed.
Lemma br_0 : br 0 = A.
Proof. unfold br. destruct (G_at_0 f) as (-> & -> & -> & _). ring. Qed.
Lemma br_gap x : ~ (- C < br x < C).
Proof.
  intros [L U]. pose proof (br_energy x) as E. pose proof f_le as F. pose proof C_pos as Cp. set (z := br x) in *.
  assert (0 < 2 * C - f * (z + C)). { destruct (Rle_dec 0 f); nra. }
  assert (0 <= br' x * br' x) by nra. nra.
Qed.
Lemma br_cont : continuity br.
Proof. intros x. apply derivable_continuous_pt. exists (br' x). apply is_derive_Reals, br_derive. Qed.
Lemma br_ge x : C <= br x.
Proof.
  pose proof C_pos as Cp. pose proof A_pos as Ap. destruct (Rle_dec C (br x)) as [|N]; [assumption|exfalso].
  assert (L : br x <= - C). { destruct (Rle_dec (br x) (- C)); [assumption|]. exfalso. apply (br_gap x). lra. }
  assert (A0 : C <= br 0). { rewrite br_0. destruct (Rle_dec C A); [assumption|]. exfalso. apply (br_gap 0). rewrite br_0. lra. }
  destruct (Rtotal_order x 0) as [H|[H|H]].
  - destruct (IVT br x 0 br_cont H ltac:(lra) ltac:(lra)) as (z & _ & Z). apply (br_gap z). lra.
  - subst. lra.
  - assert (Cn : continuity (fun y => - br y)) by (apply (continuity_opp br), br_cont).
    destruct (IVT (fun y => - br y) 0 x Cn H ltac:(cbn; lra) ltac:(cbn; lra)) as (z & _ & Z). apply (br_gap z). lra.
Qed.
(** Kepler's equation. *)
Definition K (x : R) : R := A * G1 f x + B * G2 f x + C * G3 f x.
Lemma kepler_K x : kepler exact k x = K x.
Proof. unfold kepler, exact, K, G1, G2, G3. fold f. fold A B C. ring. Qed.
Lemma K_derive x : is_derive K x (br x).
Proof.
  destruct (G_derive f x) as (_ & D1 & D2 & D3). unfold K, br. auto_derive.
  - repeat split; eexists; eassumption.
  - change (fun x0 => G3 f x0) with (G3 f). change (fun x0 => G1 f x0) with (G1 f). change (fun x0 => G2 f x0) with (G2 f).
    rewrite (is_derive_unique _ _ _ D3), (is_derive_unique _ _ _ D1), (is_derive_unique _ _ _ D2). ring.
Qed.
Lemma K_0 : K 0 = 0.
Proof. unfold K. destruct (G_at_0 f) as (_ & -> & -> & ->). ring. Qed.
Lemma K_slope x y : x < y -> C * (y - x) <= K y - K x.
Proof.
  intros H. destruct (MVT_cor2 K br x y H) as (c & E & _); [intros; apply is_derive_Reals, K_derive|]. rewrite E. pose proof (br_ge c). nra.
Qed.
Lemma K_incr x y : x < y -> K x < K y.
Proof. intros H. pose proof (K_slope x y H). pose proof C_pos. nra. Qed.
Lemma K_inj x y : K x = K y -> x = y.
Proof. intros E. destruct (Rtotal_order x y) as [H|[H|H]]; [|assumption|]; apply K_incr in H; lra. Qed.
Lemma K_cont : continuity K.
Proof. intros x. apply derivable_continuous_pt. exists (br x). apply is_derive_Reals, K_derive. Qed.
Lemma K_onto dt : { x | K x = dt /\ Rabs x <= Rabs dt / C }.
Proof.
  pose proof C_pos as Cp. set (z := Rabs dt / C). assert (Z : 0 <= z). { unfold z. apply Rmult_le_pos; [apply Rabs_pos|apply Rlt_le, Rinv_0_lt_compat; assumption]. }
  assert (Cz : C * z = Rabs dt) by (unfold z; field; lra).
  destruct (Req_EM_T dt 0) as [D|D]. { exists 0. rewrite K_0, Rabs_R0. split; [symmetry; assumption|assumption]. }
  assert (Zp : 0 < z). { destruct Z as [Z|Z]; [assumption|]. exfalso. apply D. rewrite <- Z, Rmult_0_r in Cz. destruct (Rabs_no_R0 dt D). symmetry. assumption. }
  assert (Lo : K (- z) <= - Rabs dt). { pose proof (K_slope (- z) 0 ltac:(lra)) as Q. rewrite K_0 in Q. lra. }
  assert (Hi : Rabs dt <= K z). { pose proof (K_slope 0 z ltac:(lra)) as Q. rewrite K_0 in Q. lra. }
  assert (Cn : continuity (fun x => K x - dt)). { apply (continuity_minus K (fct_cte dt)); [apply K_cont|apply continuity_const; intros ? ?; reflexivity]. }
  pose proof (Rle_abs dt) as R1. pose proof (Rle_abs (- dt)) as R2. rewrite Rabs_Ropp in R2.
  destruct (IVT_cor (fun x => K x - dt) (- z) z Cn ltac:(lra)) as (x & B1 & E). { cbn. assert (K (- z) - dt <= 0) by lra. assert (0 <= K z - dt) by lra. nra. }
  exists x. split; [lra|]. apply Rabs_le. lra.
Qed.
Definition root (dt : R) : R := proj1_sig (K_onto dt).
Lemma root_K dt : K (root dt) = dt.
Proof. unfold root. destruct (K_onto dt) as (x & E & Hb). exact E. Qed.
Lemma root_bound dt : Rabs (root dt) <= Rabs dt / C.
Proof. unfold root. destruct (K_onto dt) as (x & Hk & E). exact E. Qed.
Lemma root_0 : root 0 = 0.
Proof. apply K_inj. rewrite root_K, K_0. reflexivity. Qed.
Lemma root_lip x y : Rabs (root x - root y) <= Rabs (x - y) / C.
Proof.
  pose proof C_pos as Cp. apply Rmult_le_reg_l with C; [assumption|]. replace (C * (Rabs (x - y) / C)) with (Rabs (x - y)) by (field; lra).
  rewrite <- (Rabs_right C) by lra. rewrite <- Rabs_mult. destruct (Rtotal_order (root x) (root y)) as [H|[H|H]].
  - pose proof (K_slope _ _ H) as Q. rewrite !root_K in Q. rewrite (Rabs_left (C * _)) by nra. rewrite Rabs_left by nra. lra.
  - rewrite H, Rminus_diag_eq by reflexivity. rewrite Rmult_0_r, Rabs_R0. apply Rabs_pos.
  - pose proof (K_slope _ _ H) as Q. rewrite !root_K in Q. rewrite (Rabs_right (C * _)) by nra. rewrite Rabs_right by nra. lra.
Qed.
Lemma root_derive dt : is_derive root dt (/ br (root dt)).
Proof.
  pose proof C_pos as Cp. pose proof (br_ge (root dt)) as Bp. set (x := root dt) in *. apply is_derive_Reals. intros eps He.
  assert (D : derivable_pt_lim K x (br x)) by (apply is_derive_Reals, K_derive).
  set (e2 := eps * C * C). assert (E2 : 0 < e2) by (unfold e2; apply Rmult_lt_0_compat; [apply Rmult_lt_0_compat|]; assumption).
  destruct (D e2 E2) as [d Hd]. assert (Dp : 0 < d * C) by (apply Rmult_lt_0_compat; [apply cond_pos|assumption]).
  exists (mkposreal _ Dp). intros h Nh Lh. cbn in Lh. set (y := root (dt + h)). set (u := y - x).
  assert (Lu : Rabs u <= Rabs h / C). { unfold u, y, x. pose proof (root_lip (dt + h) dt) as Q. replace (dt + h - dt) with h in Q by ring. exact Q. }
  assert (Nu : u <> 0). { intros Z. apply Nh. assert (y = x) by (unfold u in Z; lra). assert (K y = K x) by (f_equal; assumption). unfold y, x in H0. rewrite !root_K in H0. lra. }
  assert (Lu2 : Rabs u < d). { eapply Rle_lt_trans; [exact Lu|]. apply Rmult_lt_reg_r with C; [assumption|]. replace (Rabs h / C * C) with (Rabs h) by (field; lra). exact Lh. }
  specialize (Hd u Nu Lu2). assert (Kh : K (x + u) - K x = h). { unfold u. replace (x + (y - x)) with y by ring. unfold y, x. rewrite !root_K. ring. }
  rewrite Kh in Hd. fold y. fold x. fold u.
  assert (Sl : C <= h / u).
  { destruct (Rtotal_order x y) as [H|[H|H]].
    - pose proof (K_slope _ _ H) as Q. unfold y, x in Q. rewrite !root_K in Q. fold x y in Q. replace (y - x) with u in Q by reflexivity. assert (0 < u) by (unfold u; lra).
      apply Rmult_le_reg_r with u; [assumption|]. replace (h / u * u) with h by (field; assumption). lra.
    - exfalso. apply Nu. unfold u. lra.
    - pose proof (K_slope _ _ H) as Q. unfold y, x in Q. rewrite !root_K in Q. fold x y in Q. replace (x - y) with (- u) in Q by (unfold u; ring). assert (u < 0) by (unfold u; lra).
      apply Rmult_le_reg_r with (- u); [lra|]. replace (h / u * - u) with (- h) by (field; assumption). lra. }
  replace (u / h - / br x) with ((br x - h / u) / (h / u * br x)) by (field; repeat split; try assumption; lra).
  assert (Pp : 0 < h / u * br x) by (apply Rmult_lt_0_compat; lra).
  unfold Rdiv at 1. rewrite Rabs_mult, (Rabs_right (/ _)) by (apply Rle_ge, Rlt_le, Rinv_0_lt_compat; assumption).
  rewrite Rabs_minus_sym. apply Rmult_lt_reg_r with (h / u * br x); [assumption|]. rewrite Rmult_assoc, Rinv_l, Rmult_1_r by lra.
  eapply Rlt_le_trans; [exact Hd|]. unfold e2. rewrite Rmult_assoc. apply Rmult_le_compat_l; [lra|]. apply Rmult_le_compat; lra.
Qed.
(** * The motion *)
Definition pc (x : R) : R := 1 - C / A * G2 f x.
Definition vc (x : R) : R := A * G1 f x + B * G2 f x.
Definition pcdot (x : R) : R := - (C / A) * G1 f x / br x.
Definition vcdot (x : R) : R := 1 - C * G2 f x / br x.
Lemma br_pos x : 0 < br x.
Proof. pose proof (br_ge x). pose proof C_pos. lra. Qed.
Lemma size_eq x : pc x * pc x * (A * A) + 2 * (pc x * vc x) * B + vc x * vc x * (2 * (C / A) - f) = br x * br x.
Proof.
  destruct (G_algebra f x) as (E0 & _ & E2). pose proof star as S. pose proof A_pos as Ap. unfold pc, vc, br. rewrite E0. set (g1 := G1 f x) in *. set (g2 := G2 f x) in *.
  assert (BB : B * B = 2 * A * C - f * (A * A) - 2 * (C * C) + f * (C * C)) by lra.
  clearbody g1 g2 A B C f. clear E0 S.
  transitivity (A * A - 2 * A * C * g2 + C * C * (g2 * g2) + 2 * A * B * g1 + 2 * (B * B) * g2 + 2 * B * C * g1 * g2 + 2 * A * C * (g1 * g1) - f * (A * A * (g1 * g1) + 2 * A * B * g1 * g2 + (B * B) * (g2 * g2))).
  - field. lra.
  - transitivity ((A * (1 - f * g2) + C * g2) * (A * (1 - f * g2) + C * g2) + 2 * B * g1 * (A * (1 - f * g2) + C * g2) + (B * B) * (g1 * g1)); [|ring]. rewrite BB, E2. ring.
Qed.
Lemma comb_dot u v a c : dot (vadd (smul u a) (smul v c)) (vadd (smul u a) (smul v c)) = u * u * dot a a + 2 * (u * v) * dot a c + v * v * dot c c.
Proof. unfold dot. cbn. ring. Qed.
Lemma motion_length x : vlength (vadd (smul (pc x) pos) (smul (vc x) vel)) = br x / b.
Proof.
  pose proof (cf_b _ _ _ _ _ _ facts) as Bp. pose proof r0_pos as Rp. pose proof (br_pos x) as Xp. pose proof A_pos as Ap.
  apply Rsqr_inj; [apply vlength_pos|apply Rlt_le, Rdiv_lt_0_compat; assumption|]. unfold Rsqr. transitivity (dot (vadd (smul (pc x) pos) (smul (vc x) vel)) (vadd (smul (pc x) pos) (smul (vc x) vel))); [apply vlength_sq|]. rewrite comb_dot.
  replace (dot pos pos) with (r0 * r0) by apply vlength_sq. apply Rmult_eq_reg_l with (b * b); [|nra].
  transitivity (br x * br x); [|field; lra]. rewrite <- size_eq.
  pose proof (cf_v _ _ _ _ _ _ facts) as VV. fold r0 f in VV. replace (2 * q / r0) with (2 * (C / A)) in VV by (rewrite A_eq, C_eq; field; split; lra).
  rewrite <- VV. rewrite B_eq. replace (A * A) with (b * b * (r0 * r0)) by (rewrite A_eq; ring). ring.
Qed.
Lemma pc_derive x : is_derive pc x (- (C / A) * G1 f x).
Proof.
  destruct (G_derive f x) as (_ & D1 & D2 & _). unfold pc. auto_derive.
  - repeat split; eexists; eassumption.
  - change (fun x0 => G2 f x0) with (G2 f). rewrite (is_derive_unique _ _ _ D2). ring.
Qed.
Lemma vc_derive x : is_derive vc x (br x - C * G2 f x).
Proof.
  destruct (G_derive f x) as (_ & D1 & D2 & _). unfold vc, br. auto_derive.
  - repeat split; eexists; eassumption.
  - change (fun x0 => G1 f x0) with (G1 f). change (fun x0 => G2 f x0) with (G2 f). rewrite (is_derive_unique _ _ _ D1), (is_derive_unique _ _ _ D2). ring.
Qed.
Lemma pcdot_derive x : is_derive pcdot x (- (C / A) * (A - C * G2 f x) / (br x * br x)).
Proof.
  destruct (G_derive f x) as (D0 & D1 & D2 & _). pose proof (br_derive x) as Db. pose proof (br_pos x) as Xp. unfold pcdot. auto_derive.
  - repeat split; try (eexists; eassumption). lra.
  - change (fun x0 => G1 f x0) with (G1 f). change (fun x0 => br x0) with br. rewrite (is_derive_unique _ _ _ D1), (is_derive_unique _ _ _ Db).
    pose proof A_pos as Ap. assert (E : G0 f x * br x - G1 f x * br' x = A - C * G2 f x).
    { destruct (G_algebra f x) as (E0 & _ & E2). unfold br, br'. rewrite E0. set (g1 := G1 f x) in *. set (g2 := G2 f x) in *.
      transitivity (A * ((1 - f * g2) * (1 - f * g2)) + C * (1 - f * g2) * g2 + (f * A - C) * (g1 * g1)); [ring|]. rewrite E2. ring. }
    rewrite <- E. field. split; lra.
Qed.
Lemma vcdot_derive x : is_derive vcdot x (- C * vc x / (br x * br x)).
Proof.
  destruct (G_derive f x) as (D0 & D1 & D2 & _). pose proof (br_derive x) as Db. pose proof (br_pos x) as Xp. unfold vcdot. auto_derive.
  - repeat split; try (eexists; eassumption). lra.
  - change (fun x0 => G2 f x0) with (G2 f). change (fun x0 => br x0) with br. rewrite (is_derive_unique _ _ _ D2), (is_derive_unique _ _ _ Db).
    assert (E : G1 f x * br x - G2 f x * br' x = vc x).
    { destruct (G_algebra f x) as (E0 & _ & E2). unfold br, br', vc. rewrite E0. set (g1 := G1 f x) in *. set (g2 := G2 f x) in *.
      transitivity (A * g1 * (1 - f * g2) + B * (g1 * g1) + f * A * g1 * g2 - B * (1 - f * g2) * g2); [ring|]. rewrite E2. ring. }
    rewrite <- E. field. lra.
Qed.
Lemma along_root (u : R -> R) t0 t d : is_derive u (root (t - t0)) d -> is_derive (fun s => u (root (s - t0))) t (d / br (root (t - t0))).
Proof.
  intros D. assert (Dr : is_derive (fun s => root (s - t0)) t (/ br (root (t - t0)))).
  { replace (/ br (root (t - t0))) with (scal 1 (/ br (root (t - t0)))) by (unfold scal; cbn; unfold mult; cbn; ring). apply (is_derive_comp root (fun s => s - t0)); [apply root_derive|]. auto_derive; [trivial|ring]. }
  replace (d / br (root (t - t0))) with (scal (/ br (root (t - t0))) d) by (unfold scal; cbn; unfold mult; cbn; field; apply Rgt_not_eq, br_pos).
  apply (is_derive_comp u (fun s => root (s - t0))); assumption.
Qed.
Lemma comb_vderiv (u v : R -> R) t du dv a c d : is_derive u t du -> is_derive v t dv -> d = vadd (smul du a) (smul dv c) -> vderiv (fun s => vadd (smul (u s) a) (smul (v s) c)) t d.
Proof.
  intros Du Dv ->. repeat split; apply is_derive_Reals; cbn;
    (auto_derive; [repeat split; eexists; eassumption|change (fun x => u x) with u; change (fun x => v x) with v; rewrite (is_derive_unique _ _ _ Du), (is_derive_unique _ _ _ Dv); ring]).
Qed.
Lemma comb_smul w u v a c : smul w (vadd (smul u a) (smul v c)) = vadd (smul (w * u) a) (smul (w * v) c).
Proof. apply vec_ext; cbn; ring. Qed.
Definition path (t0 t : R) : vec := vadd (smul (pc (root (t - t0))) pos) (smul (vc (root (t - t0))) vel).
Definition speed (t0 t : R) : vec := vadd (smul (pcdot (root (t - t0))) pos) (smul (vcdot (root (t - t0))) vel).
Lemma path_length t0 t : vlength (path t0 t) = br (root (t - t0)) / b.
Proof. apply motion_length. Qed.
Lemma path_perihelion t0 t : q <= vlength (path t0 t).
Proof.
  rewrite path_length. pose proof (cf_b _ _ _ _ _ _ facts) as Bp. pose proof (br_ge (root (t - t0))) as H. rewrite C_eq in H.
  apply Rmult_le_reg_r with b; [assumption|]. replace (br (root (t - t0)) / b * b) with (br (root (t - t0))) by (field; lra). lra.
Qed.
Lemma path_start t0 : path t0 t0 = pos.
Proof.
  unfold path. rewrite Rminus_diag_eq, root_0 by reflexivity. unfold pc, vc. destruct (G_at_0 f) as (_ & -> & -> & _). apply vec_ext; cbn; ring.
Qed.
Lemma speed_start t0 : speed t0 t0 = vel.
Proof.
  unfold speed. rewrite Rminus_diag_eq, root_0 by reflexivity. unfold pcdot, vcdot. destruct (G_at_0 f) as (_ & -> & -> & _). replace (- (C / A) * 0 / br 0) with 0 by (unfold Rdiv; ring). replace (1 - C * 0 / br 0) with 1 by (unfold Rdiv; ring). apply vec_ext; cbn; ring.
Qed.
Lemma path_newtonian t0 : newtonian gm (path t0) (speed t0).
Proof.
  intros t. pose proof (path_length t0 t) as L. pose proof (cf_b _ _ _ _ _ _ facts) as Bp. pose proof (br_pos (root (t - t0))) as Xp. pose proof A_pos as Ap. split; [|split].
  - intros Z. rewrite Z in L. assert (Lz : vlength vzero = 0) by (unfold vlength, vzero; cbn; rewrite !Rmult_0_l, !Rplus_0_r; apply sqrt_0). rewrite Lz in L. assert (0 < br (root (t - t0)) / b) by (apply Rdiv_lt_0_compat; assumption). lra.
  - apply (comb_vderiv (fun s => pc (root (s - t0))) (fun s => vc (root (s - t0))) t _ _ pos vel _ (along_root pc t0 t _ (pc_derive _)) (along_root vc t0 t _ (vc_derive _))).
    unfold speed, pcdot, vcdot. f_equal; f_equal; field; lra.
  - rewrite L. apply (comb_vderiv (fun s => pcdot (root (s - t0))) (fun s => vcdot (root (s - t0))) t _ _ pos vel _ (along_root pcdot t0 t _ (pcdot_derive _)) (along_root vcdot t0 t _ (vcdot_derive _))).
    unfold path. set (x := root (t - t0)) in *.
    assert (GC : gm * b ^ 3 = C). { rewrite C_eq. rewrite <- (cf_gm _ _ _ _ _ _ facts). ring. }
    replace (- gm / (br x / b) ^ 3) with (- C / (br x) ^ 3) by (rewrite <- GC; field; lra).
    rewrite comb_smul. f_equal; f_equal; unfold pc; field; lra.
Qed.
(** What [moved] returns, at the root and near it. *)
Lemma moved_eq dt x : moved exact k dt x pos vel = (vadd (smul (pc x) pos) (smul (dt - C * G3 f x) vel), vadd (smul (pcdot x) pos) (smul (vcdot x) vel)).
Proof.
  pose proof (br_pos x) as Xp. unfold moved, exact. fold f A B C. rewrite qovr_eq.
  replace (A * stumpff0 (f * x * x) + x * (B * stumpff1 (f * x * x) + x * C * stumpff2 (f * x * x))) with (br x) by (unfold br, G0, G1, G2; ring).
  unfold pc, pcdot, vcdot, G1, G2, G3. f_equal; f_equal; f_equal; unfold Rdiv; ring.
Qed.
Lemma moved_root t0 t : moved exact k (t - t0) (root (t - t0)) pos vel = (path t0 t, speed t0 t).
Proof.
  rewrite moved_eq. unfold path, speed. repeat f_equal. rewrite <- (root_K (t - t0)) at 1. unfold K, vc. ring.
Qed.
End Conic.
