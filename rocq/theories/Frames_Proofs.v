(** The tables of rotations against their definitions, to all their digits. *)
From Coq Require Import Reals Lra Lia ZArith List QArith Qreals Bool.
From Verif Require Import Real_Math Real_Math_Proofs Vector_Model Geo_Model Geo_Spec Geo_Proofs Pi_Bounds Frames_Model Frames_Spec.
Import ListNotations.
Open Scope R_scope.

Definition trig (x c s d : R) : Prop := Rabs (cos x - c) <= d /\ Rabs (sin x - s) <= d.
Lemma sin_lip1 x y : Rabs (sin x - sin y) <= Rabs (x - y).
Proof.
  assert (L : forall x y, x < y -> Rabs (sin y - sin x) <= Rabs (y - x)).
  { clear. intros x y Hlt. destruct (MVT_cor2 sin cos x y Hlt) as (c & E & _); [intros; apply derivable_pt_lim_sin|]. rewrite E, Rabs_mult.
    rewrite <- (Rmult_1_l (Rabs (y - x))) at 2. apply Rmult_le_compat_r; [apply Rabs_pos|]. apply Rabs_le. pose proof (COS_bound c). lra. }
  destruct (Rtotal_order x y) as [Hlt|[->|Hlt]]; [rewrite (Rabs_minus_sym (sin x)), (Rabs_minus_sym x); apply L; assumption|rewrite !Rminus_eq_0; lra|apply L; assumption].
Qed.
Lemma cos_lip1 x y : Rabs (cos x - cos y) <= Rabs (x - y).
Proof. rewrite <- (sin_shift x), <- (sin_shift y). eapply Rle_trans; [apply sin_lip1|]. rewrite <- (Rabs_Ropp (x - y)). apply Req_le. f_equal. ring. Qed.
Lemma trig_move x x0 c s d e : trig x0 c s d -> Rabs (x - x0) <= e -> trig x c s (d + e).
Proof.
  intros [C S] E. pose proof (cos_lip1 x x0). pose proof (sin_lip1 x x0). split.
  - replace (cos x - c) with ((cos x - cos x0) + (cos x0 - c)) by ring. eapply Rle_trans; [apply Rabs_triang|lra].
  - replace (sin x - s) with ((sin x - sin x0) + (sin x0 - s)) by ring. eapply Rle_trans; [apply Rabs_triang|lra].
Qed.
Lemma trig_opp x c s d : trig x c s d -> trig (- x) c (- s) d.
Proof. intros [C S]. unfold trig. rewrite cos_neg, sin_neg. split; [exact C|]. rewrite <- Rabs_Ropp. replace (- (- sin x - - s)) with (sin x - s) by ring. exact S. Qed.
(** A quarter turn less, and a quarter turn more. *)
Lemma trig_quarter x c s d : trig x c s d -> trig (PI / 2 - x) s c d.
Proof. intros [C S]. unfold trig. rewrite cos_shift, sin_shift. split; assumption. Qed.
Lemma trig_turn x c s d : trig x c s d -> trig (x + 2 * PI) c s d.
Proof. unfold trig. rewrite (cos_plus x), (sin_plus x), cos_2PI, sin_2PI, !Rmult_1_r, !Rmult_0_r, Rminus_0_r, Rplus_0_r. exact (fun H => H). Qed.
Lemma trig_eq x y c s d : x = y -> trig x c s d -> trig y c s d. Proof. intros ->. exact (fun H => H). Qed.

Ltac series H :=
  let F := fresh "F" in
  assert (F : forall n, INR (fact (S n)) = INR (S n) * INR (fact n)) by (intros n; rewrite <- mult_INR; reflexivity);
  unfold sin_approx, cos_approx in H; cbn [Nat.mul Nat.add sum_f_R0] in H; unfold sin_term, cos_term in H; cbn [Nat.mul Nat.add] in H;
  rewrite !F in H; change (INR (fact 0)) with 1 in H; rewrite !INR_IZR_INZ in H; cbn [Z.of_nat Pos.of_succ_nat Pos.succ] in H.
Lemma sin_at0 x : 0 <= x <= 2 -> x - x ^ 3 / 6 <= sin x <= x - x ^ 3 / 6 + x ^ 5 / 120.
Proof. intros Hx. pose proof (pre_sin_bound x 0 ltac:(lra) ltac:(lra)) as H. series H. cbn [pow] in *. lra. Qed.
Lemma cos_at0 x : 0 <= x <= 2 -> 1 - x ^ 2 / 2 <= cos x <= 1 - x ^ 2 / 2 + x ^ 4 / 24.
Proof. intros Hx. pose proof (pre_cos_bound x 0 ltac:(lra) ltac:(lra)) as H. series H. cbn [pow] in *. lra. Qed.
Lemma sin_at1 x : 0 <= x <= 2 -> x - x ^ 3 / 6 + x ^ 5 / 120 - x ^ 7 / 5040 <= sin x <= x - x ^ 3 / 6 + x ^ 5 / 120 - x ^ 7 / 5040 + x ^ 9 / 362880.
Proof. intros Hx. pose proof (pre_sin_bound x 1 ltac:(lra) ltac:(lra)) as H. series H. cbn [pow] in *. lra. Qed.
Lemma cos_at1 x : 0 <= x <= 2 -> 1 - x ^ 2 / 2 + x ^ 4 / 24 - x ^ 6 / 720 <= cos x <= 1 - x ^ 2 / 2 + x ^ 4 / 24 - x ^ 6 / 720 + x ^ 8 / 40320.
Proof. intros Hx. pose proof (pre_cos_bound x 1 ltac:(lra) ltac:(lra)) as H. series H. cbn [pow] in *. lra. Qed.
Lemma sin_at4 x : 0 <= x <= 2 -> x - x ^ 3 / 6 + x ^ 5 / 120 - x ^ 7 / 5040 + x ^ 9 / 362880 - x ^ 11 / 39916800 + x ^ 13 / 6227020800 - x ^ 15 / 1307674368000 + x ^ 17 / 355687428096000 - x ^ 19 / 121645100408832000 <= sin x <= x - x ^ 3 / 6 + x ^ 5 / 120 - x ^ 7 / 5040 + x ^ 9 / 362880 - x ^ 11 / 39916800 + x ^ 13 / 6227020800 - x ^ 15 / 1307674368000 + x ^ 17 / 355687428096000 - x ^ 19 / 121645100408832000 + x ^ 21 / 51090942171709440000.
Proof. intros Hx. pose proof (pre_sin_bound x 4 ltac:(lra) ltac:(lra)) as H. series H. cbn [pow] in *. lra. Qed.
Lemma cos_at4 x : 0 <= x <= 2 -> 1 - x ^ 2 / 2 + x ^ 4 / 24 - x ^ 6 / 720 + x ^ 8 / 40320 - x ^ 10 / 3628800 + x ^ 12 / 479001600 - x ^ 14 / 87178291200 + x ^ 16 / 20922789888000 - x ^ 18 / 6402373705728000 <= cos x <= 1 - x ^ 2 / 2 + x ^ 4 / 24 - x ^ 6 / 720 + x ^ 8 / 40320 - x ^ 10 / 3628800 + x ^ 12 / 479001600 - x ^ 14 / 87178291200 + x ^ 16 / 20922789888000 - x ^ 18 / 6402373705728000 + x ^ 20 / 2432902008176640000.
Proof. intros Hx. pose proof (pre_cos_bound x 4 ltac:(lra) ltac:(lra)) as H. series H. cbn [pow] in *. lra. Qed.

Lemma combination c s c' s' x y x' y' d e r t : Rabs (c - c') <= d -> Rabs (s - s') <= d -> Rabs (x - x') <= e -> Rabs (y - y') <= e ->
  Rabs c' <= 101 / 100 -> Rabs s' <= 101 / 100 -> Rabs x' <= 101 / 100 -> Rabs y' <= 101 / 100 -> e <= 1 / 100 -> Rabs (c' * x' + s' * y' - t) <= r ->
  Rabs (c * x + s * y - t) <= 3 * d + 21 / 10 * e + r.
Proof.
  intros C S X Y Bc Bs Bx By Le H.
  replace (c * x + s * y - t) with ((c - c') * x + c' * (x - x') + ((s - s') * y + s' * (y - y')) + (c' * x' + s' * y' - t)) by ring.
  assert (P : forall c c' x x', Rabs (c - c') <= d -> Rabs (x - x') <= e -> Rabs c' <= 101 / 100 -> Rabs x' <= 101 / 100 -> Rabs ((c - c') * x + c' * (x - x')) <= 102 / 100 * d + 101 / 100 * e).
  { clear - Le. intros c c' x x' C X Bc Bx. eapply Rle_trans; [apply Rabs_triang|]. rewrite !Rabs_mult.
    assert (Rabs x <= 102 / 100). { replace x with ((x - x') + x') by ring. eapply Rle_trans; [apply Rabs_triang|]. lra. }
    pose proof (Rabs_pos (c - c')). pose proof (Rabs_pos (x - x')). pose proof (Rabs_pos x). pose proof (Rabs_pos c').
    assert (Rabs (c - c') * Rabs x <= d * (102 / 100)) by (apply Rmult_le_compat; assumption).
    assert (Rabs c' * Rabs (x - x') <= 101 / 100 * e) by (apply Rmult_le_compat; assumption). lra. }
  pose proof (P c c' x x' C X Bc Bx). pose proof (P s s' y y' S Y Bs By).
  assert (0 <= d) by (eapply Rle_trans; [apply Rabs_pos|exact C]). assert (0 <= e) by (eapply Rle_trans; [apply Rabs_pos|exact X]).
  eapply Rle_trans; [apply Rabs_triang|]. eapply Rle_trans; [apply Rplus_le_compat_r, Rabs_triang|]. lra.
Qed.
Definition vsmall (a : vec) : Prop := Rabs (vx a) <= 101 / 100 /\ Rabs (vy a) <= 101 / 100 /\ Rabs (vz a) <= 101 / 100.
Definition small (A : mat) : Prop := vsmall (r1 A) /\ vsmall (r2 A) /\ vsmall (r3 A).
Lemma stage ax a c s d A B e r e2 T : trig (arcseconds a) c s d -> close A B e -> small B -> Rabs c <= 101 / 100 -> Rabs s <= 101 / 100 -> e <= 1 / 100 ->
  close (mxm (turned ax c s) B) T r -> 3 * d + 21 / 10 * e + r <= e2 -> close (mxm (turn ax a) A) T e2.
Proof.
  intros [C S] HA HB Bc Bs Le HT L2. unfold turn.
  destruct A as [[a11 a12 a13] [a21 a22 a23] [a31 a32 a33]], B as [[b11 b12 b13] [b21 b22 b23] [b31 b32 b33]], T as [[t11 t12 t13] [t21 t22 t23] [t31 t32 t33]].
  unfold close, small, vclose, vsmall in *. cbn [r1 r2 r3 vx vy vz] in *.
  destruct HA as ((A11 & A12 & A13) & (A21 & A22 & A23) & (A31 & A32 & A33)). destruct HB as ((B11 & B12 & B13) & (B21 & B22 & B23) & (B31 & B32 & B33)).
  assert (Pd : 0 <= d) by (eapply Rle_trans; [apply Rabs_pos|exact C]). assert (Pe : 0 <= e) by (eapply Rle_trans; [apply Rabs_pos|exact A11]).
  assert (Keep : forall x x' t r, Rabs (x - x') <= e -> Rabs (x' - t) <= r -> Rabs (x - t) <= 3 * d + 21 / 10 * e + r).
  { intros x x' t r0 X Y. replace (x - t) with ((x - x') + (x' - t)) by ring. eapply Rle_trans; [apply Rabs_triang|]. lra. }
  set (cc := cos (arcseconds a)) in *. set (ss := sin (arcseconds a)) in *. clearbody cc ss.
  assert (S' : Rabs (- ss - - s) <= d) by (rewrite <- Rabs_Ropp; replace (- (- ss - - s)) with (ss - s) by ring; exact S).
  assert (Bs' : Rabs (- s) <= 101 / 100) by (rewrite Rabs_Ropp; exact Bs).
  destruct HT as ((T11 & T12 & T13) & (T21 & T22 & T23) & (T31 & T32 & T33)).
  destruct ax; cbn -[Rabs] in *; unfold dot in *; cbn -[Rabs] in *; repeat split; (eapply Rle_trans; [|exact L2]).
  all: match goal with
       | |- Rabs (1 * ?x + 0 * _ + 0 * _ - _) <= _ => replace (1 * x + 0 * _ + 0 * _) with x by ring; eapply Keep; [eassumption|]
       | |- Rabs (0 * _ + 1 * ?x + 0 * _ - _) <= _ => replace (0 * _ + 1 * x + 0 * _) with x by ring; eapply Keep; [eassumption|]
       | |- Rabs (0 * _ + 0 * _ + 1 * ?x - _) <= _ => replace (0 * _ + 0 * _ + 1 * x) with x by ring; eapply Keep; [eassumption|]
       | |- Rabs (?p * ?x + ?q * ?y + 0 * ?z - _) <= _ => replace (p * x + q * y + 0 * z) with (p * x + q * y) by ring; eapply combination; try eassumption
       | |- Rabs (0 * ?z + ?p * ?x + ?q * ?y - _) <= _ => replace (0 * z + p * x + q * y) with (p * x + q * y) by ring; eapply combination; try eassumption
       | |- Rabs (?p * ?x + 0 * ?z + ?q * ?y - _) <= _ => replace (p * x + 0 * z + q * y) with (p * x + q * y) by ring; eapply combination; try eassumption
       end.
  all: match goal with |- Rabs (?g - ?t) <= ?q => match goal with H : Rabs (?h - t) <= q |- _ => replace g with h by ring; exact H end end.
Qed.

(** * Exact checks on integers *)
Definition K : Z := 10000000000000000000000.
Definition fixed (c : Z) : R := IZR c / IZR K.
(** The series 1 - y / (k (k+1)) (1 - y / ((k+2) (k+3)) (...)). *)
Fixpoint nest (n : nat) (k : positive) (y : Q) : Q :=
  match n with O => 1%Q | Datatypes.S n => (1 - y * (1 # k * (k + 1)) * nest n (k + 2) y)%Q end.
Definition L : positive := 1000000000000000000000000.
Definition within (a : Q) (c : Z) : bool := Qle_bool (c - 400 # 10000000000000000000000) a && Qle_bool a (c + 400 # 10000000000000000000000).
Definition check_trig (n m : nat) (X : positive) (C S : Z) : bool :=
  let x := Zpos X # L in let y := (x * x)%Q in
  Qle_bool x 1 && within (nest n 1 y) C && within (nest m 1 y) C && within (x * nest n 2 y) S && within (x * nest m 2 y) S.
Lemma Q2R_nest n k y : Q2R (nest (Datatypes.S n) k y) = 1 - Q2R y / (IZR (Zpos k) * (IZR (Zpos k) + 1)) * Q2R (nest n (k + 2) y).
Proof.
  cbn [nest]. unfold Qminus. rewrite Q2R_plus, Q2R_opp, !Q2R_mult. unfold Q2R at 1 3. cbn [Qnum Qden].
  rewrite Pos2Z.inj_mul, mult_IZR, (Pos2Z.inj_add k 1), plus_IZR. field.
  assert (0 < IZR (Zpos k)) by (apply (IZR_lt 0); reflexivity). split; lra.
Qed.
Lemma Q2R_nest0 k y : Q2R (nest 0 k y) = 1. Proof. unfold Q2R. cbn. field. Qed.
Lemma within_ok a c : within a c = true -> Rabs (Q2R a - fixed c) <= 4 / 10 ^ 20.
Proof.
  unfold within. intros H. apply andb_true_iff in H. destruct H as [A B]. apply Qle_bool_iff, Qle_Rle in A, B. unfold Q2R in A at 1. unfold Q2R in B at 2. cbn [Qnum Qden] in A, B.
  rewrite minus_IZR in A. rewrite plus_IZR in B. unfold fixed, K. apply Rabs_le. split; lra.
Qed.
Lemma Rabs_def2_le a y : Rabs a <= y -> - y <= a <= y.
Proof. intros H. pose proof (Rle_abs a). pose proof (Rle_abs (- a)) as K1. rewrite Rabs_Ropp in K1. lra. Qed.
Lemma between a b c x y : a <= x <= b -> Rabs (a - c) <= y -> Rabs (b - c) <= y -> Rabs (x - c) <= y.
Proof. intros H A B. apply Rabs_def2_le in A, B. apply Rabs_le. lra. Qed.
Definition radians24 (X : positive) : R := IZR (Zpos X) / IZR (Zpos L).
Ltac nested := rewrite !Q2R_nest, Q2R_nest0; cbn [Pos.add Pos.succ Pos.add_carry]; field_simplify.
Lemma check0 X C S : check_trig 1 2 X C S = true -> trig (radians24 X) (fixed C) (fixed S) (5 / 10 ^ 20).
Proof.
  unfold check_trig. intros H. repeat (apply andb_true_iff in H; destruct H as [H ?H]). apply Qle_bool_iff, Qle_Rle in H.
  assert (E : Q2R (Zpos X # L) = radians24 X) by reflexivity. assert (E1 : Q2R 1 = 1) by (unfold Q2R; cbn; field). rewrite E, E1 in H.
  assert (P : 0 <= radians24 X) by (unfold radians24, Rdiv; apply Rmult_le_pos; [apply (IZR_le 0); lia|apply Rlt_le, Rinv_0_lt_compat, (IZR_lt 0); reflexivity]).
  repeat match goal with H : within _ _ = true |- _ => apply within_ok in H; rewrite ?Q2R_mult in H end. rewrite !Q2R_nest, !Q2R_nest0, !Q2R_mult, !E in *. cbn [Pos.add Pos.succ Pos.add_carry] in *.
  set (x := radians24 X) in *. clearbody x. split.
  - eapply Rle_trans; [eapply (between _ _ _ _ (4 / 10 ^ 20) (cos_at0 x ltac:(lra)))|lra].
    + match goal with H : Rabs (?p - fixed C) <= _ |- Rabs (?q - _) <= _ => replace q with p by field; exact H end.
    + match goal with H : Rabs (?p - fixed C) <= _ |- Rabs (?q - _) <= _ => replace q with p by field; exact H end.
  - eapply Rle_trans; [eapply (between _ _ _ _ (4 / 10 ^ 20) (sin_at0 x ltac:(lra)))|lra].
    + match goal with H : Rabs (?p - fixed S) <= _ |- Rabs (?q - _) <= _ => replace q with p by field; exact H end.
    + match goal with H : Rabs (?p - fixed S) <= _ |- Rabs (?q - _) <= _ => replace q with p by field; exact H end.
Qed.
Lemma check1 X C S : check_trig 3 4 X C S = true -> trig (radians24 X) (fixed C) (fixed S) (5 / 10 ^ 20).
Proof.
  unfold check_trig. intros H. repeat (apply andb_true_iff in H; destruct H as [H ?H]). apply Qle_bool_iff, Qle_Rle in H.
  assert (E : Q2R (Zpos X # L) = radians24 X) by reflexivity. assert (E1 : Q2R 1 = 1) by (unfold Q2R; cbn; field). rewrite E, E1 in H.
  assert (P : 0 <= radians24 X) by (unfold radians24, Rdiv; apply Rmult_le_pos; [apply (IZR_le 0); lia|apply Rlt_le, Rinv_0_lt_compat, (IZR_lt 0); reflexivity]).
  repeat match goal with H : within _ _ = true |- _ => apply within_ok in H; rewrite ?Q2R_mult in H end. rewrite !Q2R_nest, !Q2R_nest0, !Q2R_mult, !E in *. cbn [Pos.add Pos.succ Pos.add_carry] in *.
  set (x := radians24 X) in *. clearbody x. split.
  - eapply Rle_trans; [eapply (between _ _ _ _ (4 / 10 ^ 20) (cos_at1 x ltac:(lra)))|lra].
    + match goal with H : Rabs (?p - fixed C) <= _ |- Rabs (?q - _) <= _ => replace q with p by field; exact H end.
    + match goal with H : Rabs (?p - fixed C) <= _ |- Rabs (?q - _) <= _ => replace q with p by field; exact H end.
  - eapply Rle_trans; [eapply (between _ _ _ _ (4 / 10 ^ 20) (sin_at1 x ltac:(lra)))|lra].
    + match goal with H : Rabs (?p - fixed S) <= _ |- Rabs (?q - _) <= _ => replace q with p by field; exact H end.
    + match goal with H : Rabs (?p - fixed S) <= _ |- Rabs (?q - _) <= _ => replace q with p by field; exact H end.
Qed.
Lemma check4 X C S : check_trig 9 10 X C S = true -> trig (radians24 X) (fixed C) (fixed S) (5 / 10 ^ 20).
Proof.
  unfold check_trig. intros H. repeat (apply andb_true_iff in H; destruct H as [H ?H]). apply Qle_bool_iff, Qle_Rle in H.
  assert (E : Q2R (Zpos X # L) = radians24 X) by reflexivity. assert (E1 : Q2R 1 = 1) by (unfold Q2R; cbn; field). rewrite E, E1 in H.
  assert (P : 0 <= radians24 X) by (unfold radians24, Rdiv; apply Rmult_le_pos; [apply (IZR_le 0); lia|apply Rlt_le, Rinv_0_lt_compat, (IZR_lt 0); reflexivity]).
  repeat match goal with H : within _ _ = true |- _ => apply within_ok in H; rewrite ?Q2R_mult in H end. rewrite !Q2R_nest, !Q2R_nest0, !Q2R_mult, !E in *. cbn [Pos.add Pos.succ Pos.add_carry] in *.
  set (x := radians24 X) in *. clearbody x. split.
  - eapply Rle_trans; [eapply (between _ _ _ _ (4 / 10 ^ 20) (cos_at4 x ltac:(lra)))|lra].
    + match goal with H : Rabs (?p - fixed C) <= _ |- Rabs (?q - _) <= _ => replace q with p by field; exact H end.
    + match goal with H : Rabs (?p - fixed C) <= _ |- Rabs (?q - _) <= _ => replace q with p by field; exact H end.
  - eapply Rle_trans; [eapply (between _ _ _ _ (4 / 10 ^ 20) (sin_at4 x ltac:(lra)))|lra].
    + match goal with H : Rabs (?p - fixed S) <= _ |- Rabs (?q - _) <= _ => replace q with p by field; exact H end.
    + match goal with H : Rabs (?p - fixed S) <= _ |- Rabs (?q - _) <= _ => replace q with p by field; exact H end.
Qed.

(** * Products of matrices of integers *)
Record zmat := ZM { z11 : Z; z12 : Z; z13 : Z; z21 : Z; z22 : Z; z23 : Z; z31 : Z; z32 : Z; z33 : Z }.
Definition mat_of (m : zmat) : mat :=
  M3 (V3 (fixed (z11 m)) (fixed (z12 m)) (fixed (z13 m))) (V3 (fixed (z21 m)) (fixed (z22 m)) (fixed (z23 m))) (V3 (fixed (z31 m)) (fixed (z32 m)) (fixed (z33 m))).
Definition zturned (ax : axis) (c s : Z) : zmat :=
  match ax with
  | A1 => ZM K 0 0 0 c s 0 (- s) c
  | A2 => ZM c 0 (- s) 0 K 0 s 0 c
  | A3 => ZM c s 0 (- s) c 0 0 0 K
  end.
Definition zsmall (x : Z) : bool := (Z.abs x <=? 10100000000000000000000)%Z.
Definition zsmallm (m : zmat) : bool := zsmall (z11 m) && zsmall (z12 m) && zsmall (z13 m) && zsmall (z21 m) && zsmall (z22 m) && zsmall (z23 m) && zsmall (z31 m) && zsmall (z32 m) && zsmall (z33 m).
Definition zdot (a b c x y z t : Z) : bool := (Z.abs (a * x + b * y + c * z - t * K) <=? K)%Z.
Definition zprod (A B T : zmat) : bool :=
  zdot (z11 A) (z12 A) (z13 A) (z11 B) (z21 B) (z31 B) (z11 T) && zdot (z11 A) (z12 A) (z13 A) (z12 B) (z22 B) (z32 B) (z12 T) && zdot (z11 A) (z12 A) (z13 A) (z13 B) (z23 B) (z33 B) (z13 T) &&
  zdot (z21 A) (z22 A) (z23 A) (z11 B) (z21 B) (z31 B) (z21 T) && zdot (z21 A) (z22 A) (z23 A) (z12 B) (z22 B) (z32 B) (z22 T) && zdot (z21 A) (z22 A) (z23 A) (z13 B) (z23 B) (z33 B) (z23 T) &&
  zdot (z31 A) (z32 A) (z33 A) (z11 B) (z21 B) (z31 B) (z31 T) && zdot (z31 A) (z32 A) (z33 A) (z12 B) (z22 B) (z32 B) (z32 T) && zdot (z31 A) (z32 A) (z33 A) (z13 B) (z23 B) (z33 B) (z33 T).
Lemma KR : 0 < IZR K. Proof. apply (IZR_lt 0). reflexivity. Qed.
Lemma zsmall_ok x : zsmall x = true -> Rabs (fixed x) <= 101 / 100.
Proof.
  unfold zsmall. intros H. apply Z.leb_le in H. unfold fixed, Rdiv. rewrite Rabs_mult, (Rabs_right (/ IZR K)) by (apply Rle_ge, Rlt_le, Rinv_0_lt_compat, KR).
  rewrite <- abs_IZR. apply IZR_le in H. apply Rmult_le_reg_r with (IZR K); [exact KR|]. rewrite Rmult_assoc, Rinv_l, Rmult_1_r by (pose proof KR; lra). unfold K. lra.
Qed.
Lemma zdot_ok a b c x y z t : zdot a b c x y z t = true -> Rabs (fixed a * fixed x + fixed b * fixed y + fixed c * fixed z - fixed t) <= 1 / 10 ^ 22.
Proof.
  unfold zdot. intros H. apply Z.leb_le in H. apply IZR_le in H. rewrite abs_IZR in H. rewrite minus_IZR, !plus_IZR, !mult_IZR in H.
  unfold fixed. pose proof KR as P. replace (IZR a / IZR K * (IZR x / IZR K) + IZR b / IZR K * (IZR y / IZR K) + IZR c / IZR K * (IZR z / IZR K) - IZR t / IZR K) with
    ((IZR a * IZR x + IZR b * IZR y + IZR c * IZR z - IZR t * IZR K) * / (IZR K * IZR K)) by (field; lra).
  rewrite Rabs_mult, (Rabs_right (/ (IZR K * IZR K))) by (apply Rle_ge, Rlt_le, Rinv_0_lt_compat; nra).
  apply Rmult_le_reg_r with (IZR K * IZR K); [nra|]. rewrite Rmult_assoc, Rinv_l, Rmult_1_r by nra. eapply Rle_trans; [exact H|]. unfold K. lra.
Qed.
Lemma zstage ax a c s B T A e e2 : trig (arcseconds a) (fixed c) (fixed s) (1 / 10 ^ 19) -> close A (mat_of B) e ->
  zsmall c && zsmall s && zsmallm B && zprod (zturned ax c s) B T = true -> e <= 1 / 100 -> 3 / 10 ^ 19 + 21 / 10 * e + 1 / 10 ^ 22 <= e2 -> close (mxm (turn ax a) A) (mat_of T) e2.
Proof.
  intros HT HA H Le L2. repeat (apply andb_true_iff in H; destruct H as [H ?H]). unfold zsmallm, zprod in *.
  repeat match goal with H : (_ && _)%bool = true |- _ => apply andb_true_iff in H; destruct H end.
  repeat match goal with H : zsmall _ = true |- _ => apply zsmall_ok in H | H : zdot _ _ _ _ _ _ _ = true |- _ => apply zdot_ok in H end.
  eapply (stage ax a (fixed c) (fixed s) (1 / 10 ^ 19) A (mat_of B) e (1 / 10 ^ 22)); [exact HT|exact HA| | | | | |lra]; try assumption.
  - unfold small, vsmall. cbn. tauto.
  - assert (E0 : fixed 0 = 0) by (unfold fixed; field; pose proof KR; lra). assert (E1 : fixed K = 1) by (unfold fixed; field; pose proof KR; lra). assert (EN : forall x, fixed (- x) = - fixed x) by (intros x; unfold fixed; rewrite opp_IZR; field; pose proof KR; lra).
    destruct ax; cbn -[Rabs fixed K] in *; rewrite ?E0, ?E1, ?EN in *; unfold close, vclose, dot; cbn -[Rabs fixed K]; tauto.
Qed.
Lemma identity_fixed : identity = mat_of (ZM K 0 0 0 K 0 0 0 K).
Proof. assert (E0 : fixed 0 = 0) by (unfold fixed; field; pose proof KR; lra). assert (E1 : fixed K = 1) by (unfold fixed; field; pose proof KR; lra). unfold mat_of. cbn -[fixed K]. rewrite E0, E1. reflexivity. Qed.
Lemma close_refl A : close A A 0.
Proof. unfold close, vclose. rewrite !Rminus_eq_0, !Rabs_R0. repeat split; lra. Qed.
Lemma close_trans A B C d e : close A B d -> close B C e -> close A C (d + e).
Proof.
  assert (P : forall x y z, Rabs (x - y) <= d -> Rabs (y - z) <= e -> Rabs (x - z) <= d + e).
  { intros x y z X Y. replace (x - z) with ((x - y) + (y - z)) by ring. eapply Rle_trans; [apply Rabs_triang|lra]. }
  intros ((A1 & A2 & A3) & (A4 & A5 & A6) & (A7 & A8 & A9)) ((B1 & B2 & B3) & (B4 & B5 & B6) & (B7 & B8 & B9)). unfold close, vclose. repeat split; eapply P; eassumption.
Qed.
Lemma trig_fixed_opp x c s d : trig x (fixed c) (fixed s) d -> trig (- x) (fixed c) (fixed (- s)) d.
Proof. intros H. replace (fixed (- s)) with (- fixed s) by (unfold fixed; rewrite opp_IZR; field; pose proof KR; lra). apply trig_opp, H. Qed.
Lemma base_of X a c s : trig (radians24 X) (fixed c) (fixed s) (5 / 10 ^ 20) -> Rabs (a * PI / 648000 - radians24 X) <= 5 / 10 ^ 20 -> trig (arcseconds a) (fixed c) (fixed s) (1 / 10 ^ 19).
Proof. intros T H. replace (1 / 10 ^ 19) with (5 / 10 ^ 20 + 5 / 10 ^ 20) by lra. eapply trig_move; eassumption. Qed.
Ltac base n X := apply (base_of X); [apply n; vm_compute; reflexivity|pose proof pi_bounds; unfold radians24, L; apply Rabs_le; split; lra].
