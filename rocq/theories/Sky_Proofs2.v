From Coq Require Import Reals Lra Lia List Bool.
From Coquelicot Require Rcomplements.
From Verif Require Import Real_Math Real_Math_Proofs Vector_Model Vector_Proofs Vector_Proofs2 Geo_Model Geo_Spec Geo_Proofs Sky_Spec Sky_Model Sky_Proofs.
Open Scope R_scope.

(** ** Distances *)
Lemma ln10_2 : 2 < ln 10.
Proof.
  rewrite <- (ln_exp 2). apply ln_increasing; [apply exp_pos|]. replace 2 with (1 + 1) by ring. rewrite exp_plus.
  pose proof exp_le_3 as E. pose proof (exp_pos 1) as P. nra.
Qed.
Lemma lg_mult x y : 0 < x -> 0 < y -> lg (x * y) = lg x + lg y.
Proof. intros. unfold lg. rewrite ln_mult by assumption. field. pose proof ln10_2. lra. Qed.
Lemma log10_lg x : 0 < x -> log10 x = Some (lg x).
Proof. intros. unfold log10. destruct (Rlt_dec 0 x); [reflexivity|contradiction]. Qed.
Lemma df1 r d : 0 < r -> 0 < d -> distance_factor r d = Some (5 * lg (r * d)).
Proof. intros. unfold distance_factor. rewrite log10_lg by (apply Rmult_lt_0_compat; assumption). reflexivity. Qed.
Lemma df2 r d : 0 < r -> 0 < d -> distance_factor2 r d = Some (5 * lg (r * d)).
Proof.
  intros. unfold distance_factor2. rewrite !log10_lg by (apply Rmult_lt_0_compat; assumption). cbn. f_equal. rewrite !lg_mult by assumption. field.
Qed.
Definition base (p : planet) (ph sl ol y : R) : option R := magnitude_of p 1 1 ph sl ol y.
Lemma lg_1 : lg 1 = 0. Proof. unfold lg. rewrite ln_1. field. pose proof ln10_2. lra. Qed.
Lemma by_distance p r d ph sl ol y : 0 < r -> 0 < d ->
  magnitude_of p r d ph sl ol y = option_map (Rplus (5 * lg (r * d))) (base p ph sl ol y).
Proof.
  intros Hr Hd. unfold base.
  assert (A1 : distance_factor r d = Some (5 * lg (r * d))) by (apply df1; assumption). assert (A2 : distance_factor2 r d = Some (5 * lg (r * d))) by (apply df2; assumption).
  assert (B1 : distance_factor 1 1 = Some 0) by (rewrite df1 by lra; replace (1 * 1) with 1 by ring; rewrite lg_1; f_equal; ring).
  assert (B2 : distance_factor2 1 1 = Some 0) by (rewrite df2 by lra; replace (1 * 1) with 1 by ring; rewrite lg_1; f_equal; ring).
  set (k := 5 * lg (r * d)) in *. clearbody k.
  destruct p; cbn [magnitude_of]; unfold mercury_magnitude, venus_magnitude, earth_magnitude, mars_magnitude, jupiter_magnitude, saturn_magnitude, uranus_magnitude, neptune_magnitude; cbv zeta; rewrite ?A1, ?A2, ?B1, ?B2.
  - cbn [plus option_map]. f_equal. ring.
  - cbn [plus option_map]. f_equal. ring.
  - cbn [plus option_map]. f_equal. ring.
  - cbn [plus option_map]. f_equal. ring.
  - destruct (Rle_dec ph 12); [cbn [plus option_map]; f_equal; ring|]. destruct (log10 _); cbn [plus times option_map]; [f_equal; ring|reflexivity].
  - match goal with |- plus ?a _ = _ => destruct a; cbn [plus option_map]; [f_equal; ring|reflexivity] end.
  - cbn [plus option_map]. f_equal. ring.
  - destruct (Rlt_dec _ ph); [destruct (Rle_dec 2000 y); [|reflexivity]|]; cbn [plus option_map]; f_equal; ring.
Qed.

(** ** Jupiter's polynomial *)
Lemma jupiter_low x : 0 <= x <= 1 -> 1 / 1000 <= jupiter_polynomial x.
Proof.
  intros H. unfold jupiter_polynomial.
  assert (E : ((((- 1.876 * x + 2.809) * x - 0.062) * x - 0.363) * x - 1.507) * x + 1 = 1 / 1000 + (1 - x) * (1.876 * x ^ 4 - 0.933 * x ^ 3 - 0.871 * x ^ 2 - 0.508 * x + 0.999)) by lra.
  rewrite E. assert (Q : 0 <= 1.876 * x ^ 4 - 0.933 * x ^ 3 - 0.871 * x ^ 2 - 0.508 * x + 0.999); [|nra].
  pose proof (Rle_0_sqr (x ^ 2 - 0.25 * x - 0.4)) as S. unfold Rsqr in S.
  nra.
Qed.

(** ** Slopes *)
Lemma pow_grow (n : nat) L a b : 0 <= a -> a <= b -> b <= L -> 0 <= b ^ S n - a ^ S n <= INR (S n) * L ^ n * (b - a).
Proof.
  intros Ha Hab Hb. induction n as [|n IH]; [cbn; lra|].
  assert (P : 0 <= a ^ S n) by (apply pow_le; lra). assert (Q : b ^ S n <= L ^ S n) by (apply pow_incr; lra).
  assert (Q0 : 0 <= b ^ S n) by (apply pow_le; lra).
  replace (b ^ S (S n) - a ^ S (S n)) with (b ^ S n * (b - a) + a * (b ^ S n - a ^ S n)) by (cbn; ring).
  rewrite (S_INR (S n)). replace ((INR (S n) + 1) * L ^ S n * (b - a)) with (L ^ S n * (b - a) + L * (INR (S n) * L ^ n * (b - a))) by (cbn [pow]; ring).
  split; [apply Rplus_le_le_0_compat; apply Rmult_le_pos; lra|]. apply Rplus_le_compat; [apply Rmult_le_compat_r; lra|].
  apply Rmult_le_compat; lra.
Qed.
Lemma ln_slope m x y : 0 < m -> m <= y -> y <= x -> 0 <= ln x - ln y <= (x - y) / m.
Proof.
  intros Hm Hy Hx. split.
  - destruct (Rle_lt_or_eq_dec _ _ Hx) as [L|<-]; [|lra]. pose proof (ln_increasing y x ltac:(lra) L). lra.
  - assert (0 < y) by lra. assert (E : ln x - ln y = ln (x / y)) by (unfold Rdiv; rewrite ln_mult, ln_Rinv; [ring|lra|lra|apply Rinv_0_lt_compat; lra]).
    assert (Z : 0 < x / y) by (apply Rdiv_lt_0_compat; lra).
    assert (G : ln (x / y) <= x / y - 1).
    { destruct (Req_dec (ln (x / y)) 0) as [N|N]; [|pose proof (exp_ineq1 (ln (x / y)) N) as I; rewrite exp_ln in I by assumption; lra].
      rewrite N. replace (x / y) with (exp (ln (x / y))) by (apply exp_ln; assumption). rewrite N, exp_0. lra. }
    rewrite E. apply Rle_trans with (1 := G). replace (x / y - 1) with ((x - y) * / y) by (field; lra). apply Rmult_le_compat_l; [lra|]. apply Rinv_le_contravar; lra.
Qed.
Lemma exp_slope a b : 0 <= a -> a <= b -> 0 <= exp (- 2.25 * a) - exp (- 2.25 * b) <= 2.25 * (b - a).
Proof.
  intros Ha Hb. assert (E : exp (-2.25 * b) = exp (-2.25 * a) * exp (- 2.25 * (b - a))) by (rewrite <- exp_plus; f_equal; ring).
  assert (M : exp (-2.25 * a) <= 1). { destruct (Req_dec a 0) as [->|N]; [rewrite Rmult_0_r, exp_0; lra|]. rewrite <- exp_0. apply Rlt_le, exp_increasing. lra. }
  assert (K : 1 - 2.25 * (b - a) <= exp (- 2.25 * (b - a))). { destruct (Req_dec (-2.25 * (b - a)) 0) as [Z|Z]; [rewrite Z, exp_0; lra|]. pose proof (exp_ineq1 _ Z). lra. }
  assert (K1 : exp (- 2.25 * (b - a)) <= 1). { destruct (Req_dec (b - a) 0) as [Z|N]; [rewrite Z, Rmult_0_r, exp_0; lra|]. rewrite <- exp_0. apply Rlt_le, exp_increasing. lra. }
  pose proof (exp_pos (-2.25 * a)) as P. rewrite E. set (u := exp (-2.25 * a)) in *. set (w := exp (-2.25 * (b - a))) in *. clearbody u w.
  split; nra.
Qed.
(** The power inequalities for phase angles up to 180 degrees. *)
Lemma powers a b : 0 <= a -> a <= b -> b <= 180 ->
  0 <= b ^ 2 - a ^ 2 <= 360 * (b - a) /\ 0 <= b ^ 3 - a ^ 3 <= 97200 * (b - a) /\ 0 <= b ^ 4 - a ^ 4 <= 23328000 * (b - a) /\
  0 <= b ^ 5 - a ^ 5 <= 5248800000 * (b - a) /\ 0 <= b ^ 6 - a ^ 6 <= 1133740800000 * (b - a).
Proof.
  intros H1 H2 H3. pose proof (fun n => pow_grow n 180 a b H1 H2 H3) as G.
  pose proof (G 1%nat) as G2. pose proof (G 2%nat) as G3. pose proof (G 3%nat) as G4. pose proof (G 4%nat) as G5. pose proof (G 5%nat) as G6.
  cbn [INR pow] in *. repeat split; lra.
Qed.

Lemma jupiter_slope a b : 0 <= a -> a <= b -> b <= 1 -> Rabs (jupiter_polynomial b - jupiter_polynomial a) <= 24 * (b - a).
Proof.
  intros H1 H2 H3. pose proof (fun n => pow_grow n 1 a b H1 H2 H3) as G.
  pose proof (G 1%nat) as G2. pose proof (G 2%nat) as G3. pose proof (G 3%nat) as G4. pose proof (G 4%nat) as G5. clear G.
  cbn [INR pow] in *. unfold jupiter_polynomial. apply Rabs_le. split; lra.
Qed.
Lemma ln_slope_abs m x y : 0 < m -> m <= y -> m <= x -> Rabs (ln x - ln y) <= Rabs (x - y) / m.
Proof.
  intros Hm Hy Hx. destruct (Rle_dec y x) as [L|L].
  - destruct (ln_slope m x y) as [A B]; try lra. rewrite !Rabs_right by lra. exact B.
  - destruct (ln_slope m y x) as [A B]; try lra. rewrite !Rabs_left1 by lra. replace (- (x - y)) with (y - x) by ring. lra.
Qed.
Lemma jupiter_log_slope a b : 0 <= a -> a <= b -> b <= 180 ->
  Rabs (-2.5 * lg (jupiter_polynomial (b / 180)) - -2.5 * lg (jupiter_polynomial (a / 180))) <= 200 * (b - a).
Proof.
  intros H1 H2 H3. pose proof (jupiter_slope (a / 180) (b / 180) ltac:(lra) ltac:(lra) ltac:(lra)) as J.
  pose proof (jupiter_low (a / 180) ltac:(lra)) as La. pose proof (jupiter_low (b / 180) ltac:(lra)) as Lb.
  set (x := jupiter_polynomial (b / 180)) in *. set (y := jupiter_polynomial (a / 180)) in *. clearbody x y.
  pose proof (ln_slope_abs (1 / 1000) x y ltac:(lra) La Lb) as S. pose proof ln10_2 as T. unfold lg.
  replace (-2.5 * (ln x / ln 10) - -2.5 * (ln y / ln 10)) with (-2.5 * / ln 10 * (ln x - ln y)) by (unfold Rdiv; ring).
  rewrite Rabs_mult. assert (K : Rabs (-2.5 * / ln 10) <= 1.25).
  { rewrite Rabs_mult, (Rabs_left (-2.5)) by lra. pose proof (Rinv_0_lt_compat (ln 10) ltac:(lra)) as I. rewrite (Rabs_right (/ ln 10)) by lra.
    assert (/ ln 10 <= / 2) by (apply Rinv_le_contravar; lra). lra. }
  assert (M : Rabs (ln x - ln y) <= 134 * (b - a)) by lra.
  pose proof (Rabs_pos (ln x - ln y)) as P1. pose proof (Rabs_pos (-2.5 * / ln 10)) as P2.
  apply Rle_trans with (1.25 * (134 * (b - a))); [apply Rmult_le_compat; assumption|lra].
Qed.
(** The step of Jupiter's two formulae at twelve degrees. *)
Lemma lg_le x y : 0 < x -> x <= y -> lg x <= lg y.
Proof.
  intros Hx Hy. unfold lg. apply Rmult_le_compat_r; [apply Rlt_le, Rinv_0_lt_compat; pose proof ln10_2; lra|].
  destruct (Rle_lt_or_eq_dec _ _ Hy) as [L | <- ]; [apply Rlt_le, ln_increasing; assumption|lra].
Qed.
Lemma lg_pow x n : 0 < x -> lg (x ^ n) = INR n * lg x.
Proof. intros. unfold lg. rewrite ln_pow by assumption. unfold Rdiv. ring. Qed.
Lemma lg_ten n : lg (10 ^ n) = INR n.
Proof. rewrite lg_pow by lra. unfold lg. field. pose proof ln10_2. lra. Qed.
Lemma lg_inv x : 0 < x -> lg (/ x) = - lg x.
Proof. intros. unfold lg. rewrite ln_Rinv by assumption. unfold Rdiv. ring. Qed.
Lemma jupiter_at_12 : jupiter_polynomial (12 / 180) = 681884309 / 759375000.
Proof. unfold jupiter_polynomial. lra. Qed.
Lemma ratio_pow (a b : Z) n : (0 < b)%Z -> (IZR a / IZR b) ^ n = IZR (a ^ Z.of_nat n) / IZR (b ^ Z.of_nat n).
Proof. intros H. assert (IZR b <> 0) by (apply not_0_IZR; lia). unfold Rdiv. rewrite Rpow_mult_distr, <- Rinv_pow by assumption. rewrite !pow_IZR. reflexivity. Qed.
Lemma ratio_le (a b c d : Z) : (0 < b)%Z -> (0 < d)%Z -> (a * d <= c * b)%Z -> IZR a / IZR b <= IZR c / IZR d.
Proof.
  intros Hb Hd H. apply IZR_lt in Hb, Hd. apply IZR_le in H. rewrite !mult_IZR in H.
  apply Rmult_le_reg_r with (IZR b * IZR d); [apply Rmult_lt_0_compat; assumption|].
  replace (IZR a / IZR b * (IZR b * IZR d)) with (IZR a * IZR d) by (field; lra). replace (IZR c / IZR d * (IZR b * IZR d)) with (IZR c * IZR b) by (field; lra). assumption.
Qed.
Lemma jupiter_lg_12 : - 3 / 64 <= lg (681884309 / 759375000) <= - 5 / 107.
Proof.
  set (P := 681884309 / 759375000). assert (HP : 0 < P) by (unfold P; lra).
  assert (A : / 10 ^ 3 <= P ^ 64).
  { unfold P. rewrite ratio_pow by lia. replace (/ 10 ^ 3) with (IZR 1 / IZR 1000) by lra. apply ratio_le; [lia|apply Z.pow_pos_nonneg; lia|]. apply Zle_bool_imp_le. vm_compute. reflexivity. }
  assert (B : P ^ 107 <= / 10 ^ 5).
  { unfold P. rewrite ratio_pow by lia. replace (/ 10 ^ 5) with (IZR 1 / IZR 100000) by lra. apply ratio_le; [apply Z.pow_pos_nonneg; lia|lia|]. apply Zle_bool_imp_le. vm_compute. reflexivity. }
  clearbody P. apply lg_le in A; [|apply Rinv_0_lt_compat, pow_lt; lra]. apply lg_le in B; [|apply pow_lt; assumption].
  rewrite lg_inv, lg_ten, lg_pow in A by (try apply pow_lt; lra). rewrite lg_inv, lg_ten, lg_pow in B by (try apply pow_lt; lra).
  rewrite !INR_IZR_INZ in *. cbn [Z.of_nat Pos.of_succ_nat Pos.succ] in *. split; lra.
Qed.
(** ** When there is a magnitude *)
Lemma sub_lat_limit a b : 27 < sub_lat_geoc a b <-> 729 < a * b.
Proof.
  unfold sub_lat_geoc. destruct (Rle_dec 0 (a * b)) as [P|P]; [|split; lra]. split; intros H.
  - pose proof (sqrt_sqrt _ P). nra.
  - replace 27 with (sqrt (27 * 27)) by (apply sqrt_square; lra). apply sqrt_lt_1; lra.
Qed.
Lemma base_none p ph sl ol y : 0 <= ph <= 180 ->
  (base p ph sl ol y = None <-> (p = Saturn /\ (6.5 < ph \/ 729 < sl * ol)) \/ (p = Neptune /\ 1.9 < ph /\ y < 2000)).
Proof.
  intros H. unfold base.
  assert (B1 : distance_factor 1 1 = Some 0) by (rewrite df1 by lra; replace (1 * 1) with 1 by ring; rewrite lg_1; f_equal; ring).
  assert (B2 : distance_factor2 1 1 = Some 0) by (rewrite df2 by lra; replace (1 * 1) with 1 by ring; rewrite lg_1; f_equal; ring).
  destruct p; cbn [magnitude_of]; unfold mercury_magnitude, venus_magnitude, earth_magnitude, mars_magnitude, jupiter_magnitude, saturn_magnitude, uranus_magnitude, neptune_magnitude; cbv zeta; rewrite ?B1, ?B2.
  1-4: split; [cbn; discriminate|intros [[? _]|[? _]]; discriminate].
  - split; [|intros [[? _]|[? _]]; discriminate]. destruct (Rle_dec ph 12); [cbn; discriminate|].
    rewrite log10_lg by (pose proof (jupiter_low (ph / 180) ltac:(lra)); lra). cbn. discriminate.
  - rewrite <- sub_lat_limit. split.
    + intros N. left. split; [reflexivity|]. destruct (Rle_dec ph 6.5) as [A|A]; [|left; lra]. destruct (Rle_dec (sub_lat_geoc sl ol) 27) as [B|B]; [cbn in N; discriminate|right; lra].
    + intros [[_ C]|[? _]]; [|discriminate].
      destruct (Rle_dec ph 6.5) as [A|A]; [destruct (Rle_dec (sub_lat_geoc sl ol) 27) as [B|B]; [lra|]|]; rewrite andb_false_r; reflexivity.
  - split; [cbn; discriminate|intros [[? _]|[? _]]; discriminate].
  - destruct (Rlt_dec 1.9 ph) as [A|A]; [destruct (Rle_dec 2000 y) as [B|B]|]; cbn.
    + split; [discriminate|intros [[? _]|(_ & _ & ?)]; [discriminate|lra]].
    + split; [intros _; right; repeat split; lra|reflexivity].
    + split; [discriminate|intros [[? _]|(_ & ? & _)]; [discriminate|lra]].
Qed.
(** ** Steps *)
Lemma sine_of_sub a b : 0 <= sub_lat_geoc a b <= 27 -> -1 <= sin (sub_lat_geoc a b / (360 / tau)) <= 1.
Proof. intros _. apply SIN_bound. Qed.
Lemma step_through m1 m2 k1 k2 j L a c b : Rabs (k1 - m1) <= L * (c - a) -> Rabs (k2 - k1) <= j -> Rabs (m2 - k2) <= L * (b - c) -> Rabs (m2 - m1) <= j + L * (b - a).
Proof.
  intros H1 H2 H3. replace (m2 - m1) with ((m2 - k2) + (k2 - k1) + (k1 - m1)) by ring.
  pose proof (Rabs_triang (m2 - k2 + (k2 - k1)) (k1 - m1)). pose proof (Rabs_triang (m2 - k2) (k2 - k1)). lra.
Qed.
Ltac ab := apply Rabs_le; split; lra.
Lemma base_steps p a b sl ol y m1 m2 : 0 <= a -> a <= b -> b <= 180 -> base p a sl ol y = Some m1 -> base p b sl ol y = Some m2 ->
  Rabs (m2 - m1) <= (match p with Venus => 0.0073 | Mars => 0.0008 | Jupiter => 0.0005 | Uranus => 0.0215 | Neptune => 0.0155 | _ => 0 end) + 200 * (b - a).
Proof.
  intros Ha Hab Hb. unfold base.
  assert (B1 : distance_factor 1 1 = Some 0) by (rewrite df1 by lra; replace (1 * 1) with 1 by ring; rewrite lg_1; f_equal; ring).
  assert (B2 : distance_factor2 1 1 = Some 0) by (rewrite df2 by lra; replace (1 * 1) with 1 by ring; rewrite lg_1; f_equal; ring).
  pose proof (powers a b Ha Hab Hb) as (P2 & P3 & P4 & P5 & P6).
  destruct p; cbn [magnitude_of]; unfold mercury_magnitude, venus_magnitude, earth_magnitude, mars_magnitude, jupiter_magnitude, saturn_magnitude, uranus_magnitude, neptune_magnitude; cbv zeta; rewrite ?B1, ?B2.
  - cbn [plus]. intros E1 E2. injection E1 as <-. injection E2 as <-. ab.
  - cbn [plus]. intros E1 E2. injection E1 as <-. injection E2 as <-.
    destruct (Rlt_dec a 163.7) as [A|A], (Rlt_dec b 163.7) as [B|B]; [ab| |lra|ab].
    pose proof (powers a 163.7 Ha ltac:(lra) ltac:(lra)) as (L2 & L3 & L4 & _). pose proof (powers 163.7 b ltac:(lra) ltac:(lra) Hb) as (M2 & M3 & M4 & _). ab.
  - cbn [plus]. intros E1 E2. injection E1 as <-. injection E2 as <-. ab.
  - cbn [plus]. intros E1 E2. injection E1 as <-. injection E2 as <-.
    destruct (Rle_dec a 50) as [A|A], (Rle_dec b 50) as [B|B]; [ab| |lra|ab].
    pose proof (powers a 50 Ha ltac:(lra) ltac:(lra)) as (L2 & L3 & L4 & _). pose proof (powers 50 b ltac:(lra) ltac:(lra) Hb) as (M2 & M3 & M4 & _). ab.
  - destruct (Rle_dec a 12) as [A|A], (Rle_dec b 12) as [B|B]; [| |lra|].
    + cbn [plus]. intros E1 E2. injection E1 as <-. injection E2 as <-. ab.
    + rewrite log10_lg by (pose proof (jupiter_low (b / 180) ltac:(lra)); lra). cbn [plus times option_map]. intros E1 E2. injection E1 as <-. injection E2 as <-.
      pose proof (jupiter_log_slope 12 b ltac:(lra) ltac:(lra) Hb) as J. rewrite jupiter_at_12 in J. pose proof jupiter_lg_12 as K.
      pose proof (powers a 12 Ha ltac:(lra) ltac:(lra)) as (L2 & _). set (l := lg (681884309 / 759375000)) in *. set (lb := lg (jupiter_polynomial (b / 180))) in *. clearbody l lb. apply Rcomplements.Rabs_le_between in J. ab.
    + rewrite !log10_lg by (first [pose proof (jupiter_low (b / 180) ltac:(lra)); lra | pose proof (jupiter_low (a / 180) ltac:(lra)); lra]). cbn [plus times option_map]. intros E1 E2. injection E1 as <-. injection E2 as <-.
      pose proof (jupiter_log_slope a b Ha Hab Hb) as J. set (la := lg (jupiter_polynomial (a / 180))) in *. set (lb := lg (jupiter_polynomial (b / 180))) in *. clearbody la lb. apply Rcomplements.Rabs_le_between in J. ab.
  - destruct (Rle_dec a 6.5) as [A|A]; [|rewrite andb_false_r; discriminate]. destruct (Rle_dec b 6.5) as [B|B]; [|rewrite !andb_false_r; intros; discriminate].
    destruct (Rle_dec (sub_lat_geoc sl ol) 27); [|rewrite andb_false_r; discriminate].
    set (s := sin (sub_lat_geoc sl ol / (360 / tau))). assert (S : -1 <= s <= 1) by apply SIN_bound. clearbody s.
    pose proof (exp_slope a b Ha Hab) as X. cbn [plus]. intros E1 E2. injection E1 as <-. injection E2 as <-.
    assert (T : -1 * (exp (-2.25 * a) - exp (-2.25 * b)) <= s * (exp (-2.25 * a) - exp (-2.25 * b)) <= 1 * (exp (-2.25 * a) - exp (-2.25 * b))) by (split; apply Rmult_le_compat_r; lra).
    ab.
  - cbn [plus]. intros E1 E2. injection E1 as <-. injection E2 as <-. set (q := (Rabs sl + Rabs ol) / 2). clearbody q.
    destruct (Rlt_dec 3.1 a) as [A|A], (Rlt_dec 3.1 b) as [B|B]; [ab|lra| |ab].
    pose proof (powers 3.1 b ltac:(lra) ltac:(lra) Hb) as (M2 & _). ab.
  - set (q := clipped _ _ _). clearbody q.
    destruct (Rlt_dec 1.9 a) as [A|A], (Rlt_dec 1.9 b) as [B|B]; try lra; try (destruct (Rle_dec 2000 y); [|intros; discriminate]);
      cbn [plus]; intros E1 E2; injection E1 as <-; injection E2 as <-; [ab| |ab].
    pose proof (powers 1.9 b ltac:(lra) ltac:(lra) Hb) as (M2 & _). ab.
Qed.

(** ** The function itself *)
Definition to_rad (d : R) := d * PI / 180.
Lemma degrees_back a : to_rad (degrees_of a) = a.
Proof. unfold to_rad, degrees_of, tau. pose proof PI_RGT_0. field. lra. Qed.
Lemma degrees_range a : 0 <= a <= PI -> 0 <= degrees_of a <= 180.
Proof.
  intros H. unfold degrees_of, tau. pose proof PI_RGT_0 as P. replace (a * (360 / (2 * PI))) with (180 * (a / PI)) by (field; lra).
  assert (0 <= a / PI <= 1); [|lra]. split; [apply Rmult_le_pos; [lra|apply Rlt_le, Rinv_0_lt_compat; lra]|]. apply Rmult_le_reg_r with PI; [assumption|]. unfold Rdiv. rewrite Rmult_assoc, Rinv_l by lra. lra.
Qed.
(** [p] is seen from a place in the direction [d]: the latitude below which that
    place stands. *)
Lemma sub_latitude pole d : pole <> vzero -> d <> vzero ->
  let lat := degrees_of (angle_between pole d) - 90 in
  -90 <= lat <= 90 /\ vlength pole * vlength d * sin (to_rad lat) = dot pole (vopp d).
Proof.
  intros Hp Hd lat. destruct (angle_ok pole d Hp Hd) as [B C]. pose proof (degrees_range _ B). split; [unfold lat; lra|].
  assert (E : to_rad lat = - (PI / 2 - angle_between pole d)).
  { unfold lat. rewrite <- (degrees_back (angle_between pole d)) at 2. unfold to_rad. field. }
  rewrite E, sin_neg, sin_shift. replace (dot pole (vopp d)) with (- dot pole d) by (unfold dot, vopp; cbn; ring). rewrite <- C. ring.
Qed.
Lemma pole_ne p : p = Saturn \/ p = Uranus -> pole_of p <> vzero.
Proof. intros [-> | -> ] E; cbn in E; unfold saturn_pole, uranus_pole, vzero in E; injection E; lra. Qed.
Lemma other_lat p r d ph s1 o1 s2 o2 y : p <> Saturn -> p <> Uranus -> magnitude_of p r d ph s1 o1 y = magnitude_of p r d ph s2 o2 y.
Proof. destruct p; intros; try reflexivity; contradiction. Qed.
Lemma vopp_ne u : u <> vzero -> vopp u <> vzero.
Proof. intros H E. apply H. destruct u as [a b c]. unfold vopp, vzero in *. cbn in E. injection E as A B C. f_equal; lra. Qed.
Lemma vlength_opp u : vlength (vopp u) = vlength u.
Proof. unfold vlength, vopp. cbn. f_equal. ring. Qed.
(** The geometry that the function uses: [o] is the observer, [q] the planet, the
    Sun at the origin. *)
Lemma magnitude_geometry target p o q year : magnitude_function target = Some p -> q <> vzero -> q <> o ->
  exists ph ls lo, 
    (0 <= ph <= 180 /\ vlength q * vlength (vsub q o) * cos (to_rad ph) = dot (vopp q) (vsub o q)) /\
    (-90 <= ls <= 90 /\ (p = Saturn \/ p = Uranus -> vlength (pole_of p) * vlength q * sin (to_rad ls) = dot (pole_of p) (vopp q))) /\
    (-90 <= lo <= 90 /\ (p = Saturn \/ p = Uranus -> vlength (pole_of p) * vlength (vsub q o) * sin (to_rad lo) = dot (pole_of p) (vsub o q))) /\
    planetary_magnitude target o (vsub q o) year = Magnitude (magnitude_of p (vlength q) (vlength (vsub q o)) ph ls lo year).
Proof.
  intros Hf Hq Ho. assert (E : vadd o (vsub q o) = q) by (destruct o, q; unfold vadd, vsub; cbn; f_equal; ring).
  assert (Hd : vsub q o <> vzero).
  { intros Z. apply Ho. rewrite <- E, Z. destruct o. unfold vadd, vzero. cbn. f_equal; ring. }
  unfold planetary_magnitude. rewrite Hf, E. set (d := vsub q o) in *.
  assert (F : vsub o q = vopp d) by (unfold d, vsub, vopp; cbn; f_equal; ring). rewrite F.
  destruct (angle_ok q d Hq Hd) as [B C].
  assert (P : 0 <= degrees_of (angle_between q d) <= 180 /\ vlength q * vlength d * cos (to_rad (degrees_of (angle_between q d))) = dot (vopp q) (vopp d)).
  { split; [apply degrees_range; assumption|]. rewrite degrees_back, C. unfold dot, vopp. cbn. ring. }
  assert (K : (p = Saturn \/ p = Uranus) \/ (p <> Saturn /\ p <> Uranus)) by (destruct p; (left; left; reflexivity) || (left; right; reflexivity) || (right; split; discriminate)).
  destruct K as [K|[K1 K2]].
  - exists (degrees_of (angle_between q d)), (degrees_of (angle_between (pole_of p) q) - 90), (degrees_of (angle_between (pole_of p) d) - 90).
    destruct (sub_latitude (pole_of p) q (pole_ne p K) Hq) as [S1 S2]. destruct (sub_latitude (pole_of p) d (pole_ne p K) Hd) as [T1 T2].
    split; [exact P|]. split; [split; [exact S1|intros _; exact S2]|]. split; [split; [exact T1|intros _; exact T2]|reflexivity].
  - exists (degrees_of (angle_between q d)), 0, 0. split; [exact P|]. split; [split; [lra|intros [?|?]; contradiction]|]. split; [split; [lra|intros [?|?]; contradiction]|].
    f_equal. apply other_lat; assumption.
Qed.
Lemma magnitude_accepts target o d year : planetary_magnitude target o d year = Cannot_compute <->
  ~ List.In target (1 :: 2 :: 4 :: 5 :: 6 :: 7 :: 8 :: 199 :: 299 :: 399 :: 499 :: 599 :: 699 :: 799 :: 899 :: nil)%Z.
Proof.
  assert (A : planetary_magnitude target o d year = Cannot_compute <-> magnitude_function target = None).
  { unfold planetary_magnitude. destruct (magnitude_function target); split; intros; [discriminate|discriminate|reflexivity|reflexivity]. }
  rewrite A. split.
  - intros H I. cbn in I. repeat (destruct I as [<-|I]; [discriminate H|]). exact I.
  - intros N. destruct (magnitude_function target) eqn:F; [|reflexivity]. exfalso. apply N. clear - F. unfold magnitude_function in F.
    repeat match type of F with context [match ?x with _ => _ end] => is_var x; destruct x; try discriminate F end; cbn; tauto.
Qed.
Lemma magnitude_scaled target o d year k m : 0 < k -> d <> vzero -> vadd o d <> vzero ->
  planetary_magnitude target o d year = Magnitude (Some m) -> planetary_magnitude target (smul k o) (smul k d) year = Magnitude (Some (m + 10 * lg k)).
Proof.
  intros Hk Hd Hs. unfold planetary_magnitude. destruct (magnitude_function target) as [p|]; [|discriminate].
  replace (vadd (smul k o) (smul k d)) with (smul k (vadd o d)) by (unfold smul, vadd; cbn; f_equal; ring).
  set (q := vadd o d) in *. rewrite !smul_length, !Rabs_right by lra.
  pose proof (vlength_ne _ Hd) as Ld. pose proof (vlength_ne _ Hs) as Lq.
  assert (A : angle_between (smul k q) (smul k d) = angle_between q d) by (rewrite angle_scale by (try apply smul_ne; assumption); rewrite angle_sym, angle_scale, angle_sym by assumption; reflexivity).
  rewrite A. set (ph := degrees_of (angle_between q d)).
  assert (S : forall s o' s' o'', (p = Saturn \/ p = Uranus -> s = s' /\ o' = o'') -> magnitude_of p (k * vlength q) (k * vlength d) ph s o' year = magnitude_of p (k * vlength q) (k * vlength d) ph s' o'' year).
  { intros. destruct p; try reflexivity; destruct H; auto; subst; reflexivity. }
  intros E. rewrite (S _ _ (degrees_of (angle_between (pole_of p) q) - 90) (degrees_of (angle_between (pole_of p) d) - 90)).
  2: { intros K. split; f_equal; f_equal; rewrite angle_sym, angle_scale, angle_sym by (try apply pole_ne; assumption); reflexivity. }
  rewrite by_distance in E by assumption. rewrite by_distance by (apply Rmult_lt_0_compat; assumption).
  destruct (base p ph _ _ year) as [b|]; [|discriminate]. cbn [option_map] in *. injection E as <-. do 2 f_equal.
  replace (k * vlength q * (k * vlength d)) with (k * k * (vlength q * vlength d)) by ring. rewrite (lg_mult (k * k)), (lg_mult k) by (repeat apply Rmult_lt_0_compat; assumption). ring.
Qed.
(** Farther is fainter. *)
Lemma lg_lt x y : 0 < x -> x < y -> lg x < lg y.
Proof. intros Hx Hy. unfold lg. apply Rmult_lt_compat_r; [apply Rinv_0_lt_compat; pose proof ln10_2; lra|]. apply ln_increasing; assumption. Qed.
Lemma magnitude_distance p r d r' d' ph sl ol y m m' : 0 < r -> 0 < d -> 0 < r' -> 0 < d' ->
  magnitude_of p r d ph sl ol y = Some m -> magnitude_of p r' d' ph sl ol y = Some m' ->
  m' - m = 5 * (lg (r' * d') - lg (r * d)) /\ (r * d < r' * d' -> m < m').
Proof.
  intros Hr Hd Hr' Hd'. rewrite !by_distance by assumption. destruct (base p ph sl ol y) as [b|]; [|discriminate]. cbn [option_map]. intros E1 E2. injection E1 as <-. injection E2 as <-.
  split; [lra|]. intros L. pose proof (lg_lt (r * d) (r' * d') ltac:(apply Rmult_lt_0_compat; assumption) L). lra.
Qed.
Lemma magnitude_none p r d ph sl ol y : 0 < r -> 0 < d -> 0 <= ph <= 180 ->
  (magnitude_of p r d ph sl ol y = None <-> (p = Saturn /\ (6.5 < ph \/ 729 < sl * ol)) \/ (p = Neptune /\ 1.9 < ph /\ y < 2000)).
Proof.
  intros. rewrite by_distance by assumption. rewrite <- (base_none p ph sl ol y) by assumption. destruct (base p ph sl ol y); cbn; split; congruence.
Qed.
Lemma magnitude_steps p r d a b sl ol y m1 m2 : 0 < r -> 0 < d -> 0 <= a -> a <= b -> b <= 180 ->
  magnitude_of p r d a sl ol y = Some m1 -> magnitude_of p r d b sl ol y = Some m2 ->
  Rabs (m2 - m1) <= (match p with Venus => 0.0073 | Mars => 0.0008 | Jupiter => 0.0005 | Uranus => 0.0215 | Neptune => 0.0155 | _ => 0 end) + 200 * (b - a).
Proof.
  intros Hr Hd Ha Hab Hb. rewrite !by_distance by assumption. destruct (base p a sl ol y) as [x|] eqn:X; [|discriminate]. destruct (base p b sl ol y) as [z|] eqn:Z; [|discriminate].
  cbn [option_map]. intros E1 E2. injection E1 as <-. injection E2 as <-. replace (5 * lg (r * d) + z - (5 * lg (r * d) + x)) with (z - x) by ring. apply (base_steps p a b sl ol y); assumption.
Qed.
(** The documented exception for Saturn is not the only one. *)
Lemma saturn_pole_on : exists o q, q <> vzero /\ q <> o /\ vlength q * vlength (vsub q o) * cos (to_rad 0) = dot (vopp q) (vsub o q) /\
  planetary_magnitude 699 o (vsub q o) 2020 = Magnitude None.
Proof.
  set (q := smul (-9) saturn_pole). exists vzero, q.
  assert (Hq : q <> vzero) by (unfold q, saturn_pole, smul, vzero; cbn; intros E; injection E; lra).
  assert (E : vsub q vzero = q) by (unfold q, vsub, vzero, smul, saturn_pole; cbn; f_equal; ring). rewrite E.
  assert (F : vsub vzero q = vopp q) by (unfold q, vsub, vzero, smul, saturn_pole, vopp; cbn; f_equal; ring). rewrite F.
  split; [assumption|]. split; [assumption|].
  assert (D0 : to_rad 0 = 0) by (unfold to_rad; lra). rewrite D0, cos_0. split.
  { pose proof (vlength_sq q) as S. fold (dot q q) in S. rewrite Rmult_1_r, S. unfold dot, vopp. cbn. ring. }
  unfold planetary_magnitude. cbn [magnitude_function pole_of].
  replace (vadd vzero q) with q by (unfold q, vadd, vzero, smul, saturn_pole; cbn; f_equal; ring).
  f_equal. pose proof (vlength_ne q Hq) as L. pose proof (angle_ok q q Hq Hq) as [B _]. apply magnitude_none; [assumption|assumption|apply degrees_range; assumption|].
  left. split; [reflexivity|]. right.
  assert (A : angle_between saturn_pole q = PI). { unfold q. replace (-9) with (- (9)) by ring. apply angle_extremes; [|lra]. unfold saturn_pole, vzero. intros Z. injection Z. lra. }
  rewrite A. replace (degrees_of PI) with 180; [lra|]. unfold degrees_of, tau. pose proof PI_RGT_0. field. lra.
Qed.

(** ** Phase angle *)
Lemma phase_ok target center sun : let q := vadd center target in target <> vzero -> q <> sun ->
  0 <= phase_angle target center sun <= PI /\
  vlength (vsub sun q) * vlength (vsub center q) * cos (phase_angle target center sun) = dot (vsub sun q) (vsub center q).
Proof.
  intros q Ht Hs. unfold phase_angle. assert (E : vadd (vsub target sun) center = vopp (vsub sun q)) by (unfold q, vadd, vsub, vopp; cbn; f_equal; ring). rewrite E.
  assert (F : vsub center q = vopp target) by (unfold q, vadd, vsub, vopp; cbn; f_equal; ring). rewrite F.
  assert (N : vsub sun q <> vzero). { intros Z. apply Hs. destruct sun, q. unfold vsub, vzero in Z. cbn in Z. injection Z as A B C. f_equal; lra. }
  destruct (angle_ok target (vopp (vsub sun q)) Ht (vopp_ne _ N)) as [B C]. split; [assumption|]. rewrite !vlength_opp in *.
  replace (dot (vsub sun q) (vopp target)) with (dot target (vopp (vsub sun q))) by (unfold dot, vopp; cbn; ring). rewrite <- C. ring.
Qed.
Lemma fraction_ok target center sun : 0 <= fraction_illuminated target center sun <= 1.
Proof. unfold fraction_illuminated. pose proof (COS_bound (phase_angle target center sun)). lra. Qed.
Lemma fraction_order t c s t' c' s' : t <> vzero -> vadd c t <> s -> t' <> vzero -> vadd c' t' <> s' ->
  (fraction_illuminated t c s < fraction_illuminated t' c' s' <-> phase_angle t' c' s' < phase_angle t c s).
Proof.
  intros A B A' B'. destruct (phase_ok t c s A B) as [R1 _]. destruct (phase_ok t' c' s' A' B') as [R2 _]. unfold fraction_illuminated. split; intros H.
  - apply cos_decreasing_0; lra.
  - pose proof (cos_decreasing_1 _ _ (proj1 R2) (proj2 R2) (proj1 R1) (proj2 R1) H). lra.
Qed.
Lemma fraction_full t c s : t <> vzero -> vadd c t <> s -> (fraction_illuminated t c s = 1 <-> phase_angle t c s = 0) /\ (fraction_illuminated t c s = 0 <-> phase_angle t c s = PI).
Proof.
  intros A B. destruct (phase_ok t c s A B) as [R1 _]. pose proof PI_RGT_0. unfold fraction_illuminated. split; split; intros H'.
  - apply cos_inj; [assumption|lra|]. rewrite cos_0. lra.
  - rewrite H', cos_0. lra.
  - apply cos_inj; [assumption|lra|]. rewrite cos_PI. lra.
  - rewrite H', cos_PI. lra.
Qed.
(** The lit part of a ball. On the disc seen by the observer, take the chord of half
    length [w] that runs towards the Sun's side. The point of the ball over the
    place [x] of the chord has height [sqrt (w * w - x * x)]; the Sun stands at the
    angle [a] from the observer's direction. *)
Lemma sin_ge_0_iff d : - PI < d < PI -> (0 <= sin d <-> 0 <= d).
Proof.
  intros H. split; intros H'.
  - destruct (Rle_lt_dec 0 d); [assumption|]. pose proof (sin_lt_0_var d ltac:(lra) ltac:(lra)). lra.
  - apply sin_ge_0; lra.
Qed.
Lemma lit_chord a w x : 0 <= a <= PI -> 0 < w -> - w < x < w -> (0 <= x * sin a + sqrt (w * w - x * x) * cos a <-> w - 2 * w * (/ 2 * (1 + cos a)) <= x).
Proof.
  intros Ha Hw Hx. set (t := acos (- x / w)).
  assert (Hr : -1 < - x / w < 1).
  { split; apply Rmult_lt_reg_r with w; try assumption; unfold Rdiv; rewrite Rmult_assoc, Rinv_l by lra; lra. }
  assert (C : cos t = - x / w) by (apply cos_acos; lra). pose proof (acos_bound_lt (- x / w) Hr) as B. fold t in B.
  assert (X : x = - (w * cos t)) by (rewrite C; field; lra).
  assert (S : sqrt (w * w - x * x) = w * sin t).
  { assert (0 < sin t) by (apply sin_gt_0; lra). rewrite <- (sqrt_square (w * sin t)) by (apply Rmult_le_pos; lra). f_equal. rewrite X. pose proof (sc2 t) as Q. nra. }
  rewrite S. replace (x * sin a + w * sin t * cos a) with (w * sin (t - a)) by (rewrite sin_minus, X; ring). clearbody t. clear S C Hr Hx. subst x.
  split; intros H.
  - assert (H0 : 0 <= sin (t - a)) by nra. apply (proj1 (sin_ge_0_iff (t - a) ltac:(lra))) in H0.
    assert (cos t <= cos a) by (apply cos_decr_1; lra). nra.
  - assert (cos t <= cos a) by nra. assert (a <= t) by (apply cos_decr_0; lra).
    apply Rmult_le_pos; [lra|]. apply sin_ge_0; lra.
Qed.
Lemma node_ok p : moon_node_at p = true <-> 0 < vz p.
Proof.
  unfold moon_node_at. destruct (to_spherical p) as [[r lat] lon] eqn:E. destruct (spherical_back p r lat lon E) as (F & Hr & Hl & _).
  assert (Z : vz p = r * sin lat) by (rewrite <- F; unfold from_spherical; cbn; ring).
  assert (R0 : 0 <= r) by (rewrite Hr; apply sqrt_pos).
  pose proof PI_RGT_0. destruct (Rlt_dec 0 lat) as [L|L]; split; try (intros; reflexivity); try discriminate.
  - intros _. rewrite Z. assert (S : 0 < sin lat) by (apply sin_gt_0; lra). apply Rmult_lt_0_compat; [|assumption].
    destruct (Rle_lt_or_eq_dec _ _ R0) as [G|G]; [assumption|]. exfalso. rewrite Hr in G. symmetry in G. apply vlength_zero in G. rewrite G in E.
    unfold to_spherical, hypot in E. cbn in E. injection E as _ E _. replace (0 * 0 + 0 * 0) with 0 in E by ring. rewrite sqrt_0, atan2_00 in E. lra.
  - intros P. exfalso. assert (sin lat <= 0) by (destruct (Req_dec lat 0) as [->|N]; [rewrite sin_0; lra|apply Rlt_le, sin_lt_0_var; lra]).
    rewrite Z in P. nra.
Qed.
