(** Library functions of the kind that is asked for. *)
From Coq Require Import ZArith Reals Lia Lra Psatz Bool.
From Coq.Floats Require Import SpecFloat.
From Flocq Require Import Core BinarySingleNaN.
From Verif Require Import Pi_Bounds Float64 Float64_Proofs Float_Time_Proofs Float_Time_Proofs4 CalF_Proofs2 SexaF_Proofs2 Real_Math Real_Math_Proofs Vector_Model Vector_Proofs Vector_Proofs2 Geo_Model Geo_Proofs Measure_Model Wrap_Model Wrap_Spec Wrap_Proofs2 SepF_Model SepF_Spec SepF_Proofs SepF_Proofs2 SphF_Model SphF_Spec SphF_Proofs SphF_Proofs2.
Open Scope R_scope.

Definition nearest_bf (x : R) : bf := binary_normalize 53 1024 Hprec Hmax mode_NE (ZnearestE (scaled_mantissa radix2 (SpecFloat.fexp 53 1024) x)) (cexp radix2 (SpecFloat.fexp 53 1024) x) false.
Lemma nearest_bf_val x : Rabs x < bpow radix2 1000 -> is_finite (nearest_bf x) = true /\ B2R (nearest_bf x) = rnd x.
Proof.
  intros H. pose proof (binary_normalize_correct 53 1024 Hprec Hmax mode_NE (ZnearestE (scaled_mantissa radix2 (SpecFloat.fexp 53 1024) x)) (cexp radix2 (SpecFloat.fexp 53 1024) x) false) as C. fold (nearest_bf x) in C.
  change (F2R (Float radix2 (ZnearestE (scaled_mantissa radix2 (SpecFloat.fexp 53 1024) x)) (cexp radix2 (SpecFloat.fexp 53 1024) x))) with (rnd x) in C. change (round_mode mode_NE) with ZnearestE in C.
  assert (G : rnd (rnd x) = rnd x) by (apply round_generic; [apply valid_rnd_N|apply generic_format_round; [apply (fexp_correct 53 1024 Hprec)|apply valid_rnd_N]]). cbv zeta in C. rewrite G in C.
  rewrite Rlt_bool_true in C; [destruct C as (V & F & _); auto|]. pose proof (SexaF_Proofs2.rnd_err x) as E. pose proof eps_small. assert (E1 : eta <= 1) by (change 1 with (bpow radix2 0); apply bpow_le; lia). assert (1 <= bpow radix2 1000) by (change 1 with (bpow radix2 0); apply bpow_le; lia).
  assert (bpow radix2 1000 * 1024 <= bpow radix2 1024) by (change 1024 with (bpow radix2 10); rewrite <- bpow_plus; apply bpow_le; lia). replace (rnd x) with (x + (rnd x - x)) by ring. apply Rle_lt_trans with (1 := Rabs_triang _ _). pose proof (Rabs_pos x). assert (eps * Rabs x <= Rabs x) by nra. lra.
Qed.
Lemma rounding x : Rabs (rnd x - x) <= Rabs x / 2 ^ 52 + / 2 ^ 900.
Proof.
  apply Rle_trans with (1 := SexaF_Proofs2.rnd_err x). apply Rplus_le_compat; [unfold eps; pose proof (Rabs_pos x); lra|]. rewrite pow_bpow, <- bpow_opp. apply bpow_le. lia.
Qed.
Lemma small_bpow x : Rabs x <= 1024 -> Rabs x < bpow radix2 1000.
Proof. intros H. apply Rle_lt_trans with (1 := H). change 1024 with (bpow radix2 10). apply bpow_lt. lia. Qed.
Lemma some_function F : (forall x, Rabs (F x) <= 1) -> exists g, good_function g F.
Proof.
  intros B. exists (fun x => B2SF (nearest_bf (F (SF2R radix2 x)))). intros x Fx _. rewrite SF2R_B2SF. pose proof (B (B2R x)) as Bx. destruct (nearest_bf_val (F (B2R x))) as [G V]; [apply small_bpow; lra|]. exists (nearest_bf (F (B2R x))). split; [reflexivity|]. split; [exact G|]. rewrite V. apply rounding.
Qed.
Lemma some_direction : exists f, good_direction f.
Proof.
  exists (fun y x => B2SF (nearest_bf (atan2 (SF2R radix2 y) (SF2R radix2 x)))). intros y x Fy Fx. rewrite !SF2R_B2SF. set (t := atan2 (B2R y) (B2R x)).
  assert (D : direction (B2R x) (B2R y) t).
  { unfold direction. fold (rho (B2R x) (B2R y)). unfold t. destruct (Req_dec (B2R x) 0) as [Ex|Nx]; [destruct (Req_dec (B2R y) 0) as [Ey|Ny]|].
    - rewrite Ex, Ey. rewrite atan2_00. unfold rho. replace (0 * 0 + 0 * 0) with 0 by ring. rewrite sqrt_0. pose proof PI_RGT_0. split; [lra|]. split; ring.
    - destruct (atan2_spec (B2R y) (B2R x) (or_intror Ny)) as (C & S & B). split; [lra|]. split; symmetry; assumption.
    - destruct (atan2_spec (B2R y) (B2R x) (or_introl Nx)) as (C & S & B). split; [lra|]. split; symmetry; assumption. }
  exists t. split; [exact D|]. destruct D as ((B1 & B2) & _). pose proof PI_4 as P4. assert (Bt : Rabs t <= 4) by (apply Rabs_le; lra). destruct (nearest_bf_val t) as [G V]; [apply small_bpow; lra|]. exists (nearest_bf t). split; [reflexivity|]. split; [exact G|]. rewrite V.
  apply Rabs_le_inv in Bt. pose proof (Wrap_Proofs2.rnd_err t 3 ltac:(lia) ltac:(change (bpow radix2 3) with 8; lra)) as R. change (bpow radix2 (3 - 54)) with (/ 2251799813685248) in R. apply Rabs_le. lra.
Qed.
Lemma some_hypot : exists h, good_hypot h.
Proof.
  exists (fun x y => B2SF (nearest_bf (sqrt (SF2R radix2 x * SF2R radix2 x + SF2R radix2 y * SF2R radix2 y)))). intros x y Fx Fy Hx Hy. rewrite !SF2R_B2SF. set (q := sqrt (B2R x * B2R x + B2R y * B2R y)). assert (Pq : 0 <= q) by apply sqrt_pos.
  assert (Uq : q <= 2 ^ 201). { unfold q. replace (2 ^ 201) with (2 * 2 ^ 200) by (simpl; ring). assert (P2 : 0 < 2 ^ 200) by (apply pow_lt; lra). set (m := 2 ^ 200) in *. clearbody m. rewrite <- (sqrt_square (2 * m)) by lra. apply sqrt_le_1_alt. apply Rabs_le_inv in Hx. apply Rabs_le_inv in Hy. assert (B2R x * B2R x <= m * m) by nra. assert (B2R y * B2R y <= m * m) by nra. assert (0 <= m * m) by nra. lra. }
  destruct (nearest_bf_val q) as [G V]; [rewrite Rabs_pos_eq by exact Pq; apply Rle_lt_trans with (1 := Uq); rewrite pow_bpow; apply bpow_lt; lia|]. exists (nearest_bf q). split; [reflexivity|]. split; [exact G|]. rewrite V. split; [apply rnd_nonneg; exact Pq|]. pose proof (rounding q) as R. rewrite (Rabs_pos_eq q Pq) in R. exact R.
Qed.
Lemma some_sin : exists s, good_function s sin.
Proof. apply some_function. intros x. pose proof (SIN_bound x). apply Rabs_le. lra. Qed.
Lemma some_cos : exists c, good_function c cos.
Proof. apply some_function. intros x. pose proof (COS_bound x). apply Rabs_le. lra. Qed.

(** ** Statements *)
Lemma coordinates_ok f h p w : good_direction f -> good_hypot h -> stands_for p w -> ordinary w ->
  exists (r th ph : b64) (lat lon : R), to_spherical64 f h p = (r, th, ph) /\ placed w (vlength w) lat lon /\
    near (vlength w) (3 / 2 ^ 53 * vlength w) r /\ near lat (/ 2 ^ 50) th /\ near lon (3 / 2 ^ 51) ph /\ in_one_turn ph.
Proof.
  intros Gf Gh S O. destruct (spherical64_near f h p w Gf Gh S O) as (r & th & ph & b & lat & lon & E & W & Nr & Nt & Eb & Fb & Bb & Vb). exists r, th, ph, lat, lon. split; [exact E|]. split; [exact W|]. split; [|split; [exact Nt|split; [exists b; auto|exists b; auto]]].
  destruct Nr as (a & Ea & Fa & Va). exists a. split; [exact Ea|]. split; [exact Fa|]. apply Rle_trans with (1 := Va). apply Rmult_le_compat_r; [apply vlength_pos|]. unfold eps. lra.
Qed.
Lemma round_trip_ok : forall f h s c (r theta phi : bf), good_direction f -> good_hypot h -> good_function s sin -> good_function c cos ->
  is_finite r = true -> is_finite theta = true -> is_finite phi = true -> / 2 ^ 199 <= B2R r <= 2 ^ 199 -> Rabs (B2R theta) <= pi_float / 2 -> Rabs (B2R phi) <= 7 ->
  exists (r' th' ph' : b64) (n : Z), to_spherical64 f h (from_spherical64 s c (B2SF r) (B2SF theta) (B2SF phi)) = (r', th', ph') /\
    near (B2R r) (9 / 2 ^ 53 * B2R r) r' /\ near (B2R theta) (15 / 2 ^ 53) th' /\ near (B2R phi + 2 * PI * IZR n) (19 / 2 ^ 53) ph' /\ in_one_turn ph'.
Proof. intros. apply round_trip; assumption. Qed.
Lemma below_nanoarcsecond : 19 / 2 ^ 53 < / 2 * (/ 10 ^ 9 / 3600 * (PI / 180)).
Proof. pose proof PI2_3_2. lra. Qed.
(** The pole at a distance of one: the float that stands for 90 degrees. *)
Lemma pole_case : exists r theta phi : bf, is_finite r = true /\ is_finite theta = true /\ is_finite phi = true /\ / 2 ^ 199 <= B2R r <= 2 ^ 199 /\ Rabs (B2R theta) <= pi_float / 2 /\ Rabs (B2R phi) <= 7 /\ B2R r = 1 /\ B2R theta = pi_float / 2 /\ B2R phi = 2.
Proof.
  destruct (of_Z_bf 1) as (a & _ & Fa & Va); [unfold fits; lia|]. destruct (of_Z_bf 2) as (b & _ & Fb & Vb); [unfold fits; lia|]. destruct (fl_bf 7074237752028440 (-52)) as (t & _ & Ft & Vt); [split; lia|].
  assert (Et : B2R t = pi_float / 2). { rewrite Vt, F2R_neg. unfold pi_float, tau_float. change (IZR (Z.pow_pos 2 52)) with 4503599627370496. lra. }
  exists a, t, b. rewrite Va, Vb, Et. assert (P : 0 <= pi_float / 2) by (unfold pi_float, tau_float; lra). repeat (split; [assumption|]). split.
  { rewrite pow_bpow. split; [rewrite <- bpow_opp|]; change 1 with (bpow radix2 0); apply bpow_le; lia. }
  rewrite (Rabs_pos_eq _ P). rewrite Rabs_pos_eq by lra. repeat split; lra.
Qed.
