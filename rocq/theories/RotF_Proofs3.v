(** Any composition of rotations in floats. *)
From Coq Require Import ZArith Reals Lia Lra Psatz Bool.
From Coq.Floats Require Import SpecFloat.
From Flocq Require Import Core BinarySingleNaN.
From Verif Require Import Float64 Float64_Proofs Float_Time_Proofs Float_Time_Proofs4 CalF_Proofs2 SexaF_Proofs2 Real_Math Real_Math_Proofs Vector_Model Vector_Proofs Vector_Proofs2 Geo_Model Geo_Proofs Spin_Proofs2 SepF_Model SepF_Spec SepF_Proofs SepF_Proofs2 SphF_Spec RotF_Model RotF_Spec RotF_Proofs RotF_Proofs2.
Open Scope R_scope.

Section Library.
Variables (fsin fcos : b64 -> b64) (dot3 : fvec -> fvec -> b64) (dot9 : fvec -> fmat -> fvec -> b64).
Hypotheses (Gs : good_function fsin sin) (Gc : good_function fcos cos) (Gd : good_dot3 dot3) (G9 : good_dot9 dot9).
Definition off (n : nat) : R := (15 * INR n - 12.5) * eps.
Lemma number_pos t : (1 <= number t)%nat. Proof. induction t; cbn; lia. Qed.
Lemma number_range t : (Z.of_nat (number t) <= 1000000)%Z -> (1 <= Z.of_nat (number t) <= 1000000)%Z. Proof. pose proof (number_pos t). lia. Qed.
Lemma off_range n : (1 <= Z.of_nat n <= 1000000)%Z -> 0 <= off n <= / 100000000 /\ 1 <= INR n <= 1000000 .
Proof.
  intros [L U]. apply IZR_le in L. apply IZR_le in U. rewrite <- INR_IZR_INZ in L, U. pose proof eps_small as E. split; [|lra]. unfold off. split; [apply Rmult_le_pos; lra|]. apply Rle_trans with (15000000 * eps); [apply Rmult_le_compat_r; lra|unfold eps; lra].
Qed.
Lemma flip_acts d A F : acts d A F -> acts d (M3 (r3 A) (r2 A) (r1 A)) (fun v => swap (F v)).
Proof. intros H v. specialize (H v). rewrite <- (swap_length (vsub (mxv A v) (F v))) in H. exact H. Qed.
Lemma flip_acts_back d A F : acts d (transp A) F -> acts d (transp (M3 (r3 A) (r2 A) (r1 A))) (fun v => F (swap v)).
Proof.
  intros H v. specialize (H (swap v)). rewrite swap_length in H. replace (mxv (transp (M3 (r3 A) (r2 A) (r1 A))) v) with (mxv (transp A) (swap v)); [exact H|]. apply vec_eq; cbn; unfold dot; cbn; ring.
Qed.
Lemma tree t : usual_angles t -> (Z.of_nat (number t) <= 1000000)%Z -> exists A, fstands (turns64 fsin fcos dot3 dot9 t) A /\ acts (off (number t)) A (carried t false) /\ acts (off (number t)) (transp A) (carried t true).
Proof.
  pose proof eps_small as E. induction t as [x a|s IHs t IHt|s IHs t IHt u IHu|M k s IH|t IH|t IH]; intros U N; cbn [usual_angles] in U; cbn [number] in N.
  - destruct U as (b & -> & F & B). destruct (leaf fsin fcos Gs Gc x b F B) as (A & SA & H1 & H2). exists A. split; [destruct x; exact SA|]. cbn [carried number]. rewrite SF2R_B2SF. assert (D : d1 <= off 1) by (unfold d1, off; cbn [INR]; lra). split; intros v.
    + apply Rle_trans with (1 := H1 v). apply Rmult_le_compat_r; [apply vlength_pos|exact D].
    + apply Rle_trans with (1 := H2 v). apply Rmult_le_compat_r; [apply vlength_pos|exact D].
  - destruct U as [Us Ut]. pose proof (number_pos s) as Ns. pose proof (number_pos t) as Nt. destruct (IHs Us ltac:(lia)) as (A & SA & A1 & A2). destruct (IHt Ut ltac:(lia)) as (B & SB & B1 & B2). clear IHs IHt.
    destruct (off_range (number s) ltac:(lia)) as [Os Is]. destruct (off_range (number t) ltac:(lia)) as [Ot It].
    assert (RA : rows_le A 1.001). { destruct (acts_rows _ _ _ A2 (carried_length s true)) as (R1 & R2 & R3). repeat split; lra. }
    assert (RB : rows_le (transp B) 1.001). { destruct (acts_rows (off (number t)) (transp B) (carried t false)) as (R1 & R2 & R3); [rewrite transp_transp; exact B1|apply carried_length|]. repeat split; lra. }
    destruct (mxm_near dot3 Gd _ _ A B SA SB RA RB) as (C & SC & EC). exists C. split; [exact SC|]. cbn [carried number].
    assert (Sum : off (number s) + off (number t) + off (number s) * off (number t) + 3.001 * (4.01 * eps) <= off (number s + number t)).
    { assert (Cross : off (number s) * off (number t) <= / 100000000 * (15000000 * eps)). { apply Rmult_le_compat; try lra. unfold off. apply Rmult_le_compat_r; lra. } unfold off in *. rewrite plus_INR. set (a := INR (number s)) in *. set (b := INR (number t)) in *. set (ab := (15 * a - 12.5) * eps * ((15 * b - 12.5) * eps)) in *. lra. }
    split; intros v.
    + apply Rle_trans with ((off (number s) + off (number t) + off (number s) * off (number t) + 3.001 * (4.01 * eps)) * vlength v); [|apply Rmult_le_compat_r; [apply vlength_pos|exact Sum]].
      apply (acts_product (off (number s)) (off (number t)) (4.01 * eps) A B C (carried s false) (carried t false)); try lra; try assumption; [intros; apply carried_length|intros; apply carried_dist].
    + apply Rle_trans with ((off (number t) + off (number s) + off (number t) * off (number s) + 3.001 * (4.01 * eps)) * vlength v); [|apply Rmult_le_compat_r; [apply vlength_pos|lra]].
      apply (acts_product (off (number t)) (off (number s)) (4.01 * eps) (transp B) (transp A) (transp C) (carried t true) (carried s true)); try lra; try assumption; [intros; apply carried_length|intros; apply carried_dist|]. rewrite <- transp_mxm, <- transp_msub. apply entries_transp. exact EC.
  - destruct U as (Us & Ut & Uu). pose proof (number_pos s) as Ns. pose proof (number_pos t) as Nt. pose proof (number_pos u) as Nu. destruct (IHs Us ltac:(lia)) as (A & SA & A1 & A2). destruct (IHt Ut ltac:(lia)) as (B & SB & B1 & B2). destruct (IHu Uu ltac:(lia)) as (C & SC & C1 & C2). clear IHs IHt IHu.
    destruct (off_range (number s) ltac:(lia)) as [Os Is]. destruct (off_range (number t) ltac:(lia)) as [Ot It]. destruct (off_range (number u) ltac:(lia)) as [Ou Iu].
    assert (RA : rows_le A 1.001). { destruct (acts_rows _ _ _ A2 (carried_length s true)) as (R1 & R2 & R3). repeat split; lra. }
    assert (RB : rows_le B 1.001). { destruct (acts_rows _ _ _ B2 (carried_length t true)) as (R1 & R2 & R3). repeat split; lra. }
    assert (RC : rows_le (transp C) 1.001). { destruct (acts_rows (off (number u)) (transp C) (carried u false)) as (R1 & R2 & R3); [rewrite transp_transp; exact C1|apply carried_length|]. repeat split; lra. }
    destruct (mxmxm_near dot9 G9 _ _ _ A B C SA SB SC RA RB RC) as (D & SD & ED). exists D. split; [exact SD|]. cbn [carried number].
    set (f := off (number s)) in *. set (g := off (number t)) in *. set (h := off (number u)) in *.
    assert (Zero : forall X, entries_le (msub X X) 0). { intros X. unfold entries_le, msub, vsub. cbn [r1 r2 r3 vx vy vz]. cbv zeta. rewrite !Rminus_eq_0, Rabs_R0. repeat split; apply Rle_refl. }
    assert (Sz : forall x, 0 <= x <= / 100000000 -> 0 <= x) by (intros; lra).
    assert (Of : f <= 15000000 * eps) by (unfold f, off; apply Rmult_le_compat_r; lra). assert (Og : g <= 15000000 * eps) by (unfold g, off; apply Rmult_le_compat_r; lra). assert (Oh : h <= 15000000 * eps) by (unfold h, off; apply Rmult_le_compat_r; lra).
    assert (X1 : 0 <= g * h <= / 100000000 * (15000000 * eps)) by (split; [apply Rmult_le_pos; lra|apply Rmult_le_compat; lra]).
    assert (X2 : 0 <= f * g <= / 100000000 * (15000000 * eps)) by (split; [apply Rmult_le_pos; lra|apply Rmult_le_compat; lra]).
    assert (X3 : 0 <= f * (g + h + g * h) <= 3 * / 100000000 * (15000000 * eps)). { split; [apply Rmult_le_pos; lra|]. rewrite Rmult_comm. apply Rmult_le_compat; lra. }
    assert (X4 : 0 <= h * (g + f + g * f) <= 3 * / 100000000 * (15000000 * eps)). { split; [apply Rmult_le_pos; lra|]. rewrite Rmult_comm. apply Rmult_le_compat; lra. }
    assert (Sum : f + g + h + 62.8 * eps + 4 * / 100000000 * (15000000 * eps) <= off (number s + number t + number u + 3)). { unfold f, g, h, off in *. rewrite !plus_INR. cbn [INR]. set (a := INR (number s)) in *. set (b := INR (number t)) in *. set (c := INR (number u)) in *. lra. }
    split; intros v.
    + pose proof (acts_product g h 0 B C (mxm B C) (carried t false) (carried u false) ltac:(lra) ltac:(lra) ltac:(lra) B1 C1 (carried_length u false) (carried_dist t false) (Zero _)) as P1.
      pose proof (acts_product f (g + h + g * h + 3.001 * 0) (20.9 * eps) A (mxm B C) D (carried s false) (fun v => carried t false (carried u false v)) ltac:(lra) ltac:(lra) ltac:(lra) A1 P1 ltac:(intros; cbv beta; rewrite !carried_length; reflexivity) (carried_dist s false) ED v) as P2.
      apply Rle_trans with (1 := P2). apply Rmult_le_compat_r; [apply vlength_pos|]. replace (g + h + g * h + 3.001 * 0) with (g + h + g * h) by ring. lra.
    + pose proof (acts_product g f 0 (transp B) (transp A) (mxm (transp B) (transp A)) (carried t true) (carried s true) ltac:(lra) ltac:(lra) ltac:(lra) B2 A2 (carried_length s true) (carried_dist t true) (Zero _)) as P1.
      assert (ET : entries_le (msub (transp D) (mxm (transp C) (mxm (transp B) (transp A)))) (20.9 * eps)). { rewrite <- transp_mxm, <- (transp_mxm (mxm A B) C), <- transp_msub. apply entries_transp. replace (mxm (mxm A B) C) with (mxm A (mxm B C)); [exact ED|]. apply mxm_assoc. }
      pose proof (acts_product h (g + f + g * f + 3.001 * 0) (20.9 * eps) (transp C) (mxm (transp B) (transp A)) (transp D) (carried u true) (fun v => carried t true (carried s true v)) ltac:(lra) ltac:(lra) ltac:(lra) C2 P1 ltac:(intros; cbv beta; rewrite !carried_length; reflexivity) (carried_dist u true) ET v) as P2.
      apply Rle_trans with (1 := P2). apply Rmult_le_compat_r; [apply vlength_pos|]. replace (g + f + g * f + 3.001 * 0) with (g + f + g * f) by ring. lra.
  - destruct U as (A & SA & (X1 & X2 & X3) & (Y1 & Y2 & Y3) & (Z1 & Z2 & Z3)). exists A. split; [exact SA|]. cbn [carried number]. pose proof (number_pos s) as Ns. apply le_INR in Ns. cbn [INR] in Ns. pose proof (pos_INR k) as K0.
    assert (G : 0 <= 4 * INR k / 2 ^ 53) by lra. destruct (near_exact A (exact s) s (4 * INR k / 2 ^ 53) G eq_refl) as [H1 H2].
    { unfold exact, axis_x, axis_y, axis_z. set (a := carried s false (V3 1 0 0)) in *. set (b := carried s false (V3 0 1 0)) in *. set (c := carried s false (V3 0 0 1)) in *. clearbody a b c. destruct A as [[a1 a2 a3] [b1 b2 b3] [c1 c2 c3]]. unfold mxv, dot in *. cbn [r1 r2 r3 vx vy vz] in *. unfold entries_le, msub, transp, vsub. cbn [r1 r2 r3 vx vy vz].
      rewrite ?Rmult_1_r, ?Rmult_0_r, ?Rplus_0_r, ?Rplus_0_l in *. cbv zeta. repeat split; assumption. }
    assert (O : 3.001 * (4 * INR k / 2 ^ 53) <= off (number s + k)). { unfold off, Rdiv. rewrite plus_INR, <- eps_val. assert (1 * eps <= INR (number s) * eps) by (apply Rmult_le_compat_r; lra). assert (0 <= INR k * eps) by (apply Rmult_le_pos; lra). lra. }
    split; intros v; [apply Rle_trans with (1 := H1 v)|apply Rle_trans with (1 := H2 v)]; (apply Rmult_le_compat_r; [apply vlength_pos|exact O]).
  - destruct (IH U N) as (A & SA & A1 & A2). exists (M3 (r3 A) (r2 A) (r1 A)). split; [apply fflip_stands; exact SA|]. cbn [carried number]. split; [exact (flip_acts _ _ _ A1)|exact (flip_acts_back _ _ _ A2)].
  - destruct (IH U N) as (A & SA & A1 & A2). exists (transp A). split; [apply ftransp_stands; exact SA|]. cbn [carried number negb]. split; [exact A2|]. rewrite transp_transp. exact A1.
Qed.
Lemma rows_of t A : (Z.of_nat (number t) <= 1000000)%Z -> acts (off (number t)) (transp A) (carried t true) -> rows_le A 1.001.
Proof. intros N H. destruct (off_range (number t) (number_range t N)) as [O _]. destruct (acts_rows _ _ _ H (carried_length t true)) as (R1 & R2 & R3). repeat split; lra. Qed.
Lemma off_vector n : off n + 7 * eps <= 15 * INR n / 2 ^ 53 - 5 * eps. Proof. pose proof eps_small. unfold off, Rdiv. rewrite <- eps_val. lra. Qed.
Lemma rotated t p v : usual_angles t -> (Z.of_nat (number t) <= 1000000)%Z -> stands_for p v -> / 2 ^ 201 <= vlength v <= 2 ^ 201 ->
  exists w, stands_for (mxv64 dot3 (turns64 fsin fcos dot3 dot9 t) p) w /\ vlength (vsub w (carried t false v)) <= (15 * INR (number t) / 2 ^ 53 - 5 * eps) * vlength v.
Proof.
  intros U N P O. destruct (tree t U N) as (A & SA & A1 & A2). destruct (mxv_near dot3 Gd _ _ _ _ _ _ SA (rows_of t A N A2) A1 P O) as (w & Sw & Dw). exists w. split; [exact Sw|]. apply Rle_trans with (1 := Dw). apply Rmult_le_compat_r; [apply vlength_pos|apply off_vector].
Qed.
Lemma ordinary_wide v : ordinary v -> / 2 ^ 201 <= vlength v <= 2 ^ 201 /\ 0 < vlength v.
Proof.
  intros [L U]. assert (P : 0 < / 2 ^ 200) by (apply Rinv_0_lt_compat, pow_lt; lra). split; [split|lra].
  - apply Rle_trans with (2 := L). apply Rinv_le; [apply pow_lt; lra|]. apply Rle_pow; [lra|lia].
  - apply Rle_trans with (1 := U). apply Rle_pow; [lra|lia].
Qed.
Lemma rotated_ok t p v : usual_angles t -> (Z.of_nat (number t) <= 1000000)%Z -> stands_for p v -> ordinary v ->
  exists w, stands_for (mxv64 dot3 (turns64 fsin fcos dot3 dot9 t) p) w /\ vlength (vsub w (carried t false v)) <= 15 * INR (number t) / 2 ^ 53 * vlength v.
Proof.
  intros U N P O. destruct (ordinary_wide v O) as [W V0]. destruct (rotated t p v U N P W) as (w & Sw & Dw). exists w. split; [exact Sw|]. apply Rle_trans with (1 := Dw). apply Rmult_le_compat_r; [lra|]. pose proof eps_small. lra.
Qed.
Lemma there_and_back t p v : usual_angles t -> (Z.of_nat (number t) <= 1000000)%Z -> stands_for p v -> ordinary v ->
  exists w, stands_for (mxv64 dot3 (turns64 fsin fcos dot3 dot9 (Back t)) (mxv64 dot3 (turns64 fsin fcos dot3 dot9 t) p)) w /\ vlength (vsub w v) <= 30 * INR (number t) / 2 ^ 53 * vlength v.
Proof.
  intros U N P [L O]. assert (P0 : 0 < / 2 ^ 200) by (apply Rinv_0_lt_compat, pow_lt; lra). destruct (ordinary_wide v (conj L O)) as [W V0]. destruct (rotated t p v U N P W) as (u & Su & Du). pose proof eps_small as E. destruct (off_range (number t) (number_range t N)) as [_ I].
  set (n := INR (number t)) in *. assert (K : 0 <= 15 * n / 2 ^ 53 - 5 * eps <= / 100000000). { unfold Rdiv. rewrite <- eps_val. unfold eps. lra. } set (k := 15 * n / 2 ^ 53 - 5 * eps) in *. set (V := vlength v) in *.
  pose proof (by_difference u (carried t false v)) as B1. pose proof (by_difference (carried t false v) u) as B2. rewrite (sub_sym (carried t false v) u) in B2. rewrite carried_length in B1, B2. fold V in B1, B2. assert (kV : k * V <= / 100000000 * V) by (apply Rmult_le_compat_r; lra).
  assert (Wu : / 2 ^ 201 <= vlength u <= 2 ^ 201). { replace (/ 2 ^ 201) with (/ 2 * / 2 ^ 200) by (rewrite <- Rinv_mult; reflexivity). change (2 ^ 201) with (2 * 2 ^ 200). lra. }
  destruct (rotated (Back t) _ u U N Su Wu) as (w & Sw & Dw). exists w. split; [exact Sw|]. cbn [carried negb number] in Dw. fold n in Dw. fold k in Dw. apply Rle_trans with (1 := via w (carried t true u) v). pose proof (carried_dist t true u (carried t false v)) as Q. pose proof (carried_back t false v) as CB. cbn [negb] in CB. rewrite CB in Q. rewrite Q.
  assert (k * vlength u <= k * (V * (1 + k))) by (apply Rmult_le_compat_l; lra). assert (KK : k * (V * k) <= (9 * eps) * V). { replace (k * (V * k)) with (k * k * V) by ring. apply Rmult_le_compat_r; [lra|]. apply Rle_trans with (/ 100000000 * k); [apply Rmult_le_compat_r; lra|]. unfold k, Rdiv. rewrite <- eps_val. assert (n * eps <= 1000000 * eps) by (apply Rmult_le_compat_r; lra). lra. }
  assert (T : 30 * n / 2 ^ 53 = 2 * k + 10 * eps) by (unfold k; lra). rewrite T. assert (0 < eps * V) by (apply Rmult_lt_0_compat; lra). lra.
Qed.

(** ** Separations *)
Lemma carried_angle t b u v : angle_between (carried t b u) (carried t b v) = angle_between u v.
Proof.
  unfold angle_between. rewrite !carried_length, <- !carried_smul. rewrite carried_dist. f_equal. f_equal. set (x := smul (vlength v) u). set (y := smul (vlength u) v).
  assert (N : forall a c, vadd a c = vsub a (smul (-1) c)) by (intros; apply vec_eq; cbn; ring). rewrite !N, <- carried_smul. apply carried_dist.
Qed.
Lemma sides_error Y X y x P k : 0 < P -> 0 <= Y -> 0 <= X -> 0 <= y -> 0 <= x -> Y * Y + X * X = 4 * (P * P) -> 0 <= k <= / 10000 ->
  Rabs (y - Y) <= k * P -> Rabs (x - X) <= k * P -> Rabs (atan2 y x - atan2 Y X) <= 0.7081 * k.
Proof.
  intros HP HY HX Hy Hx Q K Ey Ex. assert (SumXY : X + Y <= 2.83 * P). { apply Rsqr_incr_0; [|lra|lra]. unfold Rsqr. pose proof (Rle_0_sqr (X - Y)). pose proof (Rle_0_sqr P). unfold Rsqr in *. lra. }
  assert (PP : 0 < P * P) by (apply Rmult_lt_0_compat; assumption). set (ey := y - Y) in *. set (ex := x - X) in *. assert (y = Y + ey) by (unfold ey; ring). assert (x = X + ex) by (unfold ex; ring). clearbody ey ex. subst y x.
  assert (kP : 0 <= k * P) by (apply Rmult_le_pos; lra).
  assert (A : forall e T, 0 <= T -> Rabs e <= k * P -> Rabs (e * T) <= k * P * T). { intros e T HT He. rewrite Rabs_mult, (Rabs_pos_eq T) by exact HT. apply Rmult_le_compat_r; assumption. }
  pose proof (A ey X HX Ey) as A1. pose proof (A ex Y HY Ex) as A2. pose proof (A ex X HX Ex) as A3. pose proof (A ey Y HY Ey) as A4.
  assert (S : k * P * (X + Y) <= 2.83 * (k * (P * P))). { apply Rle_trans with (k * P * (2.83 * P)); [apply Rmult_le_compat_l; assumption|lra]. } assert (kPP : 0 <= k * (P * P) <= / 10000 * (P * P)) by (split; [apply Rmult_le_pos; lra|apply Rmult_le_compat_r; lra]).
  apply Rabs_le_inv in A3. apply Rabs_le_inv in A4. assert (Dot : 3.9997 * (P * P) <= X * (X + ex) + Y * (Y + ey)). { replace (X * (X + ex) + Y * (Y + ey)) with (4 * (P * P) + (ex * X + ey * Y)) by (rewrite <- Q; ring). lra. }
  apply turned; [assumption|assumption|assumption|assumption|lra|lra|]. replace ((Y + ey) * X - (X + ex) * Y) with (ey * X - ex * Y) by ring. unfold Rminus. apply Rle_trans with (1 := Rabs_triang _ _). rewrite Rabs_Ropp.
  apply Rle_trans with (0.7081 * k * (3.9997 * (P * P))); [|apply Rmult_le_compat_l; lra]. lra.
Qed.
Lemma angle_moved a b u v d : 0 < vlength u -> 0 < vlength v -> 0 <= d <= / 100000 -> vlength (vsub a u) <= d * vlength u -> vlength (vsub b v) <= d * vlength v -> Rabs (angle_between a b - angle_between u v) <= 5.67 * d.
Proof.
  intros U V D Da Db. unfold angle_between. cbv zeta. set (P := vlength u * vlength v). assert (P0 : 0 < P) by (apply Rmult_lt_0_compat; assumption). pose proof (parallelogram u v) as Q. cbv zeta in Q. fold P in Q.
  set (A := smul (vlength v) u) in *. set (B := smul (vlength u) v) in *. set (A' := smul (vlength b) a). set (B' := smul (vlength a) b).
  assert (Len : forall k w, vlength (smul k w) = Rabs k * vlength w). { intros k w. unfold vlength, smul. cbn [vx vy vz]. replace (k * vx w * (k * vx w) + k * vy w * (k * vy w) + k * vz w * (k * vz w)) with (Rsqr k * (vx w * vx w + vy w * vy w + vz w * vz w)) by (unfold Rsqr; ring). rewrite sqrt_mult_alt by apply Rle_0_sqr. rewrite sqrt_Rsqr_abs. reflexivity. }
  assert (Move : forall a b u v, 0 < vlength u -> 0 < vlength v -> vlength (vsub a u) <= d * vlength u -> vlength (vsub b v) <= d * vlength v -> vlength (vsub (smul (vlength b) a) (smul (vlength v) u)) <= 2.00002 * d * (vlength u * vlength v)).
  { clear - D Len. intros a b u v U V Da Db. pose proof (by_difference b v) as B1. pose proof (by_difference v b) as B2. rewrite (sub_sym v b) in B2. apply Rle_trans with (1 := via _ (smul (vlength b) u) _).
    replace (vsub (smul (vlength b) a) (smul (vlength b) u)) with (smul (vlength b) (vsub a u)) by (apply vec_eq; cbn; ring). replace (vsub (smul (vlength b) u) (smul (vlength v) u)) with (smul (vlength b - vlength v) u) by (apply vec_eq; cbn; ring). rewrite !Len. pose proof (vlength_pos b) as Pb. rewrite (Rabs_pos_eq (vlength b)) by exact Pb.
    assert (Rabs (vlength b - vlength v) <= d * vlength v) by (apply Rabs_le; lra). assert (T1 : vlength b * vlength (vsub a u) <= (1.00001 * vlength v) * (d * vlength u)). { apply Rmult_le_compat; try assumption; [apply vlength_pos|]. assert (d * vlength v <= / 100000 * vlength v) by (apply Rmult_le_compat_r; lra). lra. }
    assert (T2 : Rabs (vlength b - vlength v) * vlength u <= d * vlength v * vlength u) by (apply Rmult_le_compat_r; lra). set (x := d * (vlength u * vlength v)). assert (0 <= x) by (unfold x; apply Rmult_le_pos; [lra|apply Rmult_le_pos; lra]). replace (2.00002 * d * (vlength u * vlength v)) with (2.00002 * x) by (unfold x; ring). replace (1.00001 * vlength v * (d * vlength u)) with (1.00001 * x) in T1 by (unfold x; ring). replace (d * vlength v * vlength u) with x in T2 by (unfold x; ring). lra. }
  pose proof (Move a b u v U V Da Db) as MA. pose proof (Move b a v u V U Db Da) as MB. rewrite (Rmult_comm (vlength v)) in MB. fold A A' P in MA. fold B B' P in MB.
  assert (Dd : vlength (vsub (vsub A' B') (vsub A B)) <= 4.00004 * d * P). { apply Rle_trans with (vlength (vsub A' A) + vlength (vsub B B')); [|rewrite (sub_sym B B'); lra]. apply Rle_trans with (2 := triangle _ _). apply Req_le. f_equal. apply vec_eq; cbn; ring. }
  assert (Ds : vlength (vsub (vadd A' B') (vadd A B)) <= 4.00004 * d * P). { apply Rle_trans with (vlength (vsub A' A) + vlength (vsub B' B)); [|lra]. apply Rle_trans with (2 := triangle _ _). apply Req_le. f_equal. apply vec_eq; cbn; ring. }
  pose proof (by_difference (vsub A' B') (vsub A B)) as L1. pose proof (by_difference (vsub A B) (vsub A' B')) as L2. rewrite (sub_sym (vsub A B)) in L2. pose proof (by_difference (vadd A' B') (vadd A B)) as L3. pose proof (by_difference (vadd A B) (vadd A' B')) as L4. rewrite (sub_sym (vadd A B)) in L4.
  pose proof (sides_error (vlength (vsub A B)) (vlength (vadd A B)) (vlength (vsub A' B')) (vlength (vadd A' B')) P (4.00004 * d) P0 (vlength_pos _) (vlength_pos _) (vlength_pos _) (vlength_pos _) Q ltac:(lra) ltac:(apply Rabs_le; lra) ltac:(apply Rabs_le; lra)) as H.
  apply Rabs_le_inv in H. apply Rabs_le. lra.
Qed.
Lemma separation_kept f t p q u v : good_arctan2 f -> usual_angles t -> (Z.of_nat (number t) <= 1000000)%Z -> stands_for p u -> stands_for q v -> / 2 ^ 199 <= vlength u <= 2 ^ 199 -> / 2 ^ 199 <= vlength v <= 2 ^ 199 ->
  near (angle_between u v) (110 * INR (number t) / 2 ^ 53) (angle_between64 f (mxv64 dot3 (turns64 fsin fcos dot3 dot9 t) p) (mxv64 dot3 (turns64 fsin fcos dot3 dot9 t) q)).
Proof.
  intros G U N P Q Ou Ov. assert (P0 : 0 < / 2 ^ 200) by (apply Rinv_0_lt_compat, pow_lt; lra). assert (H1 : / 2 ^ 199 = 2 * / 2 ^ 200). { change (2 ^ 200) with (2 * 2 ^ 199). rewrite Rinv_mult. set (x := / 2 ^ 199). lra. } assert (H2 : 2 ^ 200 = 2 * 2 ^ 199) by reflexivity. assert (P1 : 0 < 2 ^ 199) by (apply pow_lt; lra).
  assert (Wu : ordinary u) by (unfold ordinary; lra). assert (Wv : ordinary v) by (unfold ordinary; lra). destruct (rotated t p u U N P (proj1 (ordinary_wide u Wu))) as (a & Sa & Da). destruct (rotated t q v U N Q (proj1 (ordinary_wide v Wv))) as (b & Sb & Db).
  pose proof eps_small as E. destruct (off_range (number t) (number_range t N)) as [_ I]. set (n := INR (number t)) in *. assert (K : 0 <= 15 * n / 2 ^ 53 - 5 * eps <= / 1000000). { unfold Rdiv. rewrite <- eps_val. unfold eps. lra. } set (k := 15 * n / 2 ^ 53 - 5 * eps) in *.
  assert (Size : forall w x, / 2 ^ 199 <= vlength x <= 2 ^ 199 -> vlength (vsub w (carried t false x)) <= k * vlength x -> ordinary w).
  { intros w x O D. pose proof (by_difference w (carried t false x)) as B1. pose proof (by_difference (carried t false x) w) as B2. rewrite (sub_sym (carried t false x) w) in B2. rewrite carried_length in B1, B2. assert (k * vlength x <= / 1000000 * vlength x) by (apply Rmult_le_compat_r; lra). unfold ordinary. lra. }
  pose proof (angle64_near f _ _ a b G Sa Sb (Size a u Ou Da) (Size b v Ov Db)) as A. apply near_more with (1 := A). rewrite <- (carried_angle t false u v).
  pose proof (angle_moved a b (carried t false u) (carried t false v) k) as M. rewrite !carried_length in M. specialize (M ltac:(lra) ltac:(lra) ltac:(lra) Da Db). apply Rle_trans with (1 := M). unfold k, Rdiv. rewrite <- eps_val. replace (/ 2 ^ 50) with (8 * eps) by (unfold eps; lra). assert (0 < eps) by lra. assert (1 * eps <= n * eps) by (apply Rmult_le_compat_r; lra). lra.
Qed.
End Library.
