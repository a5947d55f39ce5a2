(** The difference at Julian date 2450895 (March 1998), from a table of sines and the
    arguments in parts of a turn. *)
From Coq Require Import Reals ZArith List Lra Lia Psatz.
From Verif Require Import Real_Math Real_Math_Proofs Vector_Model Geo_Model Spin_Model Spin_Spec Spin_Proofs Kepler_Proofs4 Pi_Bounds
  Nutation_Model Nutation_Spec Nutation_Data Nutation_Proofs Nutation_Proofs3 Nutation_Proofs4.
Import ListNotations.
Open Scope R_scope.

(** Sines and cosines of the 256th parts of a turn, in units of [10 ^ -12]. *)
Definition unit : Z := 1000000000000.
Definition g1 : Z := 999698818696.
Definition h1 : Z := 24541228523.
Definition step (p : Z * Z) : Z * Z := ((fst p * g1 - snd p * h1) / unit, (snd p * g1 + fst p * h1) / unit)%Z.
Fixpoint walk (k : nat) (p : Z * Z) : list (Z * Z) := match k with O => [] | S k => p :: walk k (step p) end.
Definition circle : list (Z * Z) := Eval vm_compute in walk 256 (unit, 0%Z).
Definition x0 : R := 31415926535897932384 / 10 ^ 19 / 128.
Lemma first_sine : Rabs (sin (PI / 128) - IZR h1 / 10 ^ 12) <= / 10 ^ 12 /\ Rabs (cos (PI / 128) - IZR g1 / 10 ^ 12) <= / 10 ^ 12.
Proof.
  assert (D : Rabs (PI / 128 - x0) <= / 10 ^ 18) by (unfold x0; pose proof pi_bounds; apply Rabs_le; lra).
  pose proof (Rle_trans _ _ _ (sin_lip2 (PI / 128) x0) D) as S. pose proof (Rle_trans _ _ _ (cos_lip2 (PI / 128) x0) D) as C.
  destruct (pre_sin_bound x0 1 ltac:(unfold x0; lra) ltac:(unfold x0; lra)) as [S1 S2].
  destruct (pre_cos_bound x0 1 ltac:(unfold x0; lra) ltac:(unfold x0; lra)) as [C1 C2].
  unfold sin_approx, cos_approx in *. cbn [Nat.mul Nat.add sum_f_R0] in *. unfold sin_term, cos_term in *. cbn [Nat.mul Nat.add] in *.
  assert (F0 : INR (fact 0) = 1) by reflexivity. assert (F1 : INR (fact 1) = 1) by reflexivity.
  assert (F2 : INR (fact 2) = 2) by (rewrite fact_simpl, mult_INR, F1; cbn; lra). assert (F3 : INR (fact 3) = 6) by (rewrite fact_simpl, mult_INR, F2; cbn; lra).
  assert (F4 : INR (fact 4) = 24) by (rewrite fact_simpl, mult_INR, F3; cbn; lra). assert (F5 : INR (fact 5) = 120) by (rewrite fact_simpl, mult_INR, F4; cbn; lra).
  assert (F6 : INR (fact 6) = 720) by (rewrite fact_simpl, mult_INR, F5; cbn; lra). assert (F7 : INR (fact 7) = 5040) by (rewrite fact_simpl, mult_INR, F6; cbn; lra).
  assert (F8 : INR (fact 8) = 40320) by (rewrite fact_simpl, mult_INR, F7; cbn; lra). assert (F9 : INR (fact 9) = 362880) by (rewrite fact_simpl, mult_INR, F8; cbn; lra).
  rewrite ?F0, ?F1, ?F2, ?F3, ?F4, ?F5, ?F6, ?F7, ?F8, ?F9 in *. clear F0 F1 F2 F3 F4 F5 F6 F7 F8 F9.
  cbn [pow] in *.
  apply Rabs_le_both in S. apply Rabs_le_both in C. unfold x0 in *. unfold h1, g1. clear D. split; apply Rabs_le; lra.
Qed.
Lemma step_ok e x C S : Rabs (cos x - IZR C / 10 ^ 12) <= e -> Rabs (sin x - IZR S / 10 ^ 12) <= e ->
  let p := step (C, S) in
  Rabs (cos (x + PI / 128) - IZR (fst p) / 10 ^ 12) <= 103 / 100 * e + 3 / 10 ^ 12 /\ Rabs (sin (x + PI / 128) - IZR (snd p) / 10 ^ 12) <= 103 / 100 * e + 3 / 10 ^ 12.
Proof.
  intros HC HS p. destruct first_sine as [Hh Hg].
  assert (DV : forall z, IZR z / 10 ^ 12 / 10 ^ 12 - / 10 ^ 12 <= IZR (z / unit) / 10 ^ 12 <= IZR z / 10 ^ 12 / 10 ^ 12).
  { intros z. pose proof (Z.div_mod z unit ltac:(easy)) as E. pose proof (Z.mod_pos_bound z unit ltac:(easy)) as B.
    apply (f_equal IZR) in E. rewrite plus_IZR, mult_IZR in E. destruct B as [B1 B2]. apply IZR_le in B1. apply IZR_lt in B2.
    change (IZR unit) with 1000000000000 in *. lra. }
  unfold p, step. cbn [fst snd]. rewrite cos_plus, sin_plus.
  pose proof (DV (C * g1 - S * h1)%Z) as D1. pose proof (DV (S * g1 + C * h1)%Z) as D2. clear DV.
  rewrite minus_IZR, !mult_IZR in D1. rewrite plus_IZR, !mult_IZR in D2.
  set (u := IZR (_ / unit) / 10 ^ 12) in *. set (v := IZR ((S * g1 + C * h1) / unit) / 10 ^ 12) in *. clearbody u v.
  set (g := IZR g1 / 10 ^ 12) in *. set (h := IZR h1 / 10 ^ 12) in *.
  assert (G : 0 <= g <= 9997 / 10000) by (unfold g, g1; lra). assert (H : 0 <= h <= 246 / 10000) by (unfold h, h1; lra).
  set (c' := IZR C / 10 ^ 12) in *. set (s' := IZR S / 10 ^ 12) in *.
  replace ((IZR C * IZR g1 - IZR S * IZR h1) / 10 ^ 12 / 10 ^ 12) with (c' * g - s' * h) in D1 by (unfold c', s', g, h; field).
  replace ((IZR S * IZR g1 + IZR C * IZR h1) / 10 ^ 12 / 10 ^ 12) with (s' * g + c' * h) in D2 by (unfold c', s', g, h; field).
  clearbody g h c' s'. set (gt := cos (PI / 128)) in *. set (ht := sin (PI / 128)) in *. clearbody gt ht.
  assert (E0 : 0 <= e) by (eapply Rle_trans; [apply Rabs_pos|exact HC]).
  assert (MB : forall y k, Rabs y <= e -> 0 <= k -> Rabs (k * y) <= k * e).
  { intros y k Hy Hk. rewrite Rabs_mult, (Rabs_right k) by lra. now apply Rmult_le_compat_l. }
  assert (TB : forall y z, Rabs y <= 1 -> Rabs z <= / 10 ^ 12 -> Rabs (y * z) <= / 10 ^ 12).
  { intros y z Hy Hz. rewrite Rabs_mult. pose proof (Rabs_pos y). pose proof (Rabs_pos z). nra. }
  pose proof (TB _ _ (cos_1 x) Hg) as T1. pose proof (TB _ _ (sin_1 x) Hh) as T2. pose proof (TB _ _ (sin_1 x) Hg) as T3. pose proof (TB _ _ (cos_1 x) Hh) as T4.
  pose proof (MB _ _ HC (proj1 G)) as M1. pose proof (MB _ _ HS (proj1 H)) as M2. pose proof (MB _ _ HS (proj1 G)) as M3. pose proof (MB _ _ HC (proj1 H)) as M4.
  clear TB MB HC HS Hg Hh. set (c := cos x) in *. set (s := sin x) in *. clearbody c s.
  apply Rabs_le_both in T1. apply Rabs_le_both in T2. apply Rabs_le_both in T3. apply Rabs_le_both in T4.
  apply Rabs_le_both in M1. apply Rabs_le_both in M2. apply Rabs_le_both in M3. apply Rabs_le_both in M4.
  assert (GE : g * e + h * e <= 103 / 100 * e) by nra.
  split; apply Rabs_le; split; nra.
Qed.
Lemma walk_ok k : forall p x e q d, (q < k)%nat -> Rabs (cos x - IZR (fst p) / 10 ^ 12) <= e -> Rabs (sin x - IZR (snd p) / 10 ^ 12) <= e ->
  let r := nth q (walk k p) d in let b := (e + / 10 ^ 10) * (103 / 100) ^ q in
  Rabs (cos (x + INR q * (PI / 128)) - IZR (fst r) / 10 ^ 12) <= b /\ Rabs (sin (x + INR q * (PI / 128)) - IZR (snd r) / 10 ^ 12) <= b.
Proof.
  induction k as [|k IH]; intros p x e q d Hq HC HS; [lia|]. destruct q as [|q].
  - cbn [walk nth]. cbv zeta. rewrite pow_O, Rmult_1_r. replace (x + INR 0 * (PI / 128)) with x by (cbn; ring). split; lra.
  - cbn [walk nth]. cbv zeta. rewrite S_INR. replace (x + (INR q + 1) * (PI / 128)) with (x + PI / 128 + INR q * (PI / 128)) by ring.
    destruct p as (C, S). pose proof (step_ok e x C S HC HS) as [H1 H2].
    pose proof (IH (step (C, S)) (x + PI / 128) _ q d ltac:(lia) H1 H2) as [I1 I2]. cbn zeta in *.
    assert (P : 0 <= (103 / 100) ^ q) by (apply pow_le; lra).
    assert (B : (103 / 100 * e + 3 / 10 ^ 12 + / 10 ^ 10) * (103 / 100) ^ q = (e + / 10 ^ 10) * (103 / 100) ^ Datatypes.S q).
    { rewrite <- (tech_pow_Rmult (103 / 100)). field. }
    rewrite <- B. split; assumption.
Qed.
Lemma pow_256 : (103 / 100) ^ 256 <= 2000.
Proof.
  assert (P : forall y z n, 0 <= y -> y ^ n <= z -> y ^ (2 * n) <= z * z).
  { intros y z n Hy H. rewrite Nat.mul_comm, pow_mult. cbn [pow]. rewrite Rmult_1_r. pose proof (pow_le y n Hy). nra. }
  assert (H8 : (103 / 100) ^ 8 <= 12668 / 10000) by (cbn; lra).
  pose proof (P (103 / 100) _ 8%nat ltac:(lra) H8) as H16. assert (H16' : (103 / 100) ^ (2 * 8) <= 16048 / 10000) by lra.
  pose proof (P (103 / 100) _ (2 * 8)%nat ltac:(lra) H16') as H32. assert (H32' : (103 / 100) ^ (2 * (2 * 8)) <= 25754 / 10000) by lra.
  pose proof (P (103 / 100) _ (2 * (2 * 8))%nat ltac:(lra) H32') as H64. assert (H64' : (103 / 100) ^ (2 * (2 * (2 * 8))) <= 6633 / 1000) by lra.
  pose proof (P (103 / 100) _ (2 * (2 * (2 * 8)))%nat ltac:(lra) H64') as H128. assert (H128' : (103 / 100) ^ (2 * (2 * (2 * (2 * 8)))) <= 44) by lra.
  pose proof (P (103 / 100) _ (2 * (2 * (2 * (2 * 8))))%nat ltac:(lra) H128') as H256.
  change (2 * (2 * (2 * (2 * (2 * 8)))))%nat with 256%nat in H256. lra.
Qed.
Lemma circle_ok q : (0 <= q < 256)%Z ->
  let r := nth (Z.to_nat q) circle (0%Z, 0%Z) in
  Rabs (cos (IZR q * (PI / 128)) - IZR (fst r) / 10 ^ 12) <= / 10 ^ 6 /\ Rabs (sin (IZR q * (PI / 128)) - IZR (snd r) / 10 ^ 12) <= / 10 ^ 6.
Proof.
  intros Hq. change circle with (walk 256 (unit, 0%Z)).
  pose proof (walk_ok 256 (unit, 0%Z) 0 0 (Z.to_nat q) (0%Z, 0%Z) ltac:(lia)) as W. cbn [fst snd] in W.
  rewrite cos_0, sin_0 in W. specialize (W ltac:(change (IZR unit) with 1000000000000; apply Rabs_le; lra) ltac:(apply Rabs_le; lra)).
  cbn zeta in *. rewrite INR_IZR_INZ, Z2Nat.id, !Rplus_0_l in W by lia.
  assert (P : (103 / 100) ^ Z.to_nat q <= 2000) by (eapply Rle_trans; [apply (Rle_pow _ _ 256); [lra|lia]|exact pow_256]).
  destruct W as [W1 W2]. split; (eapply Rle_trans; [eassumption|]); lra.
Qed.

(** Angles known to a [2 ^ 24]th of a turn. *)
Definition known (x : R) (z : Z) : Prop := exists k, Rabs (x - tau * (IZR z / 16777216 + IZR k)) <= 2 / 10 ^ 7.
Definition zdot (n f : list Z) : Z := ztotal (fun p => (fst p * snd p)%Z) (combine n f).
Definition weight (n : list Z) : Z := ztotal Z.abs n.
Lemma angle_known n a f : Forall2 known a f -> exists k, Rabs (angle n a - tau * (IZR (zdot n f) / 16777216 + IZR k)) <= IZR (weight n) * (2 / 10 ^ 7).
Proof.
  intros H. revert n. induction H as [|x z a f [k Hk] H IH]; intros [|m n].
  - exists 0%Z. unfold angle, zdot, weight. cbn. apply Rabs_le. split; lra.
  - exists 0%Z. unfold angle, zdot. cbn [combine map fold_right ztotal].
    replace (0 - tau * (0 / 16777216 + 0)) with 0 by field. rewrite Rabs_R0. apply Rmult_le_pos; [|lra]. apply IZR_le.
    unfold weight. generalize (m :: n). intros l. induction l as [|y l IH]; cbn; [lia|]. unfold ztotal in IH. lia.
  - exists 0%Z. unfold angle, zdot, weight. cbn. apply Rabs_le. split; lra.
  - destruct (IH n) as [j Hj]. exists (m * k + j)%Z. rewrite angle_cons. unfold zdot, weight in *. cbn [combine ztotal fold_right fst snd].
    rewrite !plus_IZR, !mult_IZR, abs_IZR. unfold ztotal in Hj.
    match goal with |- Rabs ?e <= _ => match type of Hj with Rabs ?d <= _ => match type of Hk with Rabs ?c <= _ =>
      replace e with (IZR m * c + d) by field end end end.
    eapply Rle_trans; [apply Rabs_triang|]. rewrite Rabs_mult. pose proof (Rabs_pos (IZR m)).
    assert (Rabs (IZR m) * Rabs (x - tau * (IZR z / 16777216 + IZR k)) <= Rabs (IZR m) * (2 / 10 ^ 7)) by (now apply Rmult_le_compat_l). lra.
Qed.
Definition cell (K : Z) : Z := (((K + 32768) / 65536) mod 256)%Z.
Lemma cell_ok x K k : Rabs (x - tau * (IZR K / 16777216 + IZR k)) <= 10 / 10 ^ 6 ->
  let r := nth (Z.to_nat (cell K)) circle (0%Z, 0%Z) in
  Rabs (cos x - IZR (fst r) / 10 ^ 12) <= 123 / 10 ^ 4 /\ Rabs (sin x - IZR (snd r) / 10 ^ 12) <= 123 / 10 ^ 4.
Proof.
  intros H. set (q := cell K). intros r. assert (Hq : (0 <= q < 256)%Z) by (apply Z.mod_pos_bound; lia).
  destruct (circle_ok q Hq) as [C S]. fold r in C, S.
  set (y := IZR q * (PI / 128)) in *.
  assert (E : exists j, Rabs (x - (y + tau * IZR j)) <= 1229 / 10 ^ 5 - 2 / 10 ^ 6).
  { pose proof (Z.div_mod (K + 32768) 65536 ltac:(lia)) as D1. pose proof (Z.mod_pos_bound (K + 32768) 65536 ltac:(lia)) as B1.
    pose proof (Z.div_mod ((K + 32768) / 65536) 256 ltac:(lia)) as D2. fold (cell K) in D2. fold q in D2.
    exists (k + (K + 32768) / 65536 / 256)%Z.
    assert (KQ : IZR K = 65536 * (256 * IZR ((K + 32768) / 65536 / 256) + IZR q) + IZR ((K + 32768) mod 65536 - 32768)).
    { rewrite <- mult_IZR, <- plus_IZR, <- mult_IZR, <- plus_IZR. f_equal. lia. }
    set (w := ((K + 32768) mod 65536 - 32768)%Z) in *. assert (W : Rabs (IZR w) <= 32768) by (rewrite <- abs_IZR; apply IZR_le; lia).
    rewrite plus_IZR. replace (x - (y + tau * (IZR k + IZR ((K + 32768) / 65536 / 256))))
      with ((x - tau * (IZR K / 16777216 + IZR k)) + tau * (IZR w * / 16777216)) by (rewrite KQ; unfold y, tau; field).
    eapply Rle_trans; [apply Rabs_triang|]. rewrite !Rabs_mult, (Rabs_right (/ 16777216)) by lra.
    rewrite (Rabs_right tau) by (unfold tau; pose proof PI_RGT_0; lra). unfold tau in *. pose proof pi_bounds. pose proof (Rabs_pos (IZR w)). nra. }
  destruct E as [j Hj]. destruct (sm_cos (y + tau * IZR j) y) as [EC ES]; [exists j; ring|].
  pose proof (Rle_trans _ _ _ (cos_lip2 x (y + tau * IZR j)) Hj) as LC. pose proof (Rle_trans _ _ _ (sin_lip2 x (y + tau * IZR j)) Hj) as LS.
  rewrite EC in LC. rewrite ES in LS. apply Rabs_le_both in LC. apply Rabs_le_both in LS. apply Rabs_le_both in C. apply Rabs_le_both in S.
  split; apply Rabs_le; lra.
Qed.
Definition zrow (f n : list Z) (A B : Z) : Z := let r := nth (Z.to_nat (cell (zdot n f))) circle (0%Z, 0%Z) in (A * snd r + B * fst r)%Z.
Lemma row_ok n a f A B : Forall2 known a f -> (weight n <= 50)%Z ->
  Rabs (IZR A * sin (angle n a) + IZR B * cos (angle n a) - IZR (zrow f n A B) / 10 ^ 12) <= (IZR (Z.abs A) + IZR (Z.abs B)) * (123 / 10 ^ 4).
Proof.
  intros H W. destruct (angle_known n a f H) as [k Hk]. apply IZR_le in W.
  destruct (cell_ok (angle n a) (zdot n f) k) as [C S]; [lra|]. unfold zrow. set (r := nth _ _ _) in *. clearbody r.
  rewrite plus_IZR, !mult_IZR, !abs_IZR. set (s := sin (angle n a)) in *. set (c := cos (angle n a)) in *.
  replace (_ - _) with (IZR A * (s - IZR (snd r) / 10 ^ 12) + IZR B * (c - IZR (fst r) / 10 ^ 12)) by field.
  eapply Rle_trans; [apply Rabs_triang|]. rewrite !Rabs_mult, Rmult_plus_distr_r.
  apply Rplus_le_compat; (apply Rmult_le_compat_l; [apply Rabs_pos|assumption]).
Qed.
Definition light {A} (rows : list (list Z * A)) : bool := forallb (fun r => (weight (fst r) <=? 50)%Z) rows.
Lemma light_ok A (rows : list (list Z * A)) r : light rows = true -> In r rows -> (weight (fst r) <= 50)%Z.
Proof. intros H I. unfold light in H. rewrite forallb_forall in H. specialize (H r I). cbn in H. now apply Z.leb_le. Qed.
Definition zserie (f : list Z) (rows : list (list Z * (Z * Z * Z))) : Z := ztotal (fun r => let '(n, (A, _, B)) := r in zrow f n A B) rows.
Definition zplanet (f : list Z) (rows : list (list Z * (Z * Z))) : Z := ztotal (fun r => let '(n, (A, B)) := r in zrow f n A B) rows.
Definition weight_AB (r : list Z * (Z * Z * Z)) : Z := let '(_, (A, _, B)) := r in (Z.abs A + Z.abs B)%Z.
Definition weight_A' (r : list Z * (Z * Z * Z)) : Z := let '(_, (_, A', _)) := r in Z.abs A'.
Definition weight_p (r : list Z * (Z * Z)) : Z := let '(_, (A, B)) := r in (Z.abs A + Z.abs B)%Z.
Lemma serie_ok t a f rows : Forall2 known a f -> light rows = true -> Rabs t <= 1 / 50 ->
  Rabs (sine_series t a rows - IZR (zserie f rows) / 10 ^ 12) <= IZR (ztotal weight_AB rows) * (123 / 10 ^ 4) + IZR (ztotal weight_A' rows) / 50.
Proof.
  intros H L Ht. unfold sine_series, zserie. rewrite <- !ztotal_IZR. unfold Rdiv at 1. rewrite Rmult_comm, <- total_scale, total_minus.
  rewrite (Rmult_comm (total _ rows) (123 / 10 ^ 4)), <- total_scale. unfold Rdiv at 2. rewrite (Rmult_comm (total _ rows) (/ 50)), <- total_scale, <- total_plus.
  eapply Rle_trans; [apply total_abs|]. apply total_le. intros (n, ((A, A'), B)) I. pose proof (light_ok _ _ _ L I) as W. cbn [fst] in W.
  pose proof (row_ok n a f A B H W) as R0. unfold weight_AB, weight_A'. rewrite plus_IZR.
  replace (_ - _) with ((IZR A * sin (angle n a) + IZR B * cos (angle n a) - IZR (zrow f n A B) / 10 ^ 12) + IZR A' * (t * sin (angle n a))) by (unfold Rdiv; ring).
  eapply Rle_trans; [apply Rabs_triang|].
  assert (Q : Rabs (IZR A' * (t * sin (angle n a))) <= / 50 * IZR (Z.abs A')).
  { rewrite Rabs_mult, <- abs_IZR. rewrite Rmult_comm. apply Rmult_le_compat_r; [apply IZR_le; lia|].
    eapply Rle_trans; [apply mul_le_1, sin_1|]. lra. }
  lra.
Qed.
Lemma planet_ok a f rows : Forall2 known a f -> light rows = true ->
  Rabs (planet_series a rows - IZR (zplanet f rows) / 10 ^ 12) <= IZR (ztotal weight_p rows) * (123 / 10 ^ 4).
Proof.
  intros H L. unfold planet_series, zplanet. rewrite <- !ztotal_IZR. unfold Rdiv at 1. rewrite Rmult_comm, <- total_scale, total_minus.
  rewrite (Rmult_comm (total _ rows) (123 / 10 ^ 4)), <- total_scale.
  eapply Rle_trans; [apply total_abs|]. apply total_le. intros (n, (A, B)) I. pose proof (light_ok _ _ _ L I) as W. cbn [fst] in W.
  pose proof (row_ok n a f A B H W) as R0. unfold weight_p. rewrite plus_IZR.
  replace (_ - _) with (IZR A * sin (angle n a) + IZR B * cos (angle n a) - IZR (zrow f n A B) / 10 ^ 12) by (unfold Rdiv; ring). lra.
Qed.

(** The date. *)
Definition t_witness : R := - (650 / 36525).
Lemma lunisolar_known : Forall2 known (arguments 5 t_witness) [13175613; 3583284; 6253914; 13695021; 7431584]%Z.
Proof.
  unfold arguments, simon_1994, t_witness. cbn [map firstn polynomial]. pose proof pi_bounds.
  apply Forall2_cons; [exists (-24)%Z; unfold tau; apply Rabs_le; split; lra|].
  apply Forall2_cons; [exists (-1)%Z; unfold tau; apply Rabs_le; split; lra|].
  apply Forall2_cons; [exists (-24)%Z; unfold tau; apply Rabs_le; split; lra|].
  apply Forall2_cons; [exists (-22)%Z; unfold tau; apply Rabs_le; split; lra|].
  apply Forall2_cons; [exists (0)%Z; unfold tau; apply Rabs_le; split; lra|].
  apply Forall2_nil.
Qed.
Lemma planets_known : Forall2 known (planet_arguments t_witness) [13175614; 3583284; 6253914; 13695021; 7431584; 5230329; 10280472; 8380244; 690286; 15861097; 1320213; 14280673; 14027258; 16776057]%Z.
Proof.
  unfold planet_arguments, t_witness. pose proof pi_bounds.
  apply Forall2_cons; [exists (-24)%Z; unfold tau; apply Rabs_le; split; lra|].
  apply Forall2_cons; [exists (-1)%Z; unfold tau; apply Rabs_le; split; lra|].
  apply Forall2_cons; [exists (-24)%Z; unfold tau; apply Rabs_le; split; lra|].
  apply Forall2_cons; [exists (-22)%Z; unfold tau; apply Rabs_le; split; lra|].
  apply Forall2_cons; [exists (0)%Z; unfold tau; apply Rabs_le; split; lra|].
  apply Forall2_cons; [exists (-7)%Z; unfold tau; apply Rabs_le; split; lra|].
  apply Forall2_cons; [exists (-3)%Z; unfold tau; apply Rabs_le; split; lra|].
  apply Forall2_cons; [exists (-2)%Z; unfold tau; apply Rabs_le; split; lra|].
  apply Forall2_cons; [exists (0)%Z; unfold tau; apply Rabs_le; split; lra|].
  apply Forall2_cons; [exists (-1)%Z; unfold tau; apply Rabs_le; split; lra|].
  apply Forall2_cons; [exists (0)%Z; unfold tau; apply Rabs_le; split; lra|].
  apply Forall2_cons; [exists (0)%Z; unfold tau; apply Rabs_le; split; lra|].
  apply Forall2_cons; [exists (0)%Z; unfold tau; apply Rabs_le; split; lra|].
  apply Forall2_cons; [exists (-1)%Z; unfold tau; apply Rabs_le; split; lra|].
  apply Forall2_nil.
Qed.
Lemma cut_args_witness :
  Forall2 (fun p x => Rabs (fst p - snd p) <= x) (combine (arguments 5 t_witness) (arguments 2 t_witness)) (cut [102; 2; 41; 21; 24]%Z).
Proof.
  assert (H : Rabs t_witness <= 650 / 36525) by (unfold t_witness; apply Rabs_le; lra). unfold arguments, simon_1994, cut. cbn [map combine firstn].
  repeat (apply Forall2_cons; [cbn [fst snd]; (eapply (cut_one t_witness (650 / 36525)); [lra|exact H| |reflexivity]); abs_num; lra|]). apply Forall2_nil.
Qed.
Lemma serie_split t a i j n c : (i <= j)%nat ->
  sine_series t a (combine (firstn j n) (firstn j c)) = sine_series t a (combine (firstn i n) (firstn i c)) + sine_series t a (between i j (combine n c)).
Proof. intros H. rewrite <- !combine_firstn, (between_split _ i j (combine n c) H). apply total_app. Qed.
Ltac known_z H := match type of H with context [IZR ?z] => match z with context [ztotal] => idtac | context [zserie] => idtac | context [zplanet] => idtac end;
  let v := eval vm_compute in z in replace z with v in H by (vm_compute; reflexivity) end.
Lemma b_far_from_a : fst (b_vs_a 2450895) < - (2 * mas).
Proof.
  unfold b_vs_a, published. cbn [fst nals_t napl_t lunisolar_longitude planetary_longitude skyfield_tables].
  replace ((2450895 - 2451545) / 36525) with t_witness by (unfold t_witness; field).
  assert (Ht : Rabs t_witness <= 1 / 50) by (unfold t_witness; apply Rabs_le; lra).
  rewrite (serie_split _ _ 77 687) by lia.
  change (planet_series (planet_arguments t_witness) (combine (firstn 0 napl_data) (firstn 0 planetary_longitude_data))) with 0.
  pose proof (serie_ok t_witness _ _ (between 77 687 (combine nals_data lunisolar_longitude_data)) lunisolar_known ltac:(vm_compute; reflexivity) Ht) as S1.
  pose proof (planet_ok _ _ (combine (firstn 687 napl_data) (firstn 687 planetary_longitude_data)) planets_known ltac:(vm_compute; reflexivity)) as S2.
  pose proof (series_bend t_witness _ _ _ (combine (firstn 77 nals_data) (firstn 77 lunisolar_longitude_data)) cut_args_witness eq_refl) as [B _].
  pose proof (Rle_trans _ _ _ B (bend_total t_witness [102; 2; 41; 21; 24]%Z _ ltac:(lra) ltac:(repeat constructor; lia))) as C. clear B.
  do 2 known_z S1. known_z S1. do 2 known_z S2. known_z C.
  revert S1 S2 C.
  generalize (sine_series t_witness (arguments 5 t_witness) (combine (firstn 77 nals_data) (firstn 77 lunisolar_longitude_data))).
  generalize (sine_series t_witness (arguments 2 t_witness) (combine (firstn 77 nals_data) (firstn 77 lunisolar_longitude_data))).
  generalize (sine_series t_witness (arguments 5 t_witness) (between 77 687 (combine nals_data lunisolar_longitude_data))).
  generalize (planet_series (planet_arguments t_witness) (combine (firstn 687 napl_data) (firstn 687 planetary_longitude_data))).
  unfold mas. intros p q x y S1 S2 C. apply Rabs_le_both in S1. apply Rabs_le_both in S2. apply Rabs_le_both in C. lra.
Qed.
