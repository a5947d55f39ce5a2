(** The first samples of the float search, and what the search returns. *)
From Coq Require Import ZArith Reals Lia Lra List Bool.
From Coq.Floats Require Import SpecFloat.
From Flocq Require Import Core BinarySingleNaN.
From Verif Require Import Float64 Float64_Proofs Float_Time_Proofs Float_Time_Proofs4 CalF_Proofs CalF_Proofs2 SexaF_Proofs2 Wrap_Proofs Wrap_Proofs2 Search_Model Search_Proofs SearchF_Model SearchF_Spec SearchF_Proofs SearchF_Proofs2.
Import ListNotations.
Open Scope R_scope.

Lemma trunc_val (x : bf) : is_finite x = true -> 0 <= B2R x < bpow radix2 51 -> ftruncZ (B2SF x) = Zfloor (B2R x).
Proof.
  intros F [L H]. destruct (Bsign x) eqn:S; [|apply trunc_nonneg; assumption].
  destruct x as [s|s| |s m e B]; try discriminate F; cbn in S; subst s.
  - cbn. symmetry. apply (Zfloor_IZR 0).
  - exfalso. cbn in L. assert (F2R (Float radix2 (Z.neg m) e) < 0) by (apply F2R_lt_0; reflexivity). lra.
Qed.
Lemma pairs_map_seq {A} (g : nat -> A) z : forall n k p, In p (pairs (map g (seq k (S n)) ++ [z])) ->
  (exists i, (k <= i /\ S i < k + S n)%nat /\ p = (g i, g (S i))) \/ p = (g (k + n)%nat, z).
Proof.
  induction n as [|n IH]; intros k p H.
  - cbn in H. destruct H as [<-|[]]. right. rewrite Nat.add_0_r. reflexivity.
  - change (pairs (map g (seq k (S (S n))) ++ [z])) with ((g k, g (S k)) :: pairs (map g (seq (S k) (S n)) ++ [z])) in H. destruct H as [<-|H].
    + left. exists k. split; [lia|reflexivity].
    + apply IH in H as [(i & Hi & E)|E].
      * left. exists i. split; [lia|exact E].
      * right. replace (k + S n)%nat with (S k + n)%nat by lia. exact E.
Qed.
Lemma asc_of_pairs l : forall a, (forall p, In p (pairs (a :: l)) -> val (fst p) <= val (snd p)) -> asc (val a) (a :: l) (val (last l a)).
Proof.
  induction l as [|b l IH]; intros a H; [cbn; lra|]. rewrite last_cons_any. cbn [asc]. split; [lra|]. specialize (IH b). cbn [asc] in IH. split.
  - apply (H (a, b)). left. reflexivity.
  - apply IH. intros p Hp. apply H. right. exact Hp.
Qed.
Lemma finite_days l lo hi : (forall x, In x l -> exists b : bf, x = B2SF b /\ is_finite b = true) -> asc lo l hi -> -D <= lo -> hi <= D -> Forall day_number l.
Proof.
  intros H A L1 L2. apply Forall_forall. intros x Hx. destruct (H x Hx) as (b & -> & F). apply (asc_in _ _ _ _ A) in Hx. rewrite val_b in Hx. apply day_b; [exact F|]. apply Rabs_le. lra.
Qed.

Definition sampled (jd0 jd1 step : b64) (l : list b64) : Prop :=
  exists a r W, l = a :: r /\ Forall day_number (a :: r) /\ asc (val jd0) (a :: r) (val jd1) /\ val a = val jd0 /\ last r a = jd1 /\
    0 < W <= 65538 /\ (forall p, In p (pairs (a :: r)) -> even_steps W (5 * U) p /\ val (snd p) - val (fst p) <= val step + 7 * U).
Lemma two_samples (a b z : bf) : is_finite a = true -> is_finite b = true -> is_finite z = true -> Rabs (B2R a) <= D -> Rabs (B2R b) <= D -> B2R z = 0 -> B2R a < B2R b -> forall step, B2R b - B2R a <= val step + 7 * U -> B2R b - B2R a <= 65538 ->
  sampled (B2SF a) (B2SF b) step [fadd (B2SF z) (B2SF a); B2SF b].
Proof.
  intros Fa Fb Fz Ha Hb Vz L step Hs Hm. assert (bpow radix2 30 <= bpow radix2 1007) by (apply bpow_le; lia). assert (E30 : bpow radix2 30 = 1073741824) by reflexivity. assert (HU : 0 < U) by (unfold U; lra).
  destruct (fadd_val z a Fz Fa) as (t & -> & Ft & Vt). { rewrite Vz, Rplus_0_l. unfold D in *. lra. } rewrite Vz, Rplus_0_l, rnd_id in Vt.
  exists (B2SF t), [B2SF b], (B2R b - B2R a). split; [reflexivity|]. split; [constructor; [|constructor; [|constructor]]; apply day_b; try assumption; rewrite Vt; assumption|].
  cbn [asc last]. rewrite !val_b. split; [lra|]. split; [exact Vt|]. split; [reflexivity|]. split; [lra|]. intros p Hp. cbn in Hp. destruct Hp as [<-|[]]. unfold even_steps. cbn [fst snd]. rewrite !val_b. lra.
Qed.
Lemma zero_times (s : bf) : is_finite s = true -> exists z : bf, fmul (of_Z 0) (B2SF s) = B2SF z /\ is_finite z = true /\ B2R z = 0.
Proof.
  intros F. destruct (of_Z_bf 0) as (o & Eo & Fo & Vo); [unfold fits; lia|]. destruct (fmul_val o s Fo F) as (z & E & Fz & V & _); [rewrite Vo, Rmult_0_l, Rabs_R0; apply bpow_gt_0|].
  exists z. rewrite Eo. split; [exact E|]. split; [exact Fz|]. rewrite V, Vo, Rmult_0_l. apply round_0. apply valid_rnd_N.
Qed.
Lemma small_eta : 0 < eta <= / 2 ^ 100.
Proof. unfold eta. split; [apply bpow_gt_0|]. assert (H : bpow radix2 (-1075) <= bpow radix2 (-100)) by (apply bpow_le; lia). apply Rle_trans with (1 := H). cbn. lra. Qed.

Lemma first_samples jd0 jd1 step : day_number jd0 -> day_number jd1 -> usual_step step -> val jd0 < val jd1 ->
  fleb jd1 jd0 = false /\ (0 <= sample_count64 jd0 jd1 step)%Z /\ sampled jd0 jd1 step (linspace64 jd0 jd1 (Z.to_nat (sample_count64 jd0 jd1 step))).
Proof.
  intros (a & -> & Fa & Ha) (b & -> & Fb & Hb) (s & -> & Fs & Hs). rewrite !val_b. intros L.
  assert (B30 : bpow radix2 60 <= bpow radix2 1007) by (apply bpow_le; lia). assert (E30 : bpow radix2 60 = 1152921504606846976) by reflexivity. assert (HU : U = / 2147483648) by reflexivity. assert (UP : 0 < U < 0.000001) by (unfold U; lra).
  pose proof Ha as Ha'. pose proof Hb as Hb'. apply Rabs_le_inv in Ha', Hb'. pose proof small_eta as HE. assert (HE' : eta <= 0.0000001 * U) by (rewrite HU; lra).
  assert (E20 : / 2 ^ 20 = / 1048576) by (f_equal; lra). assert (E16 : 2 ^ 16 = 65536) by lra. rewrite E20, E16 in Hs.
  assert (Heps : eps = U / 4194304) by (unfold eps, U; lra).
  split. { unfold fleb. change (SFleb (B2SF b) (B2SF a)) with (Bleb b a). rewrite Bleb_correct by assumption. apply Rle_bool_false. exact L. }
  unfold sample_count64. destruct (fsub_val b a Fb Fa) as (d & Ed & Fd & Vd); [apply Rabs_lt; lra|]. rewrite Ed.
  pose proof (rnd_err (B2R b - B2R a) 23 ltac:(lia)) as Rd. assert (E31 : bpow radix2 (23 - 54) = U) by (cbn; unfold U; lra). assert (E23 : bpow radix2 23 = 8388608) by reflexivity. rewrite E31, E23, <- Vd in Rd. specialize (Rd ltac:(lra)).
  assert (Pd : 0 <= B2R d) by (rewrite Vd; apply rnd_nonneg; lra).
  set (DEL := B2R d) in *. set (A := B2R a) in *. set (B := B2R b) in *. set (S := B2R s) in *.
  assert (Q0 : 0 <= DEL / S) by (apply Rmult_le_pos; [lra|]; left; apply Rinv_0_lt_compat; lra).
  assert (QM : DEL / S * S = DEL) by (field; lra). assert (Q1 : DEL / S <= 10000000000000) by (apply Rmult_le_reg_r with S; [lra|]; rewrite QM; lra).
  destruct (fdiv_val d s Fd) as (x & Ex & Fx & Vx); [fold S; lra|fold DEL S; apply Rabs_lt; lra|]. rewrite Ex. fold DEL S in Vx.
  pose proof (SexaF_Proofs2.rnd_err (DEL / S)) as Rx. rewrite (Rabs_right (DEL / S)) in Rx by lra. rewrite <- Vx in Rx. apply Rabs_le_inv in Rx.
  assert (Px : 0 <= B2R x) by (rewrite Vx; apply rnd_nonneg; exact Q0). assert (E51 : bpow radix2 51 = 2251799813685248) by reflexivity.
  assert (EQ : eps * (DEL / S) <= 1) by (rewrite Heps, HU; lra).
  rewrite (trunc_val x Fx) by (rewrite E51; split; [exact Px|lra]).
  pose proof (Zfloor_lb (B2R x)) as Z1. pose proof (Zfloor_ub (B2R x)) as Z2. assert (Z0 : (0 <= Zfloor (B2R x))%Z) by (apply Zfloor_lub; exact Px). set (n1 := Zfloor (B2R x)) in *. set (X := B2R x) in *.
  split; [lia|]. replace (Z.to_nat (n1 + 2)) with (Datatypes.S (Datatypes.S (Z.to_nat n1))) by lia.
  destruct (Z.eq_dec n1 0) as [N0|N0].
  - rewrite N0. cbn [Z.to_nat linspace64]. change (Z.of_nat 1) with 1%Z. cbn [seq map app]. rewrite Ed. change (Z.of_nat 0) with 0%Z.
    destruct (of_Z_bf 1) as (o & Eo & Fo & Vo); [unfold fits; lia|]. destruct (of_Z_bf 0) as (z & Ezz & Fz & Vz); [unfold fits; lia|]. rewrite Eo.
    destruct (fdiv_val d o Fd) as (st & -> & Fst & Vst); [rewrite Vo; lra|rewrite Vo; fold DEL; apply Rabs_lt; lra|].
    assert (Hn : DEL / S < 1). { apply Rnot_le_lt. intros G. apply rnd_le in G. rewrite (rnd_Z 1) in G by (unfold fits; lia). rewrite <- Vx in G. rewrite N0 in Z2. lra. }
    assert (DEL < S) by (pose proof (Rmult_lt_compat_r S (DEL / S) 1 ltac:(lra) Hn); lra).
    assert (Z : exists z : bf, (if is_zero (B2SF st) then fmul (fdiv (of_Z 0) (B2SF o)) (B2SF d) else fmul (of_Z 0) (B2SF st)) = B2SF z /\ is_finite z = true /\ B2R z = 0).
    { destruct (is_zero (B2SF st)); [|apply zero_times; exact Fst]. rewrite Ezz. destruct (fdiv_val z o Fz) as (q & -> & Fq & Vq); [rewrite Vo; lra|rewrite Vz, Vo; apply Rabs_lt; lra|].
      rewrite Vz, Vo in Vq. replace (0 / 1) with 0 in Vq by lra. rewrite round_0 in Vq by apply valid_rnd_N. destruct (fmul_val q d Fq Fd) as (r & -> & Fr & Vr & _); [rewrite Vq, Rmult_0_l, Rabs_R0; lra|].
      exists r. split; [reflexivity|]. split; [exact Fr|]. rewrite Vr, Vq, Rmult_0_l. apply round_0. apply valid_rnd_N. }
    destruct Z as (y & -> & Fy & Vy). apply two_samples; try assumption; rewrite ?val_b; fold A B S; lra.
  - assert (X1 : 1 <= X). { apply Rle_trans with (2 := Z1). apply IZR_le. lia. }
    assert (NN : Z.of_nat (Datatypes.S (Z.to_nat n1)) = (n1 + 1)%Z) by lia. assert (NB : (n1 <= 10000000000002)%Z) by (apply le_IZR; lra).
    set (N := IZR (n1 + 1)) in *. assert (HN : IZR n1 = N - 1) by (unfold N; rewrite plus_IZR; ring). rewrite HN in Z1, Z2. assert (HN2 : 2 <= N) by (unfold N; apply IZR_le; lia).
    destruct (of_Z_bf (n1 + 1)) as (dv & Edv & Fdv & Vdv); [unfold fits; lia|]. fold N in Vdv.
    (* sizes *)
    assert (M1 : X * S <= DEL * (1 + eps) + eta * S). { apply Rle_trans with ((DEL / S + (eps * (DEL / S) + eta)) * S); [apply Rmult_le_compat_r; lra|]. right. replace (DEL * (1 + eps)) with (DEL / S * S * (1 + eps)) by (rewrite QM; reflexivity). ring. }
    assert (M2 : DEL * (1 - eps) - eta * S <= X * S). { apply Rle_trans with ((DEL / S - (eps * (DEL / S) + eta)) * S); [|apply Rmult_le_compat_r; lra]. right. replace (DEL * (1 - eps)) with (DEL / S * S * (1 - eps)) by (rewrite QM; reflexivity). ring. }
    assert (M3 : S <= X * S) by (pose proof (Rmult_le_compat_r S 1 X ltac:(lra) X1); lra). assert (M4 : X * S <= N * S <= (X + 1) * S) by (split; apply Rmult_le_compat_r; lra). assert (M5 : N * S <= N * 65536) by (apply Rmult_le_compat_l; lra). assert (M6 : eta * S <= 65536 * eta) by (rewrite Rmult_comm; apply Rmult_le_compat_r; lra). assert (M6' : 0 <= eta * S) by (apply Rmult_le_pos; lra). rewrite Heps in M1, M2. assert (EE : 65536 * eta <= 0.00000000001 * U) by (rewrite HU; lra). assert (EN : N * eta <= 0.001 * U) by (apply Rle_trans with (20000000000000 * eta); [apply Rmult_le_compat_r; lra|]; rewrite HU; lra).
    assert (DL : / 1048577 <= DEL) by (rewrite HU in *; lra).
    set (W := (B - A) / N). assert (NW : N * W = B - A) by (unfold W; field; lra).
    assert (W1 : W <= S + 1.1 * U). { apply Rmult_le_reg_l with N; [lra|]. rewrite NW, Rmult_plus_distr_l. rewrite HU in *. lra. }
    assert (W2 : 6 * U <= W). { apply Rmult_le_reg_l with N; [lra|]. rewrite NW. assert (N * (6 * U) <= N * (0.01 * S)) by (apply Rmult_le_compat_l; [lra|]; rewrite HU; lra). rewrite HU in *. lra. }
    (* the step *)
    assert (DN : DEL / N <= DEL) by (apply Rmult_le_reg_r with N; [lra|]; replace (DEL / N * N) with DEL by (field; lra); pose proof (Rmult_le_compat_l DEL 1 N ltac:(lra) ltac:(lra)); lra).
    assert (DN0 : 0 < DEL / N) by (apply Rdiv_lt_0_compat; lra).
    destruct (fdiv_val d dv Fd) as (st & Est & Fst & Vst); [rewrite Vdv; lra|rewrite Vdv; fold DEL; apply Rabs_lt; lra|]. fold DEL in Vst. rewrite Vdv in Vst.
    pose proof (SexaF_Proofs2.rnd_err (DEL / N)) as Rst. rewrite (Rabs_right (DEL / N)) in Rst by lra. rewrite <- Vst in Rst. apply Rabs_le_inv in Rst. set (SB := B2R st) in *.
    assert (NS : DEL - (eps * DEL + N * eta) <= N * SB <= DEL + (eps * DEL + N * eta)).
    { split; [apply Rle_trans with (N * (DEL / N - (eps * (DEL / N) + eta)))|apply Rle_trans with (N * (DEL / N + (eps * (DEL / N) + eta)))]; try (apply Rmult_le_compat_l; lra); right; field; lra. }
    rewrite Heps in NS. assert (SW : -2.4 * U <= N * (SB - W) <= 2.4 * U) by (rewrite Rmult_minus_distr_l, NW; rewrite HU in *; lra).
    assert (SW2 : -1.2 * U <= SB - W <= 1.2 * U) by (split; apply Rmult_le_reg_l with N; try lra; [apply Rle_trans with (2 := proj1 SW)|apply Rle_trans with (1 := proj2 SW)]; rewrite HU in *; lra).
    assert (SW3 : -2.4 * U <= (N - 1) * (SB - W) <= 2.4 * U).
    { replace ((N - 1) * (SB - W)) with (N * (SB - W) - (SB - W)) by ring. destruct (Rle_lt_dec 0 (SB - W)) as [G|G].
      - pose proof (Rmult_le_compat_r (SB - W) 1 N G ltac:(lra)). lra.
      - pose proof (Rmult_le_compat_r (W - SB) 1 N ltac:(lra) ltac:(lra)) as G'. replace (N * (W - SB)) with (- (N * (SB - W))) in G' by ring. lra. }
    assert (SP : 0 < SB) by lra. assert (NZ : is_zero (B2SF st) = false) by (destruct st; try reflexivity; unfold SB in SP; cbn in SP; lra).
    (* the samples *)
    set (g := fun i : nat => fadd (fmul (of_Z (Z.of_nat i)) (B2SF st)) (B2SF a)).
    assert (G : forall i, (i <= Z.to_nat n1)%nat -> exists t : bf, g i = B2SF t /\ is_finite t = true /\ A + INR i * SB - 1.5 * U <= B2R t <= A + INR i * SB + 1.5 * U /\ (i = O -> B2R t = A)).
    { intros i Hi. unfold g. destruct (of_Z_bf (Z.of_nat i)) as (k & -> & Fk & Vk); [unfold fits; lia|]. rewrite <- INR_IZR_INZ in Vk.
      assert (I1 : 0 <= INR i <= N - 1). { split; [apply pos_INR|]. rewrite <- HN, INR_IZR_INZ. apply IZR_le. lia. }
      assert (I2 : 0 <= INR i * SB <= (N - 1) * SB) by (split; [apply Rmult_le_pos; lra|apply Rmult_le_compat_r; lra]).
      assert (I3 : (N - 1) * SB = N * SB - SB) by ring. assert (I4 : N * SB <= B - A + 2.4 * U) by lra.
      destruct (fmul_val k st Fk Fst) as (m & -> & Fm & Vm & _); [rewrite Vk; fold SB; apply Rabs_lt; lra|]. fold SB in Vm. rewrite Vk in Vm.
      pose proof (rnd_err (INR i * SB) 23 ltac:(lia)) as Rm. rewrite E31, E23, <- Vm in Rm. specialize (Rm ltac:(lra)).
      destruct (fadd_val m a Fm Fa) as (t & -> & Ft & Vt); [fold A; apply Rabs_lt; lra|]. fold A in Vt.
      pose proof (rnd_err (B2R m + A) 22 ltac:(lia)) as Rt. assert (E32 : bpow radix2 (22 - 54) = U / 2) by (cbn; unfold U; lra). assert (E22 : bpow radix2 22 = 4194304) by reflexivity. rewrite E32, E22, <- Vt in Rt. specialize (Rt ltac:(lra)).
      exists t. split; [reflexivity|]. split; [exact Ft|]. split; [lra|]. intros ->. cbn [INR] in Vm. rewrite Rmult_0_l, round_0 in Vm by apply valid_rnd_N. rewrite Vt, Vm, Rplus_0_l. unfold A. apply rnd_id. }
    assert (LS : linspace64 (B2SF a) (B2SF b) (Datatypes.S (Datatypes.S (Z.to_nat n1))) = map g (seq 0 (Datatypes.S (Z.to_nat n1))) ++ [B2SF b]).
    { unfold linspace64. rewrite NN, Ed, Edv, Est, NZ. reflexivity. }
    rewrite LS. change (map g (seq 0 (Datatypes.S (Z.to_nat n1))) ++ [B2SF b]) with (g O :: (map g (seq 1 (Z.to_nat n1)) ++ [B2SF b])).
    assert (PP : forall p, In p (pairs (g O :: (map g (seq 1 (Z.to_nat n1)) ++ [B2SF b]))) -> even_steps W (5 * U) p).
    { intros p Hp. change (In p (pairs (map g (seq 0 (Datatypes.S (Z.to_nat n1))) ++ [B2SF b]))) in Hp. apply pairs_map_seq in Hp as [(i & Hi & ->)| ->]; unfold even_steps; cbn [fst snd].
      - destruct (G i) as (t & -> & _ & Bt & _); [lia|]. destruct (G (Datatypes.S i)) as (t' & -> & _ & Bt' & _); [lia|]. rewrite !val_b. rewrite S_INR, Rmult_plus_distr_r in Bt'. lra.
      - destruct (G (Z.to_nat n1)) as (t & E & _ & Bt & _); [lia|]. cbn [Nat.add]. rewrite E, !val_b. fold B. rewrite INR_IZR_INZ, Z2Nat.id, HN in Bt by lia. rewrite Rmult_minus_distr_l in SW3. assert (EW : (N - 1) * W = B - A - W) by (rewrite Rmult_minus_distr_r, NW; ring). lra. }
    assert (Hlast : last (map g (seq 1 (Z.to_nat n1)) ++ [B2SF b]) (g O) = B2SF b) by apply last_last.
    assert (V0 : val (g O) = A) by (destruct (G O) as (t & -> & _ & _ & V); [lia|]; rewrite val_b; apply V; reflexivity).
    assert (AS : asc A (g O :: (map g (seq 1 (Z.to_nat n1)) ++ [B2SF b])) B).
    { pose proof (asc_of_pairs (map g (seq 1 (Z.to_nat n1)) ++ [B2SF b]) (g O)) as H. rewrite V0, Hlast, val_b in H. apply H. intros p Hp. apply PP in Hp. unfold even_steps in Hp. lra. }
    exists (g O), (map g (seq 1 (Z.to_nat n1)) ++ [B2SF b]), W. rewrite !val_b. fold A B S. split; [reflexivity|]. split; [|split; [exact AS|split; [exact V0|split; [exact Hlast|split; [lra|]]]]].
    + apply finite_days with (lo := A) (hi := B); [|exact AS|unfold D; lra|unfold D; lra]. intros y Hy. change (In y (map g (seq 0 (Datatypes.S (Z.to_nat n1))) ++ [B2SF b])) in Hy. apply in_app_iff in Hy as [Hy|[<-|[]]]; [|exists b; split; [reflexivity|exact Fb]].
      apply in_map_iff in Hy as (i & <- & Hi). apply in_seq in Hi. destruct (G i) as (t & E & Ft & _); [lia|]. exists t. split; assumption.
    + intros p Hp. pose proof (PP p Hp) as E. split; [exact E|]. unfold even_steps in E. lra.
Qed.
