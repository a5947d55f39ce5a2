(** Conversions between units are right up to a few roundings. *)
From Coq Require Import Reals ZArith Bool List Lra Lia.
From Coq Require Import Floats.SpecFloat.
From Flocq Require Import Core BinarySingleNaN Relative.
From Verif Require Import Float64 Float64_Proofs Measure_Model Measure_Spec Measure_Proofs Measure_Proofs2 Pi_Bounds.
Import ListNotations.
Open Scope R_scope.

Lemma rel_of_error x r : Rabs (x - r) <= u53 * Rabs r -> r <> 0 -> rel 1 x r.
Proof.
  intros H N. exists (x / r). split; [field; exact N|]. assert (E : Rabs (x / r - 1) <= u53).
  { replace (x / r - 1) with ((x - r) / r) by (field; exact N). unfold Rdiv. rewrite Rabs_mult, Rabs_inv. apply (Rmult_le_reg_r (Rabs r)); [apply Rabs_pos_lt; exact N|].
    rewrite Rmult_assoc, Rinv_l, Rmult_1_r by (apply Rabs_no_R0; exact N). exact H. }
  apply Rabs_le_inv in E. pose proof u53_small. pose proof one_u. rewrite pow_1. split; [lra|]. apply Rle_trans with (1 + u53); [lra|].
  apply (Rmult_le_reg_r (1 - u53)); [lra|]. rewrite Rinv_l by lra. nra.
Qed.
Lemma fl_val m e r n lo hi : small m e -> rel n (F2R (Float radix2 m e)) r -> bpow radix2 lo <= Rabs r <= bpow radix2 hi -> val (fl m e) r n lo hi.
Proof.
  intros S E B. split; [|exact B]. exists (bnorm m e false). split; [apply fl_bnorm|]. destruct (bnorm_spec m e) as (_ & F & _); [destruct S; lia|apply S|].
  split; [exact F|]. rewrite bnorm_small by exact S. exact E.
Qed.
Lemma int_val k lo hi : (0 < k <= 2 ^ 53)%Z -> (0 <= lo)%Z -> (0 <= hi)%Z -> (2 ^ lo <= k <= 2 ^ hi)%Z -> val (of_Z k) (IZR k) 0 lo hi.
Proof.
  intros H L L' B. apply fl_val.
  - split; lia.
  - unfold F2R. cbn. rewrite Rmult_1_r. apply rel_refl.
  - rewrite Rabs_pos_eq by (apply (IZR_le 0); lia). rewrite <- !IZR_Zpower by assumption. split; apply IZR_le; apply B.
Qed.
Lemma au_km_val : val AU_KM64 (1495978707 / 10) 1 27 28.
Proof.
  apply fl_val; [split; cbn; lia| |rewrite Rabs_pos_eq by lra; cbn; lra].
  apply rel_of_error; [|lra]. unfold F2R, u53. cbn [Fnum Fexp]. rewrite (Rabs_pos_eq (1495978707 / 10)) by lra.
  replace (bpow radix2 (-25)) with (/ 33554432) by (cbn; lra). replace (bpow radix2 (-53)) with (/ 9007199254740992) by (cbn; lra).
  apply Rabs_le. lra.
Qed.
Lemma tau_val : val tau64 (2 * PI) 1 2 3.
Proof.
  pose proof pi_bounds. apply fl_val; [split; cbn; lia| |rewrite Rabs_pos_eq by lra; cbn; lra].
  apply rel_of_error; [|lra]. unfold F2R, u53. cbn [Fnum Fexp]. rewrite (Rabs_pos_eq (2 * PI)) by lra.
  replace (bpow radix2 (-50)) with (/ 1125899906842624) by (cbn; lra). replace (bpow radix2 (-53)) with (/ 9007199254740992) by (cbn; lra).
  apply Rabs_le. lra.
Qed.
Lemma au_m_val : val AU_M64 149597870700 0 37 38. Proof. apply int_val; cbn; lia. Qed.
Lemma day_val : val DAY_S64 86400 0 16 17. Proof. apply int_val; cbn; lia. Qed.
Lemma nearly_val y r n lo hi : val y r n lo hi -> (n <= 6)%nat -> nearly 7 y r.
Proof.
  intros ((b & -> & F & E) & _) L. exists b. split; [reflexivity|]. split; [exact F|]. apply (rel_mono n 6) in E; [|exact L]. destruct E as (f & -> & G).
  replace (f * r - r) with ((f - 1) * r) by ring. rewrite Rabs_mult. apply Rmult_le_compat_r; [apply Rabs_pos|].
  assert (U : u53 = / 2 ^ 53) by (unfold u53; cbn; lra). rewrite <- U. assert (Q : 0 < u53 <= / 1000). { rewrite U. split; [lra|]. apply Rinv_le_contravar; lra. }
  set (u := u53) in *. clearbody u. assert (P : 1 - 6 * u <= (1 - u) ^ 6).
  { assert (forall k, 1 - INR k * u <= (1 - u) ^ k). { induction k as [|k IH]; [cbn; lra|]. rewrite S_INR. cbn [pow]. pose proof (pos_INR k). nra. }
    specialize (H 6%nat). replace (INR 6) with 6 in H by (cbn; lra). exact H. }
  assert (/ (1 - u) ^ 6 <= 1 + 7 * u). { apply Rle_trans with (/ (1 - 6 * u)); [apply Rinv_le_contravar; lra|]. apply (Rmult_le_reg_r (1 - 6 * u)); [lra|]. rewrite Rinv_l by lra. nra. }
  apply Rabs_le. lra.
Qed.
Lemma given_val (x : bf) : is_finite x = true -> bpow radix2 (-900) <= Rabs (B2R x) <= bpow radix2 900 -> val (B2SF x) (B2R x) 0 (-900) 900.
Proof. intros F B. split; [|exact B]. exists x. split; [reflexivity|]. split; [exact F|apply rel_refl]. Qed.
Lemma nearly_eq y r s n lo hi : val y r n lo hi -> (n <= 6)%nat -> r = s -> nearly 7 y s.
Proof. intros V L <-. exact (nearly_val _ _ _ _ _ V L). Qed.

Opaque fmul fdiv of_Z tau64 AU_KM64 AU_M64 DAY_S64.
Ltac chain G :=
  first [ exact G | exact au_km_val | exact au_m_val | exact day_val | exact tau_val
        | (apply (int_val 360 8 9); cbn; lia) | (apply (int_val 24 4 5); cbn; lia)
        | (apply (int_val 21600 14 15); cbn; lia) | (apply (int_val 1296000 20 21); cbn; lia) | (apply (int_val 1296000000 30 31); cbn; lia)
        | (apply (int_val 1440 10 11); cbn; lia) | (apply (int_val 86400 16 17); cbn; lia)
        | (eapply val_mul; [chain G|chain G|lia|lia|lia|lia]) | (eapply val_div; [chain G|chain G|lia|lia|lia|lia]) ].
Ltac finish G := eexists; split; [reflexivity|]; eapply nearly_eq; [chain G|lia|unfold unit_size; field; try (pose proof PI_RGT_0; lra)].
Lemma conversions c u (x : bf) o w : made_from c u (B2SF x) o -> unit_of_class c w -> is_finite x = true -> bpow radix2 (-900) <= Rabs (B2R x) <= bpow radix2 900 ->
  exists y, fst (perform o (Read w)) = Value (Number y) /\ nearly 7 y (B2R x * unit_size u / unit_size w).
Proof.
  intros H W F B. pose proof (given_val x F B) as G.
  remember (B2SF x) as sx eqn:Sx. clear Sx F B. generalize dependent (B2R x). intros r G.
  destruct H as [sx k y o H|sx k o H|sx o H|sx o H|sx a o H|sx d h p s o H|sx h p s o H|sx p s o H|sx s|c n sx o H].
  9: destruct w; try contradiction; finish G.
  9: destruct c, n; cbn in H; try discriminate; injection H as <-; destruct w; try contradiction; finish G.
  all: cbn in H; injection H as <-; destruct w; try contradiction; finish G.
Qed.
Lemma rates (x : bf) u p : is_finite x = true -> bpow radix2 (-900) <= Rabs (B2R x) <= bpow radix2 900 ->
  nearly 7 (per_period (per_day_in (B2SF x) u) p) (B2R x / (2 * PI) * in_a_turn u / in_a_day p).
Proof.
  intros F B. pose proof (given_val x F B) as G. remember (B2SF x) as sx eqn:Sx. clear Sx F B. generalize dependent (B2R x). intros r G.
  destruct u, p; cbn; (eapply nearly_eq; [chain G|lia|field; try (pose proof PI_RGT_0; lra)]).
Qed.
Transparent fmul fdiv of_Z tau64 AU_KM64 AU_M64 DAY_S64.
Lemma given_back_after c u x o us : made_from c u x o -> fst (perform (after o us) (Read u)) = Value (Number x).
Proof. intros H. rewrite uses_change_nothing. exact (given_back c u x o H). Qed.
Lemma conversions_ex : exists x : bf, is_finite x = true /\ bpow radix2 (-900) <= Rabs (B2R x) <= bpow radix2 900 /\ exists o, made_from Distance km (B2SF x) o.
Proof.
  exists (bnorm 1 0 false). destruct (bnorm_spec 1 0) as (_ & F & _); [cbn; lia|lia|]. split; [exact F|]. split.
  - rewrite bnorm_small by (split; cbn; lia). unfold F2R. cbn [Fnum Fexp]. replace (bpow radix2 0) with 1 by reflexivity. rewrite Rmult_1_l, Rabs_R1.
    split; [apply (bpow_le radix2 (-900) 0)|apply (bpow_le radix2 0 900)]; lia.
  - eexists. apply (made_km _ None). reflexivity.
Qed.
