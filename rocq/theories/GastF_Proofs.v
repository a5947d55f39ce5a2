(** Proofs about apparent sidereal time in binary64. *)
From Coq Require Import ZArith Reals Lia Lra.
From Flocq Require Import Core BinarySingleNaN.
From Verif Require Import Float64 Float64_Proofs Float_Time_Proofs Float_Time_Proofs4 SexaF_Proofs2 CalF_Proofs CalF_Proofs2 Spin_Spec Wrap_Model Wrap_Spec Wrap_Proofs Wrap_Proofs2 SepF_Spec SphF_Spec EraF_Model EraF_Proofs GastF_Model.
From Verif Require SphF_Proofs3.
Open Scope R_scope.

(** The equation of the equinoxes. *)
Lemma equinoxes_close g (d e c : bf) : good_function g cos -> within (- / 1024) (/ 1024) d -> within (-7) 7 e -> within (- / 1024) (/ 1024) c ->
  exists v : bf, equinoxes64 g (B2SF d) (B2SF e) (B2SF c) = B2SF v /\ is_finite v = true /\ Rabs (B2R v - (B2R d * cos (B2R e) + B2R c)) <= 6 / 10 ^ 19 /\ Rabs (B2R d * cos (B2R e) + B2R c) <= / 512.
Proof.
  intros G (Fd & Hd) (Fe & He) (Fc & Hc). pose proof top_ge as TT. destruct (G e Fe ltac:(apply Rabs_le; lra)) as (y & Ey & Fy & Vy). unfold equinoxes64. rewrite Ey. pose proof (COS_bound (B2R e)) as CB. set (C := cos (B2R e)) in *.
  assert (HC : Rabs C <= 1) by (apply Rabs_le; lra). assert (K : / 2 ^ 900 <= / 2 ^ 60) by (apply Rinv_le_contravar; [apply pow_lt; lra|apply Rle_pow; [lra|lia]]). assert (Vy' : Rabs (B2R y - C) <= 223 / 10 ^ 18) by lra.
  assert (P1 : Rabs (B2R d * B2R y - B2R d * C) <= 218 / 10 ^ 21).
  { replace (B2R d * B2R y - B2R d * C) with (B2R d * (B2R y - C)) by ring. rewrite Rabs_mult. assert (Ad : Rabs (B2R d) <= / 1024) by (apply Rabs_le; lra). assert (Rabs (B2R d) * Rabs (B2R y - C) <= / 1024 * (223 / 10 ^ 18)) by (apply Rmult_le_compat; (apply Rabs_pos || assumption)). lra. }
  assert (P2 : Rabs (B2R d * C) <= / 1024) by (rewrite Rabs_mult; assert (Ad : Rabs (B2R d) <= / 1024) by (apply Rabs_le; lra); assert (Rabs (B2R d) * Rabs C <= / 1024 * 1) by (apply Rmult_le_compat; (apply Rabs_pos || assumption)); lra).
  apply Rabs_le_inv in P1, P2. destruct (fmul_val d y Fd Fy) as (m & -> & Fm & Vm & _); [apply Rabs_lt; lra|].
  pose proof (rnd_err (B2R d * B2R y) (-9) ltac:(lia) ltac:(change (bpow radix2 (-9)) with (/ 512); lra)) as R1. change (bpow radix2 (-9 - 54)) with (/ 9223372036854775808) in R1. rewrite <- Vm in R1.
  destruct (fadd_val m c Fm Fc) as (v & -> & Fv & Vv); [apply Rabs_lt; lra|].
  pose proof (rnd_err (B2R m + B2R c) (-8) ltac:(lia) ltac:(change (bpow radix2 (-8)) with (/ 256); lra)) as R2. change (bpow radix2 (-8 - 54)) with (/ 4611686018427387904) in R2. rewrite <- Vv in R2.
  exists v. split; [reflexivity|]. split; [exact Fv|]. split; apply Rabs_le; lra.
Qed.
Lemma gast_close g (w fu ft d e c : bf) : good_function g cos -> is_finite w = true -> within (-1) 1 fu -> within (-1) 1 ft -> Rabs (B2R w - 2451545) <= 262000 -> within (- / 1024) (/ 1024) d -> within (-7) 7 e -> within (- / 1024) (/ 1024) c ->
  folded 0 24 (705 / 10 ^ 14) (gmst_circular_179 (era_iau (B2R w + B2R fu - 2451545)) (centuries (B2R w + B2R ft)) / 3600 + (B2R d * cos (B2R e) + B2R c) / tau_float * 24)
    (apparent_sidereal_time64 g (B2SF w) (B2SF fu) (B2SF ft) (B2SF d) (B2SF e) (B2SF c)).
Proof.
  intros G Fw Hu Ht B Hd He Hc. unfold apparent_sidereal_time64. destruct (gmst_close w fu ft Fw Hu Ht B) as (s & n & -> & Fs & Bs & Vs). destruct (equinoxes_close g d e c G Hd He Hc) as (q & -> & Fq & Vq & Bq). set (Q := B2R d * cos (B2R e) + B2R c) in *. apply Rabs_le_inv in Vq, Bq.
  destruct (proj1 (proj2 (proj2 sidereal_folded)) s q ltac:(split; [exact Fs|lra]) ltac:(split; [exact Fq|lra])) as (a & m & -> & Fa & Ba & Va).
  exists a, (m + n)%Z. split; [reflexivity|]. split; [exact Fa|]. split; [exact Ba|]. rewrite plus_IZR. set (S := gmst_circular_179 _ _ / 3600) in *.
  assert (E : Rabs (B2R q / tau_float * 24 - Q / tau_float * 24) <= 4 / 10 ^ 18).
  { pose proof tau_range as TR. replace (B2R q / tau_float * 24 - Q / tau_float * 24) with ((B2R q - Q) * (24 / tau_float)) by (field; lra). assert (I : 0 < 24 / tau_float <= 4) by (split; [apply Rdiv_lt_0_compat; lra|apply Rmult_le_reg_r with tau_float; [lra|]; unfold Rdiv; rewrite Rmult_assoc, Rinv_l by lra; lra]). rewrite Rabs_mult, (Rabs_pos_eq (24 / tau_float)) by lra. assert (Aq : Rabs (B2R q - Q) <= 6 / 10 ^ 19) by (apply Rabs_le; lra). assert (Rabs (B2R q - Q) * (24 / tau_float) <= 6 / 10 ^ 19 * 4) by (apply Rmult_le_compat; [apply Rabs_pos|lra|exact Aq|lra]). lra. }
  apply Rabs_le_inv in Va, Vs, E. apply Rabs_le. lra.
Qed.
Lemma some_cosine : exists g, good_function g cos.
Proof. apply SphF_Proofs3.some_function. intros x. pose proof (COS_bound x). apply Rabs_le. lra. Qed.
Lemma gast_example : exists (g : b64 -> b64) (w f d e c : bf), good_function g cos /\ is_finite w = true /\ within (-1) 1 f /\ B2R w = 2460000 /\ B2R f = 1 / 4 /\ Rabs (B2R w - 2451545) <= 262000 /\ within (- / 1024) (/ 1024) d /\ B2R d = -3 / 65536 /\ within (-7) 7 e /\ B2R e = 13 / 32 /\ within (- / 1024) (/ 1024) c /\ B2R c = 1 / 134217728.
Proof.
  destruct some_cosine as (g & G). destruct era_example as (w & f & A & B & C & D & E & _).
  destruct (const_bf (-3) (-16) 16 ltac:(unfold small; lia) eq_refl) as (d & _ & Fd & Vd). change (IZR (Z.pow_pos 2 16)) with 65536 in Vd.
  destruct (const_bf 13 (-5) 5 ltac:(unfold small; lia) eq_refl) as (e & _ & Fe & Ve). change (IZR (Z.pow_pos 2 5)) with 32 in Ve.
  destruct (const_bf 1 (-27) 27 ltac:(unfold small; lia) eq_refl) as (c & _ & Fc & Vc). change (IZR (Z.pow_pos 2 27)) with 134217728 in Vc.
  exists g, w, f, d, e, c. split; [exact G|]. split; [exact A|]. split; [exact B|]. split; [exact C|]. split; [exact D|]. split; [exact E|]. split; [split; [exact Fd|rewrite Vd; lra]|]. split; [exact Vd|]. split; [split; [exact Fe|rewrite Ve; lra]|]. split; [exact Ve|]. split; [split; [exact Fc|rewrite Vc; lra]|exact Vc].
Qed.
