(** Whole days and fractions of the times that are built. *)
From Coq Require Import ZArith QArith Qround List Bool Lia Lqa.
From Verif Require Import PyNum Cal_Model Time_Model Time_Proofs.
Import ListNotations.
Open Scope Q_scope.

Lemma parts_jd : forall jd f,
  (exists n, whole (tt_jd jd None) = inject_Z n) /\ 0 <= tt_fraction (tt_jd jd None) < 1 /\ whole (tt_jd jd (Some f)) = jd /\ tt_fraction (tt_jd jd (Some f)) = f /\
  (exists n, whole (tai_jd jd None) = inject_Z n) /\ 0 <= tai_fraction (tai_jd jd None) < 1 /\ whole (tai_jd jd (Some f)) = jd /\ tai_fraction (tai_jd jd (Some f)) = f.
Proof.
  intros jd f. pose proof (qmod_range jd 1 eq_refl) as [A B]. repeat split; try reflexivity; try assumption; eexists; reflexivity.
Qed.
Lemma parts_cal : forall cut y m d h mi s, 0 <= h * 3600 + mi * 60 + s < 86400 ->
  (exists n, whole (tt_cal cut y m d h mi s) = inject_Z n - (1 # 2)) /\ 0 <= tt_fraction (tt_cal cut y m d h mi s) < 1 /\
  (exists n, whole (tai_cal cut y m d h mi s) = inject_Z n - (1 # 2)) /\ 0 <= tai_fraction (tai_cal cut y m d h mi s) < 1 /\
  (forall day, 0 <= tt_fraction (tt_calq cut y m day h mi s) < 1 /\ 0 <= tai_fraction (tai_calq cut y m day h mi s) < 1).
Proof.
  intros cut y m d h mi s H. unfold tt_cal, tai_cal, jd_parts, tt_calq, tai_calq, jd_partsq, tai_fraction, mk_time, DAY_S. cbn [whole tt_fraction c_tai_fraction].
  assert (B : 0 <= (s + mi * 60 + h * 3600) / 86400 < 1) by (split; [apply Qle_shift_div_l|apply Qlt_shift_div_r]; lra).
  split; [eexists; reflexivity|]. split; [exact B|]. split; [eexists; reflexivity|]. split; [exact B|]. intros day. split; exact B.
Qed.
Lemma day_part x y : 0 <= y < 1 -> 0 <= (qmod x DAY_S + y) / DAY_S < 1 + (1 # 86400).
Proof.
  intros H. pose proof (qmod_range x DAY_S eq_refl) as [A B]. unfold DAY_S in *. split; [apply Qle_shift_div_l|apply Qlt_shift_div_r]; lra.
Qed.
Lemma parts_utc : forall ts y m d dq h mi s w f,
  (exists n, whole (utc ts y m d h mi s) = inject_Z n) /\ 0 <= tai_fraction (utc ts y m d h mi s) < 1 + (1 # 86400) /\
  (exists n, whole (utc_dayq ts y m dq h mi s) = inject_Z n) /\ 0 <= tai_fraction (utc_dayq ts y m dq h mi s) < 1 + (1 # 86400) /\
  (exists n, whole (utc_jd ts w f) = inject_Z n) /\ 0 <= tai_fraction (utc_jd ts w f) < 1 + (1 # 86400).
Proof.
  intros. split; [eexists; reflexivity|]. split; [apply day_part, qmod_range; reflexivity|]. split; [eexists; reflexivity|]. split; [apply day_part, qmod_range; reflexivity|]. split; [eexists; reflexivity|]. apply day_part, qmod_range; reflexivity.
Qed.

(** Evenly spaced times. *)
Lemma linspace_length t0 t1 num : length (time_linspace t0 t1 num) = num.
Proof. unfold time_linspace. rewrite map_length, seq_length. reflexivity. Qed.
Lemma linspace_nth t0 t1 num i t : nth_error (time_linspace t0 t1 num) i = Some t ->
  (i < num)%nat /\ whole t = linspace_at (whole t0) (whole t1) num i /\ tt_fraction t = linspace_at (tt_fraction t0) (tt_fraction t1) num i.
Proof.
  intros H. assert (L : (i < num)%nat) by (rewrite <- (linspace_length t0 t1 num); apply nth_error_Some; congruence).
  unfold time_linspace in H. rewrite nth_error_map, (nth_error_nth' _ 0%nat) in H by (rewrite seq_length; exact L). rewrite seq_nth in H by exact L.
  injection H as <-. split; [exact L|]. split; reflexivity.
Qed.
Lemma at_step a b n i : linspace_at a b (S (S n)) i == a + inject_Z (Z.of_nat i) / inject_Z (Z.of_nat (S n)) * (b - a).
Proof. unfold linspace_at. field. unfold Qeq, inject_Z. cbn [Qnum Qden]. lia. Qed.
Lemma linspace_even : forall t0 t1 n, let l := time_linspace t0 t1 (S (S n)) in
  length l = S (S n) /\
  (forall i t, nth_error l i = Some t -> tt t == tt t0 + inject_Z (Z.of_nat i) / inject_Z (Z.of_nat (S n)) * (tt t1 - tt t0)) /\
  (exists a b, nth_error l 0 = Some a /\ nth_error l (S n) = Some b /\
     whole a == whole t0 /\ tt_fraction a == tt_fraction t0 /\ whole b == whole t1 /\ tt_fraction b == tt_fraction t1).
Proof.
  intros t0 t1 n l. split; [apply linspace_length|]. split.
  - intros i t H. apply linspace_nth in H as (L & W & F). unfold tt. rewrite W, F, !at_step. ring.
  - destruct (nth_error l 0) as [a|] eqn:A; [|apply nth_error_None in A; unfold l in A; rewrite linspace_length in A; lia].
    destruct (nth_error l (S n)) as [b|] eqn:B; [|apply nth_error_None in B; unfold l in B; rewrite linspace_length in B; lia].
    exists a, b. split; [reflexivity|]. split; [reflexivity|]. apply linspace_nth in A as (_ & A1 & A2). apply linspace_nth in B as (_ & B1 & B2).
    rewrite A1, A2, B1, B2, !at_step. assert (N : ~ inject_Z (Z.of_nat (S n)) == 0) by (unfold Qeq, inject_Z; cbn [Qnum Qden]; lia).
    repeat split; field; exact N.
Qed.
Lemma linspace_few : forall t0 t1, time_linspace t0 t1 0 = [] /\ exists t, time_linspace t0 t1 1 = [t] /\ whole t = whole t0 /\ tt_fraction t = tt_fraction t0.
Proof. intros t0 t1. split; [reflexivity|]. eexists. repeat split. Qed.
