(** Proofs about times given by a UT1 date, in binary64. *)
From Coq Require Import ZArith Reals List Bool Lia Lra.
From Coq.Floats Require Import SpecFloat.
From Flocq Require Import Core BinarySingleNaN.
From Verif Require Import Float64 Float64_Proofs Float_Time_Model Float_Time_Spec Cal_Model Cal_Spec PyNum Time_Model Time_Spec Time_Proofs Time_Proofs2 Float_Time_Proofs Float_Time_Proofs3 Float_Time_Proofs4 SexaF_Model SexaF_Spec SexaF_Proofs SexaF_Proofs2 SexaF_Proofs3 CalF_Model CalF_Spec CalF_Proofs CalF_Proofs2 Ut1F_Model.
Open Scope Z_scope.

Lemma big_bound : (bpow radix2 40 <= bpow radix2 1007)%R.
Proof. apply bpow_le. lia. Qed.
Lemma zero_times (j : bf) : is_finite j = true -> (Rabs (B2R j) <= bpow radix2 40)%R -> exists z : bf, fmul (of_Z 0) (B2SF j) = B2SF z /\ is_finite z = true /\ B2R z = 0%R.
Proof.
  intros F B. pose proof big_bound as Big. change (bpow radix2 40) with 1099511627776%R in *. destruct (of_Z_bf 0 ltac:(fit)) as (o & -> & Fo & Vo). destruct (fmul_val o j Fo F) as (z & -> & Fz & Vz & _).
  - rewrite Vo, Rmult_0_l, Rabs_R0. lra.
  - exists z. split; [reflexivity|]. split; [exact Fz|]. rewrite Vz, Vo, Rmult_0_l. apply round_0. typeclasses eauto.
Qed.
Lemma ut1_parts dt cut y m d h mi (s : bf) : good_cutoff cut -> exists_under cut (y, m, d) -> 1 <= civil_day_number cut (y, m, d) <= 4194302 -> time_of_day h mi -> is_finite s = true -> (0 <= B2R s < 60)%R ->
  exists j z : bf, ut1_whole (ut1_date64 dt cut y m d (of_Z h) (of_Z mi) (B2SF s)) = B2SF j /\ ut1_fraction64 (ut1_date64 dt cut y m d (of_Z h) (of_Z mi) (B2SF s)) = B2SF z /\ usual_whole j /\ usual_fraction z /\
    (Rabs (seconds_of_jd (B2R j) (B2R z) - seconds_of cut y m d h mi (B2R s)) <= 86400 * / 2 ^ 32 + / 2 ^ 35)%R.
Proof.
  intros Hc Hd Bn Ht Fs Bs. destruct (entered cut y m d h mi s Hc Hd ltac:(lia) Ht Fs Bs) as (w & f & E & Vw & (Fw & _) & (Ff & _) & Bf & Er).
  assert (BR : (1 <= IZR (civil_day_number cut (y, m, d)) <= 4194302)%R) by (split; apply IZR_le; lia). pose proof big_bound as Big. change (bpow radix2 40) with 1099511627776%R in Big.
  destruct (fadd_val w f Fw Ff) as (j & Ej & Fj & Vj); [apply Rabs_lt; lra|].
  assert (R : (B2R w + B2R f - bpow radix2 (-32) <= B2R j <= B2R w + B2R f + bpow radix2 (-32))%R). { rewrite Vj. apply (rnd_small _ 22); [lia|]. change (bpow radix2 22) with 4194304%R. apply Rabs_lt. lra. }
  change (bpow radix2 (-32)) with (/ 4294967296)%R in R.
  destruct (zero_times j Fj) as (z & Ez & Fz & Vz). { change (bpow radix2 40) with 1099511627776%R. apply Rabs_le. lra. }
  exists j, z. unfold ut1_date64. rewrite E, Ej. unfold ut1_jd64. cbn [ut1_whole ut1_fraction64]. split; [reflexivity|]. split; [exact Ez|]. split; [|split].
  - split; [exact Fj|]. left. split; [apply sign_of_pos; [exact Fj|lra]|]. change (bpow radix2 40) with 1099511627776%R. lra.
  - split; [exact Fz|]. rewrite Vz. lra.
  - unfold seconds_of_jd in *. rewrite Vz. apply Rabs_le_inv in Er. apply Rabs_le. lra.
Qed.
Lemma ut1_read_back dt cut y m d h mi (s : bf) : good_cutoff cut -> exists_under cut (y, m, d) -> 1 <= civil_day_number cut (y, m, d) <= 4194302 -> time_of_day h mi -> is_finite s = true -> (0 <= B2R s < 60)%R ->
  exists y' m' d' h' mi' (q : bf), ut1_calendar64 (ut1_date64 dt cut y m d (of_Z h) (of_Z mi) (B2SF s)) cut = (y', m', d', h', mi', B2SF q) /\ exists_under cut (y', m', d') /\ time_of_day h' mi' /\
    is_finite q = true /\ (0 <= B2R q < 60)%R /\ (Rabs (seconds_of cut y' m' d' h' mi' (B2R q) - seconds_of cut y m d h mi (B2R s)) <= 202 / 10000000)%R.
Proof.
  intros Hc Hd Bn Ht Fs Bs. destruct (ut1_parts dt cut y m d h mi s Hc Hd Bn Ht Fs Bs) as (j & z & Ej & Ez & Uj & Uz & Er). unfold ut1_calendar64. rewrite Ej, Ez.
  destruct (tuple_denotes j z cut Hc Uj Uz) as (y' & m' & d' & h' & mi' & q & E' & Hd' & Ht' & Fq & Bq & Er'). exists y', m', d', h', mi', q.
  split; [exact E'|]. split; [exact Hd'|]. split; [exact Ht'|]. split; [exact Fq|]. split; [exact Bq|]. apply Rabs_le_inv in Er, Er'. apply Rabs_le. lra.
Qed.
Lemma ut1_seconds dt cut y m d h mi s : good_cutoff cut -> exists_under cut (y, m, d) -> 1 <= civil_day_number cut (y, m, d) <= 4194302 -> time_of_day h mi -> 0 <= s <= 59 ->
  exists wd yd, ut1_strftime64 half_second (ut1_date64 dt cut y m d (of_Z h) (of_Z mi) (of_Z s)) cut = (y, m, d, h, mi, s, wd, yd).
Proof.
  intros Hc Hd Bn Ht Bs. destruct (of_Z_bf s ltac:(fit)) as (x & Ex & Fx & Vx). rewrite Ex. assert (BR : (0 <= B2R x < 60)%R) by (rewrite Vx; split; [apply IZR_le|apply IZR_lt]; lia).
  destruct (ut1_parts dt cut y m d h mi x Hc Hd Bn Ht Fx BR) as (j & z & Ej & Ez & Uj & Uz & Er). unfold ut1_strftime64. rewrite Ej, Ez.
  destruct (second_denotes j z cut Hc Uj Uz) as (y' & m' & d' & h' & mi' & s' & wd & yd & E' & Hd' & Ht' & Bs' & Er'). rewrite E'. exists wd, yd. rewrite Vx in Er. apply Rabs_le_inv in Er, Er'.
  destruct (same_fields cut y' m' d' h' mi' s' y m d h mi s Hc Hd' Hd Ht' Ht Bs' Bs) as (-> & -> & -> & -> & -> & ->); [apply Rabs_lt; lra|reflexivity].
Qed.
(** ** Delta T *)
Lemma over_day (x : bf) : is_finite x = true -> (Rabs (B2R x) <= 10001)%R ->
  exists o : bf, fdiv (B2SF x) DAY_S64 = B2SF o /\ is_finite o = true /\ (Rabs (B2R o - B2R x / 86400) <= bpow radix2 (-57))%R.
Proof.
  intros F B. destruct (of_Z_bf 86400) as (u & Eu & Fu & Vu); [unfold fits; lia|]. unfold DAY_S64. rewrite Eu. pose proof big_bound as Big. change (bpow radix2 40) with 1099511627776%R in Big. apply Rabs_le_inv in B.
  destruct (fdiv_val x u F) as (o & -> & Fo & Vo); [rewrite Vu; lra|rewrite Vu; apply Rabs_lt; lra|]. rewrite Vu in Vo. exists o. split; [reflexivity|]. split; [exact Fo|].
  assert (R : (B2R x / 86400 - bpow radix2 (-57) <= B2R o <= B2R x / 86400 + bpow radix2 (-57))%R). { rewrite Vo. apply (rnd_small _ (-3)); [lia|]. change (bpow radix2 (-3)) with (/ 8)%R. apply Rabs_lt. lra. }
  apply Rabs_le. lra.
Qed.
Lemma ut1_delta_t_full (dt : b64 -> b64) (DT : R -> R) (err lo hi : R) (jd : bf) : is_finite jd = true -> (0 <= err <= 1)%R -> (- 4194303 <= lo)%R -> (hi <= 4194303)%R ->
  (forall x, lo <= x <= hi -> Rabs (DT x) <= 10000)%R -> (forall x x', lo <= x <= hi -> lo <= x' <= hi -> Rabs (DT x - DT x') <= / 50 * Rabs (x - x'))%R ->
  (forall x : bf, is_finite x = true -> (lo <= B2R x <= hi)%R -> exists v : bf, dt (B2SF x) = B2SF v /\ is_finite v = true /\ (Rabs (B2R v - DT (B2R x)) <= err)%R) ->
  (lo + 1 <= B2R jd <= hi - 1)%R ->
  exists f z : bf, ut1_jd64 dt (B2SF jd) = UT (B2SF jd) (B2SF f) (B2SF z) /\ is_finite f = true /\ is_finite z = true /\ B2R z = 0%R /\ (Rabs (B2R f) <= / 2)%R /\
    (Rabs (86400 * B2R f - DT (B2R jd + B2R f)) <= 1000001 / 1000000 * err + / 1000000000)%R.
Proof.
  intros F Be Bl Bh BD LD HD Bj. pose proof big_bound as Big. change (bpow radix2 40) with 1099511627776%R in Big.
  destruct (zero_times jd F) as (z & Ez & Fz & Vz). { change (bpow radix2 40) with 1099511627776%R. apply Rabs_le. lra. }
  destruct (HD jd F ltac:(lra)) as (v & Ev & Fv & Vv). pose proof (BD (B2R jd) ltac:(lra)) as B1. apply Rabs_le_inv in Vv, B1.
  destruct (over_day v Fv) as (g & Eg & Fg & Vg); [apply Rabs_le; lra|]. change (bpow radix2 (-57)) with (/ 144115188075855872)%R in Vg. apply Rabs_le_inv in Vg.
  destruct (fadd_val jd g F Fg) as (a & Ea & Fa & Va); [apply Rabs_lt; lra|].
  assert (R : (B2R jd + B2R g - bpow radix2 (-32) <= B2R a <= B2R jd + B2R g + bpow radix2 (-32))%R). { rewrite Va. apply (rnd_small _ 22); [lia|]. change (bpow radix2 22) with 4194304%R. apply Rabs_lt. lra. }
  change (bpow radix2 (-32)) with (/ 4294967296)%R in R.
  destruct (HD a Fa ltac:(lra)) as (v2 & Ev2 & Fv2 & Vv2). pose proof (BD (B2R a) ltac:(lra)) as B2. apply Rabs_le_inv in Vv2, B2.
  destruct (over_day v2 Fv2) as (f & Ef & Ff & Vf); [apply Rabs_le; lra|]. change (bpow radix2 (-57)) with (/ 144115188075855872)%R in Vf. apply Rabs_le_inv in Vf.
  exists f, z. unfold ut1_jd64. cbv zeta. rewrite Ev, Eg, Ea, Ev2, Ef, Ez. split; [reflexivity|]. split; [exact Ff|]. split; [exact Fz|]. split; [exact Vz|]. split; [apply Rabs_le; lra|].
  pose proof (LD (B2R jd) (B2R a) ltac:(lra) ltac:(lra)) as L1. assert (A1 : (Rabs (B2R jd - B2R a) <= 11576 / 100000)%R) by (apply Rabs_le; lra).
  assert (L1' : (Rabs (DT (B2R jd) - DT (B2R a)) <= / 50 * (11576 / 100000))%R) by lra. apply Rabs_le_inv in L1'.
  pose proof (LD (B2R a) (B2R jd + B2R f) ltac:(lra) ltac:(lra))%R as L2. assert (A2 : (Rabs (B2R a - (B2R jd + B2R f)) <= / 4294967296 + (/ 50 * (11576 / 100000) + 2 * err) / 86400 + 2 * / 144115188075855872)%R) by (apply Rabs_le; lra).
  assert (L2' : (Rabs (DT (B2R a) - DT (B2R jd + B2R f)) <= / 50 * (/ 4294967296 + (/ 50 * (11576 / 100000) + 2 * err) / 86400 + 2 * / 144115188075855872))%R) by lra. apply Rabs_le_inv in L2'. apply Rabs_le. lra.
Qed.
Lemma ut1_delta_t (dt : b64 -> b64) (DT : R -> R) (err lo hi : R) (jd : bf) : is_finite jd = true -> (0 <= err <= 1)%R -> (- 4194303 <= lo)%R -> (hi <= 4194303)%R ->
  (forall x, lo <= x <= hi -> Rabs (DT x) <= 10000)%R -> (forall x x', lo <= x <= hi -> lo <= x' <= hi -> Rabs (DT x - DT x') <= / 50 * Rabs (x - x'))%R ->
  (forall x : bf, is_finite x = true -> (lo <= B2R x <= hi)%R -> exists v : bf, dt (B2SF x) = B2SF v /\ is_finite v = true /\ (Rabs (B2R v - DT (B2R x)) <= err)%R) ->
  (lo + 1 <= B2R jd <= hi - 1)%R ->
  exists f z : bf, ut1_jd64 dt (B2SF jd) = UT (B2SF jd) (B2SF f) (B2SF z) /\ is_finite f = true /\ is_finite z = true /\ B2R z = 0%R /\
    (Rabs (86400 * B2R f - DT (B2R jd + B2R f)) <= 1000001 / 1000000 * err + / 1000000000)%R.
Proof. intros F Be Bl Bh BD LD HD Bj. destruct (ut1_delta_t_full dt DT err lo hi jd F Be Bl Bh BD LD HD Bj) as (f & z & E & Ff & Fz & Vz & _ & V). exists f, z. auto. Qed.
(** ** Findings *)
Definition ut1_one := ut1_date64 (fun _ => of_Z 64) None 2000 1 1 (of_Z 0) (of_Z 0) (of_Z 1).
Lemma ut1_one_tuple : ut1_calendar64 ut1_one None = (2000, 1, 1, 0, 0, fl 9007150399488000 (-53)).
Proof. vm_compute. reflexivity. Qed.
Lemma ut1_exact_fails : ~ (forall dt cut y m d h mi (s : bf), good_cutoff cut -> exists_under cut (y, m, d) -> 1 <= civil_day_number cut (y, m, d) <= 4194302 -> time_of_day h mi -> is_finite s = true -> (0 <= B2R s < 60)%R ->
  exists y' m' d' h' mi' (q : bf), ut1_calendar64 (ut1_date64 dt cut y m d (of_Z h) (of_Z mi) (B2SF s)) cut = (y', m', d', h', mi', B2SF q) /\ exists_under cut (y', m', d') /\ time_of_day h' mi' /\
    is_finite q = true /\ (0 <= B2R q < 60)%R /\ (Rabs (seconds_of cut y' m' d' h' mi' (B2R q) - seconds_of cut y m d h mi (B2R s)) <= 5 / 1000000)%R).
Proof.
  intros H. destruct (of_Z_bf 1 ltac:(fit)) as (x & Ex & Fx & Vx). destruct (fl_bf 9007150399488000 (-53) ltac:(unfold small; lia)) as (r & Er & Fr & Vr).
  destruct (H (fun _ => of_Z 64) None 2000 1 1 0 0 x I ltac:(vm_compute; reflexivity) ltac:(vm_compute; split; discriminate) ltac:(unfold time_of_day; lia) Fx ltac:(rewrite Vx; lra)) as (y' & m' & d' & h' & mi' & q & E & _ & _ & _ & _ & B).
  rewrite <- Ex in E. fold ut1_one in E. rewrite ut1_one_tuple, Er in E. assert (Q : B2SF r = B2SF q) by (inversion E; reflexivity). assert (P : y' = 2000 /\ m' = 1 /\ d' = 1 /\ h' = 0 /\ mi' = 0) by (inversion E; auto). destruct P as (-> & -> & -> & -> & ->).
  apply B2SF_inj in Q. subst q. rewrite Vr, Vx in B. unfold F2R in B. cbn [Fnum Fexp] in B. change (bpow radix2 (-53)) with (/ 9007199254740992)%R in B. unfold seconds_of in B. apply Rabs_le_inv in B. lra.
Qed.
Lemma ut1_micro_fails : ~ (forall dt cut y m d h mi s, good_cutoff cut -> exists_under cut (y, m, d) -> 1 <= civil_day_number cut (y, m, d) <= 4194302 -> time_of_day h mi -> 0 <= s <= 59 ->
  ut1_micro64 (ut1_date64 dt cut y m d (of_Z h) (of_Z mi) (of_Z s)) cut = (y, m, d, h, mi, s, 0)).
Proof.
  intros H. specialize (H (fun _ => of_Z 64) None 2000 1 1 0 0 1 I ltac:(vm_compute; reflexivity) ltac:(vm_compute; split; discriminate) ltac:(unfold time_of_day; lia) ltac:(lia)). vm_compute in H. discriminate H.
Qed.
Lemma steady_delta_t : (forall x, 2000000 <= x <= 3000000 -> Rabs ((fun _ => 64) x) <= 10000)%R /\ (forall x x', 2000000 <= x <= 3000000 -> 2000000 <= x' <= 3000000 -> Rabs ((fun _ => 64) x - (fun _ => 64) x') <= / 50 * Rabs (x - x'))%R /\
  (forall x : bf, is_finite x = true -> (2000000 <= B2R x <= 3000000)%R -> exists v : bf, (fun _ => of_Z 64) (B2SF x) = B2SF v /\ is_finite v = true /\ (Rabs (B2R v - (fun _ => 64) (B2R x)) <= 0)%R) /\
  exists j : bf, fl 4903089 (-1) = B2SF j /\ is_finite j = true /\ (2000001 <= B2R j <= 2999999)%R.
Proof.
  split; [intros; cbv beta; apply Rabs_le; lra|]. split; [intros; cbv beta; rewrite Rminus_eq_0, Rabs_R0; pose proof (Rabs_pos (x - x')); lra|]. split.
  - intros x _ _. destruct (of_Z_bf 64 ltac:(fit)) as (v & E & F & V). exists v. split; [exact E|]. split; [exact F|]. rewrite V, Rminus_eq_0, Rabs_R0. lra.
  - destruct (fl_bf 4903089 (-1) ltac:(unfold small; lia)) as (j & E & F & V). exists j. split; [exact E|]. split; [exact F|]. rewrite V. unfold F2R. cbn [Fnum Fexp]. change (bpow radix2 (-1)) with (/ 2)%R. lra.
Qed.
