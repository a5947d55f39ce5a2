(** Texts and calendar dates in binary64. *)
From Coq Require Import ZArith Reals Lia Lra List Bool.
From Coq.Floats Require Import SpecFloat.
From Flocq Require Import Core BinarySingleNaN.
From Verif Require Import Float64 Float64_Proofs Float_Time_Model Float_Time_Spec Cal_Model Cal_Spec PyNum
  Time_Model Time_Spec Time_Proofs Time_Proofs2 Float_Time_Proofs Float_Time_Proofs3 Float_Time_Proofs4 SexaF_Model SexaF_Spec SexaF_Proofs SexaF_Proofs2 SexaF_Proofs3 CalF_Model CalF_Spec CalF_Proofs.
Open Scope Z_scope.

Lemma trunc_nonneg (x : bf) : is_finite x = true -> Bsign x = false -> (B2R x < bpow radix2 51)%R -> ftruncZ (B2SF x) = Zfloor (B2R x).
Proof.
  intros F S U. destruct x as [s|s| |s m e H]; try discriminate F; cbn [Bsign] in S; subst s; cbn [B2SF B2R ftruncZ cond_Zopp].
  - symmetry. exact (Zfloor_IZR 0).
  - destruct (Z.leb_spec 0 e).
    + rewrite F2R_pos_int by assumption. symmetry. apply Zfloor_IZR.
    + destruct (floor_quot (Zpos m) e 1) as (F1 & _); [lia|lia|]. replace (F2R (Float radix2 (Zpos m) e) / 1)%R with (F2R (Float radix2 (Zpos m) e)) in F1 by field. rewrite Z.mul_1_l in F1. rewrite F1. apply Z.quot_div_nonneg; [lia|]. apply Z.pow_pos_nonneg; lia.
Qed.

(** ** The offset *)
Lemma offset64 (x : bf) : is_finite x = true -> (0 <= B2R x <= 30)%R ->
  exists o : bf, fdiv (B2SF x) DAY_S64 = B2SF o /\ is_finite o = true /\ (0 <= B2R o <= 4 / 10000)%R /\ (Rabs (86400 * B2R o - B2R x) <= 86400 * bpow radix2 (-65))%R.
Proof.
  intros F B. destruct (of_Z_bf 86400) as (u & Eu & Fu & Vu); [unfold fits; lia|]. unfold DAY_S64. rewrite Eu.
  assert (Big : (131072 <= bpow radix2 1007)%R) by (change 131072%R with (bpow radix2 17); apply bpow_le; lia).
  destruct (fdiv_val x u F) as (o & -> & Fo & Vo); [rewrite Vu; lra|rewrite Vu; apply Rabs_lt; lra|]. rewrite Vu in Vo. exists o. split; [reflexivity|]. split; [exact Fo|].
  assert (R : (B2R x / 86400 - bpow radix2 (-65) <= B2R o <= B2R x / 86400 + bpow radix2 (-65))%R). { rewrite Vo. apply (rnd_small _ (-11)); [lia|]. change (bpow radix2 (-11)) with (/ 2048)%R. apply Rabs_lt. lra. }
  change (bpow radix2 (-65)) with (/ 36893488147419103232)%R in *. split; [|apply Rabs_le; lra]. split; [rewrite Vo; apply rnd_nonneg; lra|lra].
Qed.
Lemma shifted (f o : bf) : is_finite f = true -> is_finite o = true -> (- (1 / 2) <= B2R f <= 5 / 2 - / 1000)%R -> (0 <= B2R o <= 4 / 10000)%R ->
  exists f' : bf, fadd (B2SF f) (B2SF o) = B2SF f' /\ is_finite f' = true /\ (- (1 / 2) <= B2R f' <= 5 / 2 - / 10000)%R /\ (Rabs (B2R f' - (B2R f + B2R o)) <= bpow radix2 (-52))%R.
Proof.
  intros F Fo B Bo. assert (Big : (131072 <= bpow radix2 1007)%R) by (change 131072%R with (bpow radix2 17); apply bpow_le; lia).
  destruct (fadd_val f o F Fo) as (f' & -> & F' & V'); [apply Rabs_lt; lra|]. exists f'. split; [reflexivity|]. split; [exact F'|].
  assert (R : (B2R f + B2R o - bpow radix2 (-52) <= B2R f' <= B2R f + B2R o + bpow radix2 (-52))%R). { rewrite V'. apply (rnd_small _ 2); [lia|]. change (bpow radix2 2) with 4%R. apply Rabs_lt. lra. }
  split; [|apply Rabs_le; lra]. change (bpow radix2 (-52)) with (/ 4503599627370496)%R in *. split; [|lra].
  rewrite V'. destruct half_bf_pos as (h & _ & _ & _ & Vh). rewrite <- Vh, <- (rnd_self h), <- rnd_opp. apply rnd_le. lra.
Qed.
(** The tuple of a text: its instant is later by the offset, but for the rounding. *)
Lemma strftime64 (w f x : bf) cut : usual_whole w -> usual_fraction f -> is_finite x = true -> (0 <= B2R x <= 30)%R ->
  exists (f' : bf) D M (q : bf), fadd (B2SF f) (fdiv (B2SF x) DAY_S64) = B2SF f' /\ is_finite f' = true /\ (Rabs (86400 * B2R f' - (86400 * B2R f + B2R x)) <= 86400 * bpow radix2 (-52) + 86400 * bpow radix2 (-65))%R /\
    calendar_tuple64 (B2SF w) (B2SF f') cut = (let '(y, m, d) := compute_calendar_date D cut in (y, m, d, M / 60, M mod 60, B2SF q)) /\
    0 <= M < 1440 /\ is_finite q = true /\ Bsign q = false /\ (0 <= B2R q < 60)%R /\
    (Rabs (86400 * IZR D + 60 * IZR M + B2R q - (seconds_of_jd (B2R w) (B2R f) + B2R x)) <= / 2 ^ 33)%R.
Proof.
  intros Hw (Ff & Bf) Fx Bx. destruct (usual_splits w Hw) as (N & g & Sp). destruct (offset64 x Fx Bx) as (o & Eo & Fo & Bo & Vo). destruct (shifted f o Ff Fo Bf Bo) as (f' & E' & F' & B' & V').
  destruct (calendar64 w f' g N cut Sp F' B') as (D & M & q & C1 & C2 & C3 & C4 & C5 & C6). exists f', D, M, q. rewrite Eo. split; [exact E'|]. split; [exact F'|].
  split. { change (bpow radix2 (-52)) with (/ 4503599627370496)%R in *. change (bpow radix2 (-65)) with (/ 36893488147419103232)%R in *. apply Rabs_le_inv in Vo, V'. apply Rabs_le. lra. }
  split; [exact C1|]. split; [exact C2|]. split; [exact C3|]. split; [exact C4|]. split; [exact C5|].
  unfold tuple_error, seconds_of_jd in *. change (bpow radix2 (-51)) with (/ 2251799813685248)%R in *. change (bpow radix2 (-37)) with (/ 137438953472)%R in *.
  change (bpow radix2 (-52)) with (/ 4503599627370496)%R in *. change (bpow radix2 (-65)) with (/ 36893488147419103232)%R in *. apply Rabs_le_inv in Vo, V', C6. apply Rabs_le. lra.
Qed.
Lemma clock_of M : 0 <= M < 1440 -> time_of_day (M / 60) (M mod 60) /\ 3600 * (M / 60) + 60 * (M mod 60) = 60 * M.
Proof. intros H. unfold time_of_day. lia. Qed.

(** ** The calendar date *)
Lemma tuple_denotes (w f : bf) cut : good_cutoff cut -> usual_whole w -> usual_fraction f ->
  exists y m d h mi (q : bf), calendar_tuple64 (B2SF w) (B2SF f) cut = (y, m, d, h, mi, B2SF q) /\ exists_under cut (y, m, d) /\ time_of_day h mi /\
    is_finite q = true /\ (0 <= B2R q < 60)%R /\ (Rabs (seconds_of cut y m d h mi (B2R q) - seconds_of_jd (B2R w) (B2R f)) <= / 2 ^ 34)%R.
Proof.
  intros Hc Hw (Ff & Bf). destruct (usual_splits w Hw) as (N & g & Sp). destruct (calendar64 w f g N cut Sp Ff ltac:(lra)) as (D & M & q & C1 & C2 & C3 & C4 & C5 & C6).
  pose proof (civil_of_jd cut D Hc) as CD. destruct (compute_calendar_date D cut) as [[y m] d]. destruct CD as (CD1 & CD2). destruct (clock_of M C2) as (T1 & T2).
  exists y, m, d, (M / 60), (M mod 60), q. split; [exact C1|]. split; [exact CD1|]. split; [exact T1|]. split; [exact C3|]. split; [exact C5|].
  unfold seconds_of, seconds_of_jd. rewrite CD2, T2, mult_IZR. unfold tuple_error in C6. change (bpow radix2 (-51)) with (/ 2251799813685248)%R in *. change (bpow radix2 (-37)) with (/ 137438953472)%R in *. apply Rabs_le_inv in C6. apply Rabs_le. lra.
Qed.
Lemma half_second_bf : exists x : bf, half_second = B2SF x /\ is_finite x = true /\ B2R x = (1 / 2)%R.
Proof. destruct half_bf_pos as (h & E & F & _ & V). exists h. auto. Qed.
Lemma half_minute_bf : exists x : bf, half_minute = B2SF x /\ is_finite x = true /\ B2R x = 30%R.
Proof. apply of_Z_bf. unfold fits. lia. Qed.
Lemma second_denotes (w f : bf) cut : good_cutoff cut -> usual_whole w -> usual_fraction f ->
  exists y m d h mi s wd yd, strftime_seconds64 half_second (B2SF w) (B2SF f) cut = (y, m, d, h, mi, s, wd, yd) /\ exists_under cut (y, m, d) /\ time_of_day h mi /\
    0 <= s <= 59 /\ (Rabs (seconds_of cut y m d h mi (IZR s) - seconds_of_jd (B2R w) (B2R f)) <= 1 / 2 + / 2 ^ 33)%R.
Proof.
  intros Hc Hw Hf. destruct half_second_bf as (x & Ex & Fx & Vx). destruct (strftime64 w f x cut Hw Hf Fx ltac:(lra)) as (f' & D & M & q & E' & F' & _ & C1 & C2 & C3 & C4 & C5 & C6).
  pose proof (civil_of_jd cut D Hc) as CD. destruct (compute_calendar_date D cut) as [[y m] d]. destruct CD as (CD1 & CD2). destruct (clock_of M C2) as (T1 & T2).
  unfold strftime_seconds64, strftime_tuple64. rewrite Ex, E'. cbv zeta. rewrite C1. rewrite (trunc_nonneg q C3 C4) by (change (bpow radix2 51) with 2251799813685248%R; lra).
  pose proof (Zfloor_lb (B2R q)) as L. pose proof (Zfloor_ub (B2R q)) as U. set (s := Zfloor (B2R q)) in *.
  assert (Bs : 0 <= s <= 59). { split; [apply Zfloor_lub; apply C5|]. assert (s < 60); [|lia]. apply lt_IZR. lra. }
  eexists y, m, d, (M / 60), (M mod 60), s, _, _. split; [reflexivity|]. split; [exact CD1|]. split; [exact T1|]. split; [exact Bs|].
  unfold seconds_of. rewrite CD2, T2, mult_IZR. rewrite Vx in C6. apply Rabs_le_inv in C6. apply Rabs_le. lra.
Qed.
Lemma minute_denotes (w f : bf) cut : good_cutoff cut -> usual_whole w -> usual_fraction f ->
  exists y m d h mi s wd yd, strftime_seconds64 half_minute (B2SF w) (B2SF f) cut = (y, m, d, h, mi, s, wd, yd) /\ exists_under cut (y, m, d) /\ time_of_day h mi /\
    (Rabs (seconds_of cut y m d h mi 0 - seconds_of_jd (B2R w) (B2R f)) <= 30 + / 2 ^ 33)%R.
Proof.
  intros Hc Hw Hf. destruct half_minute_bf as (x & Ex & Fx & Vx). destruct (strftime64 w f x cut Hw Hf Fx ltac:(lra)) as (f' & D & M & q & E' & F' & _ & C1 & C2 & C3 & C4 & C5 & C6).
  pose proof (civil_of_jd cut D Hc) as CD. destruct (compute_calendar_date D cut) as [[y m] d]. destruct CD as (CD1 & CD2). destruct (clock_of M C2) as (T1 & T2).
  unfold strftime_seconds64, strftime_tuple64. rewrite Ex, E'. cbv zeta. rewrite C1.
  eexists y, m, d, (M / 60), (M mod 60), _, _, _. split; [reflexivity|]. split; [exact CD1|]. split; [exact T1|].
  unfold seconds_of. rewrite CD2, T2, mult_IZR. rewrite Vx in C6. apply Rabs_le_inv in C6. apply Rabs_le. lra.
Qed.

(** ** Dates entered by the caller *)
Lemma fsub_val (x y : bf) : is_finite x = true -> is_finite y = true -> (Rabs (B2R x - B2R y) < bpow radix2 1007)%R ->
  exists z : bf, fsub (B2SF x) (B2SF y) = B2SF z /\ is_finite z = true /\ B2R z = rnd (B2R x - B2R y).
Proof.
  intros Fx Fy B. exists (Bminus mode_NE x y). split; [apply sub_equiv|]. pose proof (Bminus_correct 53 1024 Hprec Hmax mode_NE x y Fx Fy) as C. cbn [round_mode] in C.
  rewrite round_lt in C by exact B. destruct C as (C1 & C2 & _). split; assumption.
Qed.
Lemma entered_whole n : Z.abs n <= 10 ^ 9 -> exists w : bf, fsub (of_Z n) (fl 1 (-1)) = B2SF w /\ is_finite w = true /\ B2R w = (IZR n - 1 / 2)%R /\ usual_whole w.
Proof.
  intros B. assert (Big : (bpow radix2 40 <= bpow radix2 1007)%R) by (apply bpow_le; lia). change (bpow radix2 40) with 1099511627776%R in Big. assert (BR : (Rabs (IZR n) <= 1000000000)%R) by (rewrite <- abs_IZR; apply IZR_le; lia). apply Rabs_le_inv in BR.
  destruct (of_Z_bf n ltac:(fit)) as (x & -> & Fx & Vx). destruct half_bf_pos as (h & Eh & Fh & _ & Vh). rewrite Eh. destruct (fsub_val x h Fx Fh) as (w & -> & Fw & Vw); [apply Rabs_lt; lra|].
  assert (V : B2R w = (IZR n - 1 / 2)%R). { rewrite Vw, Vx, Vh. replace (IZR n - 1 / 2)%R with (F2R (Float radix2 (2 * n - 1) (-1))); [apply rnd_F2R; unfold small; lia|]. unfold F2R. cbn [Fnum Fexp]. change (bpow radix2 (-1)) with (/ 2)%R. rewrite minus_IZR, mult_IZR. lra. }
  exists w. split; [reflexivity|]. split; [exact Fw|]. split; [exact V|]. split; [exact Fw|]. right. exists n. split; assumption.
Qed.
Lemma entered_fraction h mi (s : bf) : time_of_day h mi -> is_finite s = true -> (0 <= B2R s < 60)%R ->
  exists f : bf, fdiv (fadd (fadd (B2SF s) (fmul (of_Z mi) (of_Z 60))) (fmul (of_Z h) (of_Z 3600))) DAY_S64 = B2SF f /\ is_finite f = true /\ (0 <= B2R f <= 1)%R /\
    (Rabs (86400 * B2R f - (IZR (3600 * h + 60 * mi) + B2R s)) <= bpow radix2 (-42) + bpow radix2 (-37) + 86400 * bpow radix2 (-53))%R.
Proof.
  intros (Hh & Hm) Fs Bs. rewrite !mul_Z by fit. assert (Big : (131072 <= bpow radix2 1007)%R) by (change 131072%R with (bpow radix2 17); apply bpow_le; lia).
  destruct (of_Z_bf (mi * 60) ltac:(fit)) as (a & -> & Fa & Va). destruct (of_Z_bf (h * 3600) ltac:(fit)) as (b & -> & Fb & Vb). destruct (of_Z_bf 86400 ltac:(fit)) as (u & Eu & Fu & Vu). unfold DAY_S64. rewrite Eu.
  assert (Ba : (0 <= B2R a <= 3540)%R) by (rewrite Va; split; apply IZR_le; lia). assert (Bb : (0 <= B2R b <= 82800)%R) by (rewrite Vb; split; apply IZR_le; lia).
  destruct (fadd_val s a Fs Fa) as (x & -> & Fx & Vx); [apply Rabs_lt; lra|].
  assert (Ex : (B2R s + B2R a - bpow radix2 (-42) <= B2R x <= B2R s + B2R a + bpow radix2 (-42))%R). { rewrite Vx. apply (rnd_small _ 12); [lia|]. change (bpow radix2 12) with 4096%R. apply Rabs_lt. lra. }
  assert (Bx : (0 <= B2R x <= 3600)%R). { rewrite Vx. split; [apply rnd_nonneg; lra|]. rewrite <- (rnd_Z 3600) by fit. apply rnd_le. lra. }
  destruct (fadd_val x b Fx Fb) as (z & -> & Fz & Vz); [apply Rabs_lt; lra|].
  assert (Ez : (B2R x + B2R b - bpow radix2 (-37) <= B2R z <= B2R x + B2R b + bpow radix2 (-37))%R). { rewrite Vz. apply (rnd_small _ 17); [lia|]. change (bpow radix2 17) with 131072%R. apply Rabs_lt. lra. }
  assert (Bz : (0 <= B2R z <= 86400)%R). { rewrite Vz. split; [apply rnd_nonneg; lra|]. rewrite <- (rnd_Z 86400) by fit. apply rnd_le. lra. }
  destruct (fdiv_val z u Fz) as (f & -> & Ff & Vf); [rewrite Vu; lra|rewrite Vu; apply Rabs_lt; lra|]. rewrite Vu in Vf. exists f. split; [reflexivity|]. split; [exact Ff|].
  assert (Ef : (B2R z / 86400 - bpow radix2 (-53) <= B2R f <= B2R z / 86400 + bpow radix2 (-53))%R). { rewrite Vf. apply (rnd_small _ 1); [lia|]. change (bpow radix2 1) with 2%R. apply Rabs_lt. lra. }
  split. { rewrite Vf. split; [apply rnd_nonneg; lra|]. rewrite <- (rnd_Z 1) by fit. apply rnd_le. lra. }
  rewrite plus_IZR, !mult_IZR. rewrite mult_IZR in Va, Vb. apply Rabs_le. change (bpow radix2 (-42)) with (/ 4398046511104)%R in *. change (bpow radix2 (-37)) with (/ 137438953472)%R in *. change (bpow radix2 (-53)) with (/ 9007199254740992)%R in *. lra.
Qed.
(** The parts of a date and time entered. *)
Lemma entered cut y m d h mi (s : bf) : good_cutoff cut -> exists_under cut (y, m, d) -> Z.abs (civil_day_number cut (y, m, d)) <= 10 ^ 9 -> time_of_day h mi -> is_finite s = true -> (0 <= B2R s < 60)%R ->
  exists w f : bf, jd_of_date64 cut y m d (of_Z h) (of_Z mi) (B2SF s) = (B2SF w, B2SF f) /\ B2R w = (IZR (civil_day_number cut (y, m, d)) - 1 / 2)%R /\ usual_whole w /\ usual_fraction f /\ (0 <= B2R f <= 1)%R /\
    (Rabs (seconds_of_jd (B2R w) (B2R f) - seconds_of cut y m d h mi (B2R s)) <= / 2 ^ 35)%R.
Proof.
  intros Hc Hd Bn Ht Fs Bs. unfold jd_of_date64. rewrite (civil_is_julian_day cut y m d Hc Hd). destruct (entered_whole _ Bn) as (w & -> & Fw & Vw & Uw). destruct (entered_fraction h mi s Ht Fs Bs) as (f & -> & Ff & Bf & Vf).
  exists w, f. split; [reflexivity|]. split; [exact Vw|]. split; [exact Uw|]. split; [split; [exact Ff|lra]|]. split; [exact Bf|]. unfold seconds_of_jd, seconds_of. rewrite Vw.
  change (bpow radix2 (-42)) with (/ 4398046511104)%R in *. change (bpow radix2 (-37)) with (/ 137438953472)%R in *. change (bpow radix2 (-53)) with (/ 9007199254740992)%R in *. apply Rabs_le_inv in Vf. apply Rabs_le. lra.
Qed.
Lemma same_fields cut y m d h mi s y' m' d' h' mi' s' : good_cutoff cut -> exists_under cut (y, m, d) -> exists_under cut (y', m', d') -> time_of_day h mi -> time_of_day h' mi' -> 0 <= s <= 59 -> 0 <= s' <= 59 ->
  (Rabs (seconds_of cut y m d h mi (IZR s) - seconds_of cut y' m' d' h' mi' (IZR s')) < 1)%R -> y = y' /\ m = m' /\ d = d' /\ h = h' /\ mi = mi' /\ s = s'.
Proof.
  intros Hc E E' T T' S S' B. unfold seconds_of in B. rewrite <- !mult_IZR, <- !plus_IZR, <- minus_IZR, <- abs_IZR in B. apply lt_IZR in B. unfold time_of_day in *.
  assert (civil_day_number cut (y, m, d) = civil_day_number cut (y', m', d')) as N by lia. assert (h = h' /\ mi = mi' /\ s = s') as (-> & -> & ->) by lia.
  pose proof (civil_inj cut _ _ Hc E E' N) as I. inversion I; subst. repeat split.
Qed.
(** ** Whole seconds are printed as given *)
Lemma fadd_three_halves (x : bf) : is_finite x = true -> (Rabs (B2R x) <= 2000000000)%R ->
  exists z : bf, fadd (B2SF x) (fl 3 (-1)) = B2SF z /\ is_finite z = true /\ B2R z = rnd (B2R x + 3 / 2).
Proof.
  intros F B. apply Rabs_le_inv in B. destruct (fl_bf 3 (-1) ltac:(unfold small; lia)) as (h & -> & Fh & Vh).
  assert (V : B2R h = (3 / 2)%R) by (rewrite Vh; unfold F2R; cbn [Fnum Fexp]; change (bpow radix2 (-1)) with (/ 2)%R; lra). rewrite <- V.
  assert (Big : (bpow radix2 40 <= bpow radix2 1007)%R) by (apply bpow_le; lia). change (bpow radix2 40) with 1099511627776%R in Big. apply fadd_val; try assumption. rewrite V. apply Rabs_lt. lra.
Qed.
Lemma floor_between x n : (IZR n <= x < IZR n + 1)%R -> Zfloor x = n.
Proof. intros H. apply Zfloor_imp. rewrite plus_IZR. exact H. Qed.
Lemma day64 (w f : bf) n : Z.abs n <= 10 ^ 9 -> is_finite w = true -> is_finite f = true -> B2R w = (IZR n - 1 / 2)%R -> (4 / 1000000 <= B2R f <= 1 - 4 / 1000000)%R ->
  (0 <= n -> ftruncZ (fadd (fadd (B2SF f) (fl 1 (-1))) (B2SF w)) = n) /\
  (forall j, Z.abs j <= 10 ^ 9 -> j <= n -> ftruncZ (fsub (fadd (fadd (B2SF w) (B2SF f)) (fl 3 (-1))) (of_Z j)) = n - j + 1).
Proof.
  intros Bn Fw Ff Vw Bf. assert (Big : (bpow radix2 40 <= bpow radix2 1007)%R) by (apply bpow_le; lia). change (bpow radix2 40) with 1099511627776%R in Big. assert (BR : (Rabs (IZR n) <= 1000000000)%R) by (rewrite <- abs_IZR; apply IZR_le; lia). apply Rabs_le_inv in BR.
  split.
  - intros Hn. apply IZR_le in Hn. destruct (fadd_half f Ff ltac:(lra)) as (z & -> & Fz & _ & Vz).
    assert (Ez : (B2R f + 1 / 2 - bpow radix2 (-53) <= B2R z <= B2R f + 1 / 2 + bpow radix2 (-53))%R). { rewrite Vz. apply (rnd_small _ 1); [lia|]. change (bpow radix2 1) with 2%R. apply Rabs_lt. lra. }
    change (bpow radix2 (-53)) with (/ 9007199254740992)%R in Ez. destruct (fadd_val z w Fz Fw) as (v & -> & Fv & Vv); [apply Rabs_lt; lra|].
    assert (Ev : (B2R z + B2R w - bpow radix2 (-23) <= B2R v <= B2R z + B2R w + bpow radix2 (-23))%R). { rewrite Vv. apply (rnd_small _ 31); [lia|]. change (bpow radix2 31) with 2147483648%R. apply Rabs_lt. lra. }
    change (bpow radix2 (-23)) with (/ 8388608)%R in Ev. rewrite trunc_nonneg; [apply floor_between; lra|exact Fv|apply sign_of_pos; [exact Fv|lra]|change (bpow radix2 51) with 2251799813685248%R; lra].
  - intros j Bj Hj. assert (BJ : (Rabs (IZR j) <= 1000000000)%R) by (rewrite <- abs_IZR; apply IZR_le; lia). apply Rabs_le_inv in BJ. apply IZR_le in Hj.
    destruct (fadd_val w f Fw Ff) as (a & -> & Fa & Va); [apply Rabs_lt; lra|].
    assert (Ea : (B2R w + B2R f - bpow radix2 (-23) <= B2R a <= B2R w + B2R f + bpow radix2 (-23))%R). { rewrite Va. apply (rnd_small _ 31); [lia|]. change (bpow radix2 31) with 2147483648%R. apply Rabs_lt. lra. }
    change (bpow radix2 (-23)) with (/ 8388608)%R in Ea. destruct (fadd_three_halves a Fa) as (b & -> & Fb & Vb); [apply Rabs_le; lra|].
    assert (Eb : (B2R a + 3 / 2 - bpow radix2 (-23) <= B2R b <= B2R a + 3 / 2 + bpow radix2 (-23))%R). { rewrite Vb. apply (rnd_small _ 31); [lia|]. change (bpow radix2 31) with 2147483648%R. apply Rabs_lt. lra. }
    change (bpow radix2 (-23)) with (/ 8388608)%R in Eb. destruct (of_Z_bf j ltac:(fit)) as (k & -> & Fk & Vk). destruct (fsub_val b k Fb Fk) as (c & -> & Fc & Vc); [apply Rabs_lt; lra|].
    assert (Ec : (B2R b - B2R k - bpow radix2 (-22) <= B2R c <= B2R b - B2R k + bpow radix2 (-22))%R). { rewrite Vc. apply (rnd_small _ 32); [lia|]. change (bpow radix2 32) with 4294967296%R. apply Rabs_lt. lra. }
    change (bpow radix2 (-22)) with (/ 4194304)%R in Ec. rewrite trunc_nonneg; [apply floor_between; rewrite plus_IZR, minus_IZR; lra|exact Fc|apply sign_of_pos; [exact Fc|lra]|change (bpow radix2 51) with 2251799813685248%R; lra].
Qed.
Lemma whole_seconds cut y m d h mi s : good_cutoff cut -> exists_under cut (y, m, d) -> Z.abs (civil_day_number cut (y, m, d)) <= 10 ^ 9 -> time_of_day h mi -> 0 <= s <= 59 ->
  exists w f : bf, jd_of_date64 cut y m d (of_Z h) (of_Z mi) (of_Z s) = (B2SF w, B2SF f) /\
  exists wd yd, strftime_seconds64 half_second (B2SF w) (B2SF f) cut = (y, m, d, h, mi, s, wd, yd) /\
    (0 <= civil_day_number cut (y, m, d) -> wd = civil_day_number cut (y, m, d) mod 7) /\
    (exists_under cut (y, 1, 1) -> Z.abs (civil_day_number cut (y, 1, 1)) <= 10 ^ 9 -> civil_day_number cut (y, 1, 1) <= civil_day_number cut (y, m, d) ->
     yd = civil_day_number cut (y, m, d) - civil_day_number cut (y, 1, 1) + 1).
Proof.
  intros Hc Hd Bn Ht Hs. destruct (of_Z_bf s ltac:(fit)) as (b & Eb & Fb & Vb). assert (BS : (0 <= IZR s <= 59)%R) by (split; apply IZR_le; lia).
  destruct (entered cut y m d h mi b Hc Hd Bn Ht Fb ltac:(lra)) as (w & f & E & Vw & Uw & Uf & Bf & Er). rewrite Eb. exists w, f. split; [exact E|].
  destruct (second_denotes w f cut Hc Uw Uf) as (y' & m' & d' & h' & mi' & s' & wd & yd & E' & Hd' & Ht' & Hs' & Er').
  assert (SF : y' = y /\ m' = m /\ d' = d /\ h' = h /\ mi' = mi /\ s' = s). { apply (same_fields cut); try assumption. rewrite Vb in Er. apply Rabs_le_inv in Er, Er'. apply Rabs_lt. lra. }
  destruct SF as (-> & -> & -> & -> & -> & ->). exists wd, yd. split; [exact E'|].
  destruct half_second_bf as (x & Ex & Fx & Vx). destruct (strftime64 w f x cut Uw Uf Fx ltac:(lra)) as (f' & D & M & q & Ef & F' & V' & C1 & _).
  unfold strftime_seconds64, strftime_tuple64 in E'. rewrite Ex, Ef in E'. cbv zeta in E'. rewrite C1 in E'. destruct (compute_calendar_date D cut) as [[yy mm] dd].
  set (n := civil_day_number cut (y, m, d)) in *. set (WD := ftruncZ (fadd (fadd (B2SF f') (fl 1 (-1))) (B2SF w))) in *.
  assert (B' : (4 / 1000000 <= B2R f' <= 1 - 4 / 1000000)%R).
  { rewrite Vb in Er. unfold seconds_of, seconds_of_jd in Er. fold n in Er. rewrite Vw in Er. assert (K : (0 <= IZR (3600 * h + 60 * mi) + IZR s <= 86399)%R) by (rewrite <- plus_IZR; unfold time_of_day in Ht; split; apply IZR_le; lia).
    rewrite Vx in V'. change (bpow radix2 (-52)) with (/ 4503599627370496)%R in V'. change (bpow radix2 (-65)) with (/ 36893488147419103232)%R in V'. apply Rabs_le_inv in Er, V'. lra. }
  destruct (day64 w f' n Bn (proj1 Uw) F' Vw B') as (W1 & W2).
  assert (Eyy : yy = y) by congruence. subst yy. assert (Ewd : wd = WD mod 7) by congruence. assert (Eyd : yd = ftruncZ (fsub (fadd (fadd (B2SF w) (B2SF f')) (fl 3 (-1))) (of_Z (julian_day y 1 1 cut)))) by congruence.
  split.
  - intros Hn. rewrite Ewd. unfold WD. rewrite (W1 Hn). reflexivity.
  - intros H1 B1 L1. rewrite Eyd, (civil_is_julian_day cut y 1 1 Hc H1). apply W2; assumption.
Qed.
(** A float second is kept. *)
Lemma read_back cut y m d h mi (s : bf) : good_cutoff cut -> exists_under cut (y, m, d) -> Z.abs (civil_day_number cut (y, m, d)) <= 10 ^ 9 -> time_of_day h mi -> is_finite s = true -> (0 <= B2R s < 60)%R ->
  exists w f : bf, jd_of_date64 cut y m d (of_Z h) (of_Z mi) (B2SF s) = (B2SF w, B2SF f) /\
  exists y' m' d' h' mi' (q : bf), calendar_tuple64 (B2SF w) (B2SF f) cut = (y', m', d', h', mi', B2SF q) /\ exists_under cut (y', m', d') /\ time_of_day h' mi' /\
    is_finite q = true /\ (0 <= B2R q < 60)%R /\ (Rabs (seconds_of cut y' m' d' h' mi' (B2R q) - seconds_of cut y m d h mi (B2R s)) <= / 2 ^ 33)%R.
Proof.
  intros Hc Hd Bn Ht Fs Bs. destruct (entered cut y m d h mi s Hc Hd Bn Ht Fs Bs) as (w & f & E & Vw & Uw & Uf & Bf & Er). exists w, f. split; [exact E|].
  destruct (tuple_denotes w f cut Hc Uw Uf) as (y' & m' & d' & h' & mi' & q & E' & Hd' & Ht' & Fq & Bq & Er'). exists y', m', d', h', mi', q.
  split; [exact E'|]. split; [exact Hd'|]. split; [exact Ht'|]. split; [exact Fq|]. split; [exact Bq|]. apply Rabs_le_inv in Er, Er'. apply Rabs_le. lra.
Qed.

(** ** Microseconds *)
Lemma below_sixty (x : bf) : (0 <= B2R x < 60)%R -> (B2R x <= 60 - bpow radix2 (-47))%R.
Proof.
  intros B. destruct (Rlt_le_dec (B2R x) 32) as [L|L]; [change (bpow radix2 (-47)) with (/ 140737488355328)%R; lra|].
  pose proof (generic_format_B2R 53 1024 x) as G. unfold generic_format in G. assert (C : cexp radix2 (SpecFloat.fexp 53 1024) (B2R x) = -47).
  { unfold cexp. rewrite (mag_unique radix2 (B2R x) 6); [reflexivity|]. rewrite Rabs_pos_eq by lra. change (bpow radix2 (6 - 1)) with 32%R. change (bpow radix2 6) with 64%R. lra. }
  rewrite C in G. unfold F2R in G. cbn [Fnum Fexp] in G. set (k := Ztrunc _) in G. change (bpow radix2 (-47)) with (/ 140737488355328)%R in *.
  assert (K : k <= 60 * 140737488355328 - 1). { assert (k < 60 * 140737488355328); [|lia]. apply lt_IZR. rewrite mult_IZR. lra. }
  apply IZR_le in K. rewrite minus_IZR, mult_IZR in K. lra.
Qed.
Lemma tiny_bf : exists x : bf, tiny_offset = B2SF x /\ is_finite x = true /\ (0 <= B2R x <= / 2 ^ 50)%R.
Proof.
  destruct (fl_bf 8112963841460668 (-106) ltac:(unfold small; lia)) as (x & E & F & V). exists x. split; [exact E|]. split; [exact F|]. rewrite V. unfold F2R. cbn [Fnum Fexp]. change (bpow radix2 (-106)) with (/ 81129638414606681695789005144064)%R. lra.
Qed.
Lemma micro_denotes (w f : bf) cut : good_cutoff cut -> usual_whole w -> usual_fraction f ->
  exists y m d h mi s u, strftime_micro64 (B2SF w) (B2SF f) cut = (y, m, d, h, mi, s, u) /\ exists_under cut (y, m, d) /\ time_of_day h mi /\
    0 <= s <= 59 /\ 0 <= u <= 999999 /\ (- / 1000000 - / 2 ^ 32 <= seconds_of cut y m d h mi (IZR s + IZR u / 1000000) - seconds_of_jd (B2R w) (B2R f) <= / 2 ^ 32)%R.
Proof.
  intros Hc Hw Hf. destruct tiny_bf as (x & Ex & Fx & Vx). destruct (strftime64 w f x cut Hw Hf Fx ltac:(lra)) as (f' & D & M & q & E' & F' & _ & C1 & C2 & C3 & C4 & C5 & C6).
  pose proof (civil_of_jd cut D Hc) as CD. destruct (compute_calendar_date D cut) as [[y m] d]. destruct CD as (CD1 & CD2). destruct (clock_of M C2) as (T1 & T2).
  unfold strftime_micro64, strftime_tuple64. rewrite Ex, E'. cbv zeta. rewrite C1. destruct (of_Z_bf 1000000 ltac:(fit)) as (k & Ek & Fk & Vk). rewrite Ek. pose proof (sign_of_pos k Fk ltac:(lra)) as Sk.
  assert (Big : (bpow radix2 40 <= bpow radix2 1007)%R) by (apply bpow_le; lia). change (bpow radix2 40) with 1099511627776%R in Big.
  destruct (fmul_val q k C3 Fk) as (p & -> & Fp & Vp & Sp); [apply Rabs_lt; rewrite Vk; lra|]. rewrite C4, Sk in Sp. cbn [xorb] in Sp. rewrite Vk in Vp.
  pose proof (below_sixty q C5) as Q. change (bpow radix2 (-47)) with (/ 140737488355328)%R in Q.
  assert (Ep : (B2R q * 1000000 - bpow radix2 (-28) <= B2R p <= B2R q * 1000000 + bpow radix2 (-28))%R). { rewrite Vp. apply (rnd_small _ 26); [lia|]. change (bpow radix2 26) with 67108864%R. apply Rabs_lt. lra. }
  change (bpow radix2 (-28)) with (/ 268435456)%R in Ep. pose proof (nonneg_of_sign p Sp) as Pp. rewrite (trunc_nonneg p Fp Sp) by (change (bpow radix2 51) with 2251799813685248%R; lra).
  pose proof (Zfloor_lb (B2R p)) as L. pose proof (Zfloor_ub (B2R p)) as U. set (n := Zfloor (B2R p)) in *.
  assert (Bs : 0 <= n <= 59999999). { split; [apply Zfloor_lub; exact Pp|]. assert (n < 60000000); [|lia]. apply lt_IZR. lra. }
  exists y, m, d, (M / 60), (M mod 60), (n / 1000000), (n mod 1000000). split; [reflexivity|]. split; [exact CD1|]. split; [exact T1|]. split; [lia|]. split; [lia|].
  assert (Vn : (IZR (n / 1000000) + IZR (n mod 1000000) / 1000000 = IZR n / 1000000)%R). { rewrite (Z.div_mod n 1000000) at 3 by lia. rewrite plus_IZR, mult_IZR. lra. }
  rewrite Vn. unfold seconds_of. rewrite CD2, T2, mult_IZR. apply Rabs_le_inv in C6. lra.
Qed.

(** ** Witnesses *)
Definition second_one : time64 := tt_date64 None 2000 1 1 (of_Z 0) (of_Z 0) (of_Z 1).
Lemma second_one_tuple : calendar_tuple64 (whole64 second_one) (fraction64 second_one) None = (2000, 1, 1, 0, 0, fl 9007199254713600 (-53)).
Proof. vm_compute. reflexivity. Qed.
Lemma exact_fails : ~ (forall cut y m d h mi s, good_cutoff cut -> exists_under cut (y, m, d) -> Z.abs (civil_day_number cut (y, m, d)) <= 10 ^ 9 -> time_of_day h mi -> 0 <= s <= 59 ->
  let t := tt_date64 cut y m d (of_Z h) (of_Z mi) (of_Z s) in calendar_tuple64 (whole64 t) (fraction64 t) cut = (y, m, d, h, mi, of_Z s)).
Proof.
  intros H. specialize (H None 2000 1 1 0 0 1 I ltac:(vm_compute; reflexivity) ltac:(vm_compute; discriminate) ltac:(unfold time_of_day; lia) ltac:(lia)). vm_compute in H. discriminate H.
Qed.
Lemma micro_fails : ~ (forall cut y m d h mi s, good_cutoff cut -> exists_under cut (y, m, d) -> Z.abs (civil_day_number cut (y, m, d)) <= 10 ^ 9 -> time_of_day h mi -> 0 <= s <= 59 ->
  let t := tt_date64 cut y m d (of_Z h) (of_Z mi) (of_Z s) in strftime_micro64 (whole64 t) (fraction64 t) cut = (y, m, d, h, mi, s, 0)).
Proof.
  intros H. specialize (H None 2000 1 1 0 0 1 I ltac:(vm_compute; reflexivity) ltac:(vm_compute; discriminate) ltac:(unfold time_of_day; lia) ltac:(lia)). vm_compute in H. discriminate H.
Qed.
Lemma jd64_usual : exists w f : bf, tt_date64 None 2000 1 1 (of_Z 23) (of_Z 59) (fl 8373880416404528 (-47)) = {| whole64 := B2SF w; fraction64 := B2SF f; c_tai_fraction64 := None; c_tai_seconds64 := None |} /\ usual_whole w /\ usual_fraction f.
Proof.
  destruct (fl_bf 8373880416404528 (-47) ltac:(unfold small; lia)) as (s & Es & Fs & Vs). unfold F2R in Vs. cbn [Fnum Fexp] in Vs. change (bpow radix2 (-47)) with (/ 140737488355328)%R in Vs.
  destruct (entered None 2000 1 1 23 59 s I ltac:(vm_compute; reflexivity) ltac:(vm_compute; discriminate) ltac:(unfold time_of_day; lia) Fs ltac:(lra)) as (w & f & E & _ & Uw & Uf & _). exists w, f. unfold tt_date64. rewrite Es, E. split; [reflexivity|]. split; assumption.
Qed.
Lemma weekday_fails : ~ (forall (w f : bf) cut y m d h mi s wd yd, good_cutoff cut -> usual_whole w -> usual_fraction f ->
  strftime_seconds64 half_second (B2SF w) (B2SF f) cut = (y, m, d, h, mi, s, wd, yd) -> 0 <= civil_day_number cut (y, m, d) -> wd = civil_day_number cut (y, m, d) mod 7).
Proof.
  intros H. destruct jd64_usual as (w & f & E & Uw & Uf).
  assert (C : strftime_seconds64 half_second (B2SF w) (B2SF f) None = (2000, 1, 1, 23, 59, 59, 6, 2)).
  { pose proof (f_equal whole64 E) as E1. pose proof (f_equal fraction64 E) as E2. cbn [whole64 fraction64] in E1, E2. rewrite <- E1, <- E2. vm_compute. reflexivity. }
  specialize (H w f None _ _ _ _ _ _ _ _ I Uw Uf C ltac:(vm_compute; discriminate)). vm_compute in H. discriminate H.
Qed.
(** ** In terms of times *)
Lemma tt_whole_seconds cut y m d h mi s : good_cutoff cut -> exists_under cut (y, m, d) -> Z.abs (civil_day_number cut (y, m, d)) <= 10 ^ 9 -> time_of_day h mi -> 0 <= s <= 59 ->
  forall whole fraction, (let t := tt_date64 cut y m d (of_Z h) (of_Z mi) (of_Z s) in whole = whole64 t /\ fraction = fraction64 t) \/
    (let t := tai_date64 cut y m d (of_Z h) (of_Z mi) (of_Z s) in whole = whole64 t /\ fraction = tai_fraction64 t) ->
  exists wd yd, strftime_seconds64 half_second whole fraction cut = (y, m, d, h, mi, s, wd, yd) /\
    (0 <= civil_day_number cut (y, m, d) -> wd = civil_day_number cut (y, m, d) mod 7) /\
    (exists_under cut (y, 1, 1) -> Z.abs (civil_day_number cut (y, 1, 1)) <= 10 ^ 9 -> civil_day_number cut (y, 1, 1) <= civil_day_number cut (y, m, d) ->
     yd = civil_day_number cut (y, m, d) - civil_day_number cut (y, 1, 1) + 1).
Proof.
  intros Hc Hd Bn Ht Hs whole fraction H. destruct (whole_seconds cut y m d h mi s Hc Hd Bn Ht Hs) as (w & f & E & R). unfold tt_date64, tai_date64 in H. rewrite E in H. destruct H as [(-> & ->)|(-> & ->)]; exact R.
Qed.
Lemma tt_read_back cut y m d h mi (s : bf) : good_cutoff cut -> exists_under cut (y, m, d) -> Z.abs (civil_day_number cut (y, m, d)) <= 10 ^ 9 -> time_of_day h mi -> is_finite s = true -> (0 <= B2R s < 60)%R ->
  forall whole fraction, (let t := tt_date64 cut y m d (of_Z h) (of_Z mi) (B2SF s) in whole = whole64 t /\ fraction = fraction64 t) \/
    (let t := tai_date64 cut y m d (of_Z h) (of_Z mi) (B2SF s) in whole = whole64 t /\ fraction = tai_fraction64 t) ->
  exists y' m' d' h' mi' (q : bf), calendar_tuple64 whole fraction cut = (y', m', d', h', mi', B2SF q) /\ exists_under cut (y', m', d') /\ time_of_day h' mi' /\
    is_finite q = true /\ (0 <= B2R q < 60)%R /\ (Rabs (seconds_of cut y' m' d' h' mi' (B2R q) - seconds_of cut y m d h mi (B2R s)) <= / 2 ^ 33)%R.
Proof.
  intros Hc Hd Bn Ht Fs Bs whole fraction H. destruct (read_back cut y m d h mi s Hc Hd Bn Ht Fs Bs) as (w & f & E & R). unfold tt_date64, tai_date64 in H. rewrite E in H. destruct H as [(-> & ->)|(-> & ->)]; exact R.
Qed.
Lemma dates_offset cut y m d h mi (s : bf) : good_cutoff cut -> exists_under cut (y, m, d) -> Z.abs (civil_day_number cut (y, m, d)) <= 10 ^ 9 -> time_of_day h mi -> is_finite s = true -> (0 <= B2R s < 60)%R ->
  (exists w f : bf, (let t := tai_date64 cut y m d (of_Z h) (of_Z mi) (B2SF s) in whole64 t = B2SF w /\ fraction64 t = B2SF f) /\ usual_whole w /\ usual_fraction f /\
    (Rabs (seconds_of_jd (B2R w) (B2R f) - (seconds_of cut y m d h mi (B2R s) + 32184 / 1000)) <= / 2 ^ 34)%R) /\
  (exists w f : bf, (let t := tt_date64 cut y m d (of_Z h) (of_Z mi) (B2SF s) in whole64 t = B2SF w /\ tai_fraction64 t = B2SF f) /\ usual_whole w /\ usual_fraction f /\
    (Rabs (seconds_of_jd (B2R w) (B2R f) - (seconds_of cut y m d h mi (B2R s) - 32184 / 1000)) <= / 2 ^ 34)%R).
Proof.
  intros Hc Hd Bn Ht Fs Bs. destruct (entered cut y m d h mi s Hc Hd Bn Ht Fs Bs) as (w & f & E & _ & Uw & (Ff & _) & Bf & V). destruct tt_minus_tai_bf as (o & Eo & Fo & Vo & Bo). unfold tai_date64, tt_date64, tai_fraction64. rewrite E. cbn [whole64 fraction64 c_tai_fraction64]. rewrite Eo.
  assert (Big : (131072 <= bpow radix2 1007)%R) by (change 131072%R with (bpow radix2 17); apply bpow_le; lia). apply Rabs_le_inv in V. apply Rabs_le_inv in Vo. change (bpow radix2 (-46)) with (/ 70368744177664)%R in Vo. unfold seconds_of_jd in *. split.
  - destruct (fadd_val f o Ff Fo) as (z & -> & Fz & Vz); [apply Rabs_lt; lra|]. assert (Ez : (B2R f + B2R o - bpow radix2 (-53) <= B2R z <= B2R f + B2R o + bpow radix2 (-53))%R). { rewrite Vz. apply (rnd_small _ 1); [lia|]. change (bpow radix2 1) with 2%R. apply Rabs_lt. lra. } change (bpow radix2 (-53)) with (/ 9007199254740992)%R in Ez.
    exists w, z. split; [split; reflexivity|]. split; [exact Uw|]. split; [split; [exact Fz|lra]|]. apply Rabs_le. lra.
  - destruct (fsub_val f o Ff Fo) as (z & -> & Fz & Vz); [apply Rabs_lt; lra|]. assert (Ez : (B2R f - B2R o - bpow radix2 (-53) <= B2R z <= B2R f - B2R o + bpow radix2 (-53))%R). { rewrite Vz. apply (rnd_small _ 1); [lia|]. change (bpow radix2 1) with 2%R. apply Rabs_lt. lra. } change (bpow radix2 (-53)) with (/ 9007199254740992)%R in Ez.
    exists w, z. split; [split; reflexivity|]. split; [exact Uw|]. split; [split; [exact Fz|lra]|]. apply Rabs_le. lra.
Qed.
