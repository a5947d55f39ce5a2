From Coq Require Import ZArith QArith Qround List Bool Lia Lqa.
From Verif Require Import PyNum Cal_Model Cal_Spec Cal_Proofs Time_Model Time_Spec Time_Proofs Time_Proofs2 Time_Proofs3.
From Verif Require Import Zone_Proofs Format_Proofs3 Sat_Model Sat_Spec.
Import ListNotations.
Open Scope Q_scope.

(** * Days since 1957 *)
Lemma modern_day y m d cut : modern cut -> (1900 <= y)%Z -> (1 <= m <= 12)%Z -> (2435839 <= julian_day y m d None)%Z ->
  julian_day y m d cut = julian_day y m d None.
Proof.
  intros Hc Hy Hm Hd. destruct cut as [c|]; [|reflexivity]. cbn [modern] in Hc.
  change (day_number Gregorian 1957 1 1) with 2435840%Z in Hc.
  rewrite julian_day_unfold in Hd |- *. rewrite julian_day_unfold.
  assert (C : (corr y m <= -12)%Z). { unfold corr. destruct (_ <=? 2)%Z; cbn [b2z]; lia. }
  replace (c <=? jd_of Julian (y, m, d))%Z with true by lia. cbn [b2z]. reflexivity.
Qed.
Lemma year_from y m d : valid_date Gregorian (y, m, d) = true -> (2435839 <= day_number Gregorian y m d)%Z -> (1900 <= y)%Z /\ (1 <= m <= 12)%Z.
Proof.
  intros V H. pose proof (day_number_mono Gregorian (y, m, d) (1900, 1, 1)%Z V eq_refl) as A. cbv beta iota in A.
  change (day_number Gregorian 1900 1 1) with 2415021%Z in A. destruct (valid_bounds _ _ _ _ V) as [Bm Bd].
  unfold date_lt in A. lia.
Qed.
Lemma parts q : exists D x, 0 <= x < 1 /\ q == inject_Z D + x.
Proof.
  exists (qdiv q 1), (qmod q 1). pose proof (qmod_range q 1 ltac:(reflexivity)). split; [lra|]. rewrite (qdivmod q 1) at 1. ring.
Qed.

(** * Moments of UTC *)
Lemma moment_fun ns base a b i j : a == b -> utc_moment ns base a i -> utc_moment ns base b j -> i == j.
Proof.
  intros E (J & x & Hx & Ea & Ei) (K & y & Hy & Eb & Ej).
  destruct (split_unique J K x y Hx Hy ltac:(lra)) as [<- Exy]. rewrite Ei, Ej, Exy. reflexivity.
Qed.
Lemma moment_compat ns base a b i j : a == b -> i == j -> utc_moment ns base a i -> utc_moment ns base b j.
Proof. intros E F (J & x & Hx & Ea & Ei). exists J, x. rewrite <- E, <- F. tauto. Qed.

Lemma epoch_moment ns base cut ts y m q : timescale_for ns base cut ts -> modern cut -> (1900 <= y)%Z -> (1 <= m <= 12)%Z ->
  2435839 <= inject_Z (julian_day y m 0 None) + q ->
  utc_moment ns base (inject_Z (julian_day y m 0 None) - (1 # 2) + q) (tai_instant (utc_dayq ts y m q 0 0 0)).
Proof.
  intros Hts Hc Hy Hm Hq. destruct (parts q) as (D & x & Hx & Eq).
  destruct (utc_dayq_facts ns base cut ts y m q 0 0 0 Hts) as [_ F]. specialize (F D x Hx Eq).
  pose proof (day_overflow y m 0 D) as O. rewrite Z.add_0_l in O.
  exists (julian_day y m D None), x. split; [exact Hx|]. split.
  - rewrite O, inject_Z_plus, Eq. ring.
  - rewrite modern_day in F; [rewrite F; ring|assumption|assumption|assumption|].
    rewrite O. assert (H : (2435838 < julian_day y m 0 None + D)%Z); [|lia]. rewrite Zlt_Qlt, inject_Z_plus. change (inject_Z 2435838) with 2435838. lra.
Qed.

Lemma full_year_is yy y : year_of_digits yy y -> full_year yy = y.
Proof. intros [H E]. unfold full_year. destruct (yy <? 57)%Z eqn:L; lia. Qed.
Lemma lines_epoch ns base cut ts s y : timescale_for ns base cut ts -> modern cut -> year_of_digits (epochyr s) y -> 1 <= epochdays s ->
  utc_moment ns base (jd_of_day y (epochdays s)) (tai_instant (sat_epoch (from_lines ts s))).
Proof.
  intros Hts Hc Hy Hd. cbn [from_lines sat_epoch]. rewrite (full_year_is _ _ Hy). destruct Hy as [Hy _].
  pose proof (julian_day_is_day_number y 1 1 eq_refl) as J1. pose proof (day_overflow y 1 0 1) as O. change (0 + 1)%Z with 1%Z in O. rewrite J1 in O.
  assert (L : (2435840 <= day_number Gregorian y 1 1)%Z).
  { destruct (Z.eq_dec y 1957) as [->|N]; [vm_compute; discriminate|].
    pose proof (day_number_mono Gregorian (1957, 1, 1)%Z (y, 1, 1)%Z eq_refl eq_refl) as M. cbv beta iota in M. change (day_number Gregorian 1957 1 1) with 2435840%Z in M.
    unfold date_lt in M. lia. }
  eapply moment_compat; [| reflexivity | apply (epoch_moment ns base cut ts y 1 (epochdays s) Hts Hc ltac:(lia) ltac:(lia))].
  - unfold jd_of_day. rewrite O, inject_Z_plus. change (inject_Z 1) with 1. ring.
  - assert (L' : (2435839 <= julian_day y 1 0 None)%Z) by lia. rewrite Zle_Qle in L'. change (inject_Z 2435839) with 2435839 in L'. lra.
Qed.
Lemma satrec_epoch ns base cut ts s : timescale_for ns base cut ts -> modern cut -> (4871679 # 2) <= jdsatepoch s -> 0 <= jdsatepochF s ->
  utc_moment ns base (jdsatepoch s + jdsatepochF s) (tai_instant (sat_epoch (from_satrec ts s))).
Proof.
  intros Hts Hc Hj Hf. unfold from_satrec.
  pose proof (qdivmod (jdsatepoch s) 1) as Q. pose proof (qmod_range (jdsatepoch s) 1 ltac:(reflexivity)) as R.
  set (w := qdiv (jdsatepoch s) 1) in *. set (fr := qmod (jdsatepoch s) 1) in *. clearbody w fr. cbv zeta.
  pose proof (greg_date w) as G. destruct (compute_calendar_date w None) as [[y m] d]. destruct G as [V N]. cbn [sat_epoch].
  assert (W : (2435839 <= w)%Z). { assert (2435838 < w)%Z; [|lia]. rewrite Zlt_Qlt. change (inject_Z 2435838) with 2435838. lra. }
  destruct (year_from _ _ _ V ltac:(lia)) as [Hy Hm].
  pose proof (julian_day_is_day_number y m d V) as J1. pose proof (day_overflow y m 0 d) as O. rewrite Z.add_0_l, J1, N in O.
  assert (OQ : inject_Z w == inject_Z (julian_day y m 0 None) + inject_Z d) by (rewrite O, inject_Z_plus; reflexivity).
  rewrite Zle_Qle in W. change (inject_Z 2435839) with 2435839 in W.
  eapply moment_compat; [| reflexivity | apply (epoch_moment ns base cut ts y m _ Hts Hc Hy Hm)]; lra.
Qed.
Lemma omm_epoch ns base cut ts s N : timescale_for ns base cut ts -> jdsatepoch s * 86400 == inject_Z N ->
  utc_moment ns base (jdsatepoch s + jdsatepochF s) (tai_instant (sat_epoch (from_omm ts s))).
Proof.
  intros Hts HN. destruct (parts (jdsatepoch s + jdsatepochF s + (1 # 2))) as (J & x & Hx & E).
  exists J, x. split; [exact Hx|]. split; [lra|]. cbn [from_omm sat_epoch]. apply (utc_jd_instant ns base cut ts _ _ N J x Hts HN); [lra|exact Hx].
Qed.

(** * Leap seconds *)
Lemma leaps_mono l J K : (J <= K)%Z -> (leaps_before l J <= leaps_before l K)%Z.
Proof. intros H. induction l as [|n r IH]; cbn [leaps_before]; [lia|]. destruct (n <=? J)%Z eqn:?, (n <=? K)%Z eqn:?; lia. Qed.
Lemma leaps_more l n J : In n l -> (J < n)%Z -> (leaps_before l J + 1 <= leaps_before l n)%Z.
Proof.
  intros H L. induction l as [|a r IH]; [destruct H|]. cbn [leaps_before]. destruct H as [->|H].
  - pose proof (leaps_mono r J n ltac:(lia)). destruct (n <=? J)%Z eqn:?, (n <=? n)%Z eqn:?; lia.
  - specialize (IH H). destruct (a <=? J)%Z eqn:?, (a <=? n)%Z eqn:?; lia.
Qed.
Lemma second_mono ns base J K : (J <= K)%Z -> (tai_second ns base J 0 <= tai_second ns base K 0)%Z.
Proof. intros H. pose proof (leaps_mono ns J K H). unfold tai_second. lia. Qed.
Lemma moment_day ns base jd i J x : 0 <= x < 1 -> jd == inject_Z J - (1 # 2) + x -> i == inject_Z (tai_second ns base J 0) + x * 86400 ->
  forall n, In n ns -> Qle_bool (inject_Z (tai_second ns base n 0)) i = (n <=? J)%Z.
Proof.
  intros Hx Ej Ei n Hn. destruct (n <=? J)%Z eqn:L.
  - apply Qle_bool_iff. assert (H : (tai_second ns base n 0 <= tai_second ns base J 0)%Z) by (apply second_mono; lia). rewrite Zle_Qle in H. lra.
  - destruct (Qle_bool _ _) eqn:B; [|reflexivity]. apply Qle_bool_iff in B.
    assert (H : (tai_second ns base J 0 + 86400 <= tai_second ns base n 0)%Z) by (pose proof (leaps_more ns n J Hn ltac:(lia)); unfold tai_second; lia).
    rewrite Zle_Qle, inject_Z_plus in H. change (inject_Z 86400) with 86400 in H. lra.
Qed.
Lemma moment_no_leap ns base jd i : utc_moment ns base jd i -> ~ in_leap_second ns base i.
Proof.
  intros (J & x & Hx & Ej & Ei) (n & Hn & L1 & L2). pose proof (moment_day ns base jd i J x Hx Ej Ei n Hn) as B.
  destruct (n <=? J)%Z eqn:L; [apply Qle_bool_iff in B; lra|].
  assert (H : (tai_second ns base J 0 + 86400 <= tai_second ns base n 0 - 1)%Z) by (pose proof (leaps_more ns n J Hn ltac:(lia)); unfold tai_second; lia).
  rewrite Zle_Qle, inject_Z_plus in H. change (inject_Z 86400) with 86400 in H. lra.
Qed.
Lemma leaps_count l J (f : Z -> bool) : (forall n, In n l -> f n = (n <=? J)%Z) -> leaps_before l J = Z.of_nat (length (filter f l)).
Proof.
  induction l as [|n r IH]; intros H; [reflexivity|]. cbn [leaps_before filter]. rewrite IH by (intros; apply H; right; assumption).
  rewrite (H n) by (left; reflexivity). destruct (n <=? J)%Z; cbn [length]; lia.
Qed.
Lemma moment_seconds ns base jd i : utc_moment ns base jd i -> jd * 86400 == i - inject_Z (base + leaps_by ns base i).
Proof.
  intros (J & x & Hx & Ej & Ei). unfold leaps_by.
  rewrite <- (leaps_count ns J _ (moment_day ns base jd i J x Hx Ej Ei)). rewrite Ej, Ei. unfold tai_second, Zminus.
  rewrite !inject_Z_plus, inject_Z_mult, inject_Z_opp. change (inject_Z 86400) with 86400. change (inject_Z 43200) with 43200. change (inject_Z 0) with 0. ring.
Qed.
Lemma moment_mono ns base a b i j : utc_moment ns base a i -> utc_moment ns base b j -> (a < b <-> i < j).
Proof.
  intros (J & x & Hx & Ea & Ei) (K & y & Hy & Eb & Ej).
  destruct (Z.lt_trichotomy J K) as [L|[<-|L]].
  - assert (A : (J + 1 <= K)%Z) by lia. rewrite Zle_Qle, inject_Z_plus in A. change (inject_Z 1) with 1 in A.
    assert (B : (tai_second ns base J 0 + 86400 <= tai_second ns base K 0)%Z) by (pose proof (leaps_mono ns J K ltac:(lia)); unfold tai_second; lia).
    rewrite Zle_Qle, inject_Z_plus in B. change (inject_Z 86400) with 86400 in B. split; intros _; lra.
  - split; intros H; lra.
  - assert (A : (K + 1 <= J)%Z) by lia. rewrite Zle_Qle, inject_Z_plus in A. change (inject_Z 1) with 1 in A.
    assert (B : (tai_second ns base K 0 + 86400 <= tai_second ns base J 0)%Z) by (pose proof (leaps_mono ns K J ltac:(lia)); unfold tai_second; lia).
    rewrite Zle_Qle, inject_Z_plus in B. change (inject_Z 86400) with 86400 in B. split; intros H; lra.
Qed.

(** * The time given to SGP4 *)
Lemma lookup_in_leap ns base s : increasing ns -> snd (tai_lookup ns base s) = true ->
  exists n, In n ns /\ s = (tai_second ns base n 0 - 1)%Z /\ (s - fst (tai_lookup ns base s) = 86400 * n - 43200)%Z.
Proof.
  revert base. induction ns as [|n r IH]; intros base Hi; cbn [tai_lookup]; [discriminate|].
  pose proof (increasing_lt n r Hi) as Hlt.
  destruct (s <? Lu n + base)%Z eqn:?; [discriminate|]. destruct (s =? Lu n + base)%Z eqn:?; cbn [fst snd].
  - intros _. exists n. split; [left; reflexivity|]. assert (Z0 : leaps_before r n = 0%Z).
    { clear -Hlt. induction r as [|a r IH]; [reflexivity|]. cbn [leaps_before]. rewrite IH by (intros; apply Hlt; right; assumption).
      specialize (Hlt a (or_introl eq_refl)). destruct (a <=? n)%Z eqn:?; lia. }
    unfold tai_second, Lu in *. cbn [leaps_before]. rewrite Z0. destruct (n <=? n)%Z eqn:?; lia.
  - intros H. destruct (IH (base + 1)%Z ltac:(apply (increasing_tail n), Hi) H) as (k & Hk & E1 & E2). exists k. split; [right; assumption|].
    split; [|exact E2]. rewrite E1. specialize (Hlt k Hk). unfold tai_second. cbn [leaps_before]. destruct (n <=? k)%Z eqn:?; lia.
Qed.
Lemma sgp4_cases ns base cut ts t : timescale_for ns base cut ts -> built ts t ->
  let jd := fst (sgp4_time ts t) + snd (sgp4_time ts t) in
  utc_moment ns base jd (tai_instant t) \/
  exists n, In n ns /\ inject_Z (tai_second ns base n 0 - 1) <= tai_instant t < inject_Z (tai_second ns base n 0) /\
    jd * 86400 == inject_Z (86400 * n - 43200) - (1 # 2) + (tai_instant t - inject_Z (tai_second ns base n 0 - 1)).
Proof.
  intros Hts Hb. pose proof (built_coherent _ _ _ _ _ Hts Hb) as Hco.
  destruct (coherent_sec t Hco) as (n & fr & [Hn [Hf Hfr]] & Ei).
  destruct (timescale_tables _ _ _ _ Hts) as [Hne [_ [_ HT]]]. destruct Hts as [Hi _].
  cbv zeta. unfold sgp4_time. cbn [fst snd].
  assert (El : leap_seconds ts t == lookup_q (tai_lookup ns base n)).
  { unfold leap_seconds. rewrite (interp_compat _ _ _ Hn), (interp_peq _ _ _ HT). apply interp_tai; assumption. }
  assert (Ejd : (whole t + (tai_fraction t - leap_seconds ts t / DAY_S)) * 86400 == inject_Z n + fr - lookup_q (tai_lookup ns base n)).
  { rewrite El, Ei. unfold tai_instant, tai, DAY_S. field. }
  pose proof (label_of_spec ns base n Hi) as HL. pose proof (lookup_in_leap ns base n Hi) as HI. unfold label_of in HL.
  destruct (tai_lookup ns base n) as [o l]. unfold lookup_q in Ejd. cbn [fst snd] in *. destruct l; cbn [b2z] in HL.
  - right. destruct (HI eq_refl) as (k & Hk & E1 & E2). exists k. split; [exact Hk|]. rewrite <- E1, <- Ei, <- E2. split.
    + replace (tai_second ns base k 0) with (n + 1)%Z by lia. rewrite inject_Z_plus. change (inject_Z 1) with 1. lra.
    + rewrite Ejd. unfold Zminus. rewrite !inject_Z_plus, inject_Z_opp. ring.
  - left. set (x := (n - o - 0 + 43200)%Z) in *. destruct HL as [HL1 HL2].
    pose proof (Z.mod_pos_bound x 86400 ltac:(lia)) as M. pose proof (Z.div_mod x 86400 ltac:(lia)) as DM.
    set (J := (x / 86400)%Z) in *. set (r := (x mod 86400)%Z) in *. clearbody J r. rewrite Z.add_0_r in *.
    assert (M1 : 0 <= inject_Z r) by (change 0 with (inject_Z 0); rewrite <- Zle_Qle; lia).
    assert (M2 : inject_Z r + 1 <= 86400) by (change 1 with (inject_Z 1); change 86400 with (inject_Z 86400); rewrite <- inject_Z_plus, <- Zle_Qle; lia).
    exists J, ((inject_Z r + fr) / 86400). split; [split|split].
    + apply Qle_shift_div_l; lra.
    + apply Qlt_shift_div_r; lra.
    + assert (Ex : inject_Z n - inject_Z o == 86400 * inject_Z J - 43200 + inject_Z r).
      { assert (E : (n - o = 86400 * J - 43200 + r)%Z) by (unfold x in DM; lia).
        assert (E' : inject_Z (n - o) == inject_Z (86400 * J - 43200 + r)) by (rewrite E; reflexivity).
        unfold Zminus in E'. rewrite !inject_Z_plus, inject_Z_mult, !inject_Z_opp in E'. exact E'. }
      apply (Qmult_inj_r _ _ 86400); [discriminate|]. rewrite Ejd. field_simplify. lra.
    + rewrite <- Ei, <- HL2. unfold tai_second. rewrite !inject_Z_plus. change (inject_Z 0) with 0. field.
Qed.
Lemma sgp4_moment ns base cut ts t : timescale_for ns base cut ts -> built ts t -> ~ in_leap_second ns base (tai_instant t) ->
  utc_moment ns base (fst (sgp4_time ts t) + snd (sgp4_time ts t)) (tai_instant t).
Proof.
  intros Hts Hb Hl. destruct (sgp4_cases ns base cut ts t Hts Hb) as [H|(n & Hn & [H1 H2] & _)]; [exact H|].
  exfalso. apply Hl. exists n. tauto.
Qed.
Lemma minutes_are ts s t : minutes_since_epoch ts s t * 60 ==
  ((fst (sgp4_time ts t) + snd (sgp4_time ts t)) - (jdsatepoch (sat_model s) + jdsatepochF (sat_model s))) * 86400.
Proof. unfold minutes_since_epoch. destruct (sgp4_time ts t) as [a b]. cbn [fst snd]. ring. Qed.

Lemma elapsed ns base cut ts s t : timescale_for ns base cut ts -> built ts t -> ~ in_leap_second ns base (tai_instant t) ->
  utc_moment ns base (jdsatepoch (sat_model s) + jdsatepochF (sat_model s)) (tai_instant (sat_epoch s)) ->
  minutes_since_epoch ts s t * 60 ==
  (tai_instant t - tai_instant (sat_epoch s)) - inject_Z (leaps_by ns base (tai_instant t) - leaps_by ns base (tai_instant (sat_epoch s))).
Proof.
  intros Hts Hb Hl He. rewrite minutes_are.
  pose proof (moment_seconds _ _ _ _ (sgp4_moment ns base cut ts t Hts Hb Hl)) as A. pose proof (moment_seconds _ _ _ _ He) as B.
  set (a := fst _ + snd _) in *. set (b := jdsatepoch _ + _) in *. clearbody a b.
  setoid_replace ((a - b) * 86400) with (a * 86400 - b * 86400) by ring. rewrite A, B. unfold Zminus. rewrite !inject_Z_plus, inject_Z_opp. ring.
Qed.
Lemma at_epoch ns base cut ts s : timescale_for ns base cut ts -> built ts (sat_epoch s) ->
  utc_moment ns base (jdsatepoch (sat_model s) + jdsatepochF (sat_model s)) (tai_instant (sat_epoch s)) ->
  minutes_since_epoch ts s (sat_epoch s) == 0.
Proof.
  intros Hts Hb He. pose proof (elapsed ns base cut ts s (sat_epoch s) Hts Hb (moment_no_leap _ _ _ _ He) He) as H.
  rewrite Z.sub_diag in H. change (inject_Z 0) with 0 in H. lra.
Qed.
Lemma epochs_built ts s : built ts (sat_epoch (from_lines ts s)) /\ built ts (sat_epoch (from_satrec ts s)) /\ built ts (sat_epoch (from_omm ts s)).
Proof.
  split; [apply built_utcq|]. split; [|apply built_utc_jd]. unfold from_satrec. cbv zeta.
  destruct (compute_calendar_date _ None) as [[y m] d]. apply built_utcq.
Qed.
Lemma sgp4_mono ns base cut ts t u : timescale_for ns base cut ts -> built ts t -> built ts u ->
  ~ in_leap_second ns base (tai_instant t) -> ~ in_leap_second ns base (tai_instant u) ->
  (fst (sgp4_time ts t) + snd (sgp4_time ts t) < fst (sgp4_time ts u) + snd (sgp4_time ts u) <-> tai_instant t < tai_instant u).
Proof.
  intros Hts Ht Hu Lt Lu. exact (moment_mono _ _ _ _ _ _ (sgp4_moment _ _ _ _ _ Hts Ht Lt) (sgp4_moment _ _ _ _ _ Hts Hu Lu)).
Qed.
Lemma goes_back : exists ns base cut ts t u, timescale_for ns base cut ts /\ built ts t /\ built ts u /\ tai_instant t < tai_instant u /\
  fst (sgp4_time ts u) + snd (sgp4_time ts u) < fst (sgp4_time ts t) + snd (sgp4_time ts t).
Proof.
  exists ns72, 10%Z, None, (ts72 None), (utc (ts72 None) 1972 6 30 23 59 (599 # 10)), (utc (ts72 None) 1972 6 30 23 59 60).
  split; [apply ts72_for|]. split; [apply built_utc|]. split; [apply built_utc|]. split; reflexivity.
Qed.
Lemma a_second_short : exists ns base cut ts s t, timescale_for ns base cut ts /\ built ts t /\ ~ in_leap_second ns base (tai_instant t) /\
  modern cut /\ (4871679 # 2) <= jdsatepoch s /\ 0 <= jdsatepochF s /\
  minutes_since_epoch ts (from_satrec ts s) t * 60 < tai_instant t - tai_instant (sat_epoch (from_satrec ts s)).
Proof.
  exists ns72, 10%Z, None, (ts72 None), {| satnum := 1; epochyr := 72; epochdays := 182 + (1 # 2); jdsatepoch := 2441499; jdsatepochF := 0 |},
    (utc (ts72 None) 1972 7 1 0 0 0).
  split; [apply ts72_for|]. split; [apply built_utc|]. split; [|repeat split; try discriminate; reflexivity].
  assert (E : tai_instant (utc (ts72 None) 1972 7 1 0 0 0) == inject_Z (86400 * 2441500 - 43200 + 11)) by reflexivity.
  intros (n & Hn & H1 & H2). rewrite E in H1, H2. rewrite <- Zle_Qle in H1. rewrite <- Zlt_Qlt in H2. cbn [ns72 In] in Hn.
  destruct Hn as [<-|[<-|[]]]; vm_compute in H1, H2; congruence.
Qed.

Lemma utcq_instant ns base cut ts y m D x h mi s : timescale_for ns base cut ts -> 0 <= x < 1 ->
  tai_instant (utc_dayq ts y m (inject_Z D + x) h mi s) == tai_instant (utc ts y m D h mi s) + x * 86400 /\
  tai_instant (utc_dayq ts y m (inject_Z D + x) h mi s) == inject_Z (tai_second ns base (julian_day y m D cut) 0) + (x * 86400 + h * 3600 + mi * 60 + s).
Proof.
  intros Hts Hx. destruct (utc_dayq_facts ns base cut ts y m (inject_Z D + x) h mi s Hts) as [_ F].
  specialize (F D x Hx ltac:(reflexivity)). destruct (utc_facts ns base cut ts y m D h mi s Hts) as [_ G]. split; [rewrite F, G; ring|exact F].
Qed.
Lemma calq_scales cut y m D x h mi s : 0 <= x < 1 ->
  tai (tai_calq cut y m (inject_Z D + x) h mi s) == tai (tai_cal cut y m D h mi s) + x /\
  tt (tt_calq cut y m (inject_Z D + x) h mi s) == tt (tt_cal cut y m D h mi s) + x.
Proof.
  intros Hx. unfold tai_calq, tai_cal, tt_calq, tt_cal, jd_partsq, jd_parts, mk_time, tai, tt, tai_fraction. cbn [whole tt_fraction c_tai_fraction].
  split; rewrite (julian_dayq_split y m D x cut Hx); ring.
Qed.
Lemma moment_one ns base a b i j : utc_moment ns base a i -> utc_moment ns base b j -> (a == b <-> i == j) /\ (a < b <-> i < j).
Proof.
  intros A B. pose proof (moment_mono _ _ _ _ _ _ A B) as M1. pose proof (moment_mono _ _ _ _ _ _ B A) as M2. split; [|exact M1]. split.
  - intros E. exact (moment_fun _ _ _ _ _ _ E A B).
  - intros E. destruct (Q_dec a b) as [[L|L]|E']; [apply M1 in L; lra|apply M2 in L; lra|exact E'].
Qed.
Lemma targets ts s r :
  sat_target (from_satrec ts s) = sat_target (from_lines ts s) /\ sat_target (from_omm ts s) = sat_target (from_lines ts s) /\
  (sat_target (from_lines ts s) = sat_target (from_lines ts r) <-> satnum s = satnum r) /\
  ((0 < satnum s)%Z -> (sat_target (from_lines ts s) < -100000)%Z).
Proof.
  split; [|split; [reflexivity|]].
  - unfold from_satrec. cbv zeta. destruct (compute_calendar_date _ None) as [[y m] d]. reflexivity.
  - cbn [sat_target from_lines]. unfold target_of. lia.
Qed.
Lemma sgp4_in_leap ns base cut ts t : timescale_for ns base cut ts -> built ts t ->
  forall n, In n ns -> inject_Z (tai_second ns base n 0 - 1) <= tai_instant t < inject_Z (tai_second ns base n 0) ->
  (fst (sgp4_time ts t) + snd (sgp4_time ts t)) * 86400
  == inject_Z (86400 * n - 43200) - (1 # 2) + (tai_instant t - inject_Z (tai_second ns base n 0 - 1)).
Proof.
  intros Hts Hb n Hn Hl. destruct (sgp4_cases ns base cut ts t Hts Hb) as [M|(k & Hk & Hl' & E)].
  - exfalso. apply (moment_no_leap _ _ _ _ M). exists n. tauto.
  - assert (n = k); [|subst k; exact E].
    assert (G : forall a b, In a ns -> In b ns -> (a < b)%Z -> (tai_second ns base a 0 + 86400 <= tai_second ns base b 0 - 1)%Z).
    { intros a b Ha Hb' L. pose proof (leaps_more ns b a Hb' L). unfold tai_second. lia. }
    destruct (Z.lt_trichotomy n k) as [L|[E'|L]]; [|exact E'|]; exfalso.
    + pose proof (G n k Hn Hk L) as X. rewrite Zle_Qle, inject_Z_plus in X. change (inject_Z 86400) with 86400 in X. lra.
    + pose proof (G k n Hk Hn L) as X. rewrite Zle_Qle, inject_Z_plus in X. change (inject_Z 86400) with 86400 in X. lra.
Qed.
Lemma zero_at_epoch ns base cut ts s : timescale_for ns base cut ts -> modern cut -> (4871679 # 2) <= jdsatepoch s -> 0 <= jdsatepochF s ->
  (forall x, x = from_satrec ts s -> minutes_since_epoch ts x (sat_epoch x) == 0) /\
  (forall x N, jdsatepoch s * 86400 == inject_Z N -> x = from_omm ts s -> minutes_since_epoch ts x (sat_epoch x) == 0) /\
  (forall x year, year_of_digits (epochyr s) year -> 1 <= epochdays s -> jd_of_day year (epochdays s) == jdsatepoch s + jdsatepochF s ->
     x = from_lines ts s -> minutes_since_epoch ts x (sat_epoch x) == 0).
Proof.
  intros Hts Hc Hj Hf. destruct (epochs_built ts s) as (B1 & B2 & B3). split; [|split].
  - intros x ->. apply (at_epoch ns base cut); [assumption|assumption|].
    replace (sat_model (from_satrec ts s)) with s; [apply (satrec_epoch ns base cut); assumption|].
    unfold from_satrec. cbv zeta. destruct (compute_calendar_date _ None) as [[y m] d]. reflexivity.
  - intros x N HN ->. apply (at_epoch ns base cut); [assumption|assumption|]. cbn [sat_model from_omm]. apply (omm_epoch ns base cut ts s N); assumption.
  - intros x year Hy Hd E ->. apply (at_epoch ns base cut); [assumption|assumption|]. cbn [sat_model from_lines].
    eapply moment_compat; [exact E|reflexivity|]. apply (lines_epoch ns base cut); assumption.
Qed.
