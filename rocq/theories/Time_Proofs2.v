From Coq Require Import ZArith QArith Qround Qabs List Bool Lia Lqa.
From Coq Require Import ZifyBool.
From Verif Require Import PyNum Cal_Model Cal_Spec Cal_Proofs Time_Model Time_Spec Time_Proofs.
Import ListNotations.
Open Scope Q_scope.

Ltac Zify.zify_post_hook ::= Z.div_mod_to_equations.

(** * Coherence of the cached attributes *)
Definition coherent (t : time) : Prop :=
  match c_tai_fraction t with Some f => f == tt_fraction t - tt_minus_tai | None => True end /\
  match c_tai_seconds t with
  | Some (s, fr) => (exists n, s == inject_Z n) /\ 0 <= fr < 1 /\ s + fr == tai_instant t
  | None => True
  end.

Lemma coherent_tai t : coherent t -> tai_fraction t == tt_fraction t - tt_minus_tai.
Proof. intros [H _]. unfold tai_fraction. destruct (c_tai_fraction t); [exact H|reflexivity]. Qed.

Lemma coherent_sec t : coherent t -> exists n fr, sec_is t n fr /\ inject_Z n + fr == tai_instant t.
Proof.
  intros [_ H]. unfold sec_is, tai_seconds. destruct (c_tai_seconds t) as [[s fr]|].
  - destruct H as [[n Hn] [Hf E]]. exists n, fr. cbn [fst snd]. rewrite <- Hn.
    split; [|exact E]. split; [reflexivity|]. split; [reflexivity|exact Hf].
  - cbv zeta. set (s := whole t * DAY_S). set (x := qmod s 1 + tai_fraction t * DAY_S).
    exists (qdiv s 1 + qdiv x 1)%Z, (qmod x 1). cbn [fst snd]. rewrite inject_Z_plus.
    pose proof (qmod_range x 1 ltac:(reflexivity)) as R.
    split; [split; [reflexivity|split; [reflexivity|lra]]|].
    pose proof (qdivmod s 1) as D1. pose proof (qdivmod x 1) as D2.
    unfold tai_instant, tai. assert (Es : s == whole t * 86400) by reflexivity.
    assert (Ex : x == qmod s 1 + tai_fraction t * 86400) by reflexivity.
    clearbody x s. lra.
Qed.

Lemma interp_leap_utc ns base cut ts s x : timescale_for ns base cut ts -> x == inject_Z s ->
  interp x (combine (leap_utc ts) (leap_off ts)) == inject_Z (base + count_utc ns s).
Proof.
  intros Hts Hx. destruct (timescale_tables _ _ _ _ Hts) as [Hne [_ [HT _]]]. destruct Hts as [Hi _].
  rewrite (interp_compat _ _ _ Hx), (interp_peq _ _ _ HT). apply interp_utc; assumption.
Qed.

Lemma utc_facts ns base cut ts y m d h mi s : timescale_for ns base cut ts ->
  let t := utc ts y m d h mi s in
  coherent t /\
  tai_instant t == inject_Z (tai_second ns base (julian_day y m d cut) 0) + (h * 3600 + mi * 60 + s).
Proof.
  intros Hts. destruct (timescale_tables _ _ _ _ Hts) as [_ [Hcut _]].
  unfold utc. rewrite Hcut. set (J := julian_day y m d cut). clearbody J.
  set (sec := (inject_Z J - (1 # 2)) * DAY_S).
  set (s0 := (86400 * J - 43200)%Z).
  assert (E0 : sec == inject_Z s0).
  { unfold sec, s0, DAY_S. unfold Zminus. rewrite inject_Z_plus, inject_Z_mult, inject_Z_opp.
    change (inject_Z 86400) with 86400. change (inject_Z 43200) with 43200. ring. }
  assert (D0 : qdiv sec 1 = s0) by (rewrite E0, <- (Qplus_0_r (inject_Z s0)); apply qdiv1_int; lra).
  assert (M0 : qmod sec 1 == 0).
  { pose proof (qdivmod sec 1) as Q. rewrite D0 in Q. lra. }
  cbv zeta. rewrite D0. set (sfr := qmod sec 1) in *. clearbody sfr. clear D0.
  set (S1 := inject_Z s0 + interp (inject_Z s0) (combine (leap_utc ts) (leap_off ts))).
  assert (E1 : S1 == inject_Z (tai_second ns base J 0)).
  { unfold S1. rewrite (interp_leap_utc ns base cut ts s0 _ Hts) by reflexivity.
    replace s0 with (86400 * J - 43200 + 0)%Z at 2 by (unfold s0; lia).
    rewrite count_utc_day by lia. rewrite <- inject_Z_plus.
    replace (s0 + (base + leaps_before ns J))%Z with (tai_second ns base J 0) by (unfold tai_second, s0; lia). reflexivity. }
  clearbody S1.
  set (more := sfr + (h * 3600 + mi * 60 + s)).
  set (k := qdiv more 1). set (r := qmod more 1).
  assert (Hk : more == inject_Z k + r) by (unfold k, r; rewrite (qdivmod more 1) at 1; ring).
  assert (Hr : 0 <= r < 1) by (unfold r; pose proof (qmod_range more 1 ltac:(reflexivity)); lra).
  assert (Em : more == h * 3600 + mi * 60 + s) by (unfold more; rewrite M0; ring).
  clearbody k r more.
  set (S2 := S1 + inject_Z k).
  assert (E2 : S2 == inject_Z (tai_second ns base J 0 + k)) by (unfold S2; rewrite E1, inject_Z_plus; reflexivity).
  assert (E3 : S2 == S1 + inject_Z k) by reflexivity.
  clearbody S2.
  assert (T : tai_instant {| whole := inject_Z (qdiv S2 DAY_S); tt_fraction := (qmod S2 DAY_S + r) / DAY_S + tt_minus_tai;
              c_tai_fraction := Some ((qmod S2 DAY_S + r) / DAY_S); c_tai_seconds := Some (S2, r) |} == S2 + r).
  { unfold tai_instant, tai, tai_fraction. cbn [whole c_tai_fraction].
    pose proof (qdivmod S2 DAY_S) as Q. unfold DAY_S in *.
    set (a := inject_Z (qdiv S2 86400)) in *. set (b := qmod S2 86400) in *. clearbody a b.
    rewrite Q. field. }
  split.
  - split; cbn [c_tai_fraction c_tai_seconds tt_fraction]; [ring|].
    split; [eexists; exact E2|]. split; [exact Hr|]. rewrite T. reflexivity.
  - rewrite T. rewrite E3, E1. lra.
Qed.

(** A day that has a fraction. *)
Lemma julian_dayq_compat y m d d' c : d == d' -> julian_dayq y m d c == julian_dayq y m d' c.
Proof.
  intros E. unfold julian_dayq. cbv zeta. destruct c as [c|]; [|rewrite E; reflexivity].
  set (a := inject_Z _ + d - 1402 + _). set (a' := inject_Z _ + d' - 1402 + _).
  assert (Ea : a == a') by (unfold a, a'; rewrite E; reflexivity).
  assert (Eb : Qle_bool (inject_Z c) a = Qle_bool (inject_Z c) a') by (rewrite Ea; reflexivity).
  rewrite Eb, Ea. reflexivity.
Qed.
Lemma julian_dayq_split y m d x c : 0 <= x < 1 -> julian_dayq y m (inject_Z d + x) c == inject_Z (julian_day y m d c) + x.
Proof.
  intros Hx. unfold julian_dayq, julian_day. cbv zeta.
  set (g := (1461 * _ / 4)%Z). set (f := ((153 * _ + 2) / 5)%Z). set (k := (38 - _)%Z). clearbody g f k.
  assert (E : inject_Z g + (inject_Z d + x) - 1402 + inject_Z f == inject_Z (g + d - 1402 + f) + x).
  { unfold Zminus. rewrite !inject_Z_plus, inject_Z_opp. change (inject_Z 1402) with 1402. ring. }
  destruct c as [c|]; [|rewrite E, !inject_Z_plus; ring].
  assert (B : Qle_bool (inject_Z c) (inject_Z g + (inject_Z d + x) - 1402 + inject_Z f) = (c <=? g + d - 1402 + f)%Z).
  { rewrite E. set (J := (g + d - 1402 + f)%Z). clearbody J. destruct (c <=? J)%Z eqn:L.
    - apply Qle_bool_iff. apply Z.leb_le in L. rewrite Zle_Qle in L. lra.
    - destruct (Qle_bool _ _) eqn:Q; [|reflexivity]. apply Qle_bool_iff in Q.
      assert (H : (J + 1 <= c)%Z) by lia. rewrite Zle_Qle, inject_Z_plus in H. change (inject_Z 1) with 1 in H. lra. }
  rewrite B, E, !inject_Z_plus. ring.
Qed.
Lemma utc_dayq_facts ns base cut ts y m d h mi s : timescale_for ns base cut ts ->
  let t := utc_dayq ts y m d h mi s in
  coherent t /\
  forall D x, 0 <= x < 1 -> d == inject_Z D + x ->
    tai_instant t == inject_Z (tai_second ns base (julian_day y m D cut) 0) + (x * 86400 + h * 3600 + mi * 60 + s).
Proof.
  intros Hts. destruct (timescale_tables _ _ _ _ Hts) as [_ [Hcut _]].
  assert (S0 : exists D x, 0 <= x < 1 /\ d == inject_Z D + x).
  { exists (qdiv d 1), (qmod d 1). pose proof (qmod_range d 1 ltac:(reflexivity)). split; [lra|]. rewrite (qdivmod d 1) at 1. ring. }
  destruct S0 as (D & x & Hx & Ed).
  enough (G : coherent (utc_dayq ts y m d h mi s) /\
    tai_instant (utc_dayq ts y m d h mi s) == inject_Z (tai_second ns base (julian_day y m D cut) 0) + (x * 86400 + h * 3600 + mi * 60 + s)).
  { cbv zeta. split; [apply G|]. intros D' x' Hx' Ed'. rewrite Ed in Ed'.
    assert (D = D' /\ x == x') as [<- <-].
    { assert (A : D = D') by (rewrite <- (qdiv1_int D x Hx), <- (qdiv1_int D' x' Hx'), Ed'; reflexivity). subst D'. split; [reflexivity|lra]. }
    apply G. }
  unfold utc_dayq. rewrite Hcut.
  assert (EJ : julian_dayq y m d cut == inject_Z (julian_day y m D cut) + x) by (rewrite (julian_dayq_compat _ _ _ _ _ Ed); apply julian_dayq_split, Hx).
  set (q := julian_dayq y m d cut) in *. set (J := julian_day y m D cut) in *. clearbody q J.
  set (sec := (q - (1 # 2)) * DAY_S).
  assert (E0 : sec == inject_Z (86400 * J - 43200) + x * 86400).
  { unfold sec, DAY_S. rewrite EJ. unfold Zminus. rewrite inject_Z_plus, inject_Z_mult, inject_Z_opp.
    change (inject_Z 86400) with 86400. change (inject_Z 43200) with 43200. ring. }
  pose proof (qdivmod sec 1) as Q0. pose proof (qmod_range sec 1 ltac:(reflexivity)) as R0.
  set (s0 := qdiv sec 1) in *. set (sfr := qmod sec 1) in *. clearbody s0 sfr. clearbody sec.
  set (sod := (s0 - (86400 * J - 43200))%Z).
  assert (Esod : inject_Z sod + sfr == x * 86400).
  { unfold sod. unfold Zminus at 1. rewrite inject_Z_plus, inject_Z_opp. lra. }
  assert (Hsod : (0 <= sod < 86400)%Z).
  { split.
    - assert (-1 < sod)%Z; [|lia]. rewrite Zlt_Qlt. change (inject_Z (-1)) with (-(1)). lra.
    - rewrite Zlt_Qlt. change (inject_Z 86400) with 86400. lra. }
  cbv zeta.
  set (S1 := inject_Z s0 + interp (inject_Z s0) (combine (leap_utc ts) (leap_off ts))).
  assert (E1 : S1 == inject_Z (tai_second ns base J 0 + sod)).
  { unfold S1. rewrite (interp_leap_utc ns base cut ts s0 _ Hts) by reflexivity.
    replace s0 with (86400 * J - 43200 + sod)%Z at 2 by (unfold sod; lia).
    rewrite count_utc_day by assumption. rewrite <- inject_Z_plus.
    replace (s0 + (base + leaps_before ns J))%Z with (tai_second ns base J 0 + sod)%Z by (unfold tai_second, sod; lia). reflexivity. }
  clearbody S1.
  set (more := sfr + (h * 3600 + mi * 60 + s)).
  set (k := qdiv more 1). set (r := qmod more 1).
  assert (Hk : more == inject_Z k + r) by (unfold k, r; rewrite (qdivmod more 1) at 1; ring).
  assert (Hr : 0 <= r < 1) by (unfold r; pose proof (qmod_range more 1 ltac:(reflexivity)); lra).
  assert (Em : more == sfr + (h * 3600 + mi * 60 + s)) by (unfold more; ring).
  clearbody k r more.
  set (S2 := S1 + inject_Z k).
  assert (E2 : S2 == inject_Z (tai_second ns base J 0 + sod + k)) by (unfold S2; rewrite E1, <- inject_Z_plus; reflexivity).
  assert (E3 : S2 == S1 + inject_Z k) by reflexivity.
  clearbody S2.
  assert (T : tai_instant {| whole := inject_Z (qdiv S2 DAY_S); tt_fraction := (qmod S2 DAY_S + r) / DAY_S + tt_minus_tai;
              c_tai_fraction := Some ((qmod S2 DAY_S + r) / DAY_S); c_tai_seconds := Some (S2, r) |} == S2 + r).
  { unfold tai_instant, tai, tai_fraction. cbn [whole c_tai_fraction].
    pose proof (qdivmod S2 DAY_S) as Q. unfold DAY_S in *.
    set (a := inject_Z (qdiv S2 86400)) in *. set (b := qmod S2 86400) in *. clearbody a b.
    rewrite Q. field. }
  split.
  - split; cbn [c_tai_fraction c_tai_seconds tt_fraction]; [ring|].
    split; [eexists; exact E2|]. split; [exact Hr|]. rewrite T. reflexivity.
  - rewrite T. rewrite E3, E1, inject_Z_plus. lra.
Qed.

Lemma coherent_plain w f : coherent (mk_time w f).
Proof. split; exact I. Qed.
Lemma coherent_tai_jd w f : coherent (tai_jd w f).
Proof. unfold tai_jd. destruct (normalize w f). split; cbn; [ring|exact I]. Qed.
Lemma coherent_tt_jd w f : coherent (tt_jd w f).
Proof. unfold tt_jd. destruct (normalize w f). apply coherent_plain. Qed.

Lemma built_coherent ns base cut ts t : timescale_for ns base cut ts -> built ts t -> coherent t.
Proof.
  intros Hts. induction 1.
  - apply (utc_facts ns base cut ts); assumption.
  - apply coherent_tai_jd.
  - apply coherent_tt_jd.
  - apply coherent_plain.
  - unfold tai_cal, jd_parts. split; cbn; [ring|exact I].
  - apply coherent_plain.
  - apply (utc_dayq_facts ns base cut ts); assumption.
  - unfold tai_calq, jd_partsq. split; cbn; [ring|exact I].
  - apply coherent_plain.
  - unfold utc_jd. cbv zeta. apply coherent_tai_jd.
  - unfold from_datetime. apply (utc_facts ns base cut ts); assumption.
  - unfold time_add. apply coherent_tt_jd.
  - unfold time_minus. apply coherent_tt_jd.
  - unfold time_getitem in H1. destruct (nth_error l i) as [u|] eqn:E; [|discriminate].
    injection H1 as <-. apply nth_error_In in E. destruct (H0 u E) as [Hf _].
    split; [exact Hf|exact I].
  - unfold time_linspace in H1. apply in_map_iff in H1 as [x [<- _]]. apply coherent_plain.
Qed.

(** * Reading UTC *)
Lemma reads_compat ns base cut i i' u : i == i' -> reads ns base cut i u -> reads ns base cut i' u.
Proof. intros E (J & sod & H). exists J, sod. rewrite E in H. exact H. Qed.

Lemma coherent_reads ns base cut ts t off : timescale_for ns base cut ts -> good_cutoff cut -> coherent t ->
  reads ns base cut (tai_instant t + off) (utc_tuple ts t off).
Proof.
  intros Hts Hc H. destruct (coherent_sec t H) as (n & fr & Hs & E).
  apply (reads_compat _ _ _ (inject_Z n + fr + off)); [rewrite E; reflexivity|].
  apply utc_tuple_reads; assumption.
Qed.

Lemma built_reads ns base cut ts t : timescale_for ns base cut ts -> good_cutoff cut -> built ts t ->
  reads ns base cut (tai_instant t) (time_utc ts t).
Proof.
  intros Hts Hc H. apply (reads_compat _ _ _ (tai_instant t + 0)); [ring|].
  apply coherent_reads; try assumption. eapply built_coherent; eassumption.
Qed.

(** Splitting a number into integer and fraction is unique. *)
Lemma split_unique a b x y : 0 <= x < 1 -> 0 <= y < 1 -> inject_Z a + x == inject_Z b + y -> a = b /\ x == y.
Proof.
  intros Hx Hy E. assert (a = b) by (rewrite <- (qdiv1_int a x Hx), <- (qdiv1_int b y Hy), E; reflexivity).
  subst b. split; [reflexivity|lra].
Qed.
Lemma split_lt a b x y : 0 <= x < 1 -> 0 <= y < 1 ->
  (inject_Z a + x < inject_Z b + y <-> (a < b)%Z \/ (a = b /\ x < y)).
Proof.
  intros Hx Hy. split.
  - intros H. destruct (Z.lt_trichotomy a b) as [L|[->|G]]; [left; exact L|right; split; [reflexivity|lra]|exfalso].
    assert (inject_Z b + 1 <= inject_Z a); [|lra]. change 1 with (inject_Z 1). rewrite <- inject_Z_plus, <- Zle_Qle. lia.
  - intros [L|[-> L]]; [|lra].
    assert (inject_Z a + 1 <= inject_Z b); [|lra]. change 1 with (inject_Z 1). rewrite <- inject_Z_plus, <- Zle_Qle. lia.
Qed.

(** * Dates and day numbers *)
Lemma civil_is_julian_day cut y m d : good_cutoff cut -> exists_under cut (y,m,d) ->
  julian_day y m d cut = civil_day_number cut (y,m,d).
Proof. destruct cut as [c|]; intros Hc H; [apply reform_day'; assumption|apply julian_day_is_day_number, H]. Qed.

Lemma civil_inj cut d1 d2 : good_cutoff cut -> exists_under cut d1 -> exists_under cut d2 ->
  civil_day_number cut d1 = civil_day_number cut d2 -> d1 = d2.
Proof.
  destruct d1 as [[y1 m1] d1], d2 as [[y2 m2] d2]. intros Hc H1 H2 E.
  rewrite <- (reformed_roundtrip cut y1 m1 d1 Hc H1), <- (reformed_roundtrip cut y2 m2 d2 Hc H2).
  rewrite !civil_is_julian_day by assumption. rewrite E. reflexivity.
Qed.

Lemma greg_valid_julian d : valid_date Gregorian d = true -> valid_date Julian d = true.
Proof.
  destruct d as [[y m] d]. unfold valid_date, month_length, leap_year.
  destruct (m =? 2)%Z, (y mod 4 =? 0)%Z; cbn [andb]; try tauto.
  destruct (negb _ || _)%bool; lia.
Qed.

(** Dates in label order have increasing day numbers. *)
Lemma julian_number cut d : good_cutoff cut -> exists_under cut d ->
  valid_date Julian d = true /\
  match cut with
  | None => True
  | Some c => ((civil_day_number cut d < c)%Z /\ jd_of Julian d = civil_day_number cut d) \/
              ((c <= civil_day_number cut d)%Z /\ (civil_day_number cut d <= jd_of Julian d)%Z /\
               valid_date Gregorian d = true /\ civil_day_number cut d = jd_of Gregorian d)
  end.
Proof.
  destruct d as [[y m] d]. destruct cut as [c|]; intros Hc H; cbn [exists_under] in H.
  - destruct H as [[V L]|[V L]].
    + split; [exact V|]. left. unfold civil_day_number. rewrite V.
      destruct (day_number Julian y m d <? c)%Z eqn:E; [|lia]. cbn [andb].
      split; [lia|apply jd_of_day_number, V].
    + pose proof (greg_valid_julian _ V) as VJ. split; [exact VJ|]. right.
      pose proof (jd_of_day_number Gregorian y m d V) as JG. pose proof (jd_of_day_number Julian y m d VJ) as JJ.
      pose proof (corr_sign (jd_of Gregorian (y,m,d))) as S. rewrite (date_of_jd_of Gregorian _ V) in S.
      pose proof (jd_of_greg y m d) as G. unfold good_cutoff in Hc. rewrite threshold_eq in Hc.
      unfold civil_day_number. rewrite VJ.
      set (a := day_number Julian y m d) in *. set (b := day_number Gregorian y m d) in *.
      set (a' := jd_of Julian (y, m, d)) in *. set (b' := jd_of Gregorian (y, m, d)) in *. set (k := corr y m) in *.
      clearbody a b a' b' k. destruct (a <? c)%Z eqn:E; cbn [andb];
        (split; [lia|split; [lia|split; [exact V|lia]]]).
  - split; [apply greg_valid_julian, H|exact I].
Qed.

Lemma civil_mono cut d1 d2 : good_cutoff cut -> exists_under cut d1 -> exists_under cut d2 ->
  (date_lt d1 d2 <-> (civil_day_number cut d1 < civil_day_number cut d2)%Z).
Proof.
  intros Hc H1 H2. destruct cut as [c|].
  - destruct (julian_number _ _ Hc H1) as [V1 J1], (julian_number _ _ Hc H2) as [V2 J2].
    rewrite (jd_of_mono Julian d1 d2 V1 V2).
    destruct J1 as [[A1 B1]|[A1 [B1 [G1 C1]]]], J2 as [[A2 B2]|[A2 [B2 [G2 C2]]]]; try lia.
    rewrite C1, C2, <- (jd_of_mono Gregorian d1 d2 G1 G2), (jd_of_mono Julian d1 d2 V1 V2). reflexivity.
  - destruct d1 as [[y1 m1] d1], d2 as [[y2 m2] d2].
    exact (day_number_mono Gregorian (y1,m1,d1) (y2,m2,d2) H1 H2).
Qed.

(** * Clock *)
Lemma clock_value sod h mi s : (0 <= sod <= 86400)%Z -> (h, mi, s) = clock sod ->
  (sod = h * 3600 + mi * 60 + s /\ 0 <= h <= 23 /\ 0 <= mi <= 59 /\ 0 <= s <= 60 /\
   (s = 60 <-> sod = 86400) /\ (s = 60 -> h = 23 /\ mi = 59))%Z.
Proof.
  intros H. unfold clock. destruct (sod =? 86400)%Z eqn:E; intros X; injection X as -> -> ->; lia.
Qed.
Lemma clock_of h mi s : (0 <= h <= 23 -> 0 <= mi <= 59 -> 0 <= s <= 59 \/ (s = 60 /\ h = 23 /\ mi = 59) ->
  clock (h * 3600 + mi * 60 + s) = (h, mi, s))%Z.
Proof.
  intros Hh Hm Hs. unfold clock. destruct (_ =? 86400)%Z eqn:E.
  - assert (h = 23 /\ mi = 59 /\ s = 60)%Z as [-> [-> ->]] by lia. reflexivity.
  - f_equal; [f_equal|]; lia.
Qed.

Lemma floor_nonneg s : 0 <= s -> (0 <= Qfloor s)%Z.
Proof. intros H. destruct (floor_spec s) as [_ F]. assert (-1 < Qfloor s)%Z; [|lia].
  rewrite Zlt_Qlt. change (inject_Z (-1)) with (- (1)). lra. Qed.
Lemma floor_lt s k : s < inject_Z k -> (Qfloor s < k)%Z.
Proof. intros H. destruct (floor_spec s) as [F _]. rewrite Zlt_Qlt. lra. Qed.
Lemma floor_ge s k : inject_Z k <= s -> (k <= Qfloor s)%Z.
Proof. intros H. destruct (floor_spec s) as [_ F]. assert (k < Qfloor s + 1)%Z; [|lia].
  rewrite Zlt_Qlt, inject_Z_plus. change (inject_Z 1) with 1. lra. Qed.

Lemma valid_clock_sod ns J h mi s : valid_clock (ends_in_leap ns J) h mi s ->
  let sod := (h * 3600 + mi * 60 + Qfloor s)%Z in
  (0 <= sod < day_length ns J)%Z /\ clock sod = (h, mi, Qfloor s).
Proof.
  intros (Hh & Hm & Hs & Hc). cbv zeta.
  pose proof (floor_nonneg s Hs) as F0.
  destruct (Qlt_le_dec s 60) as [L|L].
  - pose proof (floor_lt s 60 L). split; [unfold day_length; destruct (ends_in_leap ns J); lia|].
    apply clock_of; lia.
  - destruct Hc as [Hc|[Hl [-> [-> Hc]]]]; [lra|].
    pose proof (floor_lt s 61 Hc). pose proof (floor_ge s 60 L).
    split; [unfold day_length; rewrite Hl; lia|]. apply clock_of; lia.
Qed.

Lemma reads_fields ns base cut i u J sod fr : increasing ns ->
  reads ns base cut i u -> (0 <= sod < day_length ns J)%Z -> 0 <= fr < 1 ->
  i == inject_Z (tai_second ns base J sod) + fr ->
  f_jd u = J /\ (f_hour u, f_minute u, f_isec u) = clock sod /\ f_sfr u == fr /\
  exists_under cut (f_year u, f_month u, f_day u) /\ civil_day_number cut (f_year u, f_month u, f_day u) = J.
Proof.
  intros Hi (J' & sod' & Hs' & HJ & Hex & Hciv & Hcl & Hfr' & E') Hs Hfr E.
  rewrite E in E'. apply split_unique in E' as [E1 E2]; try assumption.
  apply tai_second_inj in E1 as [-> ->]; try assumption.
  repeat split; assumption.
Qed.

(** C06 *)
Lemma utc_roundtrip ns base cut ts y m d h mi s :
  timescale_for ns base cut ts -> good_cutoff cut ->
  exists_under cut (y,m,d) -> valid_clock (ends_in_leap ns (civil_day_number cut (y,m,d))) h mi s ->
  let u := time_utc ts (utc ts y m d (inject_Z h) (inject_Z mi) s) in
  f_year u = y /\ f_month u = m /\ f_day u = d /\ f_hour u = h /\ f_minute u = mi /\ f_second u == s.
Proof.
  intros Hts Hc Hex Hcl u.
  destruct (utc_facts ns base cut ts y m d (inject_Z h) (inject_Z mi) s Hts) as [Hco Hin].
  rewrite civil_is_julian_day in Hin by assumption.
  set (J := civil_day_number cut (y,m,d)) in *.
  destruct (valid_clock_sod ns J h mi s Hcl) as [Hsod Hck].
  assert (Hfr : 0 <= s - inject_Z (Qfloor s) < 1) by (destruct (floor_spec s); lra).
  assert (Hr : reads ns base cut (tai_instant (utc ts y m d (inject_Z h) (inject_Z mi) s)) u).
  { apply built_reads; try assumption. constructor. }
  clearbody u.
  destruct (reads_fields ns base cut _ u J _ (s - inject_Z (Qfloor s)) (proj1 Hts) Hr Hsod Hfr) as (HJ & Hclk & Hf & Hex' & Hciv).
  { rewrite Hin. unfold tai_second. rewrite !inject_Z_plus, !inject_Z_mult.
    change (inject_Z 3600) with 3600. change (inject_Z 60) with 60. change (inject_Z 0) with 0. ring. }
  rewrite Hck in Hclk. injection Hclk as -> -> Hisec.
  assert (D : (f_year u, f_month u, f_day u) = (y, m, d)) by (apply (civil_inj cut); assumption).
  injection D as -> -> ->. repeat split; try reflexivity.
  unfold f_second. rewrite Hisec, Hf. ring.
Qed.

(** C07 *)
Lemma reads_range ns base cut i u : increasing ns -> reads ns base cut i u ->
  (0 <= f_hour u <= 23 /\ 0 <= f_minute u <= 59 /\ 0 <= f_isec u <= 60)%Z /\ 0 <= f_sfr u < 1 /\
  (f_isec u = 60%Z <-> in_leap_second ns base i).
Proof.
  intros Hi (J & sod & Hs & HJ & Hex & Hciv & Hcl & Hfr & E).
  pose proof (day_length_pos ns J) as P.
  destruct (clock_value sod _ _ _ ltac:(lia) Hcl) as (V & R1 & R2 & R3 & R4 & R5).
  split; [lia|]. split; [exact Hfr|]. rewrite R4. unfold in_leap_second. split.
  - intros ->. destruct (sod_86400 ns J 86400 Hs ltac:(lia)) as [_ L].
    exists (J + 1)%Z. unfold ends_in_leap in L. apply existsb_exists in L as [x [Hx Ex]].
    split; [replace (J + 1)%Z with x by lia; exact Hx|].
    rewrite tai_second_next_day by assumption. unfold day_length.
    replace (ends_in_leap ns J) with true by (symmetry; apply existsb_exists; exists x; split; assumption).
    replace (tai_second ns base J 0 + (86400 + 1) - 1)%Z with (tai_second ns base J 86400) by (unfold tai_second; lia).
    replace (tai_second ns base J 0 + (86400 + 1))%Z with (tai_second ns base J 86400 + 1)%Z by (unfold tai_second; lia).
    rewrite inject_Z_plus. change (inject_Z 1) with 1. lra.
  - intros (n & Hn & L1 & L2).
    assert (Ln : ends_in_leap ns (n - 1) = true).
    { apply existsb_exists. exists n. split; [exact Hn|lia]. }
    assert (Dn : day_length ns (n - 1) = 86401%Z) by (unfold day_length; rewrite Ln; reflexivity).
    pose proof (tai_second_next_day ns base (n - 1) Hi) as Nx. replace (n - 1 + 1)%Z with n in Nx by lia.
    rewrite Dn in Nx.
    assert (E2 : (tai_second ns base n 0 - 1 = tai_second ns base (n - 1) 86400)%Z) by (unfold tai_second in *; lia).
    rewrite E2 in L1. replace (tai_second ns base n 0) with (tai_second ns base (n - 1) 86400 + 1)%Z in L2 by lia.
    rewrite inject_Z_plus in L2. change (inject_Z 1) with 1 in L2.
    assert (T : inject_Z (tai_second ns base J sod) + f_sfr u ==
                inject_Z (tai_second ns base (n - 1) 86400) + (i - inject_Z (tai_second ns base (n - 1) 86400))) by lra.
    apply split_unique in T as [T _]; [|assumption|lra].
    apply tai_second_inj in T as [_ T]; try assumption. rewrite Dn. lia.
Qed.

Lemma reads_rebuild ns base cut ts i u : timescale_for ns base cut ts -> good_cutoff cut ->
  reads ns base cut i u ->
  tai_instant (utc ts (f_year u) (f_month u) (f_day u) (inject_Z (f_hour u)) (inject_Z (f_minute u)) (f_second u)) == i.
Proof.
  intros Hts Hc (J & sod & Hs & HJ & Hex & Hciv & Hcl & Hfr & E).
  destruct (utc_facts ns base cut ts (f_year u) (f_month u) (f_day u) (inject_Z (f_hour u)) (inject_Z (f_minute u)) (f_second u) Hts) as [_ F].
  rewrite F, civil_is_julian_day, Hciv by assumption. rewrite <- E.
  pose proof (day_length_pos ns J) as P.
  destruct (clock_value sod _ _ _ ltac:(lia) Hcl) as (V & _).
  unfold f_second. unfold tai_second. rewrite V. rewrite !inject_Z_plus, !inject_Z_mult.
  change (inject_Z 3600) with 3600. change (inject_Z 60) with 60. change (inject_Z 0) with 0. ring.
Qed.

Lemma clock_order ns J sod sod' h mi s h' mi' s' fr fr' :
  (0 <= sod < day_length ns J)%Z -> (0 <= sod' < day_length ns J)%Z ->
  (h, mi, s) = clock sod -> (h', mi', s') = clock sod' -> 0 <= fr < 1 -> 0 <= fr' < 1 ->
  ((sod < sod')%Z \/ (sod = sod' /\ fr < fr') <->
   ((h < h')%Z \/ (h = h' /\ ((mi < mi')%Z \/ (mi = mi' /\ inject_Z s + fr < inject_Z s' + fr'))))).
Proof.
  intros Hs Hs' C C' F F'. pose proof (day_length_pos ns J) as P.
  destruct (clock_value sod _ _ _ ltac:(lia) C) as (V & R1 & R2 & R3 & R4 & R5).
  destruct (clock_value sod' _ _ _ ltac:(lia) C') as (V' & R1' & R2' & R3' & R4' & R5').
  rewrite split_lt by assumption. split.
  - intros [L|[L Lf]].
    + destruct (Z.lt_trichotomy h h') as [|[|]]; [left; assumption| |exfalso; lia].
      right. split; [assumption|]. destruct (Z.lt_trichotomy mi mi') as [|[|]]; [left; assumption| |exfalso; lia].
      right. split; [assumption|]. left. lia.
    + right. split; [lia|]. right. split; [lia|]. right. split; [lia|exact Lf].
  - intros [L|[-> [L|[-> [L|[-> L]]]]]].
    + left. lia.
    + left. lia.
    + left. lia.
    + right. split; [lia|exact L].
Qed.

Lemma reads_order ns base cut i i' u u' : increasing ns -> good_cutoff cut ->
  reads ns base cut i u -> reads ns base cut i' u' ->
  (i < i' <-> reading_lt (reading_of u) (reading_of u')).
Proof.
  intros Hi Hc (J & sod & Hs & HJ & Hex & Hciv & Hcl & Hfr & E) (J' & sod' & Hs' & HJ' & Hex' & Hciv' & Hcl' & Hfr' & E').
  rewrite <- E, <- E', split_lt by assumption. rewrite tai_second_lt by assumption.
  unfold reading_lt, reading_of, f_second. rewrite civil_mono by eassumption. rewrite Hciv, Hciv'.
  split.
  - intros [[L|[-> L]]|[L Lf]].
    + left; exact L.
    + right. split; [apply (civil_inj cut); try assumption; congruence|].
      apply (clock_order ns J' sod sod'); try assumption. left; exact L.
    + apply tai_second_inj in L as [-> ->]; try assumption.
      right. split; [apply (civil_inj cut); try assumption; congruence|].
      apply (clock_order ns J' sod' sod'); try assumption. right; split; [reflexivity|exact Lf].
  - intros [L|[D L]]; [left; left; exact L|].
    assert (EJ : J' = J) by congruence. clear HJ HJ' Hciv Hciv'. subst J'.
    rewrite <- (clock_order ns J sod sod') in L by eassumption.
    destruct L as [L|[-> L]]; [left; right; split; [congruence|exact L]|].
    right. split; [congruence|exact L].
Qed.

(** C09 *)
Lemma utc_jd_instant ns base cut ts w f N J x : timescale_for ns base cut ts ->
  w * 86400 == inject_Z N -> w + f == inject_Z J - (1 # 2) + x -> 0 <= x < 1 ->
  tai_instant (utc_jd ts w f) == inject_Z (tai_second ns base J 0) + x * 86400.
Proof.
  intros Hts Hw Hf Hx. unfold utc_jd.
  set (k := qdiv (f * DAY_S) 1). set (r := qmod (f * DAY_S) 1).
  assert (Hk : f * 86400 == inject_Z k + r) by (unfold k, r; change DAY_S with 86400; rewrite (qdivmod (f * 86400) 1) at 1; ring).
  assert (Hr : 0 <= r < 1) by (unfold r; pose proof (qmod_range (f * DAY_S) 1 ltac:(reflexivity)); lra).
  clearbody k r. cbv zeta.
  set (S0 := w * DAY_S + inject_Z k).
  assert (E0 : S0 == inject_Z (N + k)) by (unfold S0; change DAY_S with 86400; rewrite Hw, inject_Z_plus; reflexivity).
  set (S1 := S0 + interp S0 (combine (leap_utc ts) (leap_off ts))).
  assert (Hi : interp S0 (combine (leap_utc ts) (leap_off ts)) == inject_Z (base + leaps_before ns J)).
  { rewrite (interp_leap_utc ns base cut ts (N + k) S0 Hts E0).
    set (sod := (N + k - (86400 * J - 43200))%Z).
    assert (Hsod : (0 <= sod < 86400)%Z).
    { assert (Es : inject_Z sod + r == x * 86400).
      { unfold sod, Zminus. rewrite inject_Z_plus, inject_Z_opp, inject_Z_plus, inject_Z_plus, inject_Z_mult, inject_Z_opp.
        change (inject_Z 86400) with 86400. change (inject_Z 43200) with 43200. lra. }
      clearbody sod. split.
      - assert (-1 < sod)%Z; [|lia]. rewrite Zlt_Qlt. change (inject_Z (-1)) with (-(1)). lra.
      - rewrite Zlt_Qlt. change (inject_Z 86400) with 86400. lra. }
    replace (N + k)%Z with (86400 * J - 43200 + sod)%Z by (unfold sod; lia).
    rewrite count_utc_day by assumption. reflexivity. }
  assert (E1 : S1 == S0 + inject_Z (base + leaps_before ns J)) by (unfold S1; rewrite Hi; reflexivity).
  clearbody S1. clear Hi.
  unfold tai_instant, tai_jd, normalize, tai, tai_fraction. cbn [whole c_tai_fraction].
  pose proof (qdivmod S1 DAY_S) as Q. change DAY_S with 86400 in *.
  set (a := inject_Z (qdiv S1 86400)) in *. set (b := qmod S1 86400) in *. clearbody a b.
  setoid_replace ((a + (b + r) / 86400) * 86400) with (a * 86400 + b + r) by field.
  rewrite <- Q, E1. unfold S0. change DAY_S with 86400. unfold tai_second, Zminus.
  rewrite !inject_Z_plus, inject_Z_mult, inject_Z_opp.
  change (inject_Z 86400) with 86400. change (inject_Z 43200) with 43200. change (inject_Z 0) with 0. lra.
Qed.
