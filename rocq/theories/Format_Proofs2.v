(** The rounding of formatted times. *)
From Coq Require Import ZArith QArith Qround Bool String Ascii List Lia Lqa.
From Verif Require Import PyNum Cal_Model Cal_Spec Time_Model Time_Spec Time_Proofs Time_Proofs2 Time_Proofs3
  Format_Model Format_Spec Format_Proofs.
Import ListNotations.
Open Scope Q_scope.

Lemma uses_ms_unit ps u : covered ps -> smallest_unit ps u ->
  format_uses_milliseconds (write ps) = None <-> u <> Microsecond.
Proof.
  intros (Hp & Hn & _) Hu. pose proof (search_iff ["f"]%char ps Hp Hn) as F.
  unfold format_uses_milliseconds. destruct (search (one_of ["f"]%char) (write ps)) as [m|].
  - split; [discriminate|]. intros H. exfalso. assert (S : shows_one_of ["f"]%char ps) by (apply F; discriminate).
    destruct u; cbn in Hu; tauto.
  - split; [|reflexivity]. intros _ ->. cbn in Hu. apply F in Hu. congruence.
Qed.

Lemma offset_covered ps u : covered ps -> smallest_unit ps u ->
  strftime_offset_seconds (write ps) =
  (match u with Microsecond => 1 # 10000000000000000 | Second => 1 # 2 | Minute => 30 | Longer => 0 end,
   format_uses_milliseconds (write ps)).
Proof.
  intros H Hu. pose proof H as (Hp & Hn & _ & _ & Hr & _).
  rewrite <- (offset_write ps Hp Hn Hr u Hu). reflexivity.
Qed.

(** Every format has a smallest unit. *)
Lemma unit_exists ps : exists u, smallest_unit ps u.
Proof.
  assert (D : forall l, shows_one_of l ps \/ ~ shows_one_of l ps).
  { intros l. unfold shows_one_of.
    destruct (existsb (fun c => existsb (Ascii.eqb c) (letters ps)) l) eqn:E.
    - left. apply existsb_exists in E as (c & Hl & Hc). apply existsb_exists in Hc as (x & Hx & Ex).
      apply Ascii.eqb_eq in Ex. subst x. exists c. split; assumption.
    - right. intros (c & Hl & Hc). assert (X : existsb (fun c => existsb (Ascii.eqb c) (letters ps)) l = true).
      { apply existsb_exists. exists c. split; [assumption|]. apply existsb_exists. exists c. split; [assumption|apply Ascii.eqb_refl]. }
      congruence. }
  unfold smallest_unit. destruct (D ["f"]%char) as [H|H]; [exists Microsecond; exact H|].
  destruct (D ["S"; "T"; "X"; "c"; "r"]%char) as [H1|H1]; [exists Second; split; assumption|].
  destruct (D ["M"; "R"]%char) as [H2|H2]; [exists Minute; repeat split; assumption|exists Longer; repeat split; assumption].
Qed.

Lemma inject_nonneg n : (0 <= n)%Z -> 0 <= inject_Z n.
Proof. intros H. change 0 with (inject_Z 0). rewrite <- Zle_Qle. exact H. Qed.

Lemma second_trunc n f : (0 <= n)%Z -> 0 <= f < 1 -> qtrunc (inject_Z n + f) = n.
Proof.
  intros Hn Hf. pose proof (inject_nonneg n Hn). rewrite qtrunc_floor by lra. apply floor_unique; lra.
Qed.

Lemma second_micro n f : (0 <= n)%Z -> 0 <= f < 1 ->
  let k := qtrunc ((inject_Z n + f) * 1000000) in
  (k / 1000000 = n)%Z /\ (0 <= k mod 1000000 < 1000000)%Z /\
  inject_Z (k mod 1000000) / 1000000 <= f /\ f < inject_Z (k mod 1000000) / 1000000 + (1 # 1000000).
Proof.
  intros Hn Hf k. pose proof (inject_nonneg n Hn) as Hq.
  assert (K : k = Qfloor ((inject_Z n + f) * 1000000)) by (apply qtrunc_floor; lra).
  destruct (floor_spec ((inject_Z n + f) * 1000000)) as [F1 F2]. rewrite <- K in F1, F2. clearbody k.
  assert (B : (1000000 * n <= k < 1000000 * n + 1000000)%Z).
  { split.
    - assert (1000000 * n < k + 1)%Z; [|lia]. rewrite Zlt_Qlt, inject_Z_mult, inject_Z_plus.
      change (inject_Z 1000000) with 1000000. change (inject_Z 1) with 1. lra.
    - rewrite Zlt_Qlt, inject_Z_plus, inject_Z_mult. change (inject_Z 1000000) with 1000000. lra. }
  assert (D : (k / 1000000 = n)%Z) by (Z.div_mod_to_equations; lia).
  assert (M : (k mod 1000000 = k - 1000000 * n)%Z) by (Z.div_mod_to_equations; lia).
  split; [exact D|]. split; [lia|]. rewrite M. unfold Zminus. rewrite inject_Z_plus, inject_Z_opp, inject_Z_mult.
  change (inject_Z 1000000) with 1000000.
  split; [apply Qle_shift_div_r; [reflexivity|lra]|].
  assert (E : (inject_Z k + - (1000000 * inject_Z n)) / 1000000 == inject_Z k / 1000000 - inject_Z n) by field.
  rewrite E. assert (E2 : inject_Z k / 1000000 == inject_Z k * (1 # 1000000)) by field. rewrite E2. lra.
Qed.

(** The fields of the struct that [utc_strftime] fills. *)
Definition utc_struct (u : utc_fields) (cut : option Z) (ms : bool) : tm :=
  {| tm_year := f_year u; tm_mon := f_month u; tm_mday := f_day u; tm_hour := f_hour u; tm_min := f_minute u;
     tm_sec := f_isec u; tm_wday := (f_jd u mod 7)%Z;
     tm_yday := (f_jd u + 1 - julian_day (f_year u) 1 1 cut)%Z; tm_zone := [] |}.

Lemma reads_day_fields ns base cut i u ms : good_cutoff cut -> reads ns base cut i u -> day_fields cut (utc_struct u cut ms).
Proof.
  intros Hc (J & sod & _ & HJ & Hex & Hciv & _). unfold day_fields, utc_struct. cbn [tm_year tm_mon tm_mday tm_wday tm_yday].
  rewrite Hciv, HJ. split; [reflexivity|]. intros Hy. rewrite civil_is_julian_day by assumption. lia.
Qed.

Lemma reads_shows1 ns base cut i u ms : reads ns base cut i u ->
  exists shown, shows ns base cut 1 (iso_of (utc_struct u cut ms) 0) shown /\ shown <= i < shown + 1 /\
    exists k : Z, shown * inject_Z 1 == inject_Z k.
Proof.
  intros (J & sod & Hs & HJ & Hex & Hciv & Hcl & Hf & E).
  exists (inject_Z (tai_second ns base J sod)). split; [|split].
  - exists J, sod. unfold iso_of, utc_struct. cbn [i_year i_month i_day i_hour i_minute i_second i_fraction tm_year tm_mon tm_mday tm_hour tm_min tm_sec].
    repeat split; try assumption; try lia; try apply Hs. change (inject_Z 0 / inject_Z 1) with 0. ring.
  - split; lra.
  - exists (tai_second ns base J sod). change (inject_Z 1) with 1. ring.
Qed.

Lemma reads_minute ns base cut i u ms : reads ns base cut (i + 30) u ->
  exists J m b, shown_minute cut (utc_struct u cut ms) J m /\ minute_begins ns base J m b /\
    b - 30 <= i /\ i < b + (if ends_in_leap ns J && (m =? 1439)%Z then 31 else 30).
Proof.
  intros (J & sod & Hs & HJ & Hex & Hciv & Hcl & Hf & E).
  set (m := if (sod =? 86400)%Z then 1439%Z else (sod / 60)%Z).
  unfold day_length in Hs.
  assert (Hm : (0 <= m < 1440)%Z).
  { unfold m. destruct (Z.eqb_spec sod 86400); [lia|]. destruct (ends_in_leap ns J); Z.div_mod_to_equations; lia. }
  exists J, m, (inject_Z (tai_second ns base J (60 * m))). split; [|split; [split; [exact Hm|reflexivity]|]].
  - unfold shown_minute, utc_struct. cbn [tm_year tm_mon tm_mday tm_hour tm_min].
    repeat split; try assumption.
    + unfold clock in Hcl. unfold m. destruct (Z.eqb_spec sod 86400); injection Hcl as -> _ _; [reflexivity|].
      rewrite Z.div_div by lia. reflexivity.
    + unfold clock in Hcl. unfold m. destruct (Z.eqb_spec sod 86400); injection Hcl as _ -> _; reflexivity.
  - assert (R : (60 * m <= sod)%Z /\ (sod - 60 * m < 60 \/ (sod - 60 * m = 60 /\ ends_in_leap ns J = true /\ m = 1439))%Z).
    { unfold m. destruct (Z.eqb_spec sod 86400) as [->|N].
      - split; [lia|right]. destruct (ends_in_leap ns J); [repeat split|lia].
      - split; [|left]; Z.div_mod_to_equations; lia. }
    assert (T : inject_Z (tai_second ns base J sod) ==
                inject_Z (tai_second ns base J (60 * m)) + inject_Z (sod - 60 * m)).
    { rewrite <- inject_Z_plus. unfold tai_second. replace (86400 * J - 43200 + base + leaps_before ns J + 60 * m + (sod - 60 * m))%Z
        with (86400 * J - 43200 + base + leaps_before ns J + sod)%Z by lia. reflexivity. }
    assert (G0 : 0 <= inject_Z (sod - 60 * m)) by (apply inject_nonneg; lia).
    rewrite T in E. split; [lra|].
    destruct R as [_ [R|(R & L & M)]].
    + assert (G : inject_Z (sod - 60 * m) <= 59) by (change 59 with (inject_Z 59); rewrite <- Zle_Qle; lia).
      destruct (ends_in_leap ns J && (m =? 1439)%Z); lra.
    + assert (Em : (m =? 1439)%Z = true) by (rewrite M; reflexivity). rewrite L, Em. cbn [andb]. rewrite R in *. change (inject_Z 60) with 60 in *. lra.
Qed.

Lemma reads_micro ns base cut i u : increasing ns -> reads ns base cut (i + (1 # 10000000000000000)) u ->
  exists shown, shows ns base cut 1000000 (iso_of (utc_struct u cut true) (qtrunc (f_second u * 1000000) mod 1000000)) shown /\
    shown <= i + (1 # 10000000000000000) /\ i + (1 # 10000000000000000) < shown + (1 # 1000000).
Proof.
  intros Hi R. pose proof (isec_nonneg _ _ _ _ _ Hi R) as Hn.
  destruct R as (J & sod & Hs & HJ & Hex & Hciv & Hcl & Hf & E).
  destruct (second_micro (f_isec u) (f_sfr u) Hn Hf) as (D & M & B1 & B2). fold (f_second u) in *.
  set (k := qtrunc (f_second u * 1000000)) in *. clearbody k.
  exists (inject_Z (tai_second ns base J sod) + inject_Z (k mod 1000000) / inject_Z 1000000). split.
  - exists J, sod. unfold iso_of, utc_struct. cbn [i_year i_month i_day i_hour i_minute i_second i_fraction tm_year tm_mon tm_mday tm_hour tm_min tm_sec].
    repeat split; try assumption; try apply Hs; try lia; reflexivity.
  - change (inject_Z 1000000) with 1000000. lra.
Qed.

(** * The text of UTC *)
Lemma utc_text show ns base cut ts t ps :
  standard show -> timescale_for ns base cut ts -> good_cutoff cut -> built ts t -> covered ps ->
  exists f usec, utc_strftime show ts t (write ps) = expected show f usec ps /\ day_fields cut f /\
    forall u, smallest_unit ps u -> utc_rounding ns base cut u f usec (tai_instant t).
Proof.
  intros St Hts Hc Hb Hps. pose proof (built_coherent ns base cut ts t Hts Hb) as Hco.
  assert (Hi : increasing ns) by apply Hts.
  assert (Hcut : cutoff ts = cut) by apply (timescale_tables ns base cut ts Hts).
  destruct (unit_exists ps) as [u0 Hu0].
  pose proof (offset_covered ps u0 Hps Hu0) as EO.
  pose proof (uses_ms_unit ps u0 Hps Hu0) as EM.
  set (off := match u0 with Microsecond => 1 # 10000000000000000 | Second => 1 # 2 | Minute => 30 | Longer => 0 end) in EO.
  pose proof (coherent_reads ns base cut ts t off Hts Hc Hco) as R.
  set (u := utc_tuple ts t off) in *.
  pose proof (isec_nonneg _ _ _ _ _ Hi R) as Hn.
  assert (Hf : 0 <= f_sfr u < 1) by (destruct R as (? & ? & ? & ? & ? & ? & ? & Hf & _); exact Hf).
  pose proof (second_micro (f_isec u) (f_sfr u) Hn Hf) as (D & M & _). fold (f_second u) in D, M.
  exists (utc_struct u cut true),
    (match format_uses_milliseconds (write ps) with Some _ => qtrunc (f_second u * 1000000) mod 1000000 | None => 0 end)%Z.
  split; [|split].
  - unfold utc_strftime. rewrite EO. fold u. rewrite Hcut.
    rewrite strftime_write by assumption. unfold utc_struct.
    destruct (format_uses_milliseconds (write ps)).
    + rewrite D. reflexivity.
    + unfold f_second. rewrite second_trunc by assumption. reflexivity.
  - eapply reads_day_fields; eassumption.
  - intros u1 Hu1. assert (Eu : u1 = u0).
    { unfold smallest_unit in Hu0, Hu1. destruct u0, u1; try reflexivity; tauto. }
    subst u1. unfold utc_rounding. destruct u0.
    + destruct (format_uses_milliseconds (write ps)); [|exfalso; apply EM; reflexivity].
      apply (reads_micro ns base cut (tai_instant t) u Hi R).
    + destruct (reads_shows1 ns base cut _ u true R) as (shown & S1 & S2 & S3). exists shown. split; [exact S1|].
      split; [exact S3|]. unfold off in S2. change ((1 # 2) / inject_Z 1) with (1 # 2). lra.
    + destruct (reads_minute ns base cut _ u true R) as (J & m & b & H). exists J, m, b. exact H.
    + destruct (reads_shows1 ns base cut _ u true R) as (shown & S1 & S2 & S3). exists shown. split; [exact S1|].
      unfold off in S2. lra.
Qed.

(** * The nearest minute *)
Lemma minutes_apart ns base J m J' m' : (0 <= m < 1440)%Z -> (0 <= m' < 1440)%Z ->
  (J, m) <> (J', m') ->
  (60 <= Z.abs (tai_second ns base J (60 * m) - tai_second ns base J' (60 * m')))%Z.
Proof.
  intros Hm Hm' N. unfold tai_second.
  destruct (Z.lt_trichotomy J J') as [L|[->|L]].
  - pose proof (leaps_before_mono ns J J' ltac:(lia)). lia.
  - assert (m <> m') by congruence. lia.
  - pose proof (leaps_before_mono ns J' J ltac:(lia)). lia.
Qed.

Lemma far_apart ns base J m J' m' : (0 <= m < 1440)%Z -> (0 <= m' < 1440)%Z ->
  (J, m) <> (J', m') ->
  inject_Z (tai_second ns base J (60 * m)) + 60 <= inject_Z (tai_second ns base J' (60 * m')) \/
  inject_Z (tai_second ns base J' (60 * m')) + 60 <= inject_Z (tai_second ns base J (60 * m)).
Proof.
  intros Hm Hm' N. pose proof (minutes_apart ns base J m J' m' Hm Hm' N) as A.
  set (a := tai_second ns base J (60 * m)) in *. set (c := tai_second ns base J' (60 * m')) in *. clearbody a c.
  change 60 with (inject_Z 60). rewrite <- !inject_Z_plus, <- !Zle_Qle. lia.
Qed.

Lemma nearest_minute ns base cut t usec instant : utc_rounding ns base cut Minute t usec instant ->
  exists J m b, shown_minute cut t J m /\ minute_begins ns base J m b /\
    (ends_in_leap ns J && (m =? 1439)%Z = false ->
     forall J' m' b', minute_begins ns base J' m' b' ->
       Qabs.Qabs (instant - b) <= Qabs.Qabs (instant - b')).
Proof.
  intros (J & m & b & H1 & H2 & H3 & H4). exists J, m, b. split; [exact H1|]. split; [exact H2|].
  intros HL J' m' b' H'. rewrite HL in H4. destruct H2 as [Hm Eb], H' as [Hm' Eb'].
  assert (A1 : Qabs.Qabs (instant - b) <= 30) by (apply Qabs.Qabs_Qle_condition; lra).
  destruct (Z.eq_dec J J') as [EJ|NJ]; [destruct (Z.eq_dec m m') as [Em|Nm]|].
  - subst. rewrite Eb, Eb'. apply Qle_refl.
  - apply Qle_trans with 30; [exact A1|].
    destruct (far_apart ns base J m J' m' Hm Hm' ltac:(congruence)); apply Qabs.Qabs_case; intros Hsg; lra.
  - apply Qle_trans with 30; [exact A1|].
    destruct (far_apart ns base J m J' m' Hm Hm' ltac:(congruence)); apply Qabs.Qabs_case; intros Hsg; lra.
Qed.

(** * The other scales *)
Definition scale_text_statement (show : printer) (cut : option Z) (ps : list piece) (jd fraction : Q) : Prop :=
  exists f usec, scale_strftime show cut (write ps) jd fraction = expected show f usec ps /\
    clock_in_range f /\ exists_under cut (tm_year f, tm_mon f, tm_mday f) /\
    (forall u, smallest_unit ps u -> scale_rounding cut u f usec ((jd + fraction) * 86400)) /\
    (0 <= jd + fraction + (1 # 2) ->
     tm_wday f = (civil_day_number cut (tm_year f, tm_mon f, tm_mday f) mod 7)%Z) /\
    (In "j"%char (letters ps) -> exists_under cut (tm_year f, 1%Z, 1%Z) ->
     tm_yday f = (civil_day_number cut (tm_year f, tm_mon f, tm_mday f)
                  - civil_day_number cut (tm_year f, 1%Z, 1%Z) + 1)%Z).

Lemma scale_text show cut ps jd fraction : standard show -> good_cutoff cut -> covered ps ->
  scale_text_statement show cut ps jd fraction.
Proof.
  intros St Hc Hps. unfold scale_text_statement.
  destruct (unit_exists ps) as [u0 Hu0].
  pose proof (offset_covered ps u0 Hps Hu0) as EO.
  pose proof (uses_ms_unit ps u0 Hps Hu0) as EM.
  set (off := match u0 with Microsecond => 1 # 10000000000000000 | Second => 1 # 2 | Minute => 30 | Longer => 0 end) in EO.
  assert (Hoff : 0 <= off) by (unfold off; destruct u0; lra).
  unfold scale_strftime. rewrite EO.
  set (fr := fraction + off / DAY_S) in *.
  pose proof (calendar_tuple_day jd fr cut) as CT. pose proof (strftime_yday_civil jd fr cut Hc) as YD. cbv zeta in YD.
  pose proof (strftime_weekday_ok jd fr) as WD.
  pose proof (civil_of_jd cut (Qfloor (jd + fr + (1 # 2))) Hc) as CV.
  destruct (calendar_tuple jd fr cut) as [[[[[y m] d] h] mi] s].
  destruct CT as (CT1 & Hh & Hmi & Hs & CT2). rewrite <- CT1 in CV. destruct CV as [CV1 CV2].
  set (J := Qfloor (jd + fr + (1 # 2))) in *.
  assert (Sn : (0 <= Qfloor s < 60)%Z).
  { destruct (floor_spec s) as [F1 F2]. split.
    - assert (-1 < Qfloor s)%Z; [|lia]. rewrite Zlt_Qlt. change (inject_Z (-1)) with (-(1)). lra.
    - rewrite Zlt_Qlt. change (inject_Z 60) with 60. lra. }
  set (n := Qfloor s) in *. set (g := s - inject_Z n).
  assert (Hg : 0 <= g < 1) by (destruct (floor_spec s) as [F1 F2]; unfold g; fold n in F1, F2; lra).
  assert (Eg : s == inject_Z n + g) by (unfold g; ring).
  assert (Qt : qtrunc s = n) by (apply qtrunc_floor; lra).
  assert (Eq : qtrunc (s * 1000000) = qtrunc ((inject_Z n + g) * 1000000)).
  { rewrite !qtrunc_floor by (pose proof (inject_nonneg n ltac:(lia)); lra). rewrite Eg. reflexivity. }
  destruct (second_micro n g ltac:(lia) Hg) as (D & M & B1 & B2). rewrite <- Eq in D, M, B1, B2.
  rewrite strftime_write by assumption.
  set (k := qtrunc (s * 1000000)) in *.
  set (ms := format_uses_milliseconds (write ps)) in *.
  assert (Esec : (match ms with Some _ => k / 1000000 | None => qtrunc s end)%Z = n) by (destruct ms; assumption).
  rewrite Esec.
  eexists. eexists. split; [reflexivity|]. cbn [tm_year tm_mon tm_mday tm_hour tm_min tm_sec tm_wday tm_yday].
  split; [unfold clock_in_range; cbn; lia|]. split; [exact CV1|]. rewrite CV2. split; [|split].
  - intros u1 Hu1. assert (Eu : u1 = u0).
    { unfold smallest_unit in Hu0, Hu1. destruct u0, u1; try reflexivity; tauto. }
    subst u1.
    assert (X : (jd + fraction) * 86400 + off ==
                inject_Z (86400 * J - 43200 + 3600 * h + 60 * mi + n) + g).
    { unfold Zminus. rewrite !inject_Z_plus, !inject_Z_mult, inject_Z_opp.
      change (inject_Z 86400) with 86400. change (inject_Z 43200) with 43200.
      change (inject_Z 3600) with 3600. change (inject_Z 60) with 60.
      setoid_replace ((jd + fraction) * 86400 + off) with ((jd + fr) * 86400) by (unfold fr, DAY_S; field).
      rewrite CT2, Eg. field. }
    unfold scale_rounding, scale_second. cbn [tm_year tm_mon tm_mday tm_hour tm_min tm_sec]. rewrite CV2.
    set (S := inject_Z (86400 * J - 43200 + 3600 * h + 60 * mi + n)) in *.
    destruct u0; unfold off in X.
    + destruct ms; [|exfalso; apply EM; reflexivity]. split; [lia|]. split; lra.
    + split; lra.
    + assert (0 <= inject_Z n) by (apply inject_nonneg; lia).
      assert (inject_Z n <= 59) by (change 59 with (inject_Z 59); rewrite <- Zle_Qle; lia). split; lra.
    + split; lra.
  - intros H0. rewrite WD; [reflexivity|]. unfold fr.
    assert (0 <= off / DAY_S) by (unfold DAY_S; apply Qle_shift_div_l; [reflexivity|lra]). lra.
  - intros Hj Hy. assert (S : format_uses_day_of_year (write ps) <> None).
    { destruct Hps as (Hp & Hn & _). apply (search_iff ["j"]%char ps Hp Hn). exists "j"%char. split; [left; reflexivity|exact Hj]. }
    destruct (format_uses_day_of_year (write ps)); [|congruence]. apply YD, Hy.
Qed.

(** * Calendar tuples *)
Lemma calendar_tuple_denotes jd fraction cut : good_cutoff cut ->
  let '(y, m, d, h, mi, s) := calendar_tuple jd fraction cut in
  exists_under cut (y, m, d) /\ (0 <= h <= 23)%Z /\ (0 <= mi <= 59)%Z /\ 0 <= s < 60 /\
  jd + fraction == inject_Z (civil_day_number cut (y, m, d)) - (1 # 2)
                   + (inject_Z h * 3600 + inject_Z mi * 60 + s) / 86400.
Proof.
  intros Hc. pose proof (calendar_tuple_day jd fraction cut) as CT.
  pose proof (civil_of_jd cut (Qfloor (jd + fraction + (1 # 2))) Hc) as CV.
  destruct (calendar_tuple jd fraction cut) as [[[[[y m] d] h] mi] s].
  destruct CT as (CT1 & Hh & Hmi & Hs & CT2). rewrite <- CT1 in CV. destruct CV as [CV1 CV2].
  split; [exact CV1|]. rewrite CV2. exact (conj Hh (conj Hmi (conj Hs CT2))).
Qed.

Lemma calendar_tuple_roundtrip cut y m d h mi s : good_cutoff cut ->
  exists_under cut (y, m, d) -> (0 <= h <= 23)%Z -> (0 <= mi <= 59)%Z -> 0 <= s < 60 ->
  let '(w, f) := jd_parts cut y m d (inject_Z h) (inject_Z mi) s in
  let '(y', m', d', h', mi', s') := calendar_tuple w f cut in
  (y', m', d', h', mi') = (y, m, d, h, mi) /\ s' == s.
Proof.
  intros Hc Hex Hh Hmi Hs. unfold jd_parts. rewrite (civil_is_julian_day cut y m d Hc Hex).
  set (w := inject_Z _ - (1 # 2)). set (f := (s + _ + _) / DAY_S).
  pose proof (calendar_tuple_denotes w f cut Hc) as H.
  destruct (calendar_tuple w f cut) as [[[[[y' m'] d'] h'] mi'] s'].
  destruct H as (Hex' & Hh' & Hmi' & Hs' & E).
  set (J := civil_day_number cut (y, m, d)) in *. set (J' := civil_day_number cut (y', m', d')) in *.
  assert (E2 : inject_Z (86400 * J + 3600 * h + 60 * mi + Qfloor s) + (s - inject_Z (Qfloor s)) ==
               inject_Z (86400 * J' + 3600 * h' + 60 * mi' + Qfloor s') + (s' - inject_Z (Qfloor s'))).
  { rewrite !inject_Z_plus, !inject_Z_mult. change (inject_Z 86400) with 86400. change (inject_Z 3600) with 3600. change (inject_Z 60) with 60.
    assert (E1 : (w + f) * 86400 == (inject_Z J' - (1 # 2) + (inject_Z h' * 3600 + inject_Z mi' * 60 + s') / 86400) * 86400) by (rewrite E; reflexivity).
    assert (E3 : (w + f) * 86400 == (inject_Z J - (1 # 2)) * 86400 + (s + inject_Z mi * 60 + inject_Z h * 3600)).
    { unfold w, f, DAY_S. field. }
    assert (E4 : (inject_Z J' - (1 # 2) + (inject_Z h' * 3600 + inject_Z mi' * 60 + s') / 86400) * 86400 ==
                 (inject_Z J' - (1 # 2)) * 86400 + (inject_Z h' * 3600 + inject_Z mi' * 60 + s')) by field.
    rewrite E3, E4 in E1. lra. }
  destruct (floor_spec s) as [F1 F2]. destruct (floor_spec s') as [F1' F2'].
  assert (G1 : 0 <= s - inject_Z (Qfloor s) < 1) by (split; lra).
  assert (G2 : 0 <= s' - inject_Z (Qfloor s') < 1) by (split; lra).
  destruct (split_unique _ _ _ _ G1 G2 E2) as [E5 E6].
  assert (B : (0 <= Qfloor s < 60)%Z).
  { split; [assert (-1 < Qfloor s)%Z; [|lia]|]; rewrite Zlt_Qlt; [change (inject_Z (-1)) with (-(1))|change (inject_Z 60) with 60]; lra. }
  assert (B' : (0 <= Qfloor s' < 60)%Z).
  { split; [assert (-1 < Qfloor s')%Z; [|lia]|]; rewrite Zlt_Qlt; [change (inject_Z (-1)) with (-(1))|change (inject_Z 60) with 60]; lra. }
  assert (EJ : J' = J) by lia. assert (Eh : h' = h) by lia. assert (Em : mi' = mi) by lia. assert (Es : Qfloor s' = Qfloor s) by lia.
  split.
  - assert (Ed : (y', m', d') = (y, m, d)) by (apply (civil_inj cut); assumption).
    rewrite Eh, Em. injection Ed as -> -> ->. reflexivity.
  - rewrite Es in E6. lra.
Qed.

(** * TAI and TT of a time *)
Lemma tuple_says_calendar jd fraction cut instant : good_cutoff cut -> (jd + fraction) * 86400 == instant ->
  tuple_says cut (calendar_tuple jd fraction cut) instant.
Proof.
  intros Hc E. pose proof (calendar_tuple_denotes jd fraction cut Hc) as H. unfold tuple_says.
  destruct (calendar_tuple jd fraction cut) as [[[[[y m] d] h] mi] s]. destruct H as (H1 & H2 & H3 & H4 & H5).
  repeat (split; [assumption|]). rewrite <- E, H5.
  rewrite !inject_Z_plus, !inject_Z_mult. change (inject_Z 86400) with 86400. change (inject_Z 3600) with 3600. change (inject_Z 60) with 60.
  change (inject_Z (86400 * civil_day_number cut (y, m, d) - 43200)) with (inject_Z (86400 * civil_day_number cut (y, m, d) + -43200)).
  rewrite inject_Z_plus, inject_Z_mult. change (inject_Z 86400) with 86400. change (inject_Z (-43200)) with (-(43200)). field.
Qed.
Lemma scale_rounding_eq cut u f usec x y : x == y -> scale_rounding cut u f usec x -> scale_rounding cut u f usec y.
Proof. intros E. unfold scale_rounding. destruct u; rewrite E; tauto. Qed.
Lemma scale_fractions ns base cut ts t : timescale_for ns base cut ts -> built ts t ->
  cutoff ts = cut /\ (whole t + tai_fraction t) * 86400 == tai_instant t /\ (whole t + tt_fraction t) * 86400 == tai_instant t + (32184 # 1000).
Proof.
  intros Hts Hb. split; [apply (timescale_tables ns base cut ts Hts)|]. split; [reflexivity|].
  pose proof (built_tt_tai ns base cut ts t Hts Hb) as E. unfold tt, tai_instant in *. lra.
Qed.
Lemma tai_tt_calendar ns base cut ts t : timescale_for ns base cut ts -> good_cutoff cut -> built ts t ->
  tuple_says cut (tai_calendar ts t) (tai_instant t) /\ tuple_says cut (tt_calendar ts t) (tai_instant t + (32184 # 1000)).
Proof.
  intros Hts Hc Hb. destruct (scale_fractions ns base cut ts t Hts Hb) as (Ec & E1 & E2).
  unfold tai_calendar, tt_calendar. rewrite Ec. split; apply tuple_says_calendar; assumption.
Qed.
Lemma tai_tt_text show ns base cut ts ps t : standard show -> timescale_for ns base cut ts -> good_cutoff cut -> built ts t -> covered ps ->
  text_says show cut ps (tai_strftime show ts t (write ps)) (tai_instant t) /\
  text_says show cut ps (tt_strftime show ts t (write ps)) (tai_instant t + (32184 # 1000)).
Proof.
  intros St Hts Hc Hb Hp. destruct (scale_fractions ns base cut ts t Hts Hb) as (Ec & E1 & E2).
  unfold tai_strftime, tt_strftime. rewrite Ec.
  assert (G : forall jd fraction x, (jd + fraction) * 86400 == x -> text_says show cut ps (scale_strftime show cut (write ps) jd fraction) x).
  { intros jd fr x E. destruct (scale_text show cut ps jd fr St Hc Hp) as (f & usec & A1 & A2 & A3 & A4 & A5 & A6).
    exists f, usec. repeat (split; [assumption|]). split; [|split; [|assumption]].
    - intros u Hu. exact (scale_rounding_eq _ _ _ _ _ _ E (A4 u Hu)).
    - intros Hx. apply A5. lra. }
  split; apply G; assumption.
Qed.
