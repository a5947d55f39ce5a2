(** Proofs about datetimes in zones. *)
From Coq Require Import ZArith QArith Qround List Bool Lia Lqa.
From Verif Require Import PyNum Cal_Model Cal_Spec Cal_Proofs Time_Model Time_Spec Time_Proofs Time_Proofs2 Time_Proofs3 Zone_Model Zone_Spec.
Import ListNotations.
Open Scope Z_scope.

(** * Counts *)
Lemma greg_date J : let '(y, m, d) := compute_calendar_date J None in valid_date Gregorian (y, m, d) = true /\ day_number Gregorian y m d = J.
Proof. pose proof (civil_of_jd None J I) as H. destruct (compute_calendar_date J None) as [[y m] d]. exact H. Qed.
Lemma count_of n : count (datetime_of n) = n.
Proof.
  unfold count, datetime_of. pose proof (greg_date (n / DAY_US)) as G. destruct (compute_calendar_date (n / DAY_US) None) as [[y m] d]. destruct G as [_ G]. cbn [d_year d_month d_day d_hour d_minute d_second d_micro]. rewrite G. unfold DAY_US.
  pose proof (Z.div_mod n 86400000000 ltac:(lia)) as D. pose proof (Z.mod_pos_bound n 86400000000 ltac:(lia)) as B. set (r := n mod 86400000000) in *. set (q := n / 86400000000) in *.
  assert (E : n mod 1000000 = r mod 1000000). { rewrite D. replace (86400000000 * q + r) with (r + (86400 * q) * 1000000) by lia. apply Z.mod_add. lia. }
  rewrite E. pose proof (Z.div_mod r 1000000 ltac:(lia)). set (s := r / 1000000) in *.
  assert (3600 * (s / 3600) + 60 * (s / 60 mod 60) + s mod 60 = s) by lia. lia.
Qed.
Lemma clock_fields n : let d := datetime_of n in valid_date Gregorian (d_year d, d_month d, d_day d) = true /\ day_number Gregorian (d_year d) (d_month d) (d_day d) = n / 86400000000 /\
  0 <= d_hour d <= 23 /\ 0 <= d_minute d <= 59 /\ 0 <= d_second d <= 59 /\ 0 <= d_micro d < 1000000.
Proof.
  unfold datetime_of. pose proof (greg_date (n / DAY_US)) as G. destruct (compute_calendar_date (n / DAY_US) None) as [[y m] d]. destruct G as [V G]. cbn [d_year d_month d_day d_hour d_minute d_second d_micro]. unfold DAY_US in *.
  pose proof (Z.mod_pos_bound n 86400000000 ltac:(lia)) as B. set (r := n mod 86400000000) in *. pose proof (Z.mod_pos_bound n 1000000 ltac:(lia)). set (u := n mod 1000000) in *. assert (0 <= r / 1000000 < 86400) by lia. set (s := r / 1000000) in *.
  split; [exact V|]. split; [exact G|]. lia.
Qed.
Lemma split_count J s u : 0 <= s < 86400 -> 0 <= u < 1000000 -> let n := 86400000000 * J + 1000000 * s + u in n / 86400000000 = J /\ n mod 86400000000 / 1000000 = s /\ n mod 1000000 = u.
Proof.
  intros Hs Hu n. assert (D : n / 86400000000 = J) by (symmetry; apply (Z.div_unique n 86400000000 J (1000000 * s + u)); [lia|unfold n; lia]).
  assert (M : n mod 86400000000 = 1000000 * s + u) by (pose proof (Z.div_mod n 86400000000 ltac:(lia)); rewrite D in *; unfold n in *; lia).
  split; [exact D|]. split; [rewrite M; symmetry; apply (Z.div_unique _ 1000000 s u); lia|]. symmetry. apply (Z.mod_unique n 1000000 (86400 * J + s) u); [lia|unfold n; lia].
Qed.
Lemma of_count d : valid_date Gregorian (d_year d, d_month d, d_day d) = true -> 0 <= d_hour d <= 23 -> 0 <= d_minute d <= 59 -> 0 <= d_second d <= 59 -> 0 <= d_micro d < 1000000 -> datetime_of (count d) = d.
Proof.
  intros V H M S U. unfold count, datetime_of, DAY_US. destruct (split_count (day_number Gregorian (d_year d) (d_month d) (d_day d)) (3600 * d_hour d + 60 * d_minute d + d_second d) (d_micro d)) as (-> & -> & ->); [lia|exact U|].
  rewrite <- (julian_day_is_day_number _ _ _ V), (gregorian_roundtrip _ _ _ V). destruct d as [y m dd h mi s u]; cbn [d_year d_month d_day d_hour d_minute d_second d_micro] in *. f_equal; lia.
Qed.
Lemma in_years_bounds n : in_years n <-> first_count <= n <= last_count.
Proof. unfold in_years. change (count _) with first_count at 1. match goal with |- _ <= _ <= ?x <-> _ => change x with last_count end. reflexivity. Qed.
Lemma accepts_possible d : accepts d = true <-> possible d.
Proof. unfold accepts, possible. rewrite !andb_true_iff, !Z.leb_le. intuition lia. Qed.
Lemma year_days y m d : valid_date Gregorian (y, m, d) = true -> (1 <= y <= 9999 <-> 1721426 <= day_number Gregorian y m d <= 5373484).
Proof.
  intros V. pose proof (day_number_mono Gregorian (y, m, d) (1, 1, 1) V eq_refl) as A. pose proof (day_number_mono Gregorian (9999, 12, 31) (y, m, d) eq_refl V) as B. cbv beta iota in A, B.
  change (day_number Gregorian 1 1 1) with 1721426 in A. change (day_number Gregorian 9999 12 31) with 5373484 in B. destruct (valid_bounds _ _ _ _ V) as [Bm Bd].
  assert (L : month_length Gregorian y m <= 31) by (unfold month_length; repeat match goal with |- context [if ?b then _ else _] => destruct b end; lia).
  assert (A' : date_lt (y, m, d) (1, 1, 1) <-> y < 1) by (unfold date_lt; lia). assert (B' : date_lt (9999, 12, 31) (y, m, d) <-> 9999 < y) by (unfold date_lt; lia). rewrite A' in A. rewrite B' in B. lia.
Qed.
Lemma possible_in_years d : possible d -> first_count <= count d <= last_count.
Proof. intros (Y & V & R). apply (year_days _ _ _ V) in Y. unfold count, first_count, last_count, DAY_US. lia. Qed.
Lemma possible_of_count d : possible d -> datetime_of (count d) = d.
Proof. intros (Y & V & H & M & S & U). apply of_count; assumption. Qed.
Lemma in_years_possible n : first_count <= n <= last_count -> possible (datetime_of n).
Proof.
  intros B. destruct (clock_fields n) as (V & D & R). split; [|split; [exact V|exact R]]. apply (year_days _ _ _ V). rewrite D. unfold first_count, last_count, DAY_US in B. split; [apply Z.div_le_lower_bound; lia|]. apply Z.lt_succ_r. apply Z.div_lt_upper_bound; lia.
Qed.
Lemma moved_ok d delta : first_count <= count d + delta <= last_count -> moved d delta = Ok (datetime_of (count d + delta)).
Proof. intros B. unfold moved. rewrite (proj2 (Z.leb_le _ _) (proj1 B)), (proj2 (Z.leb_le _ _) (proj2 B)). reflexivity. Qed.
Lemma moved_over d delta : ~ (first_count <= count d + delta <= last_count) -> moved d delta = OverflowError.
Proof. intros B. unfold moved. destruct (Z.leb_spec first_count (count d + delta)); [|reflexivity]. destruct (Z.leb_spec (count d + delta) last_count); [lia|reflexivity]. Qed.

(** * From datetimes *)
Lemma from_count ns base cut ts n : timescale_for ns base cut ts -> good_cutoff cut -> gregorian_on cut n -> (tai_instant (from_datetime ts (datetime_of n)) == instant_of ns base n)%Q.
Proof.
  intros Hts Hc G. unfold from_datetime. destruct (utc_facts ns base cut ts (d_year (datetime_of n)) (d_month (datetime_of n)) (d_day (datetime_of n)) (inject_Z (d_hour (datetime_of n))) (inject_Z (d_minute (datetime_of n))) (inject_Z (d_second (datetime_of n)) + inject_Z (d_micro (datetime_of n)) / 1000000) Hts) as [_ ->].
  assert (E : compute_calendar_date (n / 86400000000) None = compute_calendar_date (n / 86400000000) cut).
  { rewrite !compute_unfold. destruct cut as [c|]; [|reflexivity]. cbn [in_force]. cbn in G. destruct (Z.ltb_spec (n / 86400000000) c); [lia|reflexivity]. }
  pose proof (civil_of_jd cut (n / 86400000000) Hc) as C. unfold datetime_of, DAY_US, instant_of. rewrite E. destruct (compute_calendar_date (n / 86400000000) cut) as [[y m] d]. destruct C as [X C]. cbn [d_year d_month d_day d_hour d_minute d_second d_micro].
  rewrite (civil_is_julian_day cut y m d Hc X), C. set (s := n mod 86400000000 / 1000000). unfold tai_second. assert (V : s = s / 3600 * 3600 + s / 60 mod 60 * 60 + s mod 60) by lia.
  rewrite V at 4. rewrite !inject_Z_plus, !inject_Z_mult. change (inject_Z 3600) with 3600%Q. change (inject_Z 60) with 60%Q. change (inject_Z 0) with 0%Q. ring.
Qed.
Lemma to_utc_count a n : possible (fields a) -> stands_for a n -> in_years n -> datetime_to_utc a = Ok (datetime_of n).
Proof.
  intros P S Y. rewrite in_years_bounds in Y. unfold datetime_to_utc, stands_for in *. destruct (zone_of a); [contradiction|subst n; rewrite possible_of_count by exact P; reflexivity|]. unfold to_utc. rewrite moved_ok by (subst n; lia). subst n. reflexivity.
Qed.
Lemma aware_instant ns base cut ts a n : timescale_for ns base cut ts -> good_cutoff cut -> possible (fields a) -> stands_for a n -> in_years n -> gregorian_on cut n ->
  exists t, from_aware ts a = Ok t /\ (tai_instant t == instant_of ns base n)%Q.
Proof. intros Hts Hc P S Y G. unfold from_aware. rewrite (to_utc_count a n P S Y). cbn [bind]. eexists. split; [reflexivity|]. apply (from_count ns base cut); assumption. Qed.
Lemma aware_refusals ts a : possible (fields a) ->
  (from_aware ts a = ValueError NaiveDatetime <-> zone_of a = Naive) /\
  (from_aware ts a = OverflowError <-> exists n, stands_for a n /\ ~ in_years n) /\
  ((exists t, from_aware ts a = Ok t) <-> exists n, stands_for a n /\ in_years n).
Proof.
  intros P. pose proof (possible_in_years _ P) as B. unfold from_aware, datetime_to_utc, stands_for. destruct (zone_of a) as [| |o]; cbn [bind].
  - repeat split; intros H; try discriminate; try reflexivity; try (destruct H as [? [[] _]]); destruct H; discriminate.
  - repeat split; intros H; try discriminate.
    + destruct H as (n & -> & H). exfalso. apply H. rewrite in_years_bounds; exact B.
    + eexists. split; [reflexivity|]. rewrite in_years_bounds; exact B.
    + eauto.
  - unfold to_utc. assert (D : first_count <= count (fields a) - o <= last_count \/ ~ (first_count <= count (fields a) - o <= last_count)) by lia. destruct D as [D|D].
    + rewrite moved_ok by lia. cbn [bind]. repeat split; intros H; try discriminate; [|eexists; split; [reflexivity|rewrite in_years_bounds; lia]|eauto].
      * destruct H as (n & -> & H). exfalso. apply H. rewrite in_years_bounds; lia.
    + rewrite moved_over by lia. cbn [bind]. repeat split; intros H; try discriminate; try reflexivity.
      * eexists. split; [reflexivity|]. rewrite in_years_bounds. exact D.
      * destruct H; discriminate.
      * destruct H as (n & -> & H). rewrite in_years_bounds in H. contradiction.
Qed.
Lemma instant_mono ns base n m : increasing ns -> n < m -> (instant_of ns base n < instant_of ns base m)%Q.
Proof.
  intros Hi L. unfold instant_of. pose proof (Z.div_mod n 86400000000 ltac:(lia)) as Dn. pose proof (Z.div_mod m 86400000000 ltac:(lia)) as Dm. pose proof (Z.mod_pos_bound n 86400000000 ltac:(lia)) as Bn. pose proof (Z.mod_pos_bound m 86400000000 ltac:(lia)) as Bm.
  assert (E : forall k, k mod 1000000 = (k mod 86400000000) mod 1000000). { intros k. rewrite (Z.div_mod k 86400000000) at 1 by lia. replace (86400000000 * (k / 86400000000) + k mod 86400000000) with (k mod 86400000000 + (86400 * (k / 86400000000)) * 1000000) by lia. apply Z.mod_add. lia. }
  rewrite (E n), (E m). set (Jn := n / 86400000000) in *. set (Jm := m / 86400000000) in *. set (rn := n mod 86400000000) in *. set (rm := m mod 86400000000) in *.
  pose proof (Z.div_mod rn 1000000 ltac:(lia)) as En. pose proof (Z.div_mod rm 1000000 ltac:(lia)) as Em. pose proof (Z.mod_pos_bound rn 1000000 ltac:(lia)) as Un. pose proof (Z.mod_pos_bound rm 1000000 ltac:(lia)) as Um.
  assert (Sn : 0 <= rn / 1000000 < 86400) by lia. assert (Sm : 0 <= rm / 1000000 < 86400) by lia. set (sn := rn / 1000000) in *. set (sm := rm / 1000000) in *. set (un := rn mod 1000000) in *. set (um := rm mod 1000000) in *.
  assert (C : (Jn < Jm \/ Jn = Jm /\ sn < sm) \/ (Jn = Jm /\ sn = sm /\ un < um)) by lia.
  assert (Qn : (0 <= inject_Z un / 1000000 < 1)%Q). { split; [apply Qle_shift_div_l; [reflexivity|]|apply Qlt_shift_div_r; [reflexivity|]]; [change (0 * 1000000)%Q with (inject_Z 0)|change (1 * 1000000)%Q with (inject_Z 1000000)]; [rewrite <- Zle_Qle|rewrite <- Zlt_Qlt]; lia. }
  assert (Qm : (0 <= inject_Z um / 1000000 < 1)%Q). { split; [apply Qle_shift_div_l; [reflexivity|]|apply Qlt_shift_div_r; [reflexivity|]]; [change (0 * 1000000)%Q with (inject_Z 0)|change (1 * 1000000)%Q with (inject_Z 1000000)]; [rewrite <- Zle_Qle|rewrite <- Zlt_Qlt]; lia. }
  destruct C as [C|(-> & -> & C)].
  - pose proof (proj2 (tai_second_lt ns base Jn sn Jm sm Hi ltac:(pose proof (day_length_pos ns Jn); lia) ltac:(pose proof (day_length_pos ns Jm); lia)) C) as T.
    assert (T' : (inject_Z (tai_second ns base Jn sn) + 1 <= inject_Z (tai_second ns base Jm sm))%Q) by (change 1%Q with (inject_Z 1); rewrite <- inject_Z_plus, <- Zle_Qle; lia). lra.
  - assert (T : (inject_Z un / 1000000 < inject_Z um / 1000000)%Q) by (apply Qmult_lt_compat_r; [reflexivity|rewrite <- Zlt_Qlt; exact C]). lra.
Qed.
Lemma aware_order ns base cut ts a b n m t u : timescale_for ns base cut ts -> good_cutoff cut -> possible (fields a) -> possible (fields b) -> stands_for a n -> stands_for b m -> gregorian_on cut n -> gregorian_on cut m ->
  from_aware ts a = Ok t -> from_aware ts b = Ok u -> ((tai_instant t < tai_instant u)%Q <-> n < m) /\ ((tai_instant t == tai_instant u)%Q <-> n = m).
Proof.
  intros Hts Hc Pa Pb Sa Sb Ga Gb Ta Tb. assert (Hi : increasing ns) by apply Hts.
  assert (Y : forall a n t, possible (fields a) -> stands_for a n -> from_aware ts a = Ok t -> in_years n).
  { intros a' n' t' P S T. destruct (proj1 (proj2 (proj2 (aware_refusals ts a' P))) (ex_intro _ t' T)) as (k & S' & Y). unfold stands_for in *. destruct (zone_of a'); [contradiction| |]; congruence. }
  destruct (aware_instant ns base cut ts a n Hts Hc Pa Sa (Y a n t Pa Sa Ta) Ga) as (t' & T' & It). destruct (aware_instant ns base cut ts b m Hts Hc Pb Sb (Y b m u Pb Sb Tb) Gb) as (u' & U' & Iu).
  rewrite Ta in T'. rewrite Tb in U'. injection T' as <-. injection U' as <-. rewrite It, Iu.
  destruct (Z.lt_trichotomy n m) as [L|[->|L]].
  - pose proof (instant_mono ns base n m Hi L). split; split; intros; try lia; try lra; exact H.
  - split; split; intros; try lia; lra.
  - pose proof (instant_mono ns base m n Hi L). split; split; intros; try lia; lra.
Qed.
Lemma each_ok {A B} (f : A -> outcome B) l r : each f l = Ok r <-> Forall2 (fun a b => f a = Ok b) l r.
Proof.
  revert r. induction l as [|a l IH]; intros r; cbn [each].
  - split; [intros E; injection E as <-; constructor|intros E; inversion E; reflexivity].
  - split.
    + destruct (f a) as [b| |] eqn:E; cbn [bind]; try discriminate. destruct (each f l) as [bs| |] eqn:Es; cbn [bind]; try discriminate. intros X. injection X as <-. constructor; [exact E|]. apply IH. reflexivity.
    + intros X. inversion X as [|? b ? bs E Es]; subst. rewrite E. cbn [bind]. rewrite (proj2 (IH bs) Es). reflexivity.
Qed.
Lemma aware_list ts l r : l <> [] -> (from_datetimes ts l = Ok r <-> Forall2 (fun a t => from_aware ts a = Ok t) l r).
Proof.
  intros NE. unfold from_datetimes. split.
  - destruct (each datetime_to_utc l) as [ds| |] eqn:E; cbn [bind]; try discriminate. intros H. apply each_ok in E. assert (R : r = map (from_datetime ts) ds) by (destruct ds; [discriminate|injection H as <-; reflexivity]). rewrite R. clear - E. induction E; cbn; constructor; [|exact IHE]. unfold from_aware. rewrite H. reflexivity.
  - intros F. assert (X : exists ds, each datetime_to_utc l = Ok ds /\ r = map (from_datetime ts) ds).
    { clear NE. induction F as [|a t l r H F (ds & E & ->)]; [exists []; split; reflexivity|]. unfold from_aware in H. destruct (datetime_to_utc a) as [d| |] eqn:D; try discriminate. injection H as <-. exists (d :: ds). split; [|reflexivity]. cbn [each]. rewrite D. cbn [bind]. rewrite E. reflexivity. }
    destruct X as (ds & -> & ->). cbn [bind]. destruct ds; [|reflexivity]. inversion F; subst. congruence.
Qed.
Lemma aware_list_empty ts : from_datetimes ts [] = ValueError NoValues.
Proof. reflexivity. Qed.
Lemma utc_dispatch ns base cut ts : timescale_for ns base cut ts ->
  (forall a t, utc_of ts (ADatetime a) = Ok [t] <-> from_aware ts a = Ok t) /\
  (forall l, utc_of ts (AList l) = from_datetimes ts l) /\
  (forall y m d, utc_of ts (ADate y m d) = Ok [from_datetime ts {| d_year := y; d_month := m; d_day := d; d_hour := 0; d_minute := 0; d_second := 0; d_micro := 0 |}]).
Proof.
  intros _. split; [|split; reflexivity]. intros a t. cbn [utc_of]. destruct (from_aware ts a); cbn [bind]; split; intros H; try discriminate; injection H as ->; reflexivity.
Qed.
Lemma date_is_midnight ns base cut ts y m d t : timescale_for ns base cut ts -> good_cutoff cut -> exists_under cut (y, m, d) -> utc_of ts (ADate y m d) = Ok [t] -> (tai_instant t == inject_Z (tai_second ns base (civil_day_number cut (y, m, d)) 0))%Q.
Proof.
  intros Hts Hc X H. cbn in H. injection H as <-. unfold from_datetime. cbn [d_year d_month d_day d_hour d_minute d_second d_micro].
  destruct (utc_facts ns base cut ts y m d (inject_Z 0) (inject_Z 0) (inject_Z 0 + inject_Z 0 / 1000000) Hts) as [_ ->]. rewrite (civil_is_julian_day cut y m d Hc X). change (inject_Z 0) with 0%Q. field.
Qed.
Lemma now_is_clock ns base cut ts n : timescale_for ns base cut ts -> good_cutoff cut -> in_years n -> gregorian_on cut n -> exists t, now ts n = Ok t /\ (tai_instant t == instant_of ns base n)%Q.
Proof.
  intros Hts Hc Y G. apply (aware_instant ns base cut ts _ n Hts Hc); [apply in_years_possible; rewrite <- in_years_bounds; exact Y| |exact Y|exact G]. cbn. symmetry. apply count_of.
Qed.

(** * To datetimes *)
Lemma into_zone_spec z d : possible d -> let n := count d in let o := offset_at z n in
  into_zone z d = if (first_count <=? n + o) && (n + o <=? last_count) then Ok {| fields := datetime_of (n + o); zone_of := At o |} else OverflowError.
Proof.
  intros P n o. assert (F : from_utc z d = if (first_count <=? n + o) && (n + o <=? last_count) then Ok {| fields := datetime_of (n + o); zone_of := At o |} else OverflowError).
  { unfold from_utc, moved. fold n. fold o. destruct ((first_count <=? n + o) && (n + o <=? last_count)); reflexivity. }
  unfold into_zone. rewrite F. destruct (has_normalize z); [|reflexivity]. destruct ((first_count <=? n + o) && (n + o <=? last_count)) eqn:B; [|reflexivity]. cbn [bind]. unfold normalize_zone, to_utc. cbn [zone_of fields].
  pose proof (possible_in_years d P) as Y. rewrite moved_ok by (rewrite count_of; fold n in Y; lia). rewrite count_of. replace (n + o + - o) with n by lia. cbn [bind]. unfold n. rewrite (possible_of_count d P). fold n. rewrite F. reflexivity.
Qed.
Lemma datetime_clock ns base cut ts t : timescale_for ns base cut ts -> good_cutoff cut -> built ts t -> let '(d, leap) := utc_datetime ts t in
  exists_under cut (d_year d, d_month d, d_day d) /\ 0 <= d_hour d <= 23 /\ 0 <= d_minute d <= 59 /\ 0 <= d_second d <= 59 /\ 0 <= d_micro d < 1000000.
Proof.
  intros Hts Hc Hb. pose proof (datetime_nearest ns base cut ts t Hts Hc Hb) as H. destruct (datetime_parts ns base cut ts t Hts Hc (built_coherent ns base cut ts t Hts Hb)) as (u & _ & P). destruct (utc_datetime ts t) as [d leap]. cbv zeta in P. destruct P as [Pd Pl]. assert (Ps : d_second d = f_isec u - leap) by (rewrite Pd; reflexivity). destruct H as (shown & (J & sod & Hsod & Hex & Hciv & Hcl & Hf & E) & _ & _ & Hl & H59 & _).
  cbn [iso_of_datetime i_year i_month i_day i_hour i_minute i_second i_fraction] in *. pose proof (day_length_pos ns J). destruct (clock_value sod _ _ _ ltac:(lia) Hcl) as (V & H1 & H2 & H3 & H4 & H5). split; [exact Hex|].
  destruct (f_isec u =? 60) eqn:E60; repeat split; lia.
Qed.
Lemma zone_shows ns base cut ts t z a leap : timescale_for ns base cut ts -> good_cutoff cut -> built ts t -> astimezone ts t z = Ok (a, leap) ->
  exists shown n, nearest 1000000 shown (tai_instant t) /\ (leap = 1 <-> in_leap_second ns base shown) /\ (leap = 0 \/ leap = 1) /\
    stands_for a n /\ possible (fields a) /\ in_years n /\ zone_of a = At (offset_at z n) /\
    (exists t', from_aware ts a = Ok t' /\ (tai_instant t' == shown - inject_Z leap)%Q) /\
    (gregorian_on cut n -> (instant_of ns base n == shown - inject_Z leap)%Q).
Proof.
  intros Hts Hc Hb H. pose proof (datetime_nearest ns base cut ts t Hts Hc Hb) as N. unfold astimezone, checked_datetime in H. destruct (utc_datetime ts t) as [d lp]. unfold make_datetime in H. destruct (accepts d) eqn:A; cbn [bind] in H; [|discriminate]. apply accepts_possible in A.
  rewrite (into_zone_spec z d A) in H. cbv zeta in H. destruct (_ && _) eqn:B; cbn [bind] in H; [|discriminate]. injection H as <- <-. destruct N as (shown & _ & Hn & Hl & Hl01 & _ & Hr). exists shown, (count d).
  apply andb_true_iff in B. rewrite !Z.leb_le in B. pose proof (possible_in_years d A) as Y.
  assert (T : from_aware ts {| fields := datetime_of (count d + offset_at z (count d)); zone_of := At (offset_at z (count d)) |} = Ok (from_datetime ts d)).
  { unfold from_aware, datetime_to_utc. cbn [zone_of fields]. unfold to_utc. rewrite moved_ok by (rewrite count_of; lia). rewrite count_of. replace (count d + offset_at z (count d) + - offset_at z (count d)) with (count d) by lia. rewrite (possible_of_count d A). reflexivity. }
  split; [exact Hn|]. split; [exact Hl|]. split; [exact Hl01|]. split; [unfold stands_for; cbn [zone_of fields]; rewrite count_of; lia|]. split; [apply in_years_possible; exact B|]. split; [rewrite in_years_bounds; exact Y|]. split; [reflexivity|].
  split; [eexists; split; [exact T|exact Hr]|]. intros G. rewrite <- Hr. rewrite <- (from_count ns base cut ts (count d) Hts Hc G). rewrite (possible_of_count d A). reflexivity.
Qed.
Lemma zone_refusals ns base cut ts t z : timescale_for ns base cut ts -> good_cutoff cut -> built ts t -> let '(d, leap) := utc_datetime ts t in
  ((exists c, astimezone ts t z = ValueError c) <-> ~ (1 <= d_year d <= 9999) \/ valid_date Gregorian (d_year d, d_month d, d_day d) = false) /\
  (astimezone ts t z = OverflowError <-> possible d /\ ~ in_years (count d + offset_at z (count d))).
Proof.
  intros Hts Hc Hb. pose proof (datetime_clock ns base cut ts t Hts Hc Hb) as C. unfold astimezone, checked_datetime. destruct (utc_datetime ts t) as [d leap]. destruct C as (_ & C). unfold make_datetime. destruct (accepts d) eqn:A; cbn [bind].
  - apply accepts_possible in A. rewrite (into_zone_spec z d A). cbv zeta. rewrite in_years_bounds. destruct A as (Y & V & R). destruct (_ && _) eqn:B; cbn [bind].
    + apply andb_true_iff in B. rewrite !Z.leb_le in B. split; split; intros H; try discriminate; [destruct H; discriminate|destruct H; [lia|congruence]|destruct H; lia].
    + apply andb_false_iff in B. rewrite !Z.leb_gt in B. split; split; intros H; try reflexivity; [destruct H; discriminate|destruct H; [lia|congruence]|]. split; [repeat split; try assumption; lia|lia].
  - assert (NP : ~ possible d) by (rewrite <- accepts_possible; congruence). split; split; intros H; try discriminate; [|eauto|tauto].
    destruct (valid_date Gregorian (d_year d, d_month d, d_day d)) eqn:V; [|right; reflexivity]. left. intros Y. apply NP. repeat split; try assumption; lia.
Qed.
Lemma zone_refusals_gregorian ns base ts t z : timescale_for ns base None ts -> built ts t -> let d := fst (utc_datetime ts t) in
  (exists c, astimezone ts t z = ValueError c) <-> ~ in_years (count d).
Proof.
  intros Hts Hb. pose proof (zone_refusals ns base None ts t z Hts I Hb) as R. pose proof (datetime_clock ns base None ts t Hts I Hb) as C. destruct (utc_datetime ts t) as [d leap]. cbn [fst]. destruct R as [R _]. rewrite R. destruct C as (V & C). unfold exists_under in V.
  rewrite in_years_bounds. pose proof (year_days _ _ _ V) as Y. unfold count, first_count, last_count, DAY_US. rewrite V. split; [intros [H|H]; [|discriminate]|intros H; left]; lia.
Qed.
Lemma normalize_same ts t f b : astimezone ts t {| offset_at := f; has_normalize := b |} = astimezone ts t {| offset_at := f; has_normalize := false |}.
Proof.
  unfold astimezone, checked_datetime. destruct (utc_datetime ts t) as [d leap]. unfold make_datetime. destruct (accepts d) eqn:A; [|reflexivity]. cbn [bind]. apply accepts_possible in A. rewrite !(into_zone_spec _ d A). reflexivity.
Qed.
Local Opaque utc_datetime.
Lemma zone_list ts l z r : astimezones ts l z = Ok r <-> Forall2 (fun t p => astimezone ts t z = Ok p) l r.
Proof.
  unfold astimezones, checked_datetimes. split.
  - destruct (each (fun t => make_datetime (fst (utc_datetime ts t))) l) as [ds| |] eqn:E; cbn [bind]; try discriminate. apply each_ok in E.
    assert (M : map fst (combine ds (map (fun t => snd (utc_datetime ts t)) l)) = ds /\ map snd (combine ds (map (fun t => snd (utc_datetime ts t)) l)) = map (fun t => snd (utc_datetime ts t)) l).
    { clear - E. induction E; [split; reflexivity|]. cbn [map combine fst snd]. destruct IHE as [-> ->]. split; reflexivity. }
    destruct M as [M1 M2]. destruct (each (into_zone z) (map fst _)) as [as_| |] eqn:E2; cbn [bind]; try discriminate. rewrite M2. intros X. injection X as <-. rewrite M1 in E2. apply each_ok in E2. clear M1 M2. revert as_ E2. induction E as [|t d l ds H E IH]; intros as_ E2; inversion E2; subst; cbn [map combine]; constructor.
    + unfold astimezone, checked_datetime. destruct (utc_datetime ts t) as [d' leap]. cbn [fst snd] in *. rewrite H. cbn [bind]. rewrite H2. reflexivity.
    + apply IH. assumption.
  - intros F. assert (X : exists ds as_, each (fun t => make_datetime (fst (utc_datetime ts t))) l = Ok ds /\ each (into_zone z) ds = Ok as_ /\ length ds = length l /\ r = combine as_ (map (fun t => snd (utc_datetime ts t)) l)).
    { induction F as [|t p l r H F (ds & as_ & E1 & E2 & L & ->)]; [exists [], []; repeat split|]. unfold astimezone, checked_datetime in H. destruct (utc_datetime ts t) as [d leap] eqn:U. destruct (make_datetime d) as [d'| |] eqn:M; cbn [bind] in H; try discriminate. destruct (into_zone z d') as [a| |] eqn:Z; cbn [bind] in H; try discriminate. injection H as <-.
      exists (d' :: ds), (a :: as_). cbn [each map combine length]. rewrite U. cbn [fst snd]. rewrite M. cbn [bind]. rewrite E1. cbn [bind]. rewrite Z. cbn [bind]. rewrite E2. cbn [bind]. repeat split. lia. }
    destruct X as (ds & as_ & -> & E2 & L & ->). cbn [bind].
    assert (M : map fst (combine ds (map (fun t => snd (utc_datetime ts t)) l)) = ds /\ map snd (combine ds (map (fun t => snd (utc_datetime ts t)) l)) = map (fun t => snd (utc_datetime ts t)) l).
    { clear - L. revert l L. induction ds as [|d ds IH]; intros [|t l] L; try discriminate; [split; reflexivity|]. cbn [map combine fst snd]. destruct (IH l) as [-> ->]; [cbn in L; lia|]. split; reflexivity. }
    destruct M as [-> ->]. rewrite E2. reflexivity.
Qed.

Local Transparent utc_datetime.

(** * Messages *)
Lemma leap_day_message ns base cut ts t z y : timescale_for ns base cut ts -> good_cutoff cut -> built ts t -> astimezone ts t z = ValueError (JulianLeapDay y) -> 1 <= y <= 9999 ->
  valid_date Julian (y, 2, 29) = true /\ valid_date Gregorian (y, 2, 29) = false /\ (d_year (fst (utc_datetime ts t)), d_month (fst (utc_datetime ts t)), d_day (fst (utc_datetime ts t))) = (y, 2, 29).
Proof.
  intros Hts Hc Hb H Y. pose proof (datetime_clock ns base cut ts t Hts Hc Hb) as C. unfold astimezone, checked_datetime in H. destruct (utc_datetime ts t) as [d leap]. cbn [fst]. destruct C as (X & C). unfold make_datetime in H. destruct (accepts d) eqn:A; cbn [bind] in H.
  - apply accepts_possible in A. rewrite (into_zone_spec z d A) in H. cbv zeta in H. match type of H with context [if ?b then _ else _] => destruct b end; cbn [bind] in H; discriminate.
  - unfold upgrade in H. destruct (d_year d <? 0); [discriminate|]. destruct ((d_month d =? 2) && (d_day d =? 29)) eqn:E; [|discriminate]. injection H as Ey. apply andb_true_iff in E. rewrite !Z.eqb_eq in E. destruct E as [Em Ed].
    assert (NG : valid_date Gregorian (y, 2, 29) = false). { destruct (valid_date Gregorian (y, 2, 29)) eqn:V; [|reflexivity]. exfalso. assert (accepts d = true); [|congruence]. apply accepts_possible. unfold possible. rewrite Ey, Em, Ed. split; [exact Y|]. split; [exact V|exact C]. }
    rewrite Ey, Em, Ed in *. split; [|split; [exact NG|reflexivity]]. destruct cut as [c|]; unfold exists_under in X; [destruct X as [[X _]|[X _]]|]; congruence.
Qed.
Lemma negative_message ts t z y : astimezone ts t z = ValueError (NegativeYear y) -> y < 0 /\ y = d_year (fst (utc_datetime ts t)).
Proof.
  intros H. unfold astimezone, checked_datetime in H. destruct (utc_datetime ts t) as [d leap]. cbn [fst]. unfold make_datetime in H. destruct (accepts d) eqn:A; cbn [bind] in H.
  - apply accepts_possible in A. rewrite (into_zone_spec z d A) in H. cbv zeta in H. match type of H with context [if ?b then _ else _] => destruct b end; cbn [bind] in H; discriminate.
  - unfold upgrade in H. destruct (Z.ltb_spec (d_year d) 0); [|destruct (_ && _) in H; discriminate]. injection H as <-. split; [assumption|reflexivity].
Qed.
