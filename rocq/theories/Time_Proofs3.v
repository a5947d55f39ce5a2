From Coq Require Import ZArith QArith Qround Qabs List Bool Lia Lqa.
From Coq Require Import ZifyBool.
From Verif Require Import PyNum Cal_Model Cal_Spec Cal_Proofs Time_Model Time_Spec Time_Proofs Time_Proofs2.
Import ListNotations.
Open Scope Q_scope.

Ltac Zify.zify_post_hook ::= Z.div_mod_to_equations.

(** * C09: agreement of the two UTC inputs *)
Lemma utc_jd_agrees ns base cut ts y m d h mi s w f :
  timescale_for ns base cut ts -> good_cutoff cut ->
  exists_under cut (y,m,d) -> valid_clock false h mi s ->
  (exists N, w * 86400 == inject_Z N) ->
  w + f == inject_Z (civil_day_number cut (y,m,d)) - (1 # 2) + (inject_Z h * 3600 + inject_Z mi * 60 + s) / 86400 ->
  tai_instant (utc_jd ts w f) == tai_instant (utc ts y m d (inject_Z h) (inject_Z mi) s).
Proof.
  intros Hts Hc Hex (Hh & Hm & Hs & Hcl) [N HN] E.
  destruct Hcl as [Hcl|[Hcl _]]; [|discriminate].
  assert (R : 0 <= (inject_Z h * 3600 + inject_Z mi * 60 + s) / 86400 < 1).
  { assert (B : 0 <= inject_Z h <= 23 /\ 0 <= inject_Z mi <= 59).
    { change 0 with (inject_Z 0). change 23 with (inject_Z 23). change 59 with (inject_Z 59).
      rewrite <- !Zle_Qle. lia. }
    split; [apply Qle_shift_div_l|apply Qlt_shift_div_r]; lra. }
  rewrite (utc_jd_instant ns base cut ts w f N _ _ Hts HN E R).
  destruct (utc_facts ns base cut ts y m d (inject_Z h) (inject_Z mi) s Hts) as [_ ->].
  rewrite civil_is_julian_day by assumption. field.
Qed.

(** * C10: leap second sources *)
Lemma removelast_snoc {A} (l : list A) x : removelast (l ++ [x]) = l.
Proof. rewrite removelast_app by discriminate. cbn. apply app_nil_r. Qed.

Lemma legacy_equals_plain mjd offsets cut m0 o0 m1 mr :
  mjd = m0 :: m1 :: mr -> length offsets = length mjd -> hd 0 offsets = o0 ->
  match parse_leap_seconds mjd offsets with
  | None => False
  | Some (d, o) =>
      timescale_init d o cut =
      timescale_init (map (fun m => Fin (m + (4800001 # 2))) (tl mjd)) (tl offsets) cut
  end.
Proof.
  intros -> L _. destruct offsets as [|o0' [|o1 r]]; cbn in L; try discriminate.
  cbn [parse_leap_seconds tl].
  unfold timescale_init at 1.
  set (fm := fun m => Fin (m + (4800001 # 2))).
  replace (NegInf :: map fm (m0 :: m1 :: mr) ++ [PosInf]) with ((NegInf :: map fm (m0 :: m1 :: mr)) ++ [PosInf]) by reflexivity.
  rewrite rev_app_distr. cbn [rev app].
  cbn [skipn map app]. 
  replace (fm m1 :: map fm mr ++ [PosInf]) with ((fm m1 :: map fm mr) ++ [PosInf]) by reflexivity.
  rewrite removelast_snoc.
  unfold timescale_init.
  assert (X : exists d l, rev (fm m1 :: map fm mr) = Fin d :: l).
  { change (fm m1 :: map fm mr) with (map fm (m1 :: mr)). rewrite <- map_rev.
    destruct (rev (m1 :: mr)) as [|a l] eqn:E.
    - apply (f_equal (@rev Q)) in E. rewrite rev_involutive in E. discriminate.
    - cbn [map]. exists (a + (4800001 # 2)), (map fm l). reflexivity. }
  destruct X as (dd & l & ->). reflexivity.
Qed.

(** * C11: rounded output *)
Lemma floor_split u P : (0 < P)%Z -> 0 <= f_sfr u < 1 ->
  qdiv (f_second u) 1 = f_isec u /\ qmod (f_second u) 1 == f_sfr u /\
  let k := Qfloor (f_sfr u * inject_Z P) in
  (0 <= k < P)%Z /\ inject_Z k / inject_Z P <= f_sfr u /\ f_sfr u < inject_Z k / inject_Z P + 1 / inject_Z P.
Proof.
  intros HP Hf. unfold f_second. split; [apply qdiv1_int; assumption|]. split; [apply qmod1_int; assumption|].
  cbv zeta. assert (HPq : 0 < inject_Z P) by (change 0 with (inject_Z 0); rewrite <- Zlt_Qlt; exact HP).
  set (p := inject_Z P) in *. destruct (floor_spec (f_sfr u * p)) as [F1 F2].
  split.
  - split.
    + apply floor_nonneg. nra.
    + apply floor_lt. fold p. nra.
  - split; [apply Qle_shift_div_r; assumption|].
    setoid_replace (inject_Z (Qfloor (f_sfr u * p)) / p + 1 / p) with ((inject_Z (Qfloor (f_sfr u * p)) + 1) / p) by (field; lra).
    apply Qlt_shift_div_l; assumption.
Qed.

(** Common part of all rounding outputs: fields read at [instant + 1/(2P)] and
    truncated to [1/P] seconds show the nearest multiple. *)
Lemma round_shows ns base cut P i u f : increasing ns -> (0 < P)%Z ->
  reads ns base cut (i + (1 # 2) / inject_Z P) u ->
  i_year f = f_year u -> i_month f = f_month u -> i_day f = f_day u ->
  i_hour f = f_hour u -> i_minute f = f_minute u -> i_second f = f_isec u ->
  i_fraction f = Qfloor (f_sfr u * inject_Z P) ->
  exists shown, shows ns base cut P f shown /\ nearest P shown i.
Proof.
  intros Hi HP (J & sod & Hs & HJ & Hex & Hciv & Hcl & Hfr & E) E1 E2 E3 E4 E5 E6 E7.
  destruct (floor_split u P HP Hfr) as (_ & _ & K & K1 & K2). cbv zeta in *.
  rewrite <- E7 in K, K1, K2.
  assert (HPq : 0 < inject_Z P) by (change 0 with (inject_Z 0); rewrite <- Zlt_Qlt; exact HP).
  exists (inject_Z (tai_second ns base J sod) + inject_Z (i_fraction f) / inject_Z P). split.
  - exists J, sod. rewrite E1, E2, E3, E4, E5, E6. repeat split; try assumption; lia || reflexivity.
  - split.
    + exists (tai_second ns base J sod * P + i_fraction f)%Z. rewrite inject_Z_plus, inject_Z_mult. field. lra.
    + set (a := inject_Z (i_fraction f) / inject_Z P) in *.
      assert (H1 : 1 / inject_Z P == 2 * ((1 # 2) / inject_Z P)) by (field; lra).
      set (h := (1 # 2) / inject_Z P) in *. rewrite H1 in K2.
      set (n := inject_Z (tai_second ns base J sod)) in *. clearbody a h n.
      assert (Ei : i == n + f_sfr u - h) by lra. rewrite Ei. split; lra.
Qed.

Lemma isec_nonneg ns base cut i u : increasing ns -> reads ns base cut i u -> (0 <= f_isec u)%Z.
Proof. intros Hi H. destruct (reads_range ns base cut i u Hi H) as [[_ [_ R]] _]. lia. Qed.
Lemma pow10_pos n : (0 < 10 ^ Z.of_nat n)%Z.
Proof. apply Z.pow_pos_nonneg; lia. Qed.

Lemma iso_nearest ns base cut ts t places : timescale_for ns base cut ts -> good_cutoff cut -> built ts t ->
  exists shown, shows ns base cut (10 ^ Z.of_nat places) (utc_iso ts t places) shown /\
                nearest (10 ^ Z.of_nat places) shown (tai_instant t).
Proof.
  intros Hts Hc Hb. pose proof (built_coherent ns base cut ts t Hts Hb) as Hco.
  assert (Hi : increasing ns) by apply Hts.
  destruct places as [|p].
  - pose proof (coherent_reads ns base cut ts t (1 # 2) Hts Hc Hco) as R.
    unfold utc_iso. set (u := utc_tuple ts t (1 # 2)) in *. clearbody u.
    apply (round_shows ns base cut 1 _ u); try assumption; try reflexivity; try lia.
    + cbn [i_second]. pose proof (isec_nonneg _ _ _ _ _ Hi R).
      destruct R as (J & sod & _ & _ & _ & _ & _ & Hf & _).
      rewrite qtrunc_floor.
      * unfold f_second. apply floor_unique; lra.
      * unfold f_second. assert (0 <= inject_Z (f_isec u)) by (change 0 with (inject_Z 0); rewrite <- Zle_Qle; assumption). lra.
    + cbn [i_fraction]. symmetry. destruct R as (J & sod & _ & _ & _ & _ & _ & Hf & _).
      change (inject_Z 1) with 1. apply floor_unique; change (inject_Z 0) with 0; lra.
  - pose proof (pow10_pos (S p)) as HP. set (P := (10 ^ Z.of_nat (S p))%Z) in *.
    pose proof (coherent_reads ns base cut ts t ((1 # 2) / inject_Z P) Hts Hc Hco) as R.
    unfold utc_iso. fold P. clearbody P. set (u := utc_tuple ts t ((1 # 2) / inject_Z P)) in *. clearbody u.
    assert (Hf : 0 <= f_sfr u < 1) by (destruct R as (J & sod & _ & _ & _ & _ & _ & Hf & _); exact Hf).
    destruct (floor_split u P HP Hf) as (D & M & _).
    apply (round_shows ns base cut P _ u); try assumption; try reflexivity.
    + cbn [i_second]. rewrite D. apply qtrunc_inject.
    + cbn [i_fraction].
      assert (HPq : 0 < inject_Z P) by (change 0 with (inject_Z 0); rewrite <- Zlt_Qlt; exact HP).
      rewrite M. apply qtrunc_floor. nra.
Qed.

Lemma jpl_nearest ns base cut ts t : timescale_for ns base cut ts -> good_cutoff cut -> built ts t ->
  let '(bc, year, f) := utc_jpl ts t in
  (exists shown, shows ns base cut 10000 f shown /\ nearest 10000 shown (tai_instant t)) /\
  (bc = true <-> (i_year f < 1)%Z) /\ (1 <= year)%Z /\ i_year f = (if bc then 1 - year else year)%Z.
Proof.
  intros Hts Hc Hb. pose proof (built_coherent ns base cut ts t Hts Hb) as Hco.
  assert (Hi : increasing ns) by apply Hts.
  pose proof (coherent_reads ns base cut ts t (5 # 100000) Hts Hc Hco) as R.
  unfold utc_jpl. set (u := utc_tuple ts t (5 # 100000)) in *. clearbody u. cbv zeta. split; [|].
  - assert (Hf : 0 <= f_sfr u < 1) by (destruct R as (J & sod & _ & _ & _ & _ & _ & Hf & _); exact Hf).
    destruct (floor_split u 10000 ltac:(lia) Hf) as (D & M & _).
    apply (round_shows ns base cut 10000 _ u); try assumption; try reflexivity.
    + apply (reads_compat _ _ _ (tai_instant t + (5 # 100000))); [apply Qplus_comp; reflexivity|exact R].
    + cbn [i_second]. rewrite D. apply qtrunc_inject.
    + cbn [i_fraction]. rewrite M. apply qtrunc_floor. change (inject_Z 10000) with 10000. lra.
  - cbn [i_year]. destruct (f_year u <? 1)%Z eqn:E; cbn [b2z]; split; [| |split|split]; try lia.
Qed.

(** The text never shows second 60 outside a leap second. *)
Lemma shows_60 ns base cut P f shown : increasing ns -> (0 < P)%Z -> shows ns base cut P f shown ->
  (i_second f = 60%Z <-> in_leap_second ns base shown).
Proof.
  intros Hi HP (J & sod & Hs & Hex & Hciv & Hcl & Hf & E).
  set (u := {| f_year := i_year f; f_month := i_month f; f_day := i_day f; f_hour := i_hour f; f_minute := i_minute f;
               f_isec := i_second f; f_sfr := inject_Z (i_fraction f) / inject_Z P; f_jd := J |}).
  assert (HPq : 0 < inject_Z P) by (change 0 with (inject_Z 0); rewrite <- Zlt_Qlt; exact HP).
  assert (Hf0 : 0 <= inject_Z (i_fraction f)) by (change 0 with (inject_Z 0); rewrite <- Zle_Qle; lia).
  assert (Hf1 : inject_Z (i_fraction f) < inject_Z P) by (rewrite <- Zlt_Qlt; lia).
  assert (R : reads ns base cut shown u).
  { exists J, sod. cbn [u f_year f_month f_day f_hour f_minute f_isec f_sfr f_jd]. repeat split; try assumption; try lia.
    - apply Qle_shift_div_l; [assumption|]. lra.
    - apply Qlt_shift_div_r; [assumption|]. lra.
    - rewrite E. reflexivity. }
  apply (reads_range ns base cut shown u Hi R).
Qed.

(** * C12: datetimes *)
Definition iso_of_datetime (d : py_datetime) (leap : Z) : iso_fields :=
  {| i_year := d_year d; i_month := d_month d; i_day := d_day d; i_hour := d_hour d; i_minute := d_minute d;
     i_second := d_second d + leap; i_fraction := d_micro d |}.

Lemma datetime_parts ns base cut ts t : timescale_for ns base cut ts -> good_cutoff cut -> coherent t ->
  exists u, reads ns base cut (tai_instant t + (1 # 2) / inject_Z 1000000) u /\
   let '(d, leap) := utc_datetime ts t in
   let k := Qfloor (f_sfr u * inject_Z 1000000) in
   d = {| d_year := f_year u; d_month := f_month u; d_day := f_day u; d_hour := f_hour u; d_minute := f_minute u;
          d_second := f_isec u - leap; d_micro := k |} /\
   leap = (if (f_isec u =? 60)%Z then 1 else 0)%Z.
Proof.
  intros Hts Hc Hco. assert (Hi : increasing ns) by apply Hts.
  pose proof (coherent_reads ns base cut ts t (5 # 10000000) Hts Hc Hco) as R.
  unfold utc_datetime. set (u := utc_tuple ts t (5 # 10000000)) in *. clearbody u.
  exists u. split; [apply (reads_compat _ _ _ (tai_instant t + (5 # 10000000))); [apply Qplus_comp; reflexivity|exact R]|].
  assert (Hf : 0 <= f_sfr u < 1) by (destruct R as (J & sod & _ & _ & _ & _ & _ & Hf & _); exact Hf).
  destruct (reads_range ns base cut _ u Hi R) as [[_ [_ B]] _].
  destruct (floor_split u 1000000 ltac:(lia) Hf) as (_ & _ & K & _).
  set (k := Qfloor (f_sfr u * inject_Z 1000000)) in *.
  assert (T : qtrunc (f_second u * 1000000) = (f_isec u * 1000000 + k)%Z).
  { rewrite qtrunc_floor.
    - destruct (floor_spec (f_sfr u * inject_Z 1000000)) as [F1 F2]. fold k in F1, F2. change (inject_Z 1000000) with 1000000 in F1, F2.
      apply floor_unique; unfold f_second; rewrite inject_Z_plus, inject_Z_mult; change (inject_Z 1000000) with 1000000; lra.
    - unfold f_second. assert (0 <= inject_Z (f_isec u)) by (change 0 with (inject_Z 0); rewrite <- Zle_Qle; lia). lra. }
  cbv zeta. rewrite T. clearbody k.
  rewrite (Z.add_comm (f_isec u * 1000000)), Z.div_add, Z.mod_add by lia.
  rewrite (Z.div_small k), (Z.mod_small k) by lia. rewrite Z.add_0_l.
  destruct (f_isec u =? 60)%Z eqn:E.
  - assert (X : f_isec u = 60%Z) by lia. rewrite X. split; reflexivity.
  - assert (X : (f_isec u / 60 = 0)%Z) by lia. rewrite X. split; reflexivity.
Qed.

Lemma datetime_nearest ns base cut ts t : timescale_for ns base cut ts -> good_cutoff cut -> built ts t ->
  let '(d, leap) := utc_datetime ts t in
  (exists shown, shows ns base cut 1000000 (iso_of_datetime d leap) shown /\ nearest 1000000 shown (tai_instant t) /\
     (leap = 1%Z <-> in_leap_second ns base shown) /\ (leap = 0 \/ leap = 1)%Z /\
     (leap = 1%Z -> d_second d = 59%Z) /\
     tai_instant (from_datetime ts d) == shown - inject_Z leap).
Proof.
  intros Hts Hc Hb. assert (Hi : increasing ns) by apply Hts.
  destruct (datetime_parts ns base cut ts t Hts Hc (built_coherent ns base cut ts t Hts Hb)) as (u & R & H).
  destruct (utc_datetime ts t) as [d leap]. cbv zeta in H. destruct H as [Hd Hl].
  assert (Hn : exists shown, shows ns base cut 1000000 (iso_of_datetime d leap) shown /\ nearest 1000000 shown (tai_instant t)).
  { apply (round_shows ns base cut 1000000 _ u); try assumption; try lia; rewrite Hd; cbn; try reflexivity. lia. }
  destruct Hn as (shown & Hs & Hn). exists shown. split; [exact Hs|]. split; [exact Hn|].
  pose proof (shows_60 ns base cut 1000000 _ shown Hi ltac:(lia) Hs) as H60.
  assert (Sec : i_second (iso_of_datetime d leap) = f_isec u) by (rewrite Hd; cbn; lia).
  rewrite Sec in H60. split.
  { rewrite <- H60, Hl. destruct (f_isec u =? 60)%Z eqn:E; lia. }
  split; [rewrite Hl; destruct (f_isec u =? 60)%Z; lia|].
  split; [intros L; rewrite Hd; cbn [d_second]; destruct (f_isec u =? 60)%Z eqn:E; lia|].
  unfold from_datetime.
  destruct (utc_facts ns base cut ts (d_year d) (d_month d) (d_day d) (inject_Z (d_hour d)) (inject_Z (d_minute d))
             (inject_Z (d_second d) + inject_Z (d_micro d) / 1000000) Hts) as [_ ->].
  destruct Hs as (J & sod & Hsod & Hex & Hciv & Hcl & Hf & E). cbn [iso_of_datetime i_year i_month i_day i_hour i_minute i_second i_fraction] in *.
  rewrite civil_is_julian_day, Hciv, E by assumption.
  pose proof (day_length_pos ns J) as P.
  destruct (clock_value sod _ _ _ ltac:(lia) Hcl) as (V & _).
  unfold tai_second. rewrite V. rewrite !inject_Z_plus, !inject_Z_mult.
  change (inject_Z 3600) with 3600. change (inject_Z 60) with 60. change (inject_Z 0) with 0. change (inject_Z 1000000) with 1000000. ring.
Qed.

(** A valid datetime comes back unchanged. *)
Definition valid_datetime (cut : option Z) (d : py_datetime) : Prop :=
  exists_under cut (d_year d, d_month d, d_day d) /\ (0 <= d_hour d <= 23)%Z /\ (0 <= d_minute d <= 59)%Z /\
  (0 <= d_second d <= 59)%Z /\ (0 <= d_micro d < 1000000)%Z.

Lemma datetime_roundtrip ns base cut ts d : timescale_for ns base cut ts -> good_cutoff cut ->
  valid_datetime cut d -> utc_datetime ts (from_datetime ts d) = (d, 0%Z).
Proof.
  intros Hts Hc (Hex & Hh & Hm & Hs & Hu). assert (Hi : increasing ns) by apply Hts.
  destruct (utc_facts ns base cut ts (d_year d) (d_month d) (d_day d) (inject_Z (d_hour d)) (inject_Z (d_minute d))
             (inject_Z (d_second d) + inject_Z (d_micro d) / 1000000) Hts) as [Hco Hin].
  fold (from_datetime ts d) in Hco, Hin.
  rewrite civil_is_julian_day in Hin by assumption.
  set (J := civil_day_number cut (d_year d, d_month d, d_day d)) in *.
  destruct (datetime_parts ns base cut ts (from_datetime ts d) Hts Hc Hco) as (u & R & H).
  destruct (utc_datetime ts (from_datetime ts d)) as [d' leap]. cbv zeta in H. destruct H as [Hd Hl].
  set (sod := (d_hour d * 3600 + d_minute d * 60 + d_second d)%Z).
  assert (Hsod : (0 <= sod < day_length ns J)%Z) by (pose proof (day_length_pos ns J); unfold sod; lia).
  set (fr := inject_Z (d_micro d) / 1000000 + (1 # 2) / inject_Z 1000000).
  assert (Hmu : 0 <= inject_Z (d_micro d) /\ inject_Z (d_micro d) <= 999999).
  { change 0 with (inject_Z 0). change 999999 with (inject_Z 999999). rewrite <- !Zle_Qle. lia. }
  assert (Efr : fr * 1000000 == inject_Z (d_micro d) + (1 # 2)) by (unfold fr; change (inject_Z 1000000) with 1000000; field).
  assert (Hfr : 0 <= fr < 1) by lra.
  destruct (reads_fields ns base cut _ u J sod fr Hi R Hsod Hfr) as (HJ & Hclk & Hf & Hex' & Hciv).
  { rewrite Hin. unfold tai_second, sod, fr. rewrite !inject_Z_plus, !inject_Z_mult.
    change (inject_Z 3600) with 3600. change (inject_Z 60) with 60. change (inject_Z 0) with 0. ring. }
  unfold sod in Hclk. rewrite clock_of in Hclk by lia. injection Hclk as Eh Em Es.
  assert (D : (f_year u, f_month u, f_day u) = (d_year d, d_month d, d_day d)) by (apply (civil_inj cut); assumption).
  injection D as Ey Emo Ed.
  assert (L0 : leap = 0%Z) by (rewrite Hl, Es; destruct (d_second d =? 60)%Z eqn:E; lia).
  assert (K : Qfloor (f_sfr u * inject_Z 1000000) = d_micro d).
  { apply floor_unique; rewrite Hf; change (inject_Z 1000000) with 1000000; rewrite Efr; lra. }
  rewrite Hd, L0, K, Ey, Emo, Ed, Eh, Em, Es, Z.sub_0_r. destruct d. reflexivity.
Qed.

(** * C14: arithmetic *)
Lemma add_tt t d : tt (time_add t d) == tt t + d.
Proof. unfold tt, time_add, tt_jd, normalize. cbn [whole tt_fraction mk_time].
  pose proof (qdivmod d 1). lra. Qed.
Lemma minus_tt t d : tt (time_minus t d) == tt t - d.
Proof. unfold tt, time_minus, tt_jd, normalize. cbn [whole tt_fraction mk_time].
  pose proof (qdivmod d 1). lra. Qed.
Lemma sub_tt a b : time_sub a b == tt a - tt b.
Proof. unfold time_sub, tt. ring. Qed.
Lemma lt_tt a b : time_lt a b = true <-> tt a < tt b.
Proof. unfold time_lt. rewrite Qltb_true. unfold tt. split; lra. Qed.
Lemma eq_tt a b : time_eq a b = true <-> tt a == tt b.
Proof. unfold time_eq. rewrite Qeq_bool_iff, sub_tt. split; lra. Qed.

Lemma time_laws : forall t u d e,
  time_sub (time_add t d) t == d /\
  time_sub t (time_minus t d) == d /\
  time_eq (time_add (time_add t d) e) (time_add t (d + e)) = true /\
  time_eq (time_minus (time_add t d) d) t = true /\
  time_sub t u == - time_sub u t /\
  (time_lt t u = true <-> 0 < time_sub u t) /\
  (time_eq t u = true <-> time_sub u t == 0) /\
  time_lt (time_add t d) (time_add u d) = time_lt t u /\
  time_eq (time_add t d) (time_add u d) = time_eq t u.
Proof.
  intros. repeat split.
  - rewrite sub_tt, add_tt. ring.
  - rewrite sub_tt, minus_tt. ring.
  - apply eq_tt. rewrite !add_tt. ring.
  - apply eq_tt. rewrite minus_tt, add_tt. ring.
  - rewrite !sub_tt. ring.
  - rewrite lt_tt, sub_tt. lra.
  - rewrite sub_tt. intros. apply lt_tt. lra.
  - rewrite eq_tt, sub_tt. lra.
  - rewrite sub_tt. intros. apply eq_tt. lra.
  - apply Bool.eq_true_iff_eq. rewrite !lt_tt, !add_tt. split; lra.
  - apply Bool.eq_true_iff_eq. rewrite !eq_tt, !add_tt. split; lra.
Qed.

(** * C17: indexing *)
Lemma reads_same ns base cut i i' u u' : increasing ns -> good_cutoff cut -> i == i' ->
  reads ns base cut i u -> reads ns base cut i' u' ->
  (f_year u, f_month u, f_day u, f_hour u, f_minute u, f_isec u) =
  (f_year u', f_month u', f_day u', f_hour u', f_minute u', f_isec u') /\ f_sfr u == f_sfr u'.
Proof.
  intros Hi Hc Ei R (J & sod & Hs & HJ & Hex & Hciv & Hcl & Hfr & E).
  destruct (reads_fields ns base cut i u J sod (f_sfr u') Hi R Hs Hfr) as (HJ' & Hclk & Hf & Hex' & Hciv').
  { rewrite Ei. symmetry. exact E. }
  assert (D : (f_year u, f_month u, f_day u) = (f_year u', f_month u', f_day u')) by (apply (civil_inj cut); try assumption; congruence).
  assert (C : (f_hour u, f_minute u, f_isec u) = (f_hour u', f_minute u', f_isec u')) by congruence.
  split; [|exact Hf]. congruence.
Qed.

Lemma drop_cache_instant t : tai_instant (drop_cache t) = tai_instant t.
Proof. reflexivity. Qed.

Lemma getitem_attributes ns base cut ts l i t t' : timescale_for ns base cut ts -> good_cutoff cut ->
  (forall u, In u l -> built ts u) -> nth_error l i = Some t -> time_getitem l i = Some t' ->
  tt t' == tt t /\ tai t' == tai t /\
  (let u := time_utc ts t in let u' := time_utc ts t' in
   (f_year u, f_month u, f_day u, f_hour u, f_minute u, f_isec u) =
   (f_year u', f_month u', f_day u', f_hour u', f_minute u', f_isec u') /\ f_sfr u == f_sfr u').
Proof.
  intros Hts Hc Hl Hn Hg. unfold time_getitem in Hg. rewrite Hn in Hg. injection Hg as <-.
  assert (Hb : built ts t) by (apply Hl, (nth_error_In l i), Hn).
  assert (Hb' : built ts (drop_cache t)).
  { apply (built_getitem ts l i); [assumption|]. unfold time_getitem. rewrite Hn. reflexivity. }
  split; [reflexivity|]. split; [reflexivity|].
  eapply reads_same; [apply Hts|exact Hc| |eapply built_reads; eassumption|eapply built_reads; eassumption].
  reflexivity.
Qed.

(** * C18, exact scales *)
Lemma built_tt_tai ns base cut ts t : timescale_for ns base cut ts -> built ts t ->
  (tt t - tai t) * 86400 == 32184 # 1000.
Proof.
  intros Hts Hb. pose proof (coherent_tai t (built_coherent ns base cut ts t Hts Hb)) as H.
  unfold tt, tai. rewrite H. unfold tt_minus_tai, DAY_S. field.
Qed.
Lemma scale_inputs : forall jd f cut epoch y m d h mi s,
  tai (tai_jd jd (Some f)) == jd + f /\ tai (tai_jd jd None) == jd /\
  tt (tt_jd jd (Some f)) == jd + f /\ tt (tt_jd jd None) == jd /\ time_J (from_J epoch) == epoch /\
  let day := inject_Z (julian_day y m d cut) - (1 # 2) in
  let sec := h * 3600 + mi * 60 + s in
  tai (tai_cal cut y m d h mi s) == day + sec / 86400 /\
  tt (tt_cal cut y m d h mi s) == day + sec / 86400.
Proof.
  intros. unfold tai, tt, tai_jd, tt_jd, normalize, tai_fraction, time_J, from_J, tai_cal, tt_cal, jd_parts, mk_time.
  cbn [whole tt_fraction c_tai_fraction]. pose proof (qdivmod jd 1).
  repeat split; try reflexivity; try lra; unfold DAY_S; try field.
Qed.

(** * C13: strftime on other scales *)
Lemma strftime_weekday_ok jd fraction : 0 <= jd + fraction + (1 # 2) ->
  strftime_weekday jd fraction = weekday_of_jd (Qfloor (jd + fraction + (1 # 2))).
Proof.
  intros H. unfold strftime_weekday, weekday_of_jd.
  assert (E : fraction + (1 # 2) + jd == jd + fraction + (1 # 2)) by ring.
  rewrite E, qtrunc_floor by assumption. reflexivity.
Qed.

(** the day that [calendar_tuple] uses *)
Lemma calendar_tuple_day jd fraction cut :
  let '(y, m, d, h, mi, s) := calendar_tuple jd fraction cut in
  (y, m, d) = compute_calendar_date (Qfloor (jd + fraction + (1 # 2))) cut /\
  (0 <= h <= 23)%Z /\ (0 <= mi <= 59)%Z /\ 0 <= s < 60 /\
  jd + fraction == inject_Z (Qfloor (jd + fraction + (1 # 2))) - (1 # 2) + (inject_Z h * 3600 + inject_Z mi * 60 + s) / 86400.
Proof.
  unfold calendar_tuple. set (x := qmod jd 1 + fraction + (1 # 2)).
  assert (D : (qdiv jd 1 + qdiv x 1)%Z = Qfloor (jd + fraction + (1 # 2))).
  { symmetry. pose proof (qdivmod jd 1). pose proof (qdivmod x 1). pose proof (qmod_range x 1 ltac:(reflexivity)).
    assert (x == qmod jd 1 + fraction + (1 # 2)) by reflexivity. clearbody x.
    apply floor_unique; rewrite inject_Z_plus; lra. }
  rewrite D. destruct (compute_calendar_date _ cut) as [[y m] d]. split; [reflexivity|].
  pose proof (qmod_range x 1 ltac:(reflexivity)) as R. pose proof (qdivmod x 1) as Q1. pose proof (qdivmod jd 1) as Q0.
  set (f := qmod x 1) in *.
  pose proof (qdivmod (f * 86400) 60) as Q2. pose proof (qmod_range (f * 86400) 60 ltac:(reflexivity)) as R2.
  set (M := qdiv (f * 86400) 60) in *. set (s := qmod (f * 86400) 60) in *.
  assert (HM : (0 <= M < 1440)%Z).
  { split; [assert (-1 < M)%Z; [|lia]|]; rewrite Zlt_Qlt; [change (inject_Z (-1)) with (-(1))|change (inject_Z 1440) with 1440]; lra. }
  split; [lia|]. split; [lia|]. split; [lra|].
  assert (EM : inject_Z (M / 60) * 3600 + inject_Z (M mod 60) * 60 == inject_Z M * 60).
  { rewrite (Z.div_mod M 60) at 3 by lia. rewrite inject_Z_plus, inject_Z_mult. change (inject_Z 60) with 60. ring. }
  rewrite EM. setoid_replace (inject_Z M * 60 + s) with (f * 86400) by (rewrite Q2; ring).
  rewrite <- D, inject_Z_plus. assert (x == qmod jd 1 + fraction + (1 # 2)) by reflexivity.
  setoid_replace (f * 86400 / 86400) with f by field. clearbody x f. lra.
Qed.

Lemma strftime_yday_ok jd fraction cut : good_cutoff cut ->
  let J := Qfloor (jd + fraction + (1 # 2)) in
  let '(y, _, _, _, _, _) := calendar_tuple jd fraction cut in
  (julian_day y 1 1 cut <= J)%Z ->
  strftime_yday jd fraction y cut = (J - julian_day y 1 1 cut + 1)%Z.
Proof.
  intros Hc J. pose proof (calendar_tuple_day jd fraction cut) as H.
  destruct (calendar_tuple jd fraction cut) as [[[[[y m] d] h] mi] s]. intros L.
  unfold strftime_yday. destruct (floor_spec (jd + fraction + (1 # 2))) as [F1 F2]. fold J in F1, F2.
  assert (Lq : inject_Z (julian_day y 1 1 cut) <= inject_Z J) by (rewrite <- Zle_Qle; exact L).
  rewrite qtrunc_floor by lra. apply floor_unique; unfold Zminus; rewrite !inject_Z_plus, inject_Z_opp; change (inject_Z 1) with 1; lra.
Qed.

(** 1 January is never after a day of the same year. *)
Lemma new_year_first cut J : good_cutoff cut ->
  let '(y, m, d) := compute_calendar_date J cut in
  exists_under cut (y, 1%Z, 1%Z) -> (civil_day_number cut (y, 1%Z, 1%Z) <= J)%Z.
Proof.
  intros Hc. pose proof (civil_of_jd cut J Hc) as H. pose proof (compute_valid cut J) as V.
  destruct (compute_calendar_date J cut) as [[y m] d]. destruct H as [H1 H2]. intros Hex.
  apply valid_bounds in V as [Vm Vd].
  destruct (Z_le_gt_dec (civil_day_number cut (y, 1%Z, 1%Z)) J) as [|G]; [assumption|exfalso].
  assert (L : date_lt (y, m, d) (y, 1%Z, 1%Z)) by (apply (civil_mono cut); try assumption; lia).
  unfold date_lt in L. lia.
Qed.

Lemma strftime_yday_civil jd fraction cut : good_cutoff cut ->
  let J := Qfloor (jd + fraction + (1 # 2)) in
  let '(y, _, _, _, _, _) := calendar_tuple jd fraction cut in
  exists_under cut (y, 1%Z, 1%Z) ->
  strftime_yday jd fraction y cut = (J - civil_day_number cut (y, 1%Z, 1%Z) + 1)%Z.
Proof.
  intros Hc J. pose proof (calendar_tuple_day jd fraction cut) as H. pose proof (strftime_yday_ok jd fraction cut Hc) as Y.
  pose proof (new_year_first cut J Hc) as N. fold J in H. cbv zeta in Y. fold J in Y.
  destruct (calendar_tuple jd fraction cut) as [[[[[y m] d] h] mi] s]. intros Hex.
  destruct H as [H _]. rewrite <- H in N. specialize (N Hex).
  rewrite <- civil_is_julian_day in * by assumption. apply Y, N.
Qed.

Lemma utc_yday_civil jd cut : good_cutoff cut ->
  let '(y, m, d) := compute_calendar_date jd cut in
  exists_under cut (y, 1%Z, 1%Z) ->
  yday_of_jd jd cut = (jd - civil_day_number cut (y, 1%Z, 1%Z) + 1)%Z.
Proof.
  intros Hc. unfold yday_of_jd. destruct (compute_calendar_date jd cut) as [[y m] d]. intros Hex.
  rewrite civil_is_julian_day by assumption. lia.
Qed.

(** * toordinal *)
Lemma toordinal_reads ns base cut ts t : timescale_for ns base cut ts -> good_cutoff cut -> coherent t ->
  let u := time_utc ts t in
  toordinal ts t == (if (f_isec u =? 60)%Z then inject_Z (f_jd u + 1) - 1721425 + f_sfr u / 86400
                     else inject_Z (f_jd u) - 1721425 +
                          (inject_Z (f_hour u * 3600 + f_minute u * 60) + f_second u) / 86400).
Proof.
  intros Hts Hc Hco. destruct (coherent_sec t Hco) as (n & fr & [Hn [Hf Hfr]] & _).
  destruct (timescale_tables _ _ _ _ Hts) as [Hne [Hcut [_ HT]]].
  destruct Hts as [Hi _].
  unfold time_utc, utc_tuple, toordinal, utc_seconds. destruct (tai_seconds t) as [s f]. cbn [fst snd] in Hn, Hf.
  set (k := qdiv (f + 0) 1). set (r := qmod (f + 0) 1).
  assert (Hs : s + inject_Z k == inject_Z (n + k)) by (rewrite inject_Z_plus, Hn; ring).
  clearbody k. 
  assert (Hint : interp (s + inject_Z k) (combine (leap_tai ts) (leap_off ts)) == lookup_q (tai_lookup ns base (n + k))).
  { rewrite (interp_compat _ _ _ Hs), (interp_peq _ _ _ HT). apply interp_tai; assumption. }
  pose proof (label_leap ns base (n + k) Hi) as HLL.
  destruct (lookup_floor (tai_lookup ns base (n + k))) as [L1 L2].
  assert (Q1 : qdiv (interp (s + inject_Z k) (combine (leap_tai ts) (leap_off ts))) 1 = fst (tai_lookup ns base (n + k)))
    by (rewrite Hint; exact L1).
  assert (Q2 : Qltb 0 (qmod (interp (s + inject_Z k) (combine (leap_tai ts) (leap_off ts))) 1) = snd (tai_lookup ns base (n + k)))
    by (rewrite Hint; exact L2).
  cbv zeta. rewrite Q1, Q2. clear Q1 Q2 L1 L2 Hint.
  destruct (tai_lookup ns base (n + k)) as [o l]. cbn [fst snd] in *.
  assert (E0 : s + inject_Z k - inject_Z o == inject_Z (n + k - o)).
  { rewrite Hs. unfold Zminus. rewrite (inject_Z_plus (n + k)), inject_Z_opp. ring. }
  assert (E1 : qtrunc (s + inject_Z k - inject_Z o) = (n + k - o)%Z) by (rewrite E0; apply qtrunc_inject).
  rewrite E1, E0. set (z := (n + k - o)%Z) in *. clearbody z r. clear E0 E1 HT Hs Hn Hf Hfr.
  destruct (compute_calendar_date ((z - b2z l + 43200) / 86400) (cutoff ts)) as [[y m] d].
  cbn [f_isec f_jd f_sfr f_hour f_minute]. unfold f_second. cbn [f_isec f_sfr]. unfold DAY_S.
  destruct l; cbn [b2z].
  - specialize (HLL eq_refl).
    assert (X : ((z - 1 + 43200) mod 86400) mod 60 = 59%Z) by (rewrite HLL; reflexivity).
    rewrite X. cbn [Z.add Z.eqb Pos.eqb Pos.add Pos.succ].
    assert (Y : z = (86400 * ((z - 1 + 43200) / 86400 + 1) - 43200)%Z) by lia.
    set (J := ((z - 1 + 43200) / 86400)%Z) in *. clearbody J. rewrite Y. unfold Zminus.
    rewrite inject_Z_plus, inject_Z_mult, inject_Z_opp.
    change (inject_Z 86400) with 86400. change (inject_Z 43200) with 43200. field.
  - set (x := (z - 0 + 43200)%Z).
    assert (X : ((x mod 86400) mod 60 + 0 =? 60)%Z = false) by lia. rewrite X.
    assert (Y : z = (86400 * (x / 86400) - 43200 + (x mod 86400 / 60 / 60 * 3600 + (x mod 86400 / 60) mod 60 * 60 + ((x mod 86400) mod 60 + 0)))%Z) by lia.
    rewrite Y. clearbody x. clear X Y. unfold Zminus.
    rewrite !inject_Z_plus, !inject_Z_mult, !inject_Z_opp.
    change (inject_Z 86400) with 86400. change (inject_Z 43200) with 43200. change (inject_Z 3600) with 3600.
    change (inject_Z 60) with 60. change (inject_Z 0) with 0. field.
Qed.

(** * The lookup promised by [parse_leap_seconds] *)

Lemma sorted_dates_lt a l : sorted_dates (a :: l) -> forall b, In b l -> a < b.
Proof.
  revert a. induction l as [|c l IH]; intros a H b Hb; [destruct Hb|].
  cbn in H. destruct H as [H1 H2]. destruct Hb as [->|Hb]; [assumption|].
  assert (c < b) by (apply IH; assumption). lra.
Qed.
Lemma filter_none {A} (f : A -> bool) l : (forall x, In x l -> f x = false) -> filter f l = [].
Proof. induction l as [|a l IH]; cbn; intros H; [reflexivity|]. rewrite (H a) by (left; reflexivity).
  apply IH. intros; apply H; right; assumption. Qed.

Lemma count_prefix mjd : forall offs o jd, sorted_dates mjd -> length offs = length mjd ->
  nth_error (o :: offs) (length (filter (fun d => xle d jd) (map (fun m => Fin (m + (4800001 # 2))) mjd)))
  = Some (offset_in_force (combine mjd offs) o jd).
Proof.
  induction mjd as [|m r IH]; intros offs o jd Hs L.
  - destruct offs; [reflexivity|discriminate].
  - destruct offs as [|o' offs]; [discriminate|]. cbn [map filter combine offset_in_force xle].
    destruct (Qle_bool (m + (4800001 # 2)) jd) eqn:E.
    + cbn [length nth_error]. apply IH; [apply Hs|cbn in L; lia].
    + rewrite filter_none; [reflexivity|]. intros x Hx. apply in_map_iff in Hx as [q [<- Hq]].
      cbn [xle]. pose proof (sorted_dates_lt m r Hs q Hq) as Hlt.
      destruct (Qle_bool (q + (4800001 # 2)) jd) eqn:E2; [|reflexivity].
      apply Qle_bool_iff in E2. assert (Hle : m + (4800001 # 2) <= jd) by lra.
      apply Qle_bool_iff in Hle. congruence.
Qed.

Lemma parse_lookup mjd offsets jd : mjd <> [] -> sorted_dates mjd -> length offsets = length mjd ->
  match parse_leap_seconds mjd offsets with
  | None => False
  | Some (dates, offs) =>
      nth_error offs (searchsorted_right dates jd) =
      Some (offset_in_force (combine mjd offsets) (hd 0 offsets) jd)
  end.
Proof.
  intros Hne Hs L. destruct offsets as [|o0 r]; [destruct mjd; [congruence|discriminate]|].
  cbn [parse_leap_seconds hd]. unfold searchsorted_right.
  cbn [filter xle]. rewrite filter_app. cbn [filter xle]. rewrite app_nil_r. cbn [length nth_error].
  apply count_prefix; assumption.
Qed.

Lemma toordinal_built : forall ns base cut ts t,
  timescale_for ns base cut ts -> good_cutoff cut -> built ts t ->
  let u := time_utc ts t in
  toordinal ts t == (if (f_isec u =? 60)%Z then inject_Z (f_jd u + 1) - 1721425 + f_sfr u / 86400
                     else inject_Z (f_jd u) - 1721425 +
                          (inject_Z (f_hour u * 3600 + f_minute u * 60) + f_second u) / 86400).
Proof. intros. eapply toordinal_reads; eauto. eapply built_coherent; eauto. Qed.
