(** Whole seconds of UTC are exact in binary64. *)
From Coq Require Import ZArith QArith Lia List Bool Lqa.
From Coq.Floats Require Import SpecFloat.
From Verif Require Import Float64 Float64_Proofs Float_Time_Model Float_Time_Spec Cal_Model Cal_Spec PyNum
  Time_Model Time_Spec Time_Proofs Time_Proofs2.
Import ListNotations.
Open Scope Z_scope.

Definition fits (k : Z) : Prop := Z.abs k <= 2 ^ 48.
Lemma fits_small k : fits k -> small k 0. Proof. unfold fits, small. lia. Qed.
Lemma add_Z a b : fits a -> fits b -> fadd (of_Z a) (of_Z b) = of_Z (a + b).
Proof. intros. apply fadd_fl; apply fits_small; assumption. Qed.
Lemma sub_Z a b : fits a -> fits b -> fsub (of_Z a) (of_Z b) = of_Z (a - b).
Proof. intros. apply fsub_fl; apply fits_small; assumption. Qed.
Lemma mul_Z a b : fits a -> fits b -> 0 <= a -> 0 <= b -> fmul (of_Z a) (of_Z b) = of_Z (a * b).
Proof. intros. unfold of_Z. rewrite fmul_fl; [reflexivity|apply fits_small; assumption|apply fits_small; assumption|lia|intros; split; assumption]. Qed.
Lemma ltb_Z a b : fits a -> fits b -> fltb (of_Z a) (of_Z b) = (a <? b).
Proof. intros. apply fltb_fl; apply fits_small; assumption. Qed.
Lemma eqb_Z a b : fits a -> fits b -> feqb (of_Z a) (of_Z b) = (a =? b).
Proof. intros. apply feqb_fl; apply fits_small; assumption. Qed.
Lemma trunc_Z a : fits a -> ftruncZ (of_Z a) = a.
Proof. intros. unfold of_Z. rewrite ftruncZ_fl; [apply Z.quot_1_r|apply fits_small; assumption|lia]. Qed.
Lemma divmod_Z a b : fits a -> fits b -> 0 < b -> fdivmod (of_Z a) (of_Z b) = (of_Z (a / b), of_Z (a mod b)).
Proof. unfold fits. intros. apply fdivmod_fl; lia. Qed.
Lemma half_Z a : fits a -> fl (2 * a) (-1) = of_Z a.
Proof. unfold fits. intros. rewrite Z.mul_comm. change (a * 2) with (a * 2 ^ 1). apply (fl_shift a (-1) 1); lia. Qed.
Lemma half_day a : fits a -> fmul (fl (2 * a - 1) (-1)) DAY_S64 = of_Z (86400 * a - 43200).
Proof.
  unfold fits. intros. unfold DAY_S64, of_Z at 1. rewrite fmul_fl by (split || idtac; lia). transitivity (fl ((86400 * a - 43200) * 2 ^ 1) (-1)); [f_equal; lia|apply (fl_shift (86400 * a - 43200) (-1) 1); lia].
Qed.

(** * The tables *)
Definition fpair (p : Z * Z) : b64 * b64 := (of_Z (fst p), of_Z (snd p)).
Definition bounded_days (ns : list Z) : Prop := forall n, In n ns -> Z.abs n < 10 ^ 9.
Ltac fit := unfold fits, Lu in *; lia.
Lemma tables64_gen ns base k : bounded_days ns -> Z.abs base <= 10 ^ 9 -> Z.of_nat k + Z.of_nat (length ns) <= 4 * 10 ^ 9 ->
  let ts := build_tables64 (leap_dates64 ns) (map (fun i => of_Z (base + 1 + Z.of_nat i)) (seq k (length ns))) None in
  combine (leap_utc64 ts) (leap_off64 ts) = map fpair (tbl_utc ns (base + Z.of_nat k)) /\
  combine (leap_tai64 ts) (leap_off64 ts) = map fpair (tbl_tai ns (base + Z.of_nat k)).
Proof.
  revert k. induction ns as [|n r IH]; intros k Hn Hb Hk; [split; reflexivity|]. cbn [length] in Hk. destruct (IH (S k)) as [I1 I2]; [intros x Hx; apply Hn; right; assumption|assumption|lia|].
  pose proof (Hn n (or_introl eq_refl)) as Bn. cbn [leap_dates64 map length seq build_tables64 leap_utc64 leap_off64 leap_tai64 flat_map app combine fst snd tbl_utc tbl_tai] in *.
  fold (leap_dates64 r). rewrite I2, I1. rewrite half_day by fit. rewrite !(add_Z (86400 * n - 43200)) by fit. rewrite !(add_Z (base + 1 + Z.of_nat k)) by fit. rewrite !add_Z by fit.
  unfold fpair, Lu. cbn [fst snd]. replace (base + Z.of_nat (S k)) with (base + Z.of_nat k + 1) by lia.
  split; repeat (f_equal; try lia).
Qed.
Lemma increasing_length ns B : increasing ns -> (forall n, In n ns -> n <= B) -> forall n r, ns = n :: r -> n + Z.of_nat (length r) <= B.
Proof.
  induction ns as [|a l IH]; intros Hi Hb n r E; [discriminate|]. injection E as -> ->. destruct r as [|b r]; [cbn; pose proof (Hb n (or_introl eq_refl)); lia|].
  pose proof (IH (increasing_tail _ _ Hi) (fun x Hx => Hb x (or_intror Hx)) b r eq_refl). cbn [length]. cbn in Hi. lia.
Qed.
Lemma days_length ns : increasing ns -> bounded_days ns -> Z.of_nat (length ns) <= 2 * 10 ^ 9.
Proof.
  intros Hi Hb. destruct ns as [|n r]; [cbn; lia|]. pose proof (increasing_length (n :: r) (10 ^ 9) Hi) as L. cbn [length].
  pose proof (L ltac:(intros x Hx; pose proof (Hb x Hx); lia) n r eq_refl). pose proof (Hb n (or_introl eq_refl)). lia.
Qed.
Lemma timescale64_tables ns base cut ts : timescale64_for ns base cut ts ->
  ns <> [] /\ cutoff64 ts = cut /\
  combine (leap_utc64 ts) (leap_off64 ts) = map fpair (tbl_utc ns base) /\
  combine (leap_tai64 ts) (leap_off64 ts) = map fpair (tbl_tai ns base).
Proof.
  intros (Hi & Hn & Hb & H). unfold timescale_init64 in H. destruct (rev (leap_dates64 ns)) as [|last l] eqn:E; [discriminate|].
  assert (Hne : ns <> []) by (intros ->; discriminate).
  assert (Hl : isinf64 last = false).
  { assert (I : In last (leap_dates64 ns)) by (apply in_rev; rewrite E; left; reflexivity). unfold leap_dates64 in I. apply in_map_iff in I as [x [<- Hx]]. pose proof (Hn x Hx).
    destruct (fl_struct (2 * x - 1) (-1)) as (p & q & -> & _); [split; lia|lia|reflexivity]. }
  rewrite Hl in H. injection H as <-. split; [assumption|]. split; [reflexivity|].
  pose proof (days_length ns Hi Hn). pose proof (tables64_gen ns base 0 Hn Hb ltac:(lia)) as T. cbn [Z.of_nat] in T. rewrite Z.add_0_r in T. exact T.
Qed.

(** * Looking up whole seconds *)
Lemma flat_segment y x0 x1 x : fits y -> fits x0 -> fits x1 -> fits x -> x0 <= x -> x < x1 -> Z.abs (x1 - x0) <= 2 ^ 48 -> Z.abs (x - x0) <= 2 ^ 48 ->
  fadd (fmul (fdiv (fsub (of_Z y) (of_Z y)) (fsub (of_Z x1) (of_Z x0))) (fsub (of_Z x) (of_Z x0))) (of_Z y) = of_Z y.
Proof.
  intros. rewrite !sub_Z by assumption. rewrite Z.sub_diag. unfold of_Z at 1 2. change (fl 0 0) with (fl (0 * (x1 - x0)) 0). rewrite fdiv_fl; [|split; lia|split; lia|lia|lia].
  change (fl 0 (0 - 0)) with (of_Z 0). rewrite mul_Z by fit. cbn [Z.mul]. rewrite add_Z by fit. reflexivity.
Qed.
Definition near (s : Z) : Prop := Z.abs s <= 2 ^ 47 - 1.
Ltac nr := unfold near, fits, Lu in *; lia.
Lemma interp64_from_utc n0 ns base s : increasing (n0 :: ns) -> bounded_days (n0 :: ns) -> Z.abs base + Z.of_nat (length ns) <= 2 ^ 40 -> near s -> Lu n0 <= s ->
  interp_from64 (of_Z s) (of_Z (Lu n0)) (of_Z base) (map fpair (tbl_utc ns base)) = of_Z (base + count_utc ns s).
Proof.
  revert n0 base. induction ns as [|n r IH]; intros n0 base Hi Hn Hb Hs H0; cbn [tbl_utc map interp_from64 fpair fst snd count_utc].
  - rewrite Z.add_0_r. reflexivity.
  - cbn [length] in Hb. pose proof (Hn n0 (or_introl eq_refl)) as B0. pose proof (Hn n (or_intror (or_introl eq_refl))) as B1. assert (L : n0 < n) by (cbn in Hi; tauto).
    assert (Zr : s < Lu n -> count_utc r s = 0). { intros. apply count_utc_zero. intros m Hm. assert (n < m) by (apply (increasing_lt n r); [apply (increasing_tail n0), Hi|assumption]). fit. }
    rewrite ltb_Z by nr. destruct (Z.ltb_spec s (Lu n - 1)) as [E1|E1].
    + rewrite Zr by lia. destruct (Z.leb_spec (Lu n) s) as [?|_]; [lia|]. rewrite !Z.add_0_r. destruct (feqb _ _); [reflexivity|]. apply flat_segment; nr.
    + cbn [interp_from64 fpair fst snd]. rewrite ltb_Z by nr. destruct (Z.ltb_spec s (Lu n)) as [E2|E2].
      * rewrite Zr by lia. destruct (Z.leb_spec (Lu n) s) as [?|_]; [lia|]. rewrite eqb_Z by nr. assert (Es : (Lu n - 1 =? s) = true) by lia. rewrite Es. f_equal. lia.
      * destruct (Z.leb_spec (Lu n) s) as [_|?]; [|lia]. rewrite (IH n (base + 1)); [f_equal; lia|apply (increasing_tail n0), Hi|intros x Hx; apply Hn; right; assumption|lia|assumption|assumption].
Qed.
Lemma interp64_utc ns base s : ns <> [] -> increasing ns -> bounded_days ns -> Z.abs base + Z.of_nat (length ns) <= 2 ^ 40 -> near s ->
  interp64 (of_Z s) (map fpair (tbl_utc ns base)) = of_Z (base + count_utc ns s).
Proof.
  intros Hne Hi Hn Hb Hs. destruct ns as [|n r]; [congruence|]. cbn [tbl_utc map interp64 fpair fst snd count_utc length] in *. pose proof (Hn n (or_introl eq_refl)) as B1.
  assert (Zr : s < Lu n -> count_utc r s = 0). { intros. apply count_utc_zero. intros m Hm. assert (n < m) by (apply (increasing_lt n r); assumption). fit. }
  rewrite ltb_Z by nr. destruct (Z.ltb_spec s (Lu n - 1)) as [E1|E1].
  - rewrite Zr by lia. destruct (Z.leb_spec (Lu n) s) as [?|_]; [lia|]. f_equal. lia.
  - cbn [interp_from64 fpair fst snd]. rewrite ltb_Z by nr. destruct (Z.ltb_spec s (Lu n)) as [E2|E2].
    + rewrite Zr by lia. destruct (Z.leb_spec (Lu n) s) as [?|_]; [lia|]. rewrite eqb_Z by nr. assert (Es : (Lu n - 1 =? s) = true) by lia. rewrite Es. f_equal. lia.
    + destruct (Z.leb_spec (Lu n) s) as [_|?]; [|lia]. rewrite (interp64_from_utc n) by (assumption || lia). f_equal. lia.
Qed.
Definition lookup_f (p : Z * bool) : b64 := fl (2 * fst p + b2z (snd p)) (-1).
Lemma lookup_plain base : fits base -> of_Z base = lookup_f (base, false).
Proof. intros. unfold lookup_f. cbn [fst snd b2z]. rewrite Z.add_0_r. symmetry. apply half_Z. assumption. Qed.
Lemma leap_segment base a : fits base -> Z.abs base <= 2 ^ 47 -> fits a -> Z.abs a <= 2 ^ 47 ->
  fadd (fmul (fdiv (fsub (of_Z (base + 1)) (of_Z base)) (fsub (of_Z (a + 2)) (of_Z a))) (fsub (of_Z (a + 1)) (of_Z a))) (of_Z base) = lookup_f (base, true).
Proof.
  intros. rewrite !sub_Z by fit. replace (base + 1 - base) with 1 by lia. replace (a + 2 - a) with 2 by lia. replace (a + 1 - a) with 1 by lia.
  change (fmul (fdiv (of_Z 1) (of_Z 2)) (of_Z 1)) with (fl 1 (-1)). rewrite <- half_Z by assumption. rewrite fadd_fl by (split; fit). unfold lookup_f. cbn [fst snd b2z]. f_equal. lia.
Qed.
Lemma tai_leap_case n base s : fits base -> Z.abs base <= 2 ^ 41 -> Z.abs n < 10 ^ 9 -> Lu n - 1 + base <= s -> s < Lu n + base + 1 ->
  (if feqb (of_Z (Lu n - 1 + base)) (of_Z s) then of_Z base
   else fadd (fmul (fdiv (fsub (of_Z (base + 1)) (of_Z base)) (fsub (of_Z (Lu n + base + 1)) (of_Z (Lu n - 1 + base)))) (fsub (of_Z s) (of_Z (Lu n - 1 + base)))) (of_Z base))
  = lookup_f (if s <? Lu n + base then (base, false) else (base, true)).
Proof.
  intros. rewrite eqb_Z by fit. destruct (Z.eqb_spec (Lu n - 1 + base) s) as [E|E].
  - assert (X : (s <? Lu n + base) = true) by lia. rewrite X. apply lookup_plain. assumption.
  - assert (X : (s <? Lu n + base) = false) by lia. rewrite X. replace (Lu n + base + 1) with (Lu n - 1 + base + 2) by lia. replace s with (Lu n - 1 + base + 1) by lia. apply leap_segment; fit.
Qed.
Lemma interp64_from_tai n0 ns base s : increasing (n0 :: ns) -> bounded_days (n0 :: ns) -> Z.abs base + Z.of_nat (length ns) <= 2 ^ 40 -> near s -> Lu n0 + base <= s ->
  interp_from64 (of_Z s) (of_Z (Lu n0 + base)) (of_Z base) (map fpair (tbl_tai ns base)) = lookup_f (tai_lookup ns base s).
Proof.
  revert n0 base. induction ns as [|n r IH]; intros n0 base Hi Hn Hb Hs H0; cbn [tbl_tai map interp_from64 fpair fst snd tai_lookup].
  - apply lookup_plain. nr.
  - cbn [length] in Hb. pose proof (Hn n0 (or_introl eq_refl)) as B0. pose proof (Hn n (or_intror (or_introl eq_refl))) as B1. assert (L : n0 < n) by (cbn in Hi; tauto).
    rewrite ltb_Z by nr. destruct (Z.ltb_spec s (Lu n - 1 + base)) as [E1|E1].
    + destruct (Z.ltb_spec s (Lu n + base)) as [_|?]; [|lia]. rewrite <- lookup_plain by nr. destruct (feqb _ _); [reflexivity|]. apply flat_segment; nr.
    + cbn [interp_from64 fpair fst snd]. rewrite ltb_Z by nr. destruct (Z.ltb_spec s (Lu n + base + 1)) as [E2|E2].
      * rewrite tai_leap_case by nr. destruct (Z.ltb_spec s (Lu n + base)) as [?|?]; [reflexivity|]. destruct (Z.eqb_spec s (Lu n + base)) as [_|?]; [reflexivity|lia].
      * destruct (Z.ltb_spec s (Lu n + base)) as [?|_]; [lia|]. destruct (Z.eqb_spec s (Lu n + base)) as [?|_]; [lia|]. replace (Lu n + base + 1) with (Lu n + (base + 1)) by lia.
        apply (IH n); [apply (increasing_tail n0), Hi|intros x Hx; apply Hn; right; assumption|lia|assumption|lia].
Qed.
Lemma interp64_tai ns base s : ns <> [] -> increasing ns -> bounded_days ns -> Z.abs base + Z.of_nat (length ns) <= 2 ^ 40 -> near s ->
  interp64 (of_Z s) (map fpair (tbl_tai ns base)) = lookup_f (tai_lookup ns base s).
Proof.
  intros Hne Hi Hn Hb Hs. destruct ns as [|n r]; [congruence|]. cbn [tbl_tai map interp64 fpair fst snd tai_lookup length] in *. pose proof (Hn n (or_introl eq_refl)) as B1.
  rewrite ltb_Z by nr. destruct (Z.ltb_spec s (Lu n - 1 + base)) as [E1|E1].
  - destruct (Z.ltb_spec s (Lu n + base)) as [_|?]; [|lia]. apply lookup_plain. nr.
  - cbn [interp_from64 fpair fst snd]. rewrite ltb_Z by nr. destruct (Z.ltb_spec s (Lu n + base + 1)) as [E2|E2].
    + rewrite tai_leap_case by nr. destruct (Z.ltb_spec s (Lu n + base)) as [?|?]; [reflexivity|]. destruct (Z.eqb_spec s (Lu n + base)) as [_|?]; [reflexivity|lia].
    + destruct (Z.ltb_spec s (Lu n + base)) as [?|_]; [lia|]. destruct (Z.eqb_spec s (Lu n + base)) as [?|_]; [lia|]. replace (Lu n + base + 1) with (Lu n + (base + 1)) by lia.
      apply (interp64_from_tai n); (assumption || lia).
Qed.
Lemma lookup_range ns base s : base <= fst (tai_lookup ns base s) <= base + Z.of_nat (length ns).
Proof.
  revert base. induction ns as [|n r IH]; intros base; cbn [tai_lookup length]; [cbn; lia|]. destruct (_ <? _); [cbn; lia|]. destruct (_ =? _); [cbn; lia|]. pose proof (IH (base + 1)). lia.
Qed.
Lemma lookup_divmod p : Z.abs (fst p) <= 2 ^ 41 -> fdivmod (lookup_f p) (of_Z 1) = (of_Z (fst p), fl (b2z (snd p)) (-1)).
Proof.
  intros. unfold lookup_f. change (of_Z 1) with (fl 2 (-1)). rewrite fdivmod_fl by (destruct (snd p); cbn [b2z]; lia).
  assert (D : (2 * fst p + b2z (snd p)) / 2 = fst p) by (destruct (snd p); cbn [b2z]; lia). assert (M : (2 * fst p + b2z (snd p)) mod 2 = b2z (snd p)) by (destruct (snd p); cbn [b2z]; lia). rewrite D, M. reflexivity.
Qed.
Lemma leaps_range ns J : 0 <= leaps_before ns J <= Z.of_nat (length ns).
Proof. induction ns as [|n r IH]; cbn [leaps_before length]; [lia|]. destruct (n <=? J); lia. Qed.

(** * Building a time from whole UTC seconds *)
Lemma utc64_seconds ns base cut ts y m d h mi s : timescale64_for ns base cut ts -> Z.abs (julian_day y m d cut) < 10 ^ 9 ->
  0 <= h <= 23 -> 0 <= mi <= 59 -> 0 <= s <= 60 ->
  c_tai_seconds64 (utc64 ts y m d (of_Z h) (of_Z mi) (of_Z s)) = Some (of_Z (tai_second ns base (julian_day y m d cut) (h * 3600 + mi * 60 + s)), of_Z 0).
Proof.
  intros Hts HJ Hh Hm Hs. destruct (timescale64_tables _ _ _ _ Hts) as (Hne & Hcut & HT & _). destruct Hts as (Hi & Hn & Hb & _). pose proof (days_length ns Hi Hn) as HL.
  unfold utc64. rewrite Hcut, HT. set (J := julian_day y m d cut) in *. clearbody J.
  rewrite <- (half_Z J) by fit. rewrite fsub_fl by (split; lia). rewrite half_day by fit. rewrite divmod_Z by fit. rewrite Z.div_1_r, Z.mod_1_r. cbv zeta beta iota.
  rewrite interp64_utc by (assumption || nr). assert (CD : count_utc ns (86400 * J - 43200) = leaps_before ns J) by (rewrite <- (count_utc_day ns J 0) by lia; f_equal; lia). rewrite CD. pose proof (leaps_range ns J) as HR.
  rewrite !mul_Z by fit. rewrite !(add_Z _ _) by fit. rewrite divmod_Z by fit. rewrite Z.div_1_r, Z.mod_1_r. cbv beta iota. rewrite add_Z by fit.
  unfold DAY_S64 at 1. rewrite divmod_Z by fit. cbv beta iota. cbn [c_tai_seconds64]. f_equal. f_equal. f_equal. unfold tai_second. lia.
Qed.

(** * Reading it back *)
Lemma utc_tuple64_whole ns base cut ts t n : timescale64_for ns base cut ts -> Z.abs n <= 10 ^ 14 -> tai_seconds64 t = (of_Z n, of_Z 0) ->
  let p := tai_lookup ns base n in
  let x := n - fst p - b2z (snd p) + 43200 in
  time_utc64 ts t = let '(y, m, d) := compute_calendar_date (x / 86400) cut in
    {| g_year := y; g_month := m; g_day := d; g_hour := (x mod 86400) / 60 / 60; g_minute := (x mod 86400) / 60 mod 60;
       g_second := of_Z ((x mod 86400) mod 60 + b2z (snd p)) |}.
Proof.
  intros Hts Hn Ht. destruct (timescale64_tables _ _ _ _ Hts) as (Hne & Hcut & _ & HT). destruct Hts as (Hi & Hb' & Hb & _). pose proof (days_length ns Hi Hb') as HL.
  pose proof (lookup_range ns base n) as HR. unfold time_utc64, utc_tuple64, utc_seconds64. rewrite Ht. cbv zeta beta iota. rewrite add_Z by fit. rewrite divmod_Z by fit. cbn [Z.add]. rewrite Z.div_0_l, Z.mod_0_l by lia. cbv beta iota.
  rewrite add_Z by fit. rewrite Z.add_0_r, HT, interp64_tai by (assumption || nr). rewrite lookup_divmod by lia. cbv beta iota. rewrite sub_Z by fit. rewrite trunc_Z by fit. rewrite Hcut.
  assert (Q : fltb (of_Z 0) (fl (b2z (snd (tai_lookup ns base n))) (-1)) = snd (tai_lookup ns base n)) by (destruct (snd _); reflexivity). rewrite Q.
  destruct (tai_lookup ns base n) as [o l]. cbn [fst snd]. set (x := n - o - b2z l + 43200). destruct (compute_calendar_date (x / 86400) cut) as [[y m] d].
  assert (B : 0 <= b2z l <= 1) by (destruct l; cbn; lia). rewrite add_Z by fit. f_equal. f_equal. lia.
Qed.
Lemma utc64_roundtrip ns base cut ts y m d h mi s :
  timescale64_for ns base cut ts -> good_cutoff cut -> exists_under cut (y, m, d) -> Z.abs (civil_day_number cut (y, m, d)) < 10 ^ 9 ->
  valid_clock (ends_in_leap ns (civil_day_number cut (y, m, d))) h mi (inject_Z s) ->
  time_utc64 ts (utc64 ts y m d (of_Z h) (of_Z mi) (of_Z s)) = {| g_year := y; g_month := m; g_day := d; g_hour := h; g_minute := mi; g_second := of_Z s |}.
Proof.
  intros Hts Hc Hex HJ Hcl. destruct Hts as (Hi & Hn & Hb & Hini) eqn:Ets. clear Ets.
  pose proof (civil_is_julian_day cut y m d Hc Hex) as EJ. set (J := civil_day_number cut (y, m, d)) in *.
  destruct (valid_clock_sod ns J h mi _ Hcl) as [Hsod Hck]. rewrite Qround.Qfloor_Z in Hsod, Hck.
  assert (Hr : 0 <= h <= 23 /\ 0 <= mi <= 59 /\ 0 <= s <= 60). { destruct Hcl as (A & B & C & D). change 0%Q with (inject_Z 0) in C; rewrite <- Zle_Qle in C. destruct D as [D|(_ & _ & _ & D)]; [change 60%Q with (inject_Z 60) in D|change 61%Q with (inject_Z 61) in D]; rewrite <- Zlt_Qlt in D; lia. }
  pose proof (utc64_seconds ns base cut ts y m d h mi s Hts) as U. rewrite EJ in U. specialize (U HJ ltac:(lia) ltac:(lia) ltac:(lia)). set (t := utc64 _ _ _ _ _ _ _) in *. clearbody t.
  set (sod := h * 3600 + mi * 60 + s) in *. set (n := tai_second ns base J sod) in *. pose proof (leaps_range ns J) as HR. pose proof (days_length ns Hi Hn) as HL.
  assert (Bn : Z.abs n <= 10 ^ 14) by (unfold n, tai_second, sod; lia).
  pose proof (utc_tuple64_whole ns base cut ts t n Hts Bn) as W. unfold tai_seconds64 in W. rewrite U in W. rewrite (W eq_refl). clear W.
  pose proof (label_of_spec ns base n Hi) as LS. unfold label_of in LS. pose proof (label_leap ns base n Hi) as LL.
  destruct (tai_lookup ns base n) as [o l]. cbn [fst snd] in *. set (x := n - o - b2z l + 43200) in *. destruct LS as [S1 S2]. unfold n in S2. apply tai_second_inj in S2 as [X1 X2]; try assumption.
  pose proof (civil_of_jd cut (x / 86400) Hc) as CD. rewrite X1 in CD |- *. destruct (compute_calendar_date J cut) as [[y' m'] d']. destruct CD as [C1 C2].
  assert (D : (y', m', d') = (y, m, d)) by (apply (civil_inj cut); assumption). injection D as -> -> ->.
  pose proof (clock_split (x mod 86400) l (Z.mod_pos_bound x 86400 ltac:(lia))) as CS. rewrite X2, Hck in CS. specialize (CS ltac:(intros ->; unfold x; cbn [b2z]; apply LL; reflexivity)). injection CS as -> -> ->. reflexivity.
Qed.
Lemma utc64_tai_seconds ns base cut ts y m d h mi s : timescale64_for ns base cut ts -> Z.abs (julian_day y m d cut) < 10 ^ 9 ->
  0 <= h <= 23 -> 0 <= mi <= 59 -> 0 <= s <= 60 ->
  tai_seconds64 (utc64 ts y m d (of_Z h) (of_Z mi) (of_Z s)) =
  (of_Z (tai_second ns base (julian_day y m d cut) (h * 3600 + mi * 60 + s)), of_Z 0).
Proof. intros. unfold tai_seconds64. erewrite utc64_seconds by eassumption. reflexivity. Qed.
Lemma valid_clock_any leap h mi s : valid_clock false h mi s -> valid_clock leap h mi s.
Proof. intros (A & B & C & [D|(D & _)]); [|discriminate]. repeat split; try assumption; try apply A; try apply B. left. assumption. Qed.
Lemma second_below_60 ns base cut ts y m d h mi s :
  timescale64_for ns base cut ts -> good_cutoff cut -> exists_under cut (y, m, d) -> Z.abs (civil_day_number cut (y, m, d)) < 10 ^ 9 ->
  valid_clock false h mi (inject_Z s) ->
  fltb (g_second (time_utc64 ts (utc64 ts y m d (of_Z h) (of_Z mi) (of_Z s)))) (of_Z 60) = true.
Proof.
  intros Hts Hc Hex HJ Hcl. rewrite (utc64_roundtrip ns base cut ts) by (try assumption; apply valid_clock_any; assumption). cbn [g_second].
  destruct Hcl as (_ & _ & C & [D|(D & _)]); [|discriminate]. change 0%Q with (inject_Z 0) in C. change 60%Q with (inject_Z 60) in D. rewrite <- Zle_Qle in C. rewrite <- Zlt_Qlt in D. rewrite ltb_Z by fit. lia.
Qed.
