From Coq Require Import ZArith Bool Lia List.
From Coq Require Import ZifyBool.
From Verif Require Import Cal_Model Cal_Spec.
Open Scope Z_scope.
Ltac Zify.zify_post_hook ::= Z.div_mod_to_equations.

(** * The two pure calendars *)

Definition jd_of (c : calendar) (d : date) : Z :=
  let '(y, m, dd) := d in
  match c with
  | Gregorian => julian_day y m dd None
  | Julian =>
      (* the uncorrected day number *)
      let y' := y + (m - 1) / 12 in
      let m' := (m - 1) mod 12 + 1 in
      let g := y' + 4716 - b2z (m' <=? 2) in
      1461 * g / 4 + dd - 1402 + (153 * ((m' + 9) mod 12) + 2) / 5
  end.

Definition date_of (c : calendar) (jd : Z) : date :=
  let f := jd + 1401 +
    match c with
    | Gregorian => (4 * jd + 274277) / 146097 * 3 / 4 - 38
    | Julian => 0 end in
  let e := 4 * f + 3 in
  let g := e mod 1461 / 4 in
  let h := 5 * g + 2 in
  let day := h mod 153 / 5 + 1 in
  let month := (h / 153 + 2) mod 12 + 1 in
  let year := e / 1461 - 4716 + (12 + 2 - month) / 12 in
  (year, month, day).

(** The Gregorian correction as a function of a date. *)
Definition corr (y m : Z) : Z :=
  let y' := y + (m - 1) / 12 in
  let m' := (m - 1) mod 12 + 1 in
  let g := y' + 4716 - b2z (m' <=? 2) in
  38 - (g + 184) / 100 * 3 / 4.

Lemma julian_day_unfold y m d c :
  julian_day y m d c =
  jd_of Julian (y, m, d) +
  corr y m * match c with None => 1 | Some c => b2z (c <=? jd_of Julian (y,m,d)) end.
Proof. reflexivity. Qed.

Lemma jd_of_greg y m d : jd_of Gregorian (y,m,d) = jd_of Julian (y,m,d) + corr y m.
Proof. change (jd_of Gregorian (y,m,d)) with (julian_day y m d None).
  rewrite julian_day_unfold. lia. Qed.

Lemma compute_unfold jd c :
  compute_calendar_date jd c = date_of (in_force c jd) jd.
Proof.
  unfold compute_calendar_date, date_of, in_force.
  destruct c as [c|]; [|cbn [b2z]; rewrite Z.mul_1_l; reflexivity].
  destruct (jd <? c) eqn:E; destruct (c <=? jd) eqn:E2; try lia;
    cbn [b2z]; rewrite ?Z.mul_1_l, ?Z.mul_0_l; reflexivity.
Qed.

(** * Years that begin in March *)

(** Day number of 1 March of the year [Y]. *)
Definition start (c : calendar) (Y : Z) : Z :=
  match c with
  | Gregorian => 365 * Y + Y / 4 - Y / 100 + Y / 400 + 1721120
  | Julian => 365 * Y + Y / 4 + 1721118
  end.
Definition goff (m : Z) : Z := (153 * ((m + 9) mod 12) + 2) / 5.
Definition md (g : Z) : Z * Z :=
  let h := 5 * g + 2 in ((h / 153 + 2) mod 12 + 1, h mod 153 / 5 + 1).

Lemma start_next c Y : start c (Y + 1) = start c Y + 365 + b2z (leap_year c (Y + 1)).
Proof. destruct c; unfold start, leap_year, b2z.
  - destruct ((Y + 1) mod 4 =? 0) eqn:E1, ((Y + 1) mod 100 =? 0) eqn:E2, ((Y + 1) mod 400 =? 0) eqn:E3;
      cbn [negb andb orb]; lia.
  - destruct ((Y + 1) mod 4 =? 0) eqn:E1; lia. Qed.

Lemma start_mono c Y Y' : Y < Y' -> start c (Y + 1) <= start c Y'.
Proof. intros H. destruct c; unfold start; lia. Qed.

Lemma decomp_unique c Y g Y' g' :
  0 <= g < start c (Y + 1) - start c Y -> 0 <= g' < start c (Y' + 1) - start c Y' ->
  start c Y + g = start c Y' + g' -> Y = Y' /\ g = g'.
Proof.
  intros H H' E. destruct (Z.lt_trichotomy Y Y') as [L|[->|L]].
  - pose proof (start_mono c Y Y' L). lia.
  - lia.
  - pose proof (start_mono c Y' Y L). lia.
Qed.

Definition march_year (c : calendar) (jd : Z) : Z * Z :=
  let f := jd + 1401 +
    match c with
    | Gregorian => (4 * jd + 274277) / 146097 * 3 / 4 - 38
    | Julian => 0 end in
  let e := 4 * f + 3 in (e / 1461 - 4716, e mod 1461 / 4).

Lemma march_year_spec c jd :
  let '(Y, g) := march_year c jd in
  jd = start c Y + g /\ 0 <= g < start c (Y + 1) - start c Y.
Proof.
  unfold march_year. destruct c.
  - set (q := (4 * jd + 274277) / 146097).
    assert (Hq : 146097 * q <= 4 * jd + 274277 < 146097 * q + 146097) by (unfold q; lia).
    clearbody q.
    set (k := q / 4). set (s := q mod 4).
    assert (Eq : q = 4 * k + s) by (unfold k, s; lia).
    assert (Hs : 0 <= s < 4) by (unfold s; lia). clearbody k s. subst q.
    replace ((4 * k + s) * 3 / 4) with (3 * k + s * 3 / 4) by lia.
    set (x := s * 3 / 4).
    assert (Hx : (s = 0 /\ x = 0) \/ (s = 1 /\ x = 0) \/ (s = 2 /\ x = 1) \/ (s = 3 /\ x = 2)) by (unfold x; lia).
    clearbody x.
    set (e := 4 * (jd + 1401 + (3 * k + x - 38)) + 3).
    assert (He : e = 4 * (jd + 1401 + (3 * k + x - 38)) + 3) by reflexivity. clearbody e.
    set (Z0 := e / 1461). set (r := e mod 1461).
    assert (Er : e = 1461 * Z0 + r /\ 0 <= r < 1461) by (unfold Z0, r; lia). clearbody Z0 r.
    destruct Er as [Er Hr].
    set (g := r / 4). assert (Hg : 4 * g <= r < 4 * g + 4) by (unfold g; lia). clearbody g.
    (* the year within its century; 29 February of a year divisible by 400 is
       counted with the next century *)
    set (Y := Z0 - 4716) in *. assert (EZ : Z0 = Y + 4716) by (unfold Y; lia). clearbody Y. subst Z0.
    assert (HY : 100 * (4 * k + s) - 4900 <= Y < 100 * (4 * k + s) - 4800 \/
                 (s = 1 /\ Y = 400 * k - 4801 /\ g = 365 /\ 4 * jd + 274277 = 146097 * (4 * k + 1))) by lia.
    unfold start. destruct HY as [HY|[Hs1 [HY [Hg1 Hj]]]].
    + assert (E100 : Y / 100 = 4 * k + s - 49) by lia.
      assert (E400 : Y / 400 = (4 * k + s - 49) / 4) by (rewrite <- E100, Z.div_div; lia).
      assert (N : (Y + 1) / 100 = Y / 100 /\ (Y + 1) / 400 = Y / 400 \/ Y = 100 * (4 * k + s) - 4801) by lia.
      split.
      * rewrite E100, E400. lia.
      * destruct N as [[N1 N2]|N].
        -- rewrite N1, N2. lia.
        -- lia.
    + subst s Y. assert (x = 0) by lia. subst x.
      assert (E1 : (400 * k - 4801 + 1) / 400 = k - 12) by lia.
      assert (E2 : (400 * k - 4801) / 400 = k - 13) by lia.
      assert (E3 : (400 * k - 4801 + 1) / 100 = 4 * k - 48) by lia.
      assert (E4 : (400 * k - 4801) / 100 = 4 * k - 49) by lia.
      rewrite E1, E2, E3, E4. lia.
  - unfold start. lia.
Qed.

Lemma date_of_march c jd : date_of c jd =
  let '(Y, g) := march_year c jd in
  let '(m, d) := md g in (Y + (12 + 2 - m) / 12, m, d).
Proof. reflexivity. Qed.

Lemma jd_of_march c y m d : 1 <= m <= 12 ->
  jd_of c (y, m, d) = start c (y - b2z (m <=? 2)) + goff m + d - 1.
Proof.
  intros Hm.
  assert (E1 : (m - 1) / 12 = 0) by lia. assert (E2 : (m - 1) mod 12 = m - 1) by lia.
  destruct c.
  - rewrite jd_of_greg. unfold jd_of, corr, start. rewrite E1, E2.
    replace (m - 1 + 1) with m by lia. fold (goff m). set (j := b2z (m <=? 2)). clearbody j.
    generalize (goff m). intros G. replace (y + 0 + 4716 - j) with ((y - j) + 4716) by lia.
    generalize (y - j). intros Y.
    replace (Y + 4716 + 184) with (Y + 49 * 100) by lia. rewrite Z.div_add by lia.
    replace (Y / 400) with (Y / 100 / 4) by (rewrite Z.div_div; lia). generalize (Y / 100). lia.
  - unfold jd_of, start. rewrite E1, E2. replace (m - 1 + 1) with m by lia. fold (goff m). lia.
Qed.

Ltac month_cases m Hm :=
  assert (Hm' : m = 1 \/ m = 2 \/ m = 3 \/ m = 4 \/ m = 5 \/ m = 6 \/ m = 7 \/ m = 8 \/ m = 9 \/ m = 10 \/ m = 11 \/ m = 12) by lia;
  repeat (destruct Hm' as [Hm'|Hm']); subst m.

Lemma valid_bounds c y m d : valid_date c (y,m,d) = true -> 1 <= m <= 12 /\ 1 <= d <= month_length c y m.
Proof. unfold valid_date. lia. Qed.

Ltac goff_val := repeat match goal with |- context [goff ?k] =>
  let v := eval compute in (goff k) in change (goff k) with v end.

Lemma valid_offset c y m d : valid_date c (y,m,d) = true ->
  0 <= goff m + d - 1 < start c (y - b2z (m <=? 2) + 1) - start c (y - b2z (m <=? 2)).
Proof.
  intros H. apply valid_bounds in H as [Hm Hd]. rewrite start_next.
  unfold month_length in Hd.
  month_cases m Hm; cbn [Z.eqb Pos.eqb orb Z.leb Z.compare Pos.compare Pos.compare_cont b2z] in Hd |- *; goff_val;
    try (destruct (leap_year _ _); cbn [b2z]; lia).
  replace (y - 1 + 1) with y by lia. destruct (leap_year c y); cbn [b2z]; lia.
Qed.

Lemma md_of_offset c y m d : valid_date c (y,m,d) = true -> md (goff m + d - 1) = (m, d).
Proof.
  intros H. apply valid_bounds in H as [Hm Hd]. unfold month_length in Hd. unfold md.
  month_cases m Hm; cbn [Z.eqb Pos.eqb orb] in Hd; try destruct (leap_year c y);
    match goal with |- context [goff ?k] => let v := eval compute in (goff k) in change (goff k) with v end;
    f_equal; lia.
Qed.

Lemma date_of_jd_of c d : valid_date c d = true -> date_of c (jd_of c d) = d.
Proof.
  destruct d as [[y m] d]. intros H. pose proof (valid_bounds c y m d H) as [Hm _].
  pose proof (jd_of_march c y m d Hm) as E. pose proof (valid_offset c y m d H) as O.
  rewrite date_of_march. pose proof (march_year_spec c (jd_of c (y,m,d))) as S.
  destruct (march_year c (jd_of c (y,m,d))) as [Y g]. destruct S as [S1 S2].
  destruct (decomp_unique c Y g (y - b2z (m <=? 2)) (goff m + d - 1) S2 O) as [-> ->]; [lia|].
  rewrite (md_of_offset c y m d H).
  f_equal. f_equal. destruct (m <=? 2) eqn:?; cbn [b2z]; lia.
Qed.

Lemma jd_of_next c d : valid_date c d = true -> jd_of c (next_day c d) = jd_of c d + 1.
Proof.
  destruct d as [[y m] d]. intros H. pose proof (valid_bounds c y m d H) as [Hm Hd].
  unfold next_day. destruct (d <? month_length c y m) eqn:E1.
  - rewrite !jd_of_march by lia. lia.
  - assert (Ed : d = month_length c y m) by lia. destruct (m <? 12) eqn:E2.
    + rewrite !jd_of_march by lia. rewrite Ed. unfold month_length.
      clear H Hd E1 Ed. month_cases m Hm; cbn - [start leap_year]; try lia.
      replace (y - 0) with (y - 1 + 1) by lia. rewrite start_next. replace (y - 1 + 1) with y by lia.
      destruct (leap_year c y); cbn [b2z]; lia.
    + assert (m = 12) by lia. subst m. rewrite !jd_of_march by lia. rewrite Ed. cbn - [start].
      replace (y + 1 - 1) with (y - 0) by lia. lia.
Qed.

Lemma next_valid_date c d : valid_date c d = true -> valid_date c (next_day c d) = true.
Proof.
  destruct d as [[y m] d]. intros H. pose proof (valid_bounds c y m d H) as [Hm Hd].
  unfold next_day. destruct (d <? month_length c y m) eqn:E1; [|destruct (m <? 12) eqn:E2].
  - unfold valid_date. lia.
  - unfold valid_date. unfold month_length.
    destruct (m + 1 =? 2), (leap_year c y), ((m + 1 =? 4) || (m + 1 =? 6) || (m + 1 =? 9) || (m + 1 =? 11)); lia.
  - reflexivity.
Qed.

(** The 366 days of a year that begins in March. *)
Fixpoint all_from (P : Z -> bool) (n : nat) (start : Z) : bool :=
  match n with
  | O => true
  | S k => P start && all_from P k (start + 1)
  end.

Lemma all_from_spec P n s : all_from P n s = true ->
  forall x, s <= x < s + Z.of_nat n -> P x = true.
Proof.
  revert s. induction n as [|n IH]; cbn [all_from]; intros s H x Hx; [lia|].
  apply andb_true_iff in H as [H1 H2].
  destruct (Z.eq_dec x s) as [->|]; [exact H1|]. apply (IH (s+1)); [exact H2|lia].
Qed.

Definition plain_length (m : Z) : Z :=
  if m =? 2 then 28 else if (m =? 4) || (m =? 6) || (m =? 9) || (m =? 11) then 30 else 31.
Definition check_offset (g : Z) : bool :=
  let '(m, d) := md g in
  (1 <=? m) && (m <=? 12) && (1 <=? d) && (d <=? plain_length m + (if g =? 365 then 1 else 0)) &&
  (goff m + d - 1 =? g) && (negb (g =? 365) || (m =? 2)).
Lemma check_offsets : all_from check_offset 366 0 = true.
Proof. reflexivity. Qed.

Lemma date_of_spec c jd : valid_date c (date_of c jd) = true /\ jd_of c (date_of c jd) = jd.
Proof.
  rewrite date_of_march. pose proof (march_year_spec c jd) as S.
  destruct (march_year c jd) as [Y g]. destruct S as [S1 S2]. rewrite start_next in S2.
  assert (Hg : 0 <= g < 366) by (destruct (leap_year c (Y + 1)); cbn [b2z] in S2; lia).
  pose proof (all_from_spec _ _ _ check_offsets g ltac:(lia)) as C. unfold check_offset in C.
  destruct (md g) as [m d].
  assert (B : 1 <= m <= 12 /\ 1 <= d /\ d <= plain_length m + (if g =? 365 then 1 else 0) /\ goff m + d - 1 = g /\ (g = 365 -> m = 2)).
  { rewrite !andb_true_iff in C. destruct (g =? 365) eqn:?; cbn [negb orb] in C; lia. }
  destruct B as [Bm [Bd [Bl [Bg B2]]]].
  assert (EY : Y + (12 + 2 - m) / 12 - b2z (m <=? 2) = Y) by (destruct (m <=? 2) eqn:?; cbn [b2z]; lia).
  split.
  - unfold valid_date.
    assert (d <= month_length c (Y + (12 + 2 - m) / 12) m); [|lia].
    unfold month_length. unfold plain_length in Bl.
    destruct (m =? 2) eqn:M2.
    + replace (Y + (12 + 2 - m) / 12) with (Y + 1) by lia.
      destruct (leap_year c (Y + 1)); cbn [b2z] in S2; destruct (g =? 365) eqn:?; lia.
    + destruct (g =? 365) eqn:?; [lia|]. lia.
  - rewrite jd_of_march by assumption. rewrite EY. lia.
Qed.

Lemma date_of_valid c jd : valid_date c (date_of c jd) = true.
Proof. apply date_of_spec. Qed.
Lemma jd_of_date_of c jd : jd_of c (date_of c jd) = jd.
Proof. apply date_of_spec. Qed.
Lemma date_of_succ c jd : date_of c (jd + 1) = next_day c (date_of c jd).
Proof.
  rewrite <- (jd_of_date_of c jd) at 1. rewrite <- jd_of_next by apply date_of_valid.
  apply date_of_jd_of, next_valid_date, date_of_valid.
Qed.

(** * Statements about the model functions *)

(** The Julian calendar is what a cutoff later than the date selects. *)
Lemma julian_day_julian y m d c : jd_of Julian (y,m,d) < c ->
  julian_day y m d (Some c) = jd_of Julian (y,m,d).
Proof. intros H. rewrite julian_day_unfold. destruct (c <=? _) eqn:E; [lia|]. cbn [b2z]. lia. Qed.

Lemma gregorian_roundtrip y m d : valid_date Gregorian (y,m,d) = true ->
  compute_calendar_date (julian_day y m d None) None = (y,m,d).
Proof. intros H. rewrite compute_unfold. cbn [in_force].
  change (julian_day y m d None) with (jd_of Gregorian (y,m,d)). apply date_of_jd_of, H. Qed.

Lemma julian_roundtrip y m d c : valid_date Julian (y,m,d) = true ->
  julian_day y m d (Some c) < c -> jd_of Julian (y,m,d) < c ->
  compute_calendar_date (julian_day y m d (Some c)) (Some c) = (y,m,d).
Proof. intros H Hc Hj. rewrite julian_day_julian in * by lia. rewrite compute_unfold. unfold in_force.
  destruct (_ <? c) eqn:E; [|lia]. apply date_of_jd_of, H. Qed.

(** ** order *)
Lemma date_lt_next c d : valid_date c d = true -> date_lt d (next_day c d).
Proof. destruct d as [[y m] d]. unfold next_day, date_lt. intros H.
  destruct (d <? _); [lia|]. destruct (m <? 12); lia. Qed.
Lemma next_valid c d : valid_date c d = true -> valid_date c (next_day c d) = true.
Proof. intros H. rewrite <- (date_of_jd_of c d H), <- date_of_succ. apply date_of_valid. Qed.
Lemma date_lt_trans a b c : date_lt a b -> date_lt b c -> date_lt a c.
Proof. destruct a as [[? ?] ?], b as [[? ?] ?], c as [[? ?] ?]. unfold date_lt. lia. Qed.

Lemma date_of_mono c a b : a < b -> date_lt (date_of c a) (date_of c b).
Proof.
  intros H. replace b with (a + 1 + Z.of_nat (Z.to_nat (b - a - 1))) by lia.
  induction (Z.to_nat (b - a - 1)) as [|n IH].
  - rewrite Z.add_0_r, date_of_succ. apply date_lt_next, date_of_valid.
  - rewrite Nat2Z.inj_succ. unfold Z.succ. rewrite Z.add_assoc, date_of_succ.
    eapply date_lt_trans; [exact IH|]. apply date_lt_next, date_of_valid.
Qed.

Lemma jd_of_mono c a b : valid_date c a = true -> valid_date c b = true ->
  (date_lt a b <-> jd_of c a < jd_of c b).
Proof.
  intros Ha Hb. split; intros H.
  - destruct (Z_lt_ge_dec (jd_of c a) (jd_of c b)) as [|G]; [assumption|exfalso].
    rewrite <- (date_of_jd_of c a Ha), <- (date_of_jd_of c b Hb) in H.
    destruct (Z.eq_dec (jd_of c a) (jd_of c b)) as [E|E].
    + rewrite E in H. destruct (date_of c (jd_of c b)) as [[? ?] ?]. unfold date_lt in H. lia.
    + assert (L : jd_of c b < jd_of c a) by lia. apply (date_of_mono c) in L.
      destruct (date_of c (jd_of c b)) as [[? ?] ?], (date_of c (jd_of c a)) as [[? ?] ?].
      unfold date_lt in *. lia.
  - rewrite <- (date_of_jd_of c a Ha), <- (date_of_jd_of c b Hb). apply date_of_mono, H.
Qed.

(** ** uniqueness of day counts *)
Lemma counts_unique c a n0 J J' : valid_date c a = true ->
  counts_days c a n0 J -> counts_days c a n0 J' -> forall d, valid_date c d = true -> J d = J' d.
Proof.
  intros Ha [A S] [A' S'] d Hd.
  rewrite <- (date_of_jd_of c d Hd).
  assert (Up : forall n, J (date_of c (jd_of c a + Z.of_nat n)) = n0 + Z.of_nat n /\
                         J' (date_of c (jd_of c a + Z.of_nat n)) = n0 + Z.of_nat n).
  { induction n as [|n [I1 I2]].
    - rewrite !Z.add_0_r, date_of_jd_of by assumption. auto.
    - rewrite Nat2Z.inj_succ. unfold Z.succ. rewrite Z.add_assoc, date_of_succ.
      rewrite S, S' by apply date_of_valid. lia. }
  assert (Dn : forall n, J (date_of c (jd_of c a - Z.of_nat n)) = n0 - Z.of_nat n /\
                         J' (date_of c (jd_of c a - Z.of_nat n)) = n0 - Z.of_nat n).
  { induction n as [|n [I1 I2]].
    - rewrite !Z.sub_0_r, date_of_jd_of by assumption. auto.
    - rewrite Nat2Z.inj_succ.
      replace (jd_of c a - Z.of_nat n) with ((jd_of c a - Z.succ (Z.of_nat n)) + 1) in I1, I2 by lia.
      rewrite date_of_succ in I1, I2.
      rewrite S in I1 by apply date_of_valid. rewrite S' in I2 by apply date_of_valid. lia. }
  destruct (Z_le_gt_dec (jd_of c a) (jd_of c d)) as [L|G].
  - specialize (Up (Z.to_nat (jd_of c d - jd_of c a))). rewrite Z2Nat.id in Up by lia.
    replace (jd_of c a + (jd_of c d - jd_of c a)) with (jd_of c d) in Up by lia. lia.
  - specialize (Dn (Z.to_nat (jd_of c a - jd_of c d))). rewrite Z2Nat.id in Dn by lia.
    replace (jd_of c a - (jd_of c a - jd_of c d)) with (jd_of c d) in Dn by lia. lia.
Qed.

Lemma greg_counts : counts_days Gregorian (2000,1,1) 2451545 (fun d => let '(y,m,dd) := d in julian_day y m dd None).
Proof. split; [reflexivity|]. intros d Hd. pose proof (jd_of_next Gregorian d Hd) as H.
  destruct d as [[y m] d]. destruct (next_day Gregorian (y,m,d)) as [[y' m'] d']. exact H. Qed.
Lemma julian_counts : counts_days Julian (2000,1,1) 2451558 (jd_of Julian).
Proof. split; [reflexivity|]. apply jd_of_next. Qed.

(** ** the cutoff *)
(** Gregorian March 1 of the year 200. *)
Definition corr_nonneg_from : Z := 1794168.

(** The Gregorian correction is never positive from that day on. *)
Lemma corr_sign jd : let '(y,m,_) := date_of Gregorian jd in
  (corr y m <= 0 <-> corr_nonneg_from <= jd).
Proof.
  pose proof (date_of_valid Gregorian jd) as Hv.
  pose proof (jd_of_date_of Gregorian jd) as HJ.
  destruct (date_of Gregorian jd) as [[y m] d] eqn:E.
  assert (V1 : valid_date Gregorian (200,3,1) = true) by reflexivity.
  assert (J1 : jd_of Gregorian (200,3,1) = corr_nonneg_from) by reflexivity.
  assert (O : date_lt (y,m,d) (200,3,1) <-> jd < corr_nonneg_from).
  { rewrite (jd_of_mono Gregorian) by assumption. rewrite J1, HJ. reflexivity. }
  unfold date_lt in O. unfold corr.
  assert (Hm : 1 <= m <= 12) by (unfold valid_date in Hv; lia).
  assert (Hd : 1 <= d) by (unfold valid_date in Hv; lia).
  assert (E1 : (m - 1) / 12 = 0) by lia. assert (E2 : (m - 1) mod 12 = m - 1) by lia.
  rewrite E1, E2. clear E1 E2 HJ Hv E J1 V1.
  destruct (m - 1 + 1 <=? 2) eqn:Em; unfold b2z; lia.
Qed.

Lemma cutoff_roundtrip_iff cut :
  (forall jd, let '(y,m,d) := compute_calendar_date jd cut in julian_day y m d cut = jd) <->
  match cut with None => True | Some c => corr_nonneg_from <= c end.
Proof.
  destruct cut as [c|].
  - split.
    + intros H. specialize (H c). rewrite compute_unfold in H. unfold in_force in H.
      rewrite Z.ltb_irrefl in H. pose proof (corr_sign c) as S. pose proof (jd_of_date_of Gregorian c) as J.
      destruct (date_of Gregorian c) as [[y m] d]. rewrite julian_day_unfold in H.
      rewrite jd_of_greg in J. apply S. destruct (c <=? jd_of Julian (y,m,d)) eqn:E; cbn [b2z] in H; lia.
    + intros Hc jd. rewrite compute_unfold. unfold in_force. destruct (jd <? c) eqn:E.
      * pose proof (jd_of_date_of Julian jd) as J. destruct (date_of Julian jd) as [[y m] d].
        rewrite julian_day_julian; lia.
      * pose proof (corr_sign jd) as S. pose proof (jd_of_date_of Gregorian jd) as J.
        destruct (date_of Gregorian jd) as [[y m] d]. rewrite julian_day_unfold.
        rewrite jd_of_greg in J. destruct (c <=? jd_of Julian (y,m,d)) eqn:E2; cbn [b2z]; lia.
  - split; [auto|]. intros _ jd. rewrite compute_unfold. cbn [in_force].
    pose proof (jd_of_date_of Gregorian jd) as J. destruct (date_of Gregorian jd) as [[y m] d]. exact J.
Qed.

Lemma compute_valid cut jd : valid_date (in_force cut jd) (compute_calendar_date jd cut) = true.
Proof. rewrite compute_unfold. apply date_of_valid. Qed.

Lemma compute_next cut jd : cut <> Some (jd + 1) ->
  compute_calendar_date (jd + 1) cut = next_day (in_force cut jd) (compute_calendar_date jd cut).
Proof.
  intros H. rewrite !compute_unfold.
  assert (E : in_force cut (jd + 1) = in_force cut jd).
  { unfold in_force. destruct cut as [c|]; [|reflexivity].
    assert (c <> jd + 1) by congruence.
    destruct (jd <? c) eqn:?, (jd + 1 <? c) eqn:?; try reflexivity; lia. }
  rewrite E. apply date_of_succ.
Qed.

Lemma compute_at_cutoff c : compute_calendar_date c (Some c) = compute_calendar_date c None.
Proof. rewrite !compute_unfold. unfold in_force. rewrite Z.ltb_irrefl. reflexivity. Qed.

(** ** date -> day -> date under a cutoff *)
Lemma cutoff_date_roundtrip cut y m d :
  match cut with
  | None => valid_date Gregorian (y,m,d) = true
  | Some c => corr_nonneg_from <= c /\
     ((valid_date Julian (y,m,d) = true /\ jd_of Julian (y,m,d) < c) \/
      (valid_date Gregorian (y,m,d) = true /\ c <= jd_of Gregorian (y,m,d)))
  end ->
  compute_calendar_date (julian_day y m d cut) cut = (y,m,d).
Proof.
  destruct cut as [c|]; [|apply gregorian_roundtrip].
  intros [Hc [[V L]|[V L]]].
  - apply julian_roundtrip; try assumption. rewrite julian_day_julian; assumption.
  - assert (E : julian_day y m d (Some c) = jd_of Gregorian (y,m,d)).
    { pose proof (corr_sign (jd_of Gregorian (y,m,d))) as S. rewrite date_of_jd_of in S by assumption.
      rewrite julian_day_unfold. rewrite jd_of_greg in *.
      destruct (c <=? jd_of Julian (y,m,d)) eqn:E2; cbn [b2z]; lia. }
    rewrite E, compute_unfold. unfold in_force. destruct (_ <? c) eqn:?; [lia|]. apply date_of_jd_of, V.
Qed.

(** ** overflow *)
Lemma month_overflow y m d k cut : julian_day y (m + 12 * k) d cut = julian_day (y + k) m d cut.
Proof.
  unfold julian_day.
  assert (E1 : (m + 12 * k - 1) / 12 = (m - 1) / 12 + k) by lia.
  assert (E2 : (m + 12 * k - 1) mod 12 = (m - 1) mod 12) by lia.
  rewrite E1, E2. replace (y + ((m - 1) / 12 + k)) with (y + k + (m - 1) / 12) by lia. reflexivity.
Qed.
Lemma day_overflow y m d k : julian_day y m (d + k) None = julian_day y m d None + k.
Proof. unfold julian_day. lia. Qed.

(** ** weekday and day of year *)
Lemma weekday_next jd : weekday_of_jd (jd + 1) = (weekday_of_jd jd + 1) mod 7.
Proof. unfold weekday_of_jd. lia. Qed.
Lemma weekday_range jd : 0 <= weekday_of_jd jd < 7.
Proof. unfold weekday_of_jd. lia. Qed.

(** ** agreement with the independent day number *)
Lemma dby_step c y : days_before_year c (y + 1) = days_before_year c y + (if leap_year c y then 366 else 365).
Proof. unfold days_before_year, leap_year. destruct c.
  - destruct ((y mod 4 =? 0) && (negb (y mod 100 =? 0) || (y mod 400 =? 0))) eqn:E; lia.
  - destruct (y mod 4 =? 0) eqn:E; lia. Qed.

Lemma dbm_step c y m : 1 <= m -> days_before_month c y (m + 1) = days_before_month c y m + month_length c y m.
Proof.
  intros Hm. unfold days_before_month. replace (m + 1 - 1) with (Z.succ (m - 1)) by lia.
  rewrite Z2Nat.inj_succ by lia. rewrite List.seq_S, List.map_app, List.fold_right_app.
  cbn [List.map List.fold_right]. replace (Z.of_nat (1 + Z.to_nat (m - 1))) with m by lia.
  rewrite Z.add_0_r. generalize (month_length c y m). intros v.
  induction (List.map _ _) as [|x l IH]; cbn [List.fold_right]; lia.
Qed.

Lemma day_number_next c y m d : valid_date c (y,m,d) = true ->
  (let '(y',m',d') := next_day c (y,m,d) in day_number c y' m' d') = day_number c y m d + 1.
Proof.
  intros Hv. assert (Hm : 1 <= m <= 12) by (unfold valid_date in Hv; lia).
  assert (Hd : d <= month_length c y m) by (unfold valid_date in Hv; lia).
  unfold next_day. destruct (d <? month_length c y m) eqn:E; [unfold day_number; lia|].
  assert (d = month_length c y m) by lia. subst d. clear E Hd Hv.
  destruct (m <? 12) eqn:E.
  - unfold day_number. rewrite dbm_step by lia. lia.
  - assert (m = 12) by lia. subst m. unfold day_number. rewrite dby_step.
    change (days_before_month c (y + 1) 1) with 0.
    assert (E12 : days_before_month c y 12 + month_length c y 12 = if leap_year c y then 366 else 365).
    { unfold days_before_month, month_length. change (Z.to_nat (12 - 1)) with 11%nat.
      cbn [List.seq List.map List.fold_right]. destruct (leap_year c y); reflexivity. }
    lia.
Qed.

Lemma day_number_counts c : counts_days c (2000,1,1) (day_number c 2000 1 1) (fun d => let '(y,m,dd) := d in day_number c y m dd).
Proof. split; [reflexivity|]. intros [[y m] d] H. apply (day_number_next c y m d H). Qed.

Lemma jd_of_day_number c y m d : valid_date c (y,m,d) = true -> jd_of c (y,m,d) = day_number c y m d.
Proof.
  intros H.
  refine (counts_unique c (2000,1,1) (day_number c 2000 1 1) (jd_of c) (fun d => let '(y,m,dd) := d in day_number c y m dd) _ _ _ (y,m,d) H).
  - destruct c; reflexivity.
  - split; [destruct c; reflexivity|apply jd_of_next].
  - apply day_number_counts.
Qed.

Lemma julian_day_is_day_number y m d : valid_date Gregorian (y,m,d) = true ->
  julian_day y m d None = day_number Gregorian y m d.
Proof. apply (jd_of_day_number Gregorian). Qed.

Lemma day_number_mono c a b : valid_date c a = true -> valid_date c b = true ->
  (date_lt a b <-> (let '(y,m,d) := a in day_number c y m d) < (let '(y,m,d) := b in day_number c y m d)).
Proof. intros Ha Hb. rewrite (jd_of_mono c a b Ha Hb). destruct a as [[? ?] ?], b as [[? ?] ?].
  rewrite !jd_of_day_number by assumption. reflexivity. Qed.

(** Reading back a date that exists in the reformed calendar. *)
Lemma reform_day y m d c : corr_nonneg_from <= c -> exists_under (Some c) (y,m,d) ->
  julian_day y m d (Some c) = civil_day_number (Some c) (y,m,d).
Proof.
  intros Hc H. unfold exists_under, civil_day_number in *.
  destruct H as [[V L]|[V L]].
  - rewrite julian_day_julian; rewrite jd_of_day_number by assumption; [|assumption].
    rewrite V. destruct (day_number Julian y m d <? c) eqn:E; [reflexivity|lia].
  - pose proof (corr_sign (jd_of Gregorian (y,m,d))) as S. rewrite date_of_jd_of in S by assumption.
    rewrite <- (jd_of_day_number Gregorian) in L |- * by assumption.
    rewrite julian_day_unfold. rewrite jd_of_greg in *.
    assert (Hs : corr y m <= 0) by (apply S; lia).
    destruct (c <=? jd_of Julian (y,m,d)) eqn:E2; cbn [b2z]; [|lia].
    destruct (valid_date Julian (y,m,d) && (day_number Julian y m d <? c)) eqn:E3; [|lia].
    apply andb_true_iff in E3 as [V3 L3]. rewrite <- (jd_of_day_number Julian) in L3 by assumption. lia.
Qed.

Lemma cutoff_date_roundtrip' cut d : match cut with None => True | Some c => corr_nonneg_from <= c end ->
  exists_under cut d ->
  (let '(y,m,dd) := d in compute_calendar_date (julian_day y m dd cut) cut) = d.
Proof.
  destruct d as [[y m] d]. intros Hc H. apply cutoff_date_roundtrip. destruct cut as [c|].
  - split; [exact Hc|]. unfold exists_under in H. destruct H as [[V L]|[V L]]; [left|right];
      (split; [assumption|rewrite jd_of_day_number by assumption; assumption]).
  - exact H.
Qed.

(** Day of the year is the position of the date in its year, whenever the year
    has begun in the calendar that is in force on the day. *)
Lemma yday_position cut jd : match cut with None => True | Some c => corr_nonneg_from <= c end ->
  let '(y,m,d) := compute_calendar_date jd cut in
  let cal := in_force cut jd in
  in_force cut (day_number cal y 1 1) = cal ->
  yday_of_jd jd cut = days_before_month cal y m + d.
Proof.
  intros Hc. unfold yday_of_jd.
  pose proof (compute_valid cut jd) as V.
  assert (R : jd = let '(y,m,d) := compute_calendar_date jd cut in jd_of (in_force cut jd) (y,m,d)).
  { rewrite compute_unfold. pose proof (jd_of_date_of (in_force cut jd) jd) as J.
    destruct (date_of (in_force cut jd) jd) as [[y m] d]. auto. }
  destruct (compute_calendar_date jd cut) as [[y m] d]. intros H.
  assert (V1 : forall c, valid_date c (y,1,1) = true) by (intros []; reflexivity).
  rewrite jd_of_day_number in R by assumption.
  assert (E1 : julian_day y 1 1 cut = day_number (in_force cut jd) y 1 1).
  { destruct cut as [c|].
    - rewrite reform_day; [|assumption|].
      + unfold civil_day_number, in_force in *. rewrite (V1 Julian). cbn [andb].
        destruct (jd <? c) eqn:E.
        * destruct (day_number Julian y 1 1 <? c) eqn:E2; [reflexivity|discriminate].
        * destruct (day_number Gregorian y 1 1 <? c) eqn:E2; [discriminate|].
          destruct (day_number Julian y 1 1 <? c) eqn:E3; [|reflexivity].
          (* impossible: the correction is not positive *)
          pose proof (corr_sign (jd_of Gregorian (y,1,1))) as S. rewrite date_of_jd_of in S by apply V1.
          rewrite <- jd_of_day_number in E2, E3 by apply V1. rewrite jd_of_greg in *. lia.
      + unfold exists_under, in_force in *. destruct (jd <? c) eqn:E.
        * left. split; [apply V1|]. destruct (day_number Julian y 1 1 <? c) eqn:E2; [lia|discriminate].
        * right. split; [apply V1|]. destruct (day_number Gregorian y 1 1 <? c) eqn:E2; [discriminate|lia].
    - apply julian_day_is_day_number, V1. }
  rewrite E1, R at 1. unfold day_number. change (days_before_month (in_force cut jd) y 1) with 0. lia.
Qed.

(** * Forms used by the property file *)
Lemma threshold_eq : day_number Gregorian 200 3 1 = corr_nonneg_from.
Proof. reflexivity. Qed.
Lemma julian_roundtrip' y m d c : valid_date Julian (y,m,d) = true -> day_number Julian y m d < c ->
  compute_calendar_date (julian_day y m d (Some c)) (Some c) = (y,m,d).
Proof. intros V L. rewrite <- jd_of_day_number in L by assumption.
  apply julian_roundtrip; try assumption. rewrite julian_day_julian; assumption. Qed.
Lemma reformed_roundtrip cut y m d :
  match cut with None => True | Some c => day_number Gregorian 200 3 1 <= c end ->
  exists_under cut (y,m,d) -> compute_calendar_date (julian_day y m d cut) cut = (y,m,d).
Proof. exact (cutoff_date_roundtrip' cut (y,m,d)). Qed.
Lemma reform_day' y m d c : day_number Gregorian 200 3 1 <= c -> exists_under (Some c) (y,m,d) ->
  julian_day y m d (Some c) = civil_day_number (Some c) (y,m,d).
Proof. exact (reform_day y m d c). Qed.
Lemma greg_mono y1 m1 d1 y2 m2 d2 :
  valid_date Gregorian (y1,m1,d1) = true -> valid_date Gregorian (y2,m2,d2) = true ->
  (date_lt (y1,m1,d1) (y2,m2,d2) <-> julian_day y1 m1 d1 None < julian_day y2 m2 d2 None).
Proof. exact (jd_of_mono Gregorian (y1,m1,d1) (y2,m2,d2)). Qed.
Lemma counts_unique_2000 c J J' n0 :
  counts_days c (2000,1,1) n0 J -> counts_days c (2000,1,1) n0 J' -> forall d, valid_date c d = true -> J d = J' d.
Proof. intros. eapply (counts_unique c (2000,1,1)); eauto; destruct c; reflexivity. Qed.
Lemma day_roundtrip cut jd :
  match cut with None => True | Some c => day_number Gregorian 200 3 1 <= c end ->
  let '(y,m,d) := compute_calendar_date jd cut in julian_day y m d cut = jd.
Proof. intros H. exact (proj2 (cutoff_roundtrip_iff cut) H jd). Qed.
Lemma day_roundtrip_fails c : c < day_number Gregorian 200 3 1 ->
  exists jd, let '(y,m,d) := compute_calendar_date jd (Some c) in julian_day y m d (Some c) <> jd.
Proof.
  rewrite threshold_eq. intros Hc. exists c. rewrite compute_unfold. unfold in_force. rewrite Z.ltb_irrefl.
  pose proof (corr_sign c) as S. pose proof (jd_of_date_of Gregorian c) as J.
  destruct (date_of Gregorian c) as [[y m] d]. rewrite julian_day_unfold. rewrite jd_of_greg in J.
  destruct (c <=? jd_of Julian (y,m,d)) eqn:E; cbn [b2z]; lia.
Qed.
Lemma any_month_and_day y m d :
  julian_day y m d None = day_number Gregorian (y + (m - 1) / 12) ((m - 1) mod 12 + 1) 1 + (d - 1).
Proof.
  pose proof (month_overflow y ((m - 1) mod 12 + 1) d ((m - 1) / 12) None) as H1.
  replace ((m - 1) mod 12 + 1 + 12 * ((m - 1) / 12)) with m in H1 by lia. rewrite H1.
  replace d with (1 + (d - 1)) at 1 by lia. rewrite day_overflow.
  rewrite julian_day_is_day_number; [reflexivity|].
  unfold valid_date, month_length.
  assert (B : 1 <= (m - 1) mod 12 + 1 <= 12) by lia. clear H1. generalize dependent ((m - 1) mod 12 + 1). intros k Hk.
  destruct (k =? 2), (leap_year Gregorian (y + (m - 1) / 12)), ((k =? 4) || (k =? 6) || (k =? 9) || (k =? 11)); lia.
Qed.
Lemma weekday_facts :
  weekday_of_jd (julian_day 2000 1 1 None) = 5 /\
  (forall jd, 0 <= weekday_of_jd jd < 7) /\
  (forall jd, weekday_of_jd (jd + 1) = (weekday_of_jd jd + 1) mod 7).
Proof. split; [reflexivity|]. split; [exact weekday_range|exact weekday_next]. Qed.
Lemma yday_position' cut jd :
  match cut with None => True | Some c => day_number Gregorian 200 3 1 <= c end ->
  let '(y,m,d) := compute_calendar_date jd cut in
  let cal := in_force cut jd in
  in_force cut (day_number cal y 1 1) = cal ->
  yday_of_jd jd cut = days_before_month cal y m + d.
Proof. exact (yday_position cut jd). Qed.
