From Coq Require Import Reals ZArith List Bool Lra Lia Psatz.
From Verif Require Import Real_Math Real_Math_Proofs Geo_Proofs3 Curve_Model Curve_Spec Curve_Proofs.
Import ListNotations.
Open Scope R_scope.

(** * The shipped table *)
Definition z_joined := fix go (l : list (Z * Z * list Z)) : bool :=
  match l with
  | (_, h, [a3; a2; a1; a0]) :: (((l', _, [_; _; _; b0]) :: _) as r) =>
      (h =? l')%Z && (Z.abs (a3 + a2 + a1 + a0 - b0) <=? 1)%Z && go r
  | _ => true
  end.
Definition z_rows (l : list (Z * Z * list Z)) : bool :=
  forallb (fun r => let '(a, b, cs) := r in (a <? b)%Z && Nat.eqb (length cs) 4) l.
Lemma row_end r a3 a2 a1 a0 : lo r < hi r -> co r = [a3; a2; a1; a0] -> row_at r (hi r) = a3 + a2 + a1 + a0.
Proof. intros H E. unfold row_at, width. rewrite E. replace ((hi r - lo r) / (hi r - lo r)) with 1 by (field; lra). unfold horner. cbn. ring. Qed.
Lemma row_start r a3 a2 a1 a0 : lo r < hi r -> co r = [a3; a2; a1; a0] -> row_at r (lo r) = a0.
Proof. intros H E. unfold row_at, width. rewrite E. replace ((lo r - lo r) / (hi r - lo r)) with 0 by (field; lra). unfold horner. cbn. ring. Qed.
Lemma z_joined_ok : forall l, z_rows l = true -> z_joined l = true -> joined (1 / 1000) (map s15_row l).
Proof.
  induction l as [|[[a b] cs] l IH]; intros R J; [exact I|]. destruct l as [|[[a' b'] cs'] l]; [exact I|].
  cbn in R. rewrite !andb_true_iff in R. destruct R as [[R1 R2] [[R3 R4] R5]]. apply Z.ltb_lt in R1, R3.
  apply Nat.eqb_eq in R2, R4.
  destruct cs as [|c3 [|c2 [|c1 [|c0 [|? ?]]]]]; try discriminate R2.
  destruct cs' as [|d3 [|d2 [|d1 [|d0 [|? ?]]]]]; try discriminate R4.
  change (z_joined ((a, b, [c3; c2; c1; c0]) :: (a', b', [d3; d2; d1; d0]) :: l))
    with ((b =? a')%Z && (Z.abs (c3 + c2 + c1 + c0 - d0) <=? 1)%Z && z_joined ((a', b', [d3; d2; d1; d0]) :: l)) in J.
  rewrite !andb_true_iff in J. destruct J as [[J1 J2] J3]. apply Z.eqb_eq in J1. apply Z.leb_le in J2. subst a'.
  cbn [map]. split; [reflexivity|]. split.
  - cbn [s15_row]. set (r1 := Row (IZR a) (IZR b) (map (fun c => IZR c / 1000) [c3; c2; c1; c0])). set (r2 := Row (IZR b) (IZR b') (map (fun c => IZR c / 1000) [d3; d2; d1; d0])).
    assert (L1 : lo r1 < hi r1) by (cbn; apply IZR_lt; lia). assert (L2 : lo r2 < hi r2) by (cbn; apply IZR_lt; lia).
    pose proof (row_end r1 _ _ _ _ L1 eq_refl) as E1. pose proof (row_start r2 _ _ _ _ L2 eq_refl) as E2.
    change (hi r1) with (lo r2) in E1. rewrite E1, E2.
    replace (IZR c3 / 1000 + IZR c2 / 1000 + IZR c1 / 1000 + IZR c0 / 1000 - IZR d0 / 1000) with (IZR (c3 + c2 + c1 + c0 - d0) / 1000) by (rewrite minus_IZR, !plus_IZR; field).
    apply Z.abs_le in J2. destruct J2 as [J2 J4]. apply IZR_le in J2, J4. cbn in J2. apply Rabs_le. lra.
  - apply IH; [|exact J3]. cbn. rewrite !andb_true_iff. repeat split; [apply Z.ltb_lt; lia|exact R5].
Qed.
Lemma shipped_historic : historic (1 / 1000) s15_shipped.
Proof.
  split; [discriminate|]. split.
  - apply Forall_forall. intros r Hr. apply in_map_iff in Hr. destruct Hr as [[[a b] cs] [<- Hr]].
    assert (R : z_rows s15_thousandths = true) by reflexivity. unfold z_rows in R. rewrite forallb_forall in R. specialize (R _ Hr). cbn in R.
    apply andb_true_iff in R. destruct R as [R1 R2]. apply Z.ltb_lt in R1. apply Nat.eqb_eq in R2. cbn. rewrite map_length. split; [apply IZR_lt; exact R1|exact R2].
  - apply z_joined_ok; reflexivity.
Qed.
Lemma shipped_start : start_year s15_shipped = -720.
Proof. reflexivity. Qed.

(** * Time scales *)
Lemma Rabs_sin_term k x : 0 <= k -> Rabs (k * sin x) <= k.
Proof. intros H. rewrite Rabs_mult, (Rabs_right k) by lra. pose proof (SIN_bound x). assert (Rabs (sin x) <= 1) by (apply Rabs_le; lra). nra. Qed.
Lemma tdb_terms_bound t : Rabs (tdb_terms t) <= 1705 / 10 ^ 6 + 1 / 10 ^ 5 * Rabs t.
Proof.
  unfold tdb_terms.
  match goal with |- Rabs (?a + ?b + ?c + ?d + ?e + ?f + ?g) <= _ =>
    pose proof (Rabs_sin_term (1657 / 10 ^ 6) (6283076 / 10 ^ 4 * t + 62401 / 10 ^ 4)) as Ha;
    pose proof (Rabs_sin_term (22 / 10 ^ 6) (5753385 / 10 ^ 4 * t + 42970 / 10 ^ 4)) as Hb;
    pose proof (Rabs_sin_term (14 / 10 ^ 6) (12566152 / 10 ^ 4 * t + 61969 / 10 ^ 4)) as Hc;
    pose proof (Rabs_sin_term (5 / 10 ^ 6) (6069777 / 10 ^ 4 * t + 40212 / 10 ^ 4)) as Hd;
    pose proof (Rabs_sin_term (5 / 10 ^ 6) (529691 / 10 ^ 4 * t + 4444 / 10 ^ 4)) as Hee;
    pose proof (Rabs_sin_term (2 / 10 ^ 6) (213299 / 10 ^ 4 * t + 55431 / 10 ^ 4)) as Hf;
    assert (Hg : Rabs g <= 1 / 10 ^ 5 * Rabs t);
    [|set (A := a) in *; set (B := b) in *; set (C := c) in *; set (D := d) in *; set (E := e) in *; set (F := f) in *; set (G := g) in *]
  end.
  - rewrite !Rabs_mult. rewrite (Rabs_right (10 / 10 ^ 6)) by lra. pose proof (SIN_bound (6283076 / 10 ^ 4 * t + 42490 / 10 ^ 4)).
    assert (Rabs (sin (6283076 / 10 ^ 4 * t + 42490 / 10 ^ 4)) <= 1) by (apply Rabs_le; lra). pose proof (Rabs_pos t).
    replace (10 / 10 ^ 6) with (1 / 10 ^ 5) by lra.
    apply Rle_trans with (1 / 10 ^ 5 * Rabs t * 1); [|lra]. apply Rmult_le_compat_l; [|assumption]. apply Rmult_le_pos; lra.
  - pose proof (Rabs_triang (A + B + C + D + E + F) G). pose proof (Rabs_triang (A + B + C + D + E) F). pose proof (Rabs_triang (A + B + C + D) E).
    pose proof (Rabs_triang (A + B + C) D). pose proof (Rabs_triang (A + B) C). pose proof (Rabs_triang A B).
    assert (P1 : Rabs A <= 1657 / 10 ^ 6) by (apply Ha; lra). assert (P2 : Rabs B <= 22 / 10 ^ 6) by (apply Hb; lra).
    assert (P3 : Rabs C <= 14 / 10 ^ 6) by (apply Hc; lra). assert (P4 : Rabs D <= 5 / 10 ^ 6) by (apply Hd; lra).
    assert (P5 : Rabs E <= 5 / 10 ^ 6) by (apply Hee; lra). assert (P6 : Rabs F <= 2 / 10 ^ 6) by (apply Hf; lra).
    lra.
Qed.
(** Centuries from J2000. *)
Definition century (jd : R) : R := (jd - 2451545) / 36525.
Lemma tdb_bound_tt w f : let t := RTime w f None None in
  Rabs ((tdb t - tt t) * 86400) <= 1705 / 10 ^ 6 + 1 / 10 ^ 5 * Rabs (century (tt t)).
Proof.
  cbn. unfold tdb, tdb_fraction, tt. cbn. unfold tdb_minus_tt. replace (_ * 86400) with (tdb_terms ((w - 2451545 + f) / 36525)) by field.
  unfold century. replace (w + f - 2451545) with (w - 2451545 + f) by ring. apply tdb_terms_bound.
Qed.
Lemma tdb_bound_jd jd f : let t := tdb_jd jd f in
  tdb t = jd + f /\ Rabs ((tdb t - tt t) * 86400) <= 1705 / 10 ^ 6 + 1 / 10 ^ 5 * Rabs (century (tdb t)).
Proof.
  cbn. unfold tdb, tdb_fraction, tt. cbn. split; [reflexivity|]. unfold tdb_minus_tt. replace (_ * 86400) with (tdb_terms ((jd - 2451545 + f) / 36525)) by field.
  unfold century. replace (jd + f - 2451545) with (jd - 2451545 + f) by ring. apply tdb_terms_bound.
Qed.
Lemma sin_term_lip k a b s t : 0 <= k -> 0 <= a -> Rabs (k * sin (a * s + b) - k * sin (a * t + b)) <= k * a * Rabs (s - t).
Proof.
  intros Hk Ha. replace (k * sin (a * s + b) - k * sin (a * t + b)) with (k * (sin (a * s + b) - sin (a * t + b))) by ring.
  rewrite Rabs_mult, (Rabs_right k) by lra. rewrite Rmult_assoc. apply Rmult_le_compat_l; [exact Hk|].
  eapply Rle_trans; [apply sin_lip|]. replace (a * s + b - (a * t + b)) with (a * (s - t)) by ring. rewrite Rabs_mult, (Rabs_right a) by lra. lra.
Qed.
Lemma tdb_terms_lip s t : Rabs (tdb_terms s - tdb_terms t) <= (11 / 10 + 7 / 1000 * Rabs t) * Rabs (s - t).
Proof.
  unfold tdb_terms.
  pose proof (sin_term_lip (1657 / 10 ^ 6) (6283076 / 10 ^ 4) (62401 / 10 ^ 4) s t) as H1.
  pose proof (sin_term_lip (22 / 10 ^ 6) (5753385 / 10 ^ 4) (42970 / 10 ^ 4) s t) as H2.
  pose proof (sin_term_lip (14 / 10 ^ 6) (12566152 / 10 ^ 4) (61969 / 10 ^ 4) s t) as H3.
  pose proof (sin_term_lip (5 / 10 ^ 6) (6069777 / 10 ^ 4) (40212 / 10 ^ 4) s t) as H4.
  pose proof (sin_term_lip (5 / 10 ^ 6) (529691 / 10 ^ 4) (4444 / 10 ^ 4) s t) as H5.
  pose proof (sin_term_lip (2 / 10 ^ 6) (213299 / 10 ^ 4) (55431 / 10 ^ 4) s t) as H6.
  assert (H7 : Rabs (10 / 10 ^ 6 * s * sin (6283076 / 10 ^ 4 * s + 42490 / 10 ^ 4) - 10 / 10 ^ 6 * t * sin (6283076 / 10 ^ 4 * t + 42490 / 10 ^ 4))
     <= (1 / 10 ^ 5 + 6284 / 10 ^ 6 * Rabs t) * Rabs (s - t)).
  { set (u := sin (6283076 / 10 ^ 4 * s + 42490 / 10 ^ 4)). set (v := sin (6283076 / 10 ^ 4 * t + 42490 / 10 ^ 4)).
    replace (10 / 10 ^ 6 * s * u - 10 / 10 ^ 6 * t * v) with (10 / 10 ^ 6 * ((s - t) * u + t * (u - v))) by ring.
    rewrite Rabs_mult, (Rabs_right (10 / 10 ^ 6)) by lra.
    pose proof (Rabs_triang ((s - t) * u) (t * (u - v))) as T. rewrite !Rabs_mult in T.
    assert (U : Rabs u <= 1) by (apply Rabs_le; pose proof (SIN_bound (6283076 / 10 ^ 4 * s + 42490 / 10 ^ 4)); unfold u; lra).
    assert (V : Rabs (u - v) <= 6283076 / 10 ^ 4 * Rabs (s - t)).
    { eapply Rle_trans; [apply sin_lip|]. replace (6283076 / 10 ^ 4 * s + 42490 / 10 ^ 4 - (6283076 / 10 ^ 4 * t + 42490 / 10 ^ 4)) with (6283076 / 10 ^ 4 * (s - t)) by ring.
      rewrite Rabs_mult, (Rabs_right (6283076 / 10 ^ 4)) by lra. lra. }
    pose proof (Rabs_pos t). pose proof (Rabs_pos (s - t)).
    assert (Rabs (s - t) * Rabs u <= Rabs (s - t) * 1) by (apply Rmult_le_compat_l; lra).
    assert (Rabs t * Rabs (u - v) <= Rabs t * (6283076 / 10 ^ 4 * Rabs (s - t))) by (apply Rmult_le_compat_l; lra).
    set (z := Rabs (s - t)) in *. set (w := Rabs t) in *. assert (0 <= w * z) by (apply Rmult_le_pos; lra). nra. }
  match goal with |- Rabs (?a + ?b + ?c + ?d + ?e + ?f + ?g - (?a' + ?b' + ?c' + ?d' + ?e' + ?f' + ?g')) <= _ =>
    replace (a + b + c + d + e + f + g - (a' + b' + c' + d' + e' + f' + g')) with ((a - a') + (b - b') + (c - c') + (d - d') + (e - e') + (f - f') + (g - g')) by ring;
    set (A := a - a') in *; set (B := b - b') in *; set (C := c - c') in *; set (D := d - d') in *; set (E := e - e') in *; set (F := f - f') in *; set (G := g - g') in *
  end.
  pose proof (Rabs_triang (A + B + C + D + E + F) G). pose proof (Rabs_triang (A + B + C + D + E) F). pose proof (Rabs_triang (A + B + C + D) E).
  pose proof (Rabs_triang (A + B + C) D). pose proof (Rabs_triang (A + B) C). pose proof (Rabs_triang A B).
  pose proof (Rabs_pos t). pose proof (Rabs_pos (s - t)).
  specialize (H1 ltac:(lra) ltac:(lra)). specialize (H2 ltac:(lra) ltac:(lra)). specialize (H3 ltac:(lra) ltac:(lra)).
  specialize (H4 ltac:(lra) ltac:(lra)). specialize (H5 ltac:(lra) ltac:(lra)). specialize (H6 ltac:(lra) ltac:(lra)).
  clearbody A B C D E F G.
  set (z := Rabs (s - t)) in *. set (w := Rabs t) in *. assert (0 <= w * z) by (apply Rmult_le_pos; lra). nra.
Qed.
(** A calendar date in TDB comes back to within a picosecond for 10000 years. *)
Lemma tdb_calendar_close jd : Rabs (century jd) <= 100 ->
  Rabs ((tdb (tdb_calendar jd) - jd) * 86400) <= 1 / 10 ^ 11.
Proof.
  intros H. unfold tdb, tdb_fraction, tdb_calendar. cbn [whole c_tdb_fraction tt_fraction].
  unfold tdb_minus_tt. set (t := (jd - 2451545 + 0) / 36525). set (s := (jd - 2451545 + - tdb_terms t / 86400) / 36525).
  replace ((jd + (- tdb_terms t / 86400 + tdb_terms s / 86400) - jd) * 86400) with (tdb_terms s - tdb_terms t) by field.
  assert (Ht : Rabs t <= 100) by (unfold t, century in *; replace (jd - 2451545 + 0) with (jd - 2451545) by ring; exact H).
  pose proof (tdb_terms_bound t) as B. pose proof (tdb_terms_lip s t) as L.
  assert (E : s - t = - tdb_terms t / (86400 * 36525)) by (unfold s, t; field).
  assert (Z : Rabs (s - t) <= 1 / 10 ^ 12).
  { rewrite E. unfold Rdiv. rewrite Rabs_mult, Rabs_Ropp. rewrite (Rabs_right (/ (86400 * 36525))) by lra.
    apply Rle_trans with (3 / 1000 * / (86400 * 36525)); [|lra]. apply Rmult_le_compat_r; [lra|]. lra. }
  pose proof (Rabs_pos (s - t)). pose proof (Rabs_pos t). 
  apply Rle_trans with (2 * (1 / 10 ^ 12)); [|lra]. eapply Rle_trans; [exact L|].
  apply Rmult_le_compat; [nra|lra|nra|exact Z].
Qed.

Lemma ut1_consistent D l jd : lipschitz l D ->
  let t := ut1_jd D jd in let k := l / 86400 in
  ut1 D t = jd /\
  Rabs ((tt t - ut1 D t) * 86400 - D (tt t)) <= k * k * Rabs (D jd) /\
  (forall x, (x - jd) * 86400 = D x -> Rabs (tt t - x) <= k * k * Rabs (jd - x)).
Proof.
  intros H t k. unfold t, ut1_jd, ut1, ut1_fraction, tt. cbn [whole tt_fraction c_ut1_fraction].
  assert (Hk : forall a b, Rabs (D a - D b) / 86400 <= k * Rabs (a - b)).
  { intros a b. unfold k. pose proof (H a b). unfold Rdiv. replace (l * / 86400 * Rabs (a - b)) with (l * Rabs (a - b) * / 86400) by ring. apply Rmult_le_compat_r; lra. }
  assert (K0 : 0 <= k).
  { pose proof (H 1 0) as P. pose proof (Rabs_pos (D 1 - D 0)). replace (1 - 0) with 1 in P by ring. rewrite Rabs_R1 in P. unfold k. apply Rmult_le_pos; lra. }
  assert (Ab : forall a b, Rabs (a / 86400 - b / 86400) = Rabs (a - b) / 86400).
  { intros a b. replace (a / 86400 - b / 86400) with ((a - b) * / 86400) by field. rewrite Rabs_mult, (Rabs_right (/ 86400)) by lra. reflexivity. }
  split; [ring|]. split.
  - replace (jd + D (jd + D jd / 86400) / 86400 - (jd + 0 * jd)) with (D (jd + D jd / 86400) / 86400) by ring.
    replace (D (jd + D jd / 86400) / 86400 * 86400) with (D (jd + D jd / 86400)) by field.
    set (x1 := jd + D jd / 86400). set (x2 := jd + D x1 / 86400).
    pose proof (Hk x1 x2) as P1. pose proof (Hk x1 jd) as P2.
    assert (E2 : Rabs (x1 - x2) = Rabs (D x1 - D jd) / 86400).
    { unfold x1 at 1, x2. replace (jd + D jd / 86400 - (jd + D x1 / 86400)) with (- (D x1 / 86400 - D jd / 86400)) by ring. rewrite Rabs_Ropp. apply Ab. }
    assert (E3 : Rabs (x1 - jd) = Rabs (D jd) / 86400).
    { unfold x1. replace (jd + D jd / 86400 - jd) with (D jd * / 86400) by (unfold Rdiv; ring). rewrite Rabs_mult, (Rabs_right (/ 86400)) by lra. reflexivity. }
    rewrite E3 in P2. rewrite E2 in P1.
    assert (k * (Rabs (D x1 - D jd) / 86400) <= k * (k * (Rabs (D jd) / 86400))) by (apply Rmult_le_compat_l; lra). lra.
  - intros x Hx. set (x1 := jd + D jd / 86400).
    assert (Ex : x = jd + D x / 86400) by lra.
    pose proof (Hk x1 x) as P1. pose proof (Hk jd x) as P2.
    assert (E1 : Rabs (jd + D x1 / 86400 - x) = Rabs (D x1 - D x) / 86400).
    { rewrite Ex at 1. replace (jd + D x1 / 86400 - (jd + D x / 86400)) with (D x1 / 86400 - D x / 86400) by ring. apply Ab. }
    assert (E2 : Rabs (x1 - x) = Rabs (D jd - D x) / 86400).
    { rewrite Ex at 1. unfold x1. replace (jd + D jd / 86400 - (jd + D x / 86400)) with (D jd / 86400 - D x / 86400) by ring. apply Ab. }
    rewrite E1. rewrite E2 in P1. assert (k * (Rabs (D jd - D x) / 86400) <= k * (k * Rabs (jd - x))) by (apply Rmult_le_compat_l; lra). lra.
Qed.

(** * The slope at the end of the table *)
Lemma end_slope_leaves eps s15 ttl dt : 0 <= eps -> historic eps s15 -> daily ttl dt -> start_year s15 < year_of (hd 0 ttl) ->
  exists curve, build_delta_t s15 ttl dt = Some curve /\
    leaves_with_slope (fun y => delta_t curve ttl dt (1721045 + 36525 / 100 * y)) (year_of (last ttl 0)) (end_slope dt).
Proof.
  intros He HS HD Hx. destruct (delta_t_values eps s15 ttl dt He HS HD Hx) as [curve [E [_ [_ [_ [h [Hh K]]]]]]].
  exists curve. split; [exact E|].
  match type of K with forall y, _ -> _ = row_at ?r _ => exists (row_at r), h end.
  split; [exact Hh|]. split.
  - intros y Hy. assert (Ey : year_of (1721045 + 36525 / 100 * y) = y) by (unfold year_of; field). rewrite K; rewrite Ey; [reflexivity|exact Hy].
  - eapply right_ok; eassumption.
Qed.
Lemma spaced_nth : forall l i, spaced l -> (i < length l)%nat -> nth i l 0 = hd 0 l + INR i.
Proof.
  induction l as [|a l IH]; intros i S H; [cbn in H; lia|]. destruct i as [|i]; [cbn; ring|]. cbn in H.
  destruct l as [|b l]; [cbn in H; lia|]. destruct S as [S1 S2]. change (nth (Datatypes.S i) (a :: b :: l) 0) with (nth i (b :: l) 0). rewrite IH; [|exact S2|lia]. cbn [hd]. rewrite S1, S_INR. ring.
Qed.
Lemma last_nth : forall l : list R, l <> [] -> last l 0 = nth (length l - 1) l 0.
Proof.
  induction l as [|a l IH]; intros H; [congruence|]. destruct l as [|b l]; [reflexivity|]. rewrite last_cons, IH by congruence. cbn [length]. replace (Datatypes.S (Datatypes.S (length l)) - 1)%nat with (Datatypes.S (length l)) by lia. cbn. replace (length l - 0)%nat with (length l) by lia. reflexivity.
Qed.
Lemma end_slope_ratio ttl dt : daily ttl dt -> spaced ttl -> (2 <= length dt)%nat ->
  let n := INR (Nat.min 366 (length dt)) in
  end_slope dt = average_rate ttl dt * (n * (n - 1) / (365 * (36525 / 100))).
Proof.
  intros [N [LE _]] S L n. unfold end_slope, average_rate, lookback. fold n.
  set (k := (length dt - Nat.min 366 (length dt))%nat).
  rewrite (last_nth ttl N). rewrite (spaced_nth ttl (length ttl - 1) S) by (destruct ttl; [congruence|cbn; lia]).
  rewrite (spaced_nth ttl k S) by (unfold k; lia).
  assert (EN : INR (length ttl - 1) = INR k + (n - 1)).
  { rewrite LE. replace (length dt - 1)%nat with (k + (Nat.min 366 (length dt) - 1))%nat by (unfold k; lia). rewrite plus_INR, minus_INR by lia. unfold n. cbn [INR]. ring. }
  rewrite EN. unfold year_of. assert (H2 : 2 <= n) by (unfold n; replace 2 with (INR 2) by (cbn; lra); apply le_INR; lia).
  field. lra.
Qed.
Lemma delta_t_continuous s15 ttl dt : historic 0 s15 -> daily ttl dt -> start_year s15 < year_of (hd 0 ttl) ->
  exists curve, build_delta_t s15 ttl dt = Some curve /\ continuity (delta_t curve ttl dt).
Proof.
  intros HS HD Hx. destruct (delta_t_jumps 0 s15 ttl dt (Rle_refl 0) HS HD Hx) as [c [E J]]. exists c. split; [exact E|]. intros y. apply cont_jump. apply J.
Qed.
Lemma delta_t_known s15 ttl dt eps : 0 <= eps -> historic eps s15 -> daily ttl dt -> start_year s15 < year_of (hd 0 ttl) ->
  exists curve, build_delta_t s15 ttl dt = Some curve /\
    (forall t d, In (t, d) (combine ttl dt) -> delta_t curve ttl dt t = d) /\
    (forall y, year_of y <= start_year s15 - 800 -> delta_t curve ttl dt y = long_term (year_of y)) /\
    (forall y, year_of (last ttl 0) + 800 <= year_of y -> delta_t curve ttl dt y = long_term (year_of y)).
Proof.
  intros He HS HD Hx. destruct (delta_t_values eps s15 ttl dt He HS HD Hx) as [c [E [A [B [C _]]]]]. exists c. auto.
Qed.
Lemma slope_ratio eps s15 ttl dt : 0 <= eps -> historic eps s15 -> daily ttl dt -> start_year s15 < year_of (hd 0 ttl) ->
  spaced ttl -> (2 <= length dt)%nat ->
  let n := INR (Nat.min 366 (length dt)) in
  exists curve, build_delta_t s15 ttl dt = Some curve /\
    leaves_with_slope (fun y => delta_t curve ttl dt (1721045 + 36525 / 100 * y)) (year_of (last ttl 0))
      (average_rate ttl dt * (n * (n - 1) / (365 * (36525 / 100)))).
Proof.
  intros He HS HD Hx S L n. destruct (end_slope_leaves eps s15 ttl dt He HS HD Hx) as [c [E K]]. exists c. split; [exact E|].
  pose proof (end_slope_ratio ttl dt HD S L) as R. cbn zeta in R. fold n in R. rewrite <- R. exact K.
Qed.
Lemma slope_full_year eps s15 ttl dt : 0 <= eps -> historic eps s15 -> daily ttl dt -> start_year s15 < year_of (hd 0 ttl) ->
  spaced ttl -> (366 <= length dt)%nat ->
  exists curve s, build_delta_t s15 ttl dt = Some curve /\
    leaves_with_slope (fun y => delta_t curve ttl dt (1721045 + 36525 / 100 * y)) (year_of (last ttl 0)) s /\
    Rabs (s - average_rate ttl dt) <= 21 / 10000 * Rabs (average_rate ttl dt).
Proof.
  intros He HS HD Hx S L. destruct (slope_ratio eps s15 ttl dt He HS HD Hx S ltac:(lia)) as [c [E K]]. cbn zeta in K.
  rewrite Nat.min_l in K by exact L. rewrite (INR_IZR_INZ 366) in K. change (Z.of_nat 366) with 366%Z in K.
  exists c. eexists. split; [exact E|]. split; [exact K|].
  set (a := average_rate ttl dt). replace (a * (366 * (366 - 1) / (365 * (36525 / 100))) - a) with (a * (75 / 36525)) by field.
  rewrite Rabs_mult, (Rabs_right (75 / 36525)) by lra. pose proof (Rabs_pos a). lra.
Qed.
Lemma slope_short eps s15 ttl dt : 0 <= eps -> historic eps s15 -> daily ttl dt -> start_year s15 < year_of (hd 0 ttl) ->
  spaced ttl -> (2 <= length dt <= 182)%nat ->
  exists curve s, build_delta_t s15 ttl dt = Some curve /\
    leaves_with_slope (fun y => delta_t curve ttl dt (1721045 + 36525 / 100 * y)) (year_of (last ttl 0)) s /\
    Rabs s <= 1 / 4 * Rabs (average_rate ttl dt).
Proof.
  intros He HS HD Hx S L. destruct (slope_ratio eps s15 ttl dt He HS HD Hx S ltac:(lia)) as [c [E K]]. cbn zeta in K.
  rewrite Nat.min_r in K by lia. exists c. eexists. split; [exact E|]. split; [exact K|].
  set (a := average_rate ttl dt). set (n := INR (length dt)).
  assert (N : 0 <= n * (n - 1) <= 182 * 181).
  { assert (2 <= n <= 182). { unfold n. split; [replace 2 with (INR 2) by (cbn; lra)|replace 182 with (INR 182) by (rewrite INR_IZR_INZ; reflexivity)]; apply le_INR; lia. } nra. }
  rewrite Rabs_mult. set (q := n * (n - 1)) in *. rewrite (Rabs_right (q / (365 * (36525 / 100)))) by (apply Rle_ge; apply Rmult_le_pos; lra).
  pose proof (Rabs_pos a). rewrite (Rmult_comm (1 / 4)). apply Rmult_le_compat_l; [assumption|]. lra.
Qed.
(** A left limit other than the value. *)
Lemma not_continuous f g a : continuity_pt g a -> (exists h, 0 < h /\ forall y, a - h < y < a -> f y = g y) -> g a <> f a -> ~ continuity_pt f a.
Proof.
  intros G [h [Hh E]] N C. apply cont_jump in G. apply cont_jump in C. set (d := Rabs (g a - f a) / 3).
  assert (D : 0 < d) by (unfold d; assert (0 < Rabs (g a - f a)) by (apply Rabs_pos_lt; lra); lra).
  destruct (G d D) as [h1 [H1 K1]]. destruct (C d D) as [h2 [H2 K2]].
  set (m := Rmin h (Rmin h1 h2)). assert (M : 0 < m) by (repeat apply Rmin_glb_lt; assumption).
  assert (M1 : m <= h) by apply Rmin_l. assert (M2 : m <= h1) by (eapply Rle_trans; [apply Rmin_r|apply Rmin_l]). assert (M3 : m <= h2) by (eapply Rle_trans; [apply Rmin_r|apply Rmin_r]).
  set (y := a - m / 2). assert (Y : Rabs (y - a) < m) by (unfold y; apply Rabs_def1; lra).
  specialize (K1 y ltac:(lra)). specialize (K2 y ltac:(lra)). rewrite E in K2 by (unfold y; lra).
  assert (Rabs (g a - f a) <= 2 * d); [|unfold d in *; lra].
  replace (g a - f a) with (- (g y - g a) + (g y - f a)) by ring. eapply Rle_trans; [apply Rabs_triang|]. rewrite Rabs_Ropp. lra.
Qed.
Lemma shipped_jump ttl dt : daily ttl dt -> 400 < year_of (hd 0 ttl) ->
  exists curve, build_delta_t s15_shipped ttl dt = Some curve /\ ~ continuity_pt (delta_t curve ttl dt) (1721045 - 36525).
Proof.
  intros HD Hx. assert (Hx2 : start_year s15_shipped < year_of (hd 0 ttl)) by (rewrite shipped_start; lra).
  assert (He : 0 <= 1 / 1000) by lra.
  destruct (delta_t_history (1 / 1000) s15_shipped ttl dt He shipped_historic HD Hx2) as [curve [E K]].
  exists curve. split; [exact E|]. rewrite shipped_start in K.
  set (r1 := s15_row (-720, -100, [409160; 776247; -9999586; 20371848])%Z).
  set (r2 := s15_row (-100, 400, [-503433; 1303151; -5822270; 11557668])%Z).
  set (r3 := s15_row (400, 1000, [1085087; -298291; -5671519; 6535116])%Z).
  assert (SS : sorted s15_shipped). { destruct shipped_historic as [_ [SW SJ]]. exact (joined_sorted _ _ SW SJ). }
  assert (Es : exists rest, s15_shipped = r1 :: r2 :: r3 :: rest) by (eexists; reflexivity). destruct Es as [rest Es].
  assert (EV : forall y, -720 <= year_of y < 400 -> delta_t curve ttl dt y = if Rlt_dec (year_of y) (-100) then row_at r1 (year_of y) else row_at r2 (year_of y)).
  { intros y Hy. rewrite (K y r3); [|rewrite Es; right; right; left; reflexivity|exact Hx|exact Hy].
    rewrite Es. rewrite splines_pick by (rewrite <- Es; exact SS). cbn [pick]. change (lo r2) with (-100). change (lo r3) with 400.
    destruct (Rlt_dec (year_of y) (-100)); [reflexivity|]. destruct (Rlt_dec (year_of y) 400); [reflexivity|lra]. }
  assert (Y : year_of (1721045 - 36525) = -100) by (unfold year_of; field).
  apply (not_continuous _ (fun y => row_at r1 (year_of y))).
  - apply cont_jump. apply jump_year. apply cont_jump. apply row_cont. cbn. lra.
  - exists 1. split; [lra|]. intros y Hy. assert (-720 <= year_of y < -100) by (unfold year_of; lra). rewrite EV by lra. destruct (Rlt_dec (year_of y) (-100)); [reflexivity|lra].
  - rewrite EV by (rewrite Y; lra). rewrite Y. destruct (Rlt_dec (-100) (-100)); [lra|]. unfold row_at, r1, r2, width, horner. cbn. lra.
Qed.
