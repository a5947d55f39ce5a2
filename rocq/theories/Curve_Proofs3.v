From Coq Require Import Reals ZArith List Bool Lra Lia Psatz.
From Verif Require Import Real_Math Real_Math_Proofs Curve_Model Curve_Spec.
Import ListNotations.
Open Scope R_scope.

Lemma ascZ_tail a l : ascendingZ (a :: l) -> ascendingZ l.
Proof. destruct l; cbn; intros H; [exact I|apply H]. Qed.
Lemma ascZ_head a l b : ascendingZ (a :: l) -> In b l -> (a < b)%Z.
Proof.
  revert a. induction l as [|c l IH]; intros a H K; [destruct K|]. destruct H as [H1 H2].
  destruct K as [<- |K]; [exact H1|]. pose proof (IH c H2 K). lia.
Qed.
Lemma filter_all_false {A} (f : A -> bool) l : (forall a, In a l -> f a = false) -> filter f l = [].
Proof. induction l as [|a l IH]; intros H; [reflexivity|]. cbn. rewrite H by (left; reflexivity). apply IH. intros b Hb. apply H. right. exact Hb. Qed.
Definition is_leap (leaps : list Z) (d : Z) : bool := existsb (Z.eqb d) leaps.
(** One more day. *)
Lemma filter_step : forall leaps k, ascendingZ leaps ->
  filter (fun l => l <=? k + 1)%Z leaps = filter (fun l => l <=? k)%Z leaps ++ (if is_leap leaps (k + 1) then [(k + 1)%Z] else []).
Proof.
  induction leaps as [|a l IH]; intros k S; [reflexivity|]. cbn [filter]. unfold is_leap. cbn [existsb].
  destruct (Z.leb_spec a (k + 1)) as [H|H].
  - destruct (Z.leb_spec a k) as [H2|H2].
    + replace (k + 1 =? a)%Z with false by (symmetry; apply Z.eqb_neq; lia). cbn [orb app]. f_equal. apply IH. apply (ascZ_tail _ _ S).
    + assert (a = (k + 1)%Z) by lia. subst a. rewrite Z.eqb_refl. cbn [orb].
      rewrite !filter_all_false; [reflexivity| |]; intros b Hb; pose proof (ascZ_head _ _ _ S Hb); apply Z.leb_gt; lia.
  - destruct (Z.leb_spec a k) as [H2|H2]; [lia|].
    replace (k + 1 =? a)%Z with false by (symmetry; apply Z.eqb_neq; lia). cbn [orb].
    assert (NL : existsb (Z.eqb (k + 1)) l = false).
    { apply not_true_is_false. intros E. apply existsb_exists in E. destruct E as [b [Hb E]]. apply Z.eqb_eq in E. pose proof (ascZ_head _ _ _ S Hb). lia. }
    rewrite NL. rewrite !filter_all_false; [reflexivity| |]; intros b Hb; pose proof (ascZ_head _ _ _ S Hb); apply Z.leb_gt; lia.
Qed.
Lemma offset_step leaps k : ascendingZ leaps ->
  tai_minus_utc leaps (k + 1) = (tai_minus_utc leaps k + if is_leap leaps (k + 1) then 1 else 0)%Z.
Proof.
  intros S. unfold tai_minus_utc. rewrite filter_step by exact S. rewrite app_length. destruct (is_leap leaps (k + 1)); cbn [length]; lia.
Qed.

Section Series.
  Variables (leaps : list Z) (u : Z -> R).
  Hypothesis HS : ascendingZ leaps.
  Hypothesis Hu : forall d, Rabs (u (d + 1)%Z - u d) < 1 / 10.
  Definition dut1_of (d : Z) : R := u d + IZR (tai_minus_utc leaps d).
  Definition off (d : Z) : R := IZR (tai_minus_utc leaps d).

  Lemma big_jump d : Rgtb (dut1_of (d + 1) - dut1_of d) (9 / 10) = is_leap leaps (d + 1).
  Proof.
    unfold Rgtb, dut1_of. rewrite offset_step by exact HS. pose proof (Hu d) as H. apply Rabs_def2 in H.
    destruct (is_leap leaps (d + 1)).
    - rewrite plus_IZR. destruct (Rlt_dec _ _) as [L|L]; [reflexivity|]. exfalso. apply L. lra.
    - rewrite Z.add_0_r. destruct (Rlt_dec _ _) as [L|L]; [|reflexivity]. exfalso. lra.
  Qed.
  Lemma diff_days : forall n d, map (fun e => Rgtb e (9 / 10)) (diff (map dut1_of (days d (S n)))) = map (is_leap leaps) (days (d + 1) n).
  Proof.
    induction n as [|n IH]; intros d; [reflexivity|].
    change (days d (S (S n))) with (d :: (d + 1)%Z :: days (d + 1 + 1) n).
    change (diff (map dut1_of (d :: (d + 1)%Z :: days (d + 1 + 1) n)))
      with ((dut1_of (d + 1) - dut1_of d) :: diff (map dut1_of (days (d + 1) (S n)))).
    cbn [map]. rewrite big_jump. change (days (d + 1) (S n)) with ((d + 1)%Z :: days (d + 1 + 1) n). cbn [map]. f_equal. exact (IH (d + 1)%Z).
  Qed.
  Lemma mask_days d n : mask_of (map dut1_of (days d (S n))) = false :: map (is_leap leaps) (days (d + 1) n).
  Proof. unfold mask_of. rewrite diff_days. reflexivity. Qed.
  Lemma cumsum_days : forall n d c, cumsum_from (off d - c) (map (is_leap leaps) (days (d + 1) n)) = map (fun e => off e - c) (days (d + 1) n).
  Proof.
    induction n as [|n IH]; intros d c; [reflexivity|]. cbn [days map cumsum_from].
    assert (E : off d - c + (if is_leap leaps (d + 1) then 1 else 0) = off (d + 1) - c).
    { unfold off. rewrite offset_step by exact HS. rewrite plus_IZR. destruct (is_leap leaps (d + 1)); ring. }
    rewrite E. f_equal. apply IH.
  Qed.
  Lemma sums d n : off d = 12 -> map (fun k => k + 32184 / 1000 + 12) (cumsum_from 0 (mask_of (map dut1_of (days d (S n))))) = map (fun e => 32184 / 1000 + off e) (days d (S n)).
  Proof.
    intros H. rewrite mask_days. cbn [cumsum_from days map]. replace (0 + 0) with (off d - 12) by lra.
    rewrite cumsum_days. cbn [map]. f_equal; [lra|]. rewrite map_map. apply map_ext. intros e. ring.
  Qed.
  Lemma masked_days {A} (f : Z -> A) : forall l, masked (map f l) (map (is_leap leaps) l) = map f (filter (is_leap leaps) l).
  Proof. induction l as [|a l IH]; [reflexivity|]. cbn [map masked filter]. destruct (is_leap leaps a); cbn [map]; rewrite IH; reflexivity. Qed.
  Lemma days_snoc : forall n d, days d (S n) = days d n ++ [(d + Z.of_nat n)%Z].
  Proof.
    induction n as [|n IH]; intros d; [cbn; f_equal; lia|]. change (days d (S (S n))) with (d :: days (d + 1) (S n)). rewrite IH. cbn [days app]. do 2 f_equal. f_equal. lia.
  Qed.
  Lemma leaps_after : forall n d, filter (fun l => l <=? d)%Z leaps ++ filter (is_leap leaps) (days (d + 1) n) = filter (fun l => l <=? d + Z.of_nat n)%Z leaps.
  Proof.
    induction n as [|n IH]; intros d.
    - cbn. rewrite app_nil_r, Z.add_0_r. reflexivity.
    - rewrite days_snoc, filter_app, app_assoc, IH. replace (d + Z.of_nat (S n))%Z with (d + Z.of_nat n + 1)%Z by lia. rewrite filter_step by exact HS. f_equal.
      cbn [filter]. replace (d + 1 + Z.of_nat n)%Z with (d + Z.of_nat n + 1)%Z by lia. destruct (is_leap leaps (d + Z.of_nat n + 1)); reflexivity.
  Qed.
End Series.

Lemma combine_map {A B C} (f : A -> B) (g : A -> C) l : combine (map f l) (map g l) = map (fun a => (f a, g a)) l.
Proof. induction l; cbn; [reflexivity|]. f_equal. exact IHl. Qed.

(** The series starts while TAI - UTC is 12 seconds, after the two leap seconds of
    1972, and contains at least one leap second. *)
Lemma arrays_ok leaps u later d n : leaps = (41499 :: 41683 :: later)%Z -> ascendingZ leaps ->
  (forall d, Rabs (u (d + 1)%Z - u d) < 1 / 10) ->
  tai_minus_utc leaps d = 12%Z -> (exists l, In l later /\ (l <= d + Z.of_nat n)%Z) ->
  let ds := days d (S n) in
  let known := filter (fun l => l <=? d + Z.of_nat n)%Z leaps in
  build_timescale_arrays (map IZR ds) (map (fun e => u e + IZR (tai_minus_utc leaps e)) ds) =
    (map (fun e => IZR e + (32184 / 1000 + IZR (tai_minus_utc leaps e)) / 86400 + 4800001 / 2) ds,
     map (fun e => round7 (32184 / 1000 - u e)) ds,
     map (fun l => IZR l + 4800001 / 2) known,
     map (fun l => IZR (tai_minus_utc leaps l)) known).
Proof.
  intros EL HS Hu H12 [l0 [Hl0 Ll0]] ds known.
  assert (Hoff : off leaps d = 12) by (unfold off; rewrite H12; reflexivity).
  unfold build_timescale_arrays. change (map (fun e => u e + IZR (tai_minus_utc leaps e)) ds) with (map (dut1_of leaps u) ds).
  pose proof (sums leaps u HS Hu d n Hoff) as ES. pose proof (mask_days leaps u HS Hu d n) as EK. fold ds in ES, EK.
  rewrite ES, EK.
  assert (EM : masked (map IZR ds) (false :: map (is_leap leaps) (days (d + 1) n)) = map IZR (filter (is_leap leaps) (days (d + 1) n))).
  { unfold ds. cbn [days map masked]. apply masked_days. }
  rewrite EM.
  (* the leap seconds before the series are the first two *)
  assert (E2 : filter (fun l => l <=? d)%Z leaps = [41499; 41683]%Z).
  { unfold tai_minus_utc in H12. assert (LN : length (filter (fun l => l <=? d)%Z leaps) = 2%nat) by lia.
    rewrite EL in LN, HS |- *. cbn [filter] in *. 
    destruct (Z.leb_spec 41499 d) as [A|A].
    - destruct (Z.leb_spec 41683 d) as [B|B].
      + cbn [length] in LN. destruct (filter (fun l => (l <=? d)%Z) later); [reflexivity|discriminate LN].
      + rewrite filter_all_false in LN; [discriminate LN|]. intros b Hb. pose proof (ascZ_head _ _ _ (ascZ_tail _ _ HS) Hb). apply Z.leb_gt. lia.
    - destruct (Z.leb_spec 41683 d) as [B|B]; [lia|]. rewrite filter_all_false in LN; [discriminate LN|]. intros b Hb. pose proof (ascZ_head _ _ _ (ascZ_tail _ _ HS) Hb). apply Z.leb_gt. lia. }
  pose proof (leaps_after leaps HS n d) as EA. fold known in EA. rewrite E2 in EA.
  set (fl := filter (is_leap leaps) (days (d + 1) n)) in *.
  assert (Hfl : exists b fr, fl = b :: fr /\ (41683 < b)%Z).
  { destruct fl as [|b fr] eqn:Ef.
    - exfalso. assert (Hk : In l0 known). { unfold known. apply filter_In. split; [rewrite EL; right; right; exact Hl0|apply Z.leb_le; exact Ll0]. }
      rewrite <- EA in Hk. rewrite EL in HS. pose proof (ascZ_head _ _ _ (ascZ_tail _ _ HS) Hl0) as G.
      destruct Hk as [<- |[<- |[]]]; lia.
    - exists b, fr. split; [reflexivity|]. assert (Hb : In b known) by (rewrite <- EA; right; right; left; reflexivity).
      assert (Ib : In b fl) by (rewrite Ef; left; reflexivity).
      assert (Db : (d + 1 <= b)%Z).
      { unfold fl in Ib. apply filter_In in Ib. destruct Ib as [Ib _]. clear - Ib. 
        assert (G : forall n a, In b (days a n) -> (a <= b)%Z). { induction n0 as [|k IH]; intros a H; [destruct H|]. destruct H as [<- |H]; [lia|]. apply IH in H. lia. }
        exact (G n _ Ib). }
      assert (D2 : In 41683%Z (filter (fun l => (l <=? d)%Z) leaps)) by (rewrite E2; right; left; reflexivity).
      apply filter_In in D2. destruct D2 as [_ D2]. apply Z.leb_le in D2. lia. }
  destruct Hfl as [b [fr [Ef Hb]]].
  assert (EF : filter (fun mjd => Rgtb (match map IZR fl with [] => 0 | a :: _ => a end) mjd) [41499; 41683] = map IZR [41499; 41683]%Z).
  { rewrite Ef. cbn [map filter]. unfold Rgtb. assert (41683 < IZR b) by (apply IZR_lt; exact Hb).
    destruct (Rlt_dec 41499 (IZR b)); [|lra]. destruct (Rlt_dec 41683 (IZR b)); [|lra]. reflexivity. }
  rewrite EF. rewrite <- map_app, EA.
  f_equal; [f_equal; [f_equal|]|].
  - rewrite combine_map, map_map. apply map_ext. intros e. reflexivity.
  - rewrite combine_map, map_map. apply map_ext. intros e. cbn [fst snd]. f_equal. unfold off, dut1_of. ring.
  - rewrite map_map. reflexivity.
  - rewrite !map_length. clear - HS.
    (* offsets count up from 11 *)
    assert (G : forall l pre, ascendingZ (pre ++ l) -> map (fun i => 11 + INR i) (seq (length pre) (length l)) = map (fun x => IZR (tai_minus_utc (pre ++ l) x)) l).
    { induction l as [|a l IH]; intros pre S; [reflexivity|]. cbn [length seq map]. f_equal.
      - unfold tai_minus_utc. rewrite filter_app. cbn [filter]. rewrite Z.leb_refl.
        assert (P : filter (fun l => (l <=? a)%Z) pre = pre).
        { clear - S. induction pre as [|p pre IH]; [reflexivity|]. cbn [app] in S. assert (p < a)%Z by (apply (ascZ_head p (pre ++ a :: l) a S); apply in_or_app; right; left; reflexivity). cbn [filter]. destruct (Z.leb_spec p a); [|lia]. f_equal. apply IH. apply (ascZ_tail _ _ S). }
        assert (Sa : ascendingZ (a :: l)) by (clear - S; induction pre; [exact S|]; apply IHpre; apply (ascZ_tail _ _ S)).
        rewrite P. rewrite (filter_all_false _ l) by (intros b Hb; pose proof (ascZ_head _ _ _ Sa Hb); apply Z.leb_gt; lia).
        rewrite app_length. cbn [length]. rewrite plus_IZR. rewrite <- INR_IZR_INZ. rewrite plus_INR. cbn [INR]. lra.
      - specialize (IH (pre ++ [a])). rewrite <- app_assoc in IH. cbn [app] in IH. rewrite app_length in IH. cbn [length] in IH. rewrite Nat.add_1_r in IH. apply IH. exact S. }
    assert (K : ascendingZ known).
    { unfold known. clear known G. induction leaps as [|a l IH]; [exact I|]. cbn [filter]. destruct (a <=? d + Z.of_nat n)%Z; [|apply IH; apply (ascZ_tail _ _ HS)].
      specialize (IH (ascZ_tail _ _ HS)). destruct (filter _ l) as [|c r] eqn:E; [exact I|]. split; [|exact IH]. apply (ascZ_head _ _ _ HS). assert (In c (c :: r)) by (left; reflexivity). rewrite <- E in H. apply filter_In in H. apply H. }
    pose proof (G known [] K) as R. cbn [app length] in R. rewrite R. apply map_ext_in. intros x Hx. f_equal. unfold tai_minus_utc. f_equal. f_equal. f_equal.
    unfold known in Hx |- *. apply filter_In in Hx. destruct Hx as [_ Hx]. apply Z.leb_le in Hx. clear - Hx. induction leaps as [|a l IH]; [reflexivity|]. cbn [filter].
    destruct (Z.leb_spec a (d + Z.of_nat n)).
    + cbn [filter]. destruct (a <=? x)%Z; [f_equal|]; exact IH.
    + destruct (Z.leb_spec a x); [lia|exact IH].
Qed.
(** Rounding to seven places. *)
Lemma round7_close x : Rabs (round7 x - x) <= 1 / 2 / 10 ^ 7.
Proof.
  unfold round7. pose proof (rfloor_bounds (x * 10 ^ 7 + 1 / 2)) as B. apply Rabs_le.
  replace (IZR (rfloor (x * 10 ^ 7 + 1 / 2)) / 10 ^ 7 - x) with ((IZR (rfloor (x * 10 ^ 7 + 1 / 2)) - x * 10 ^ 7) / 10 ^ 7) by field.
  set (z := IZR _) in *. set (q := x * 10 ^ 7) in *. lra.
Qed.
Lemma Rabs_def2_le x a : Rabs x <= a -> - a <= x <= a.
Proof. intros H. pose proof (Rle_abs x). pose proof (Rle_abs (- x)) as N. rewrite Rabs_Ropp in N. lra. Qed.
Lemma delta_t_steps u : (forall d, Rabs (u (d + 1)%Z - u d) < 1 / 10) -> forall d : Z,
  Rabs (round7 (32184 / 1000 - u (d + 1)%Z) - round7 (32184 / 1000 - u d)) <= Rabs (u (d + 1)%Z - u d) + 1 / 10 ^ 7.
Proof.
  intros _ d. pose proof (round7_close (32184 / 1000 - u (d + 1)%Z)) as A. pose proof (round7_close (32184 / 1000 - u d)) as B.
  apply Rabs_def2_le in A. apply Rabs_def2_le in B. pose proof (Rle_abs (u (d + 1)%Z - u d)). pose proof (Rle_abs (- (u (d + 1)%Z - u d))) as N. rewrite Rabs_Ropp in N.
  apply Rabs_le. lra.
Qed.
(** Another offset at the start. *)
Lemma arrays_other leaps u d n : ascendingZ leaps -> (forall d, Rabs (u (d + 1)%Z - u d) < 1 / 10) ->
  let ds := days d (S n) in
  let '(_, daily_delta_t, _, _) := build_timescale_arrays (map IZR ds) (map (fun e => u e + IZR (tai_minus_utc leaps e)) ds) in
  daily_delta_t = map (fun e => round7 (32184 / 1000 - u e + IZR (12 - tai_minus_utc leaps d))) ds.
Proof.
  intros HS Hu ds. unfold build_timescale_arrays. change (map (fun e => u e + IZR (tai_minus_utc leaps e)) ds) with (map (dut1_of leaps u) ds).
  set (M := mask_of (map (dut1_of leaps u) ds)).
  assert (ES : map (fun k => k + 32184 / 1000 + 12) (cumsum_from 0 M) = map (fun e => 32184 / 1000 + off leaps e + IZR (12 - tai_minus_utc leaps d)) ds).
  { unfold M, ds. rewrite (mask_days leaps u HS Hu). cbn [cumsum_from days map]. replace (0 + 0) with (off leaps d - off leaps d) by ring.
    rewrite (cumsum_days leaps HS). cbn [map]. rewrite minus_IZR. f_equal; [unfold off; ring|]. rewrite map_map. apply map_ext. intros e. unfold off. ring. }
  rewrite ES. rewrite combine_map, map_map. apply map_ext. intros e. cbn [fst snd]. f_equal. unfold dut1_of, off. ring.
Qed.
Lemma arrays_no_leap leaps u d n : ascendingZ leaps -> (forall d, Rabs (u (d + 1)%Z - u d) < 1 / 10) ->
  (forall l, In l leaps -> (l <= d \/ d + Z.of_nat n < l)%Z) ->
  let ds := days d (S n) in
  let '(_, _, leap_dates, leap_offsets) := build_timescale_arrays (map IZR ds) (map (fun e => u e + IZR (tai_minus_utc leaps e)) ds) in
  leap_dates = [] /\ leap_offsets = [].
Proof.
  intros HS Hu HN ds. unfold build_timescale_arrays. change (map (fun e => u e + IZR (tai_minus_utc leaps e)) ds) with (map (dut1_of leaps u) ds).
  assert (EM : masked (map IZR ds) (mask_of (map (dut1_of leaps u) ds)) = []).
  { unfold ds. rewrite (mask_days leaps u HS Hu). cbn [days map masked]. rewrite masked_days. rewrite filter_all_false; [reflexivity|].
    intros a Ha. apply not_true_is_false. intros E. unfold is_leap in E. apply existsb_exists in E. destruct E as [b [Hb E]]. apply Z.eqb_eq in E. subst b.
    assert (G : forall n k, In a (days k n) -> (k <= a < k + Z.of_nat n)%Z).
    { induction n0 as [|m IH]; intros k H; [destruct H|]. destruct H as [<- |H]; [lia|]. apply IH in H. lia. }
    apply G in Ha. specialize (HN a Hb). lia. }
  rewrite EM. cbn [filter]. unfold Rgtb. destruct (Rlt_dec 41499 0); [lra|]. destruct (Rlt_dec 41683 0); [lra|]. cbn. split; reflexivity.
Qed.
