From Coq Require Import Reals ZArith List Bool Lra Lia Psatz Sorted.
From Verif Require Import Real_Math Real_Math_Proofs Vector_Model Geo_Model Geo_Proofs Almanac_Model Almanac_Spec Almanac_Proofs Find_Model Find_Spec Find_Proofs.
Import ListNotations.
Open Scope R_scope.

(** * The sample times *)
Lemma pairs_seq (f : nat -> R) : forall n a, pairs (map f (seq a (S n))) = map (fun i => (f i, f (S i))) (seq a n).
Proof.
  unfold pairs. induction n as [|n IH]; intros a; [reflexivity|]. specialize (IH (S a)). cbn [seq map tl combine] in *. f_equal. exact IH.
Qed.
Lemma rceil_bounds x : x <= IZR (rceil x) < x + 1.
Proof. unfold rceil. rewrite opp_IZR. pose proof (rfloor_bounds (- x)). lra. Qed.
Lemma samples tt0 tt1 : tt0 < tt1 -> exists n step, (0 < n)%nat /\ 0 < step <= 8 / 10 /\ tt0 + INR n * step = tt1 /\
  pairs (linspace tt0 tt1 (sample_count tt0 tt1)) = map (fun i => (tt0 + INR i * step, tt0 + INR (S i) * step)) (seq 0 n).
Proof.
  intros L. set (x := (tt1 - tt0) / (8 / 10)). assert (X0 : 0 < x) by (unfold x; lra). pose proof (rceil_bounds x) as CB. assert (0 < rceil x)%Z as CP by (apply lt_IZR; lra).
  exists (Z.to_nat (rceil x)), ((tt1 - tt0) / IZR (rceil x)). assert (N : INR (Z.to_nat (rceil x)) = IZR (rceil x)) by (rewrite INR_IZR_INZ, Z2Nat.id by lia; reflexivity).
  split; [lia|]. split; [|split].
  - split; [apply Rdiv_lt_0_compat; lra|]. apply Rmult_le_reg_r with (IZR (rceil x)); [lra|]. unfold Rdiv at 1. rewrite Rmult_assoc, Rinv_l by lra. unfold x in *. lra.
  - rewrite N. field. lra.
  - unfold sample_count. fold x. rewrite Z2Nat.inj_add by lia. change (Z.to_nat 1) with 1%nat. unfold linspace. rewrite Nat.add_sub, N, Nat.add_1_r. apply pairs_seq.
Qed.

(** * The results against the events *)
Section Results.
Variables ha desired : R -> R.
Variables w1 w2 : R.
Hypothesis Sky : turning_sky ha desired w1 w2.
Variable A : Type.
Variable result : R * R -> A.
Variable good : R * R -> R -> A -> Prop.
Hypothesis Hgood : forall s t e, s < t -> t - s <= 8 / 10 -> s <= e < t -> event ha desired e -> good (s, t) e (result (s, t)).
Lemma results_of step : 0 < step <= 8 / 10 -> forall n a t0, let p i := (t0 + INR i * step, t0 + INR (S i) * step) in
  exists es, StronglySorted Rlt es /\ (forall e, In e es <-> t0 + INR a * step <= e < t0 + INR (a + n) * step /\ event ha desired e) /\
    Forall2 (fun e r => exists i, (a <= i < a + n)%nat /\ fst (p i) <= e < snd (p i) /\ good (p i) e r) es (map result (filter (grows ha desired) (map p (seq a n)))).
Proof.
  destruct Sky as [Hw [Ht [H [D [SH [SD [GH GD]]]]]]]. intros Hs. induction n as [|n IH]; intros a t0 p.
  - exists []. split; [constructor|]. split; [|constructor]. intros e. rewrite Nat.add_0_r. split; [intros []|intros [B _]; lra].
  - destruct (IH (S a) t0) as [es [So [I F]]]. fold p in F.
    assert (P1 : fst (p a) < snd (p a) /\ snd (p a) - fst (p a) <= 8 / 10 /\ snd (p a) = t0 + INR (S a) * step /\ fst (p a) = t0 + INR a * step) by (unfold p; cbn [fst snd]; rewrite S_INR; lra). destruct P1 as [P1 [P2 [P3 P4]]].
    assert (AN : (S a + n = a + S n)%nat) by lia. rewrite AN in *.
    assert (LE : t0 + INR (S a) * step <= t0 + INR (a + S n) * step). { assert (INR (S a) <= INR (a + S n)) by (apply le_INR; lia). assert (INR (S a) * step <= INR (a + S n) * step) by (apply Rmult_le_compat_r; lra). lra. }
    assert (F' : Forall2 (fun e r => exists i, (a <= i < a + S n)%nat /\ fst (p i) <= e < snd (p i) /\ good (p i) e r) es (map result (filter (grows ha desired) (map p (seq (S a) n))))).
    { clear - F. induction F as [|e r es rs [i [Hi X]] F IHF]; constructor; [|exact IHF]. exists i. split; [lia|exact X]. }
    cbn [seq map filter]. pose proof (bracket_event ha desired D w1 w2 Hw Ht SD GD (fst (p a)) (snd (p a)) P1 P2) as BE. rewrite <- surjective_pairing in BE.
    destruct (grows ha desired (p a)) eqn:G.
    + destruct (proj1 BE eq_refl) as [e [He Ev]]. exists (e :: es). split; [|split].
      * constructor; [exact So|]. apply Forall_forall. intros e' He'. apply I in He'. lra.
      * intros e'. cbn [In]. rewrite I. split.
        -- intros [<-|[B X]]; [split; [lra|exact Ev]|split; [lra|exact X]].
        -- intros [B X]. destruct (Rlt_dec e' (snd (p a))) as [Y|Y]; [left|right; split; [lra|exact X]].
           apply (bracket_unique ha desired D w1 w2 Hw Ht SD GD (fst (p a)) (snd (p a)) e e' P1 P2); try lra; assumption.
      * cbn [map]. constructor; [|exact F']. exists a. split; [lia|]. split; [exact He|]. rewrite (surjective_pairing (p a)). apply Hgood; [exact P1|exact P2|exact He|exact Ev].
    + exists es. split; [exact So|]. split; [|exact F']. intros e'. rewrite I. split; [intros [B X]; split; [lra|exact X]|].
      intros [B X]. destruct (Rlt_dec e' (snd (p a))) as [Y|Y]; [|split; [lra|exact X]]. exfalso. assert (false = true) by (apply BE; exists e'; split; [lra|exact X]). discriminate.
Qed.
End Results.
(** The sample times, as the specification sees them. *)
Lemma searched ha desired w1 w2 A (result : R * R -> A) (good : R * R -> R -> A -> Prop) tt0 tt1 : turning_sky ha desired w1 w2 -> tt0 < tt1 ->
  (forall s t e, s < t -> t - s <= 8 / 10 -> s <= e < t -> event ha desired e -> good (s, t) e (result (s, t))) ->
  exists es, StronglySorted Rlt es /\ (forall e, In e es <-> tt0 <= e < tt1 /\ event ha desired e) /\
    Forall2 (fun e r => exists p, In p (pairs (linspace tt0 tt1 (sample_count tt0 tt1))) /\ fst p <= e < snd p /\ good p e r) es (map result (brackets ha desired tt0 tt1)).
Proof.
  intros Sky L Hg. destruct (samples tt0 tt1 L) as [n [step [Hn [Hs [En Ep]]]]]. destruct (results_of ha desired w1 w2 Sky A result good Hg step Hs n 0%nat tt0) as [es [So [I F]]].
  exists es. split; [exact So|]. split.
  - intros e. rewrite I. cbn [Nat.add]. rewrite En. cbn [INR]. replace (tt0 + 0 * step) with tt0 by ring. reflexivity.
  - unfold brackets. rewrite Ep. cbn [Nat.add] in F. revert F. generalize (map result (filter (grows ha desired) (map (fun i => (tt0 + INR i * step, tt0 + INR (S i) * step)) (seq 0 n)))). intros rs F.
    clear - F. induction F as [|e r es rs [i [Hi X]] F IH]; constructor; [|exact IH]. eexists. split; [|exact X]. apply in_map_iff. exists i. split; [reflexivity|]. apply in_seq. lia.
Qed.
Lemma transits_found ha desired w1 w2 tt0 tt1 : turning_sky ha desired w1 w2 -> (w2 - w1) / w1 <= 1 / 2 -> tt0 < tt1 ->
  exists es, StronglySorted Rlt es /\ (forall e, In e es <-> tt0 <= e < tt1 /\ event ha desired e) /\
    Forall2 (fun e r => In e (linspace tt0 tt1 (sample_count tt0 tt1)) \/ close (Rmax microsecond (((w2 - w1) / w1) ^ 4 / 5)) e r) es (find_transits ha desired tt0 tt1).
Proof.
  intros Sky Hr L.
  destruct (searched ha desired w1 w2 (option R) (fun p => option_map snd (rounds ha desired p))
    (fun p e r => e = fst p \/ close (Rmax microsecond (((w2 - w1) / w1) ^ 4 / 5)) e r) tt0 tt1 Sky L) as [es [So [I F]]].
  - intros s t e L' B He Ev. destruct (Req_dec e s) as [X|X]; [left; exact X|right]. destruct Sky as [Hw [Ht [H [D [SH [SD [GH GD]]]]]]].
    destruct (rounds_near ha desired H D w1 w2 Hw Ht SH SD GH GD s t e L' B ltac:(lra) Ev Hr) as [t2 [t3 [E [_ N]]]]. exists t3. rewrite E. split; [reflexivity|exact N].
  - exists es. split; [exact So|]. split; [exact I|]. clear - F. unfold find_transits. induction F as [|e r es rs [p [Hp [Hb [X|X]]]] F IH]; constructor; [|exact IH|right; exact X|exact IH].
    left. subst e. rewrite (surjective_pairing p) in Hp. unfold pairs in Hp. apply in_combine_l in Hp. exact Hp.
Qed.
Lemma cube_fourth q : 0 <= q -> q <= 1 / 2 -> q ^ 4 / 5 <= q ^ 3 / 5.
Proof.
  intros A B. cbn [pow]. assert (Q : 0 <= q * (q * (q * 1))) by (repeat apply Rmult_le_pos; lra).
  assert (q * (q * (q * (q * 1))) <= 1 * (q * (q * (q * 1)))) by (apply Rmult_le_compat_r; lra). lra.
Qed.
Lemma crossings_found ha desired above rate w1 w2 tt0 tt1 : turning_sky ha desired w1 w2 -> (w2 - w1) / w1 <= 1 / 2 -> tt0 < tt1 ->
  exists es, StronglySorted Rlt es /\ (forall e, In e es <-> tt0 <= e < tt1 /\ event ha desired e) /\
    Forall2 (close_crossing (4 * Rmax microsecond (((w2 - w1) / w1) ^ 3 / 5))) es (find_crossings ha desired above rate tt0 tt1).
Proof.
  intros Sky Hr L.
  destruct (searched ha desired w1 w2 (option (R * bool)) (fun p => match rounds ha desired p with None => None | Some (t2, t3) => last_step desired above rate t2 t3 end)
    (fun p e r => close_crossing (4 * Rmax microsecond (((w2 - w1) / w1) ^ 3 / 5)) e r) tt0 tt1 Sky L) as [es [So [I F]]].
  - intros s t e L' B He Ev x b. destruct Sky as [Hw [Ht [H [D [SH [SD [GH GD]]]]]]]. destruct (Req_dec e s) as [X|X].
    + subst e. rewrite (rounds_at_sample ha desired D w1 w2 Hw Ht SD GD s t L' B Ev). discriminate.
    + destruct (rounds_near ha desired H D w1 w2 Hw Ht SH SD GH GD s t e L' B ltac:(lra) Ev Hr) as [t2 [t3 [E [N2 N3]]]]. rewrite E. intros E2.
      apply (last_step_near desired above rate t2 t3 e x b _ E2 N2). eapply Rle_trans; [exact N3|]. apply Rle_max_compat_l. apply cube_fourth; [exact (rho_pos w1 w2 Hw)|exact Hr].
  - exists es. split; [exact So|]. split; [exact I|]. clear - F. unfold find_crossings. induction F as [|e r es rs [p [Hp [Hb X]]] F IH]; constructor; [exact X|exact IH].
Qed.
(** ** An event at a sample time *)
Lemma steady : turning_sky (fun t => tau * t) (fun _ => 0) tau tau.
Proof.
  pose proof tau_pos. split; [lra|]. split; [lra|]. exists (fun t => tau * t), (fun t => tau * t). repeat split.
  - intros t. exists 0%Z. ring.
  - intros t. exists 0%Z. ring.
  - nra.
  - nra.
  - nra.
  - nra.
Qed.
Lemma start_lost : find_transits (fun t => tau * t) (fun _ => 0) 0 (1 / 2) = [None] /\ event (fun t => tau * t) (fun _ => 0) 0.
Proof.
  pose proof tau_pos. assert (Ev : event (fun t => tau * t) (fun _ => 0) 0) by (exists 0%Z; ring). split; [|exact Ev].
  destruct (samples 0 (1 / 2) ltac:(lra)) as [n [step [Hn [Hs [En Ep]]]]].
  assert (N1 : n = 1%nat).
  { clear Hn Hs En. assert (C : rceil ((1 / 2 - 0) / (8 / 10)) = 1%Z). { unfold rceil. assert (F : rfloor (- ((1 / 2 - 0) / (8 / 10))) = (-1)%Z) by (apply rfloor_unique; lra). rewrite F. reflexivity. }
    unfold sample_count in Ep. rewrite C in Ep. apply (f_equal (@length _)) in Ep. rewrite map_length, seq_length in Ep. change (Z.to_nat (1 + 1)) with 2%nat in Ep. cbn [linspace pairs seq map tl combine length] in Ep. symmetry. exact Ep. }
  subst n. unfold find_transits, brackets. rewrite Ep. cbn [seq map INR]. replace (0 + 0 * step) with 0 by ring. assert (S1 : step = 1 / 2) by (cbn [INR] in En; lra). replace (0 + 1 * step) with (1 / 2) by lra.
  destruct steady as [Hw [Ht [H' [D [SH [SD [GH GD]]]]]]]. assert (G : grows (fun t => tau * t) (fun _ => 0) (0, 1 / 2) = true).
  { apply (bracket_event (fun t => tau * t) (fun _ => 0) D tau tau Hw Ht SD GD 0 (1 / 2)); [lra|lra|]. exists 0. split; [lra|exact Ev]. }
  cbn [filter]. rewrite G. cbn [map]. rewrite (rounds_at_sample (fun t => tau * t) (fun _ => 0) D tau tau Hw Ht SD GD 0 (1 / 2) ltac:(lra) ltac:(lra) Ev). reflexivity.
Qed.
(** ** The flag *)
Lemma rmod_pi_zero a : 0 < a < PI -> rmod a PI <> 0 /\ rmod (- a) PI <> 0.
Proof.
  intros B. split.
  - rewrite rmod_id by lra. lra.
  - rewrite (rmod_unique (- a) PI (PI - a) (-1)); try lra.
Qed.
Lemma flag_false desired above rate t2 t3 x lat dec h : last_step desired above rate t2 t3 = Some (x, false) ->
  - (PI / 2) < lat < PI / 2 -> - (PI / 2) < dec < PI / 2 -> - (PI / 2) <= h <= PI / 2 -> 
  desired t2 = setting_hour_angle lat dec h \/ desired t2 = rising_hour_angle lat dec h ->
  ~ exists ha hb, altitude_at lat dec ha < h < altitude_at lat dec hb.
Proof.
  intros E Hl Hd Hh Hs [ka [kb [La Lb]]]. unfold last_step in E. destruct (intersection _ _ _ _) as [q|]; [|discriminate]. injection E as _ E. destruct (Req_EM_T (rmod (desired t2) PI) 0) as [Z|Z]; [|discriminate].
  destruct (altitude_sin lat dec ka) as [Ba Ea]. destruct (altitude_sin lat dec kb) as [Bb Eb].
  assert (Sa : sin (altitude_at lat dec ka) < sin h) by (apply sin_increasing_1; lra). assert (Sb : sin h < sin (altitude_at lat dec kb)) by (apply sin_increasing_1; lra).
  rewrite Ea in Sa. rewrite Eb in Sb. assert (0 < cos lat) by (apply cos_gt_0; lra). assert (0 < cos dec) by (apply cos_gt_0; lra). assert (P : 0 < cos lat * cos dec) by (apply Rmult_lt_0_compat; lra).
  set (c := (sin h - sin lat * sin dec) / (cos lat * cos dec)). assert (C1 : c * (cos lat * cos dec) = sin h - sin lat * sin dec) by (unfold c; field; lra).
  pose proof (COS_bound ka). pose proof (COS_bound kb). assert (-1 < c < 1) as Bc by (split; nra).
  pose proof (acos_bound_lt c Bc) as AB. assert (SA : setting_hour_angle lat dec h = acos c). { unfold setting_hour_angle. fold c. unfold clip, Rmax, Rmin. destruct (Rle_dec c (-1)); [lra|]. destruct (Rle_dec c 1); [reflexivity|lra]. }
  destruct (rmod_pi_zero (acos c) AB) as [N1 N2]. destruct Hs as [Hs|Hs]; rewrite Hs in Z; unfold rising_hour_angle in Z; rewrite SA in Z; contradiction.
Qed.
Lemma flag_true desired above rate t2 t3 x lat dec h : last_step desired above rate t2 t3 = Some (x, true) ->
  - (PI / 2) < lat < PI / 2 -> - (PI / 2) < dec < PI / 2 -> - (PI / 2) <= h <= PI / 2 -> 
  desired t2 = setting_hour_angle lat dec h \/ desired t2 = rising_hour_angle lat dec h ->
  (exists ha hb, altitude_at lat dec ha < h < altitude_at lat dec hb) \/
  (exists k, x = t2 + k * (t3 - t2) /\ -1 < k < 2 /\ intersection (above t2) (above t3) (rate t2 * (t3 - t2)) (rate t3 * (t3 - t2)) = Some k).
Proof.
  intros E Hl Hd Hh Hs. unfold last_step in E. destruct (intersection _ _ _ _) as [q|]; [|discriminate]. injection E as Ex E. pose proof PI_RGT_0 as PP.
  destruct (Req_EM_T (rmod (desired t2) PI) 0) as [Z|Z].
  - right. exists q. unfold clip, Rmax, Rmin in *. destruct (Rle_dec q (-1)); destruct (Rle_dec _ 2) in *; destruct (Rlt_dec _ _) in E; try discriminate; destruct (Rlt_dec _ _) in E; try discriminate; try lra; (split; [lra|split; [lra|reflexivity]]).
  - left. pose proof (setting_range lat dec h) as SR. exists PI, 0.
    assert (0 < setting_hour_angle lat dec h < PI) as B.
    { assert (R0 : rmod 0 PI = 0) by (apply rmod_id; lra). assert (R1 : rmod PI PI = 0) by (apply (rmod_unique PI PI 0 1); lra). assert (R2 : rmod (- PI) PI = 0) by (apply (rmod_unique (- PI) PI 0 (-1)); lra).
      destruct (Req_dec (setting_hour_angle lat dec h) 0) as [E0|N0].
      - exfalso. destruct Hs as [Hs|Hs]; rewrite Hs in Z; unfold rising_hour_angle in Z; rewrite E0, ?Ropp_0 in Z; contradiction.
      - destruct (Req_dec (setting_hour_angle lat dec h) PI) as [E1|N1]; [|lra]. exfalso. destruct Hs as [Hs|Hs]; rewrite Hs in Z; unfold rising_hour_angle in Z; rewrite E1 in Z; contradiction. }
    split; apply setting_sides; try assumption; try lra; rewrite ?Rabs_R0, ?(Rabs_pos_eq PI) by lra; lra.
Qed.
(** ** What the events are *)
Lemma altitude_cos lat dec a b : cos a = cos b -> altitude_at lat dec a = altitude_at lat dec b.
Proof.
  intros E. destruct (altitude_sin lat dec a) as [Ba Ea]. destruct (altitude_sin lat dec b) as [Bb Eb]. apply sin_inj_eq; [assumption|assumption|]. rewrite Ea, Eb, E. reflexivity.
Qed.
Lemma turns_cos d a k : d - a = tau * IZR k -> cos a = cos d.
Proof. intros E. replace a with (d + tau * IZR (- k)) by (rewrite opp_IZR; lra). apply cos_tau. Qed.
Lemma turns_sin d a k : d - a = tau * IZR k -> sin a = sin d.
Proof. intros E. replace a with (d + tau * IZR (- k)) by (rewrite opp_IZR; lra). apply sin_tau. Qed.
Lemma same_turns a b : cos a = cos b -> sin a = sin b -> exists k, a - b = tau * IZR k.
Proof.
  intros C S. destruct (rmod_shift a tau) as [j Ej]. destruct (rmod_shift b tau) as [i Ei]. pose proof tau_pos as T. pose proof (rmod_bounds a tau T). pose proof (rmod_bounds b tau T).
  assert (E : rmod a tau = rmod b tau) by (apply angle_unique; [rewrite !cos_rmod; exact C|rewrite !sin_rmod; exact S|unfold tau in *; lra]).
  exists (i - j)%Z. rewrite minus_IZR. lra.
Qed.
Lemma crossing_event ha lat dec h e : - (PI / 2) < lat < PI / 2 -> - (PI / 2) < dec e < PI / 2 -> - (PI / 2) <= h e <= PI / 2 ->
  (exists k, altitude_at lat (dec e) k = h e) ->
  (event ha (fun t => setting_hour_angle lat (dec t) (h t)) e <-> altitude_at lat (dec e) (ha e) = h e /\ 0 <= sin (ha e)) /\
  (event ha (fun t => rising_hour_angle lat (dec t) (h t)) e <-> altitude_at lat (dec e) (ha e) = h e /\ sin (ha e) <= 0).
Proof.
  intros Hl Hd Hh Ex. destruct (setting_exact lat (dec e) (h e) Hl Hd Hh Ex) as [S R]. unfold event. cbn beta. set (s := setting_hour_angle lat (dec e) (h e)) in *. unfold rising_hour_angle in *. fold s in R |- *.
  pose proof (setting_range lat (dec e) (h e)) as SR. fold s in SR. assert (Ps : 0 <= sin s) by (apply sin_ge_0; lra). pose proof (cc_pos lat (dec e) Hl Hd) as CC.
  assert (Hc : forall k, altitude_at lat (dec e) k = h e -> cos k = cos s).
  { intros k Hk. destruct (altitude_sin lat (dec e) k) as [_ E1]. destruct (altitude_sin lat (dec e) s) as [_ E2]. rewrite Hk in E1. rewrite S in E2. apply Rmult_eq_reg_l with (cos lat * cos (dec e)); lra. }
  assert (Hs : forall k, cos k = cos s -> sin k = sin s \/ sin k = - sin s).
  { intros k Hk. pose proof (sc2 k) as Q1. pose proof (sc2 s) as Q2. rewrite Hk in Q1. assert (Q : (sin k - sin s) * (sin k + sin s) = 0) by lra. apply Rmult_integral in Q. lra. }
  split; split.
  - intros [k Hk]. split; [rewrite (altitude_cos lat (dec e) (ha e) s (turns_cos _ _ _ Hk)); exact S|rewrite (turns_sin _ _ _ Hk); exact Ps].
  - intros [Ha Hp]. pose proof (Hc _ Ha) as C. apply same_turns; [symmetry; exact C|]. destruct (Hs _ C) as [X|X]; lra.
  - intros [k Hk]. split; [rewrite (altitude_cos lat (dec e) (ha e) (- s) (turns_cos _ _ _ Hk)); exact R|rewrite (turns_sin _ _ _ Hk), sin_neg; lra].
  - intros [Ha Hp]. pose proof (Hc _ Ha) as C. apply same_turns; [rewrite cos_neg; symmetry; exact C|]. rewrite sin_neg. destruct (Hs _ C) as [X|X]; lra.
Qed.
Lemma transit_event ha lat dec e : - (PI / 2) < lat < PI / 2 -> - (PI / 2) < dec e < PI / 2 ->
  (event ha (fun t => transit_ha lat (dec t) 0) e <-> forall k, altitude_at lat (dec e) k <= altitude_at lat (dec e) (ha e)).
Proof.
  intros Hl Hd. pose proof (cc_pos lat (dec e) Hl Hd) as CC. unfold event, transit_ha. split.
  - intros [k Hk] a. assert (C : cos (ha e) = 1) by (rewrite (turns_cos _ _ _ Hk); apply cos_0). destruct (altitude_sin lat (dec e) a) as [B1 E1]. destruct (altitude_sin lat (dec e) (ha e)) as [B2 E2].
    apply sin_incr_0; try lra. rewrite E1, E2, C. pose proof (COS_bound a) as [_ CB]. assert (cos lat * cos (dec e) * cos a <= cos lat * cos (dec e) * 1) by (apply Rmult_le_compat_l; lra). lra.
  - intros M. specialize (M 0). destruct (altitude_sin lat (dec e) 0) as [B1 E1]. destruct (altitude_sin lat (dec e) (ha e)) as [B2 E2]. apply sin_incr_1 in M; try lra. rewrite E1, E2, cos_0 in M.
    pose proof (COS_bound (ha e)) as [_ CB]. assert (C : cos (ha e) = 1) by nra. apply same_turns; [rewrite cos_0; lra|]. rewrite sin_0. pose proof (sc2 (ha e)) as Q. rewrite C in Q. assert (sin (ha e) * sin (ha e) = 0) as Z by lra. apply Rmult_integral in Z. lra.
Qed.
(** ** The horizon *)
Lemma horizon_minutes d : 0 < d ->
  horizon_of Sun d = - (50 / 60) * (PI / 180) /\ horizon_of Other d = - (34 / 60) * (PI / 180) /\
  horizon_of Moon d = - (34 / 60) * (PI / 180) - 1737400 / d.
Proof. intros Hd. unfold horizon_of, tau. repeat split; field; lra. Qed.
Lemma flag_ex : last_step (fun _ => 0) (fun t => t - 4) (fun _ => 1) 0 1 = Some (2, false) /\ setting_hour_angle 0 0 (PI / 2) = 0 /\
  last_step (fun _ => PI / 2) (fun t => t) (fun _ => 1) 0 1 = Some (0, true) /\ setting_hour_angle 0 0 0 = PI / 2.
Proof.
  pose proof PI_RGT_0 as PP. repeat split.
  - unfold last_step, intersection, q_root. destruct (Rlt_dec (1 - 4) (0 - 4)); [lra|].
    replace (1 * (1 - 0) * (1 * (1 - 0)) - 4 * (1 - 4 - (0 - 4) - 1 * (1 - 0)) * (0 - 4)) with 1 by ring. rewrite Rmax_left by lra. rewrite sqrt_1.
    destruct (Req_EM_T _ 0); [lra|]. replace (- (2 * (0 - 4)) / (1 * (1 - 0) + (1 - 2 * 0) * 1)) with 4 by field. unfold clip. rewrite Rmax_left by lra. rewrite Rmin_right by lra.
    rewrite (rmod_id 0 PI) by lra. destruct (Req_EM_T 0 0); [|lra]. destruct (Rlt_dec (-1) 2); [|lra]. destruct (Rlt_dec 2 2); [lra|]. f_equal. f_equal. ring.
  - unfold setting_hour_angle. rewrite sin_PI2, sin_0, cos_0. replace ((1 - 0 * 0) / (1 * 1)) with 1 by field. unfold clip. rewrite Rmax_left by lra. rewrite Rmin_left by lra. apply acos_1.
  - unfold last_step, intersection, q_root. destruct (Rlt_dec 1 0); [lra|].
    replace (1 * (1 - 0) * (1 * (1 - 0)) - 4 * (1 - 0 - 1 * (1 - 0)) * 0) with 1 by ring. rewrite Rmax_left by lra. rewrite sqrt_1.
    destruct (Req_EM_T _ 0); [lra|]. replace (- (2 * 0) / (1 * (1 - 0) + (1 - 2 * 0) * 1)) with 0 by field. unfold clip. rewrite Rmax_left by lra. rewrite Rmin_left by lra.
    rewrite (rmod_id (PI / 2) PI) by lra. destruct (Req_EM_T (PI / 2) 0); [lra|]. f_equal. f_equal. ring.
  - unfold setting_hour_angle. rewrite sin_0, cos_0. replace ((0 - 0 * 0) / (1 * 1)) with 0 by field. unfold clip. rewrite Rmax_left by lra. rewrite Rmin_left by lra. apply acos_0.
Qed.

(** A parabola is followed exactly. *)
Lemma parabola_exact desired above rate t2 t3 a b c : (forall t, above t = a * (t - t2) ^ 2 + b * (t - t2) + c) -> derivable_pt_lim above t2 (rate t2) ->
  t2 <> t3 -> above t2 <> 0 -> above t2 * above t3 <= 0 ->
  exists k, last_step desired above rate t2 t3 = Some (t2 + k * (t3 - t2), true) /\ 0 < k <= 1 /\ above (t2 + k * (t3 - t2)) = 0.
Proof.
  intros A Dr N N0 S. assert (Er : rate t2 = b).
  { apply (uniqueness_limite above t2); [exact Dr|]. assert (Db : derivable_pt_lim (fun t => a * (t - t2) ^ 2 + b * (t - t2) + c) t2 b).
    { intros e He. exists (mkposreal (e / (Rabs a + 1)) ltac:(apply Rdiv_lt_0_compat; [exact He|pose proof (Rabs_pos a); lra])).
      intros h Hh Bh. cbn [pos] in Bh. replace ((a * (t2 + h - t2) ^ 2 + b * (t2 + h - t2) + c - (a * (t2 - t2) ^ 2 + b * (t2 - t2) + c)) / h - b) with (a * h) by (field; exact Hh).
      rewrite Rabs_mult. pose proof (Rabs_pos a) as Pa. pose proof (Rabs_pos h). assert (E : (Rabs a + 1) * (e / (Rabs a + 1)) = e) by (field; lra). assert (Rabs h * (Rabs a + 1) < e / (Rabs a + 1) * (Rabs a + 1)) by (apply Rmult_lt_compat_r; lra). assert (0 < Rabs h) by (apply Rabs_pos_lt; exact Hh). nra. }
    intros e He. destruct (Db e He) as [dl Hd]. exists dl. intros h Hh Bh. rewrite !A. exact (Hd h Hh Bh). }
  destruct (intersection_ok (above t2) (above t3) (rate t2 * (t3 - t2)) (rate t3 * (t3 - t2)) N0 S) as (x & Ex & Bx & P). cbv zeta in P. destruct P as [P _].
  exists x. split; [|split; [exact Bx|]].
  - unfold last_step. cbv zeta. rewrite Ex. assert (C : clip x (-1) 2 = x). { unfold clip, Rmin, Rmax. destruct (Rle_dec x (-1)); destruct (Rle_dec _ 2); lra. } rewrite C.
    destruct (Rlt_dec (-1) x); [|lra]. destruct (Rlt_dec x 2); [|lra]. destruct (Req_EM_T _ 0); reflexivity.
  - rewrite Er, (A t2), (A t3) in P. rewrite A. rewrite <- P. ring.
Qed.
Lemma parabola_case : let above t := t * t - 2 in (forall t, above t = 1 * (t - 1) ^ 2 + 2 * (t - 1) + -1) /\ derivable_pt_lim above 1 2 /\ above 1 * above 2 <= 0.
Proof.
  cbv zeta. split; [intros t; ring|]. split; [|lra]. intros e He. exists (mkposreal e He). intros h Hh Bh. cbn [pos] in Bh.
  replace (((1 + h) * (1 + h) - 2 - (1 * 1 - 2)) / h - 2) with h by (field; exact Hh). exact Bh.
Qed.
