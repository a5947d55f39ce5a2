From Coq Require Import Reals ZArith List Bool Lra Lia Psatz.
From Verif Require Import Real_Math Real_Math_Proofs Almanac_Model Find_Model Find_Spec.
Import ListNotations.
Open Scope R_scope.

(** * Rising at a bounded rate *)
Lemma grows_continuous w1 w2 f : 0 < w1 <= w2 -> grows_between w1 w2 f -> continuity f.
Proof.
  intros Hw Hf t eps He. exists (eps / w2). split; [apply Rdiv_lt_0_compat; lra|]. intros x [_ Hx]. cbn in *. unfold R_dist in *.
  assert (E : w2 * (eps / w2) = eps) by (field; lra). destruct (Rle_dec t x) as [L|L].
  - pose proof (Hf t x L). rewrite Rabs_right in Hx by lra. assert (w2 * (x - t) < w2 * (eps / w2)) by (apply Rmult_lt_compat_l; lra). assert (0 <= w1 * (x - t)) by (apply Rmult_le_pos; lra). rewrite Rabs_right; lra.
  - pose proof (Hf x t ltac:(lra)). rewrite Rabs_left1 in Hx by lra. assert (w2 * (t - x) < w2 * (eps / w2)) by (apply Rmult_lt_compat_l; lra). assert (0 <= w1 * (t - x)) by (apply Rmult_le_pos; lra). rewrite Rabs_left1; lra.
Qed.
Lemma grows_strict w1 w2 f s t : 0 < w1 <= w2 -> grows_between w1 w2 f -> s < t -> f s < f t.
Proof. intros Hw Hf L. pose proof (Hf s t ltac:(lra)). assert (0 < w1 * (t - s)) by (apply Rmult_lt_0_compat; lra). lra. Qed.
Lemma grows_inj w1 w2 f s t : 0 < w1 <= w2 -> grows_between w1 w2 f -> f s = f t -> s = t.
Proof.
  intros Hw Hf E. destruct (Rtotal_order s t) as [L|[L|L]]; [|exact L|]; [pose proof (grows_strict w1 w2 f s t Hw Hf L)|pose proof (grows_strict w1 w2 f t s Hw Hf L)]; lra.
Qed.
Lemma grows_reaches w1 w2 f s t y : 0 < w1 <= w2 -> grows_between w1 w2 f -> s < t -> f s <= y < f t -> exists e, s <= e < t /\ f e = y.
Proof.
  intros Hw Hf L Hy. pose proof (grows_continuous w1 w2 f Hw Hf) as Cf.
  destruct (IVT_cor (fun x => f x - y) s t) as [e [He Ee]].
  - intros x. apply continuity_pt_minus; [apply Cf|apply continuity_pt_const; intros a b; reflexivity].
  - lra.
  - assert (f s - y <= 0) by lra. assert (0 <= f t - y) by lra. nra.
  - exists e. split; [|lra]. split; [lra|]. destruct (Req_dec e t) as [X|X]; [subst e; lra|lra].
Qed.
(** Slope between two different moments. *)
Lemma slope w1 w2 f s t : 0 < w1 <= w2 -> grows_between w1 w2 f -> s <> t -> exists m, w1 <= m <= w2 /\ f t - f s = m * (t - s).
Proof.
  intros Hw Hf N. exists ((f t - f s) / (t - s)). split; [|field; lra]. destruct (Rle_dec s t) as [L|L].
  - pose proof (Hf s t L). split; [apply Rmult_le_reg_r with (t - s)|apply Rmult_le_reg_r with (t - s)]; try lra; unfold Rdiv; rewrite Rmult_assoc, Rinv_l by lra; lra.
  - pose proof (Hf t s ltac:(lra)). replace ((f t - f s) / (t - s)) with ((f s - f t) / (s - t)) by (field; lra). split; apply Rmult_le_reg_r with (s - t); try lra; unfold Rdiv; rewrite Rmult_assoc, Rinv_l by lra; lra.
Qed.

(** * The search *)
Section Sky.
Variables ha desired H D : R -> R.
Variables w1 w2 : R.
Hypothesis Hw : 0 < w1 <= w2.
Hypothesis Hturn : w2 * (8 / 10) < tau.
Hypothesis SH : same_angle ha H.
Hypothesis SD : same_angle (fun t => desired t - ha t) (fun t => - D t).
Hypothesis GH : grows_between w1 w2 H.
Hypothesis GD : grows_between w1 w2 D.
Notation diff := (difference ha desired).

Lemma diff_D t : exists k, D t + diff t = tau * IZR k /\ 0 <= diff t < tau.
Proof.
  pose proof tau_pos. destruct (rmod_shift (desired t - ha t) tau) as [k Ek]. destruct (SD t) as [j Ej]. cbn beta in Ej. exists (j + k)%Z. split; [|apply rmod_bounds; assumption].
  unfold difference. rewrite Ek, Ej, plus_IZR. ring.
Qed.
Lemma event_D t : event ha desired t <-> exists k, D t = tau * IZR k.
Proof.
  destruct (SD t) as [j Ej]. cbn beta in Ej. split; intros [k Ek].
  - exists (j - k)%Z. rewrite minus_IZR. lra.
  - exists (j - k)%Z. rewrite minus_IZR. lra.
Qed.
Lemma turn_less s t : s < t -> t - s <= 8 / 10 -> 0 < D t - D s < tau.
Proof.
  intros L B. pose proof (GD s t ltac:(lra)). assert (0 < w1 * (t - s)) by (apply Rmult_lt_0_compat; lra). assert (w2 * (t - s) <= w2 * (8 / 10)) by (apply Rmult_le_compat_l; lra). lra.
Qed.
Lemma int_between k x : 0 < x < tau -> tau * IZR k = x -> False.
Proof.
  intros B E. pose proof tau_pos. destruct (Z_le_gt_dec k 0) as [L|L].
  - apply IZR_le in L. nra.
  - assert (1 <= k)%Z as L' by lia. apply IZR_le in L'. nra.
Qed.
(** [difference] grows exactly when the event is between. *)
Lemma grows_iff s t : s < t -> t - s <= 8 / 10 -> grows ha desired (s, t) = true <-> diff s < D t - D s.
Proof.
  intros L B. pose proof (turn_less s t L B) as T. destruct (diff_D s) as [k [Ek Bk]]. destruct (diff_D t) as [j [Ej Bj]]. pose proof tau_pos as TP.
  unfold grows. cbn [fst snd]. assert (Q : diff t = diff s - (D t - D s) \/ diff t = diff s - (D t - D s) + tau).
  { assert (Hq : diff t - (diff s - (D t - D s)) = tau * IZR (j - k)) by (rewrite minus_IZR; lra).
    destruct (Z.eq_dec (j - k) 0) as [Z0|Z0]; [left; rewrite Z0 in Hq; lra|]. destruct (Z.eq_dec (j - k) 1) as [Z1|Z1]; [right; rewrite Z1 in Hq; lra|]. exfalso.
    destruct (Z_le_gt_dec (j - k) (-1)) as [Y|Y]; [apply IZR_le in Y; nra|]. assert (2 <= j - k)%Z as Y' by lia. apply IZR_le in Y'. nra. }
  destruct (Rlt_dec 0 (diff t - diff s)) as [G|G]; split; intros X; try reflexivity; try discriminate; destruct Q; lra.
Qed.
Lemma event_between s t e : s < t -> t - s <= 8 / 10 -> s <= e < t -> event ha desired e -> D e = D s + diff s.
Proof.
  intros L B He Ev. apply event_D in Ev. destruct Ev as [k Ek]. destruct (diff_D s) as [j [Ej Bj]]. pose proof (turn_less s t L B).
  assert (D s <= D e). { destruct (Req_dec s e) as [<-|N]; [lra|]. pose proof (grows_strict w1 w2 D s e Hw GD ltac:(lra)). lra. }
  pose proof (grows_strict w1 w2 D e t Hw GD ltac:(lra)). pose proof tau_pos.
  assert (X : tau * IZR (k - j) = D e - D s - diff s) by (rewrite minus_IZR; lra).
  destruct (Z.eq_dec (k - j) 0) as [Z0|Z0]; [rewrite Z0 in X; lra|]. exfalso. destruct (Z_le_gt_dec (k - j) (-1)) as [Y|Y]; [apply IZR_le in Y; nra|]. assert (1 <= k - j)%Z as Y' by lia. apply IZR_le in Y'. nra.
Qed.
Lemma bracket_event s t : s < t -> t - s <= 8 / 10 -> grows ha desired (s, t) = true <-> exists e, s <= e < t /\ event ha desired e.
Proof.
  intros L B. rewrite (grows_iff s t L B). destruct (diff_D s) as [k [Ek Bk]]. split.
  - intros Hd. destruct (grows_reaches w1 w2 D s t (D s + diff s) Hw GD L ltac:(lra)) as [e [He Ee]]. exists e. split; [exact He|]. apply event_D. exists k. lra.
  - intros [e [He Ev]]. pose proof (event_between s t e L B He Ev). pose proof (grows_strict w1 w2 D e t Hw GD ltac:(lra)). lra.
Qed.
Lemma bracket_unique s t e e' : s < t -> t - s <= 8 / 10 -> s <= e < t -> s <= e' < t -> event ha desired e -> event ha desired e' -> e = e'.
Proof.
  intros L B He He' Ev Ev'. apply (grows_inj w1 w2 D e e' Hw GD). rewrite (event_between s t e), (event_between s t e'); auto.
Qed.

(** ** The three rounds *)
Definition rho : R := (w2 - w1) / w1.
Lemma rho_eq : w2 = w1 * (1 + rho). Proof. unfold rho. field. lra. Qed.
Lemma rho_pos : 0 <= rho. Proof. unfold rho. apply Rmult_le_pos; [lra|]. apply Rlt_le, Rinv_0_lt_compat. lra. Qed.
Lemma interpolated_near s t e : s < t -> t - s <= 8 / 10 -> s <= e < t -> event ha desired e ->
  Rabs (interpolated ha desired (s, t) - e) <= rho / 5 /\ s <= interpolated ha desired (s, t) <= t /\ (s < e -> s < interpolated ha desired (s, t)).
Proof.
  intros L B He Ev. pose proof (event_between s t e L B He Ev) as Ee. pose proof (proj2 (bracket_event s t L B) (ex_intro _ e (conj He Ev))) as G. apply (grows_iff s t L B) in G.
  pose proof (turn_less s t L B) as T. destruct (diff_D s) as [k [Ek Bk]]. destruct (diff_D t) as [j [Ej Bj]]. pose proof tau_pos as TP.
  assert (Ed : tau - diff t = D t - D e).
  { assert (X : diff t - (diff s - (D t - D s)) = tau * IZR (j - k)) by (rewrite minus_IZR; lra).
    destruct (Z.eq_dec (j - k) 1) as [Z1|Z1]; [rewrite Z1 in X; lra|]. exfalso. destruct (Z_le_gt_dec (j - k) 0) as [Y|Y]; [apply IZR_le in Y; nra|]. assert (2 <= j - k)%Z as Y' by lia. apply IZR_le in Y'. nra. }
  unfold interpolated. cbn [fst snd]. rewrite Ed. replace (diff s) with (D e - D s) by lra.
  assert (Hm2 : exists m, w1 <= m <= w2 /\ D t - D e = m * (t - e)) by (apply (slope w1 w2 D e t Hw GD); lra). destruct Hm2 as [m2 [B2 E2]].
  assert (Hm1 : exists m, w1 <= m <= w2 /\ D e - D s = m * (e - s)). { destruct (Req_dec s e) as [<-|N]; [exists w1; split; [lra|ring]|apply (slope w1 w2 D s e Hw GD N)]. } destruct Hm1 as [m1 [B1 E1]].
  rewrite E1, E2. set (x := e - s) in *. set (y := t - e) in *. assert (0 <= x) by (unfold x; lra). assert (0 < y) by (unfold y; lra).
  assert (N0 : 0 < m1 * x + m2 * y) by nra.
  assert (I : (m2 * y * s + m1 * x * t) / (m1 * x + m2 * y) = e + x * y * (m1 - m2) / (m1 * x + m2 * y)). { replace t with (e + y) by (unfold y; ring). replace s with (e - x) by (unfold x; ring). field. lra. }
  rewrite I.
  assert (J : (m2 * y * s + m1 * x * t) / (m1 * x + m2 * y) = s + m1 * x * (x + y) / (m1 * x + m2 * y)). { replace t with (s + (x + y)) by (unfold x, y; ring). field. lra. }
  assert (K : (m2 * y * s + m1 * x * t) / (m1 * x + m2 * y) = t - m2 * y * (x + y) / (m1 * x + m2 * y)). { replace s with (t - (x + y)) by (unfold x, y; ring). field. lra. }
  assert (IN : 0 < / (m1 * x + m2 * y)) by (apply Rinv_0_lt_compat; lra).
  split; [|split].
  - replace (e + x * y * (m1 - m2) / (m1 * x + m2 * y) - e) with ((m1 - m2) * (x * y / (m1 * x + m2 * y))) by (field; lra).
    rewrite Rabs_mult. assert (P : 0 <= x * y / (m1 * x + m2 * y)) by (apply Rmult_le_pos; [nra|lra]). rewrite (Rabs_right (x * y / _)) by lra.
    assert (Q : x * y / (m1 * x + m2 * y) <= (x + y) / (4 * w1)).
    { apply Rmult_le_reg_r with (m1 * x + m2 * y); [lra|]. unfold Rdiv at 1. rewrite Rmult_assoc, Rinv_l, Rmult_1_r by lra.
      apply Rle_trans with ((x + y) / (4 * w1) * (w1 * (x + y))).
      - replace ((x + y) / (4 * w1) * (w1 * (x + y))) with ((x + y) * (x + y) / 4) by (field; lra). pose proof (Rle_0_sqr (x - y)). unfold Rsqr in *. lra.
      - apply Rmult_le_compat_l; [apply Rmult_le_pos; [lra|apply Rlt_le, Rinv_0_lt_compat; lra]|]. assert (w1 * x <= m1 * x) by (apply Rmult_le_compat_r; lra). assert (w1 * y <= m2 * y) by (apply Rmult_le_compat_r; lra). lra. }
    assert (A : Rabs (m1 - m2) <= w2 - w1) by (apply Rabs_le; lra).
    apply Rle_trans with ((w2 - w1) * ((8 / 10) / (4 * w1))); [|unfold rho; apply Req_le; field; lra].
    apply Rmult_le_compat; [apply Rabs_pos|exact P|exact A|]. eapply Rle_trans; [exact Q|]. apply Rmult_le_compat_r; [apply Rlt_le, Rinv_0_lt_compat; lra|]. unfold x, y. lra.
  - rewrite <- I. split; [rewrite J|rewrite K].
    + assert (0 <= m1 * x * (x + y) / (m1 * x + m2 * y)) by (apply Rmult_le_pos; [apply Rmult_le_pos; nra|lra]). lra.
    + assert (0 <= m2 * y * (x + y) / (m1 * x + m2 * y)) by (apply Rmult_le_pos; [apply Rmult_le_pos; nra|lra]). lra.
  - intros S. rewrite <- I, J. assert (0 < x) by (unfold x; lra). assert (0 < m1 * x * (x + y) / (m1 * x + m2 * y)) by (apply Rdiv_lt_0_compat; [apply Rmult_lt_0_compat; nra|lra]). lra.
Qed.
Lemma pm_id x : - PI <= x < PI -> plus_or_minus_pi x = x.
Proof. intros B. unfold plus_or_minus_pi. rewrite rmod_id; unfold tau; lra. Qed.
Lemma rmod_turns x k : rmod (x + tau * IZR k) tau = rmod x tau.
Proof.
  pose proof tau_pos as T. destruct (rmod_shift x tau) as [j Ej]. apply rmod_unique with (k := (k - j)%Z); [exact T|apply rmod_bounds, T|]. rewrite Ej, minus_IZR. ring.
Qed.
Lemma pm_turns x k : plus_or_minus_pi (x + tau * IZR k) = plus_or_minus_pi x.
Proof. unfold plus_or_minus_pi. replace (x + tau * IZR k + PI) with (x + PI + tau * IZR k) by ring. rewrite rmod_turns. reflexivity. Qed.
(** What is left to turn, near an event. *)
Lemma adjustment t e : event ha desired e -> Rabs (t - e) <= 3 / 10 -> plus_or_minus_pi (desired t - ha t) = D e - D t.
Proof.
  intros Ev B. apply event_D in Ev. destruct Ev as [k Ek]. destruct (SD t) as [j Ej]. cbn beta in Ej. rewrite Ej.
  replace (- D t + tau * IZR j) with (D e - D t + tau * IZR (j - k)) by (rewrite minus_IZR; lra). rewrite pm_turns. apply pm_id.
  pose proof PI_RGT_0. unfold tau in Hturn.
  assert (W : w2 * (3 / 10) < PI) by lra. destruct (Rle_dec t e) as [L|L].
  - pose proof (GD t e L). rewrite Rabs_left1 in B by lra. assert (w2 * (e - t) <= w2 * (3 / 10)) by (apply Rmult_le_compat_l; lra). assert (0 <= w1 * (e - t)) by (apply Rmult_le_pos; lra). lra.
  - pose proof (GD e t ltac:(lra)). rewrite Rabs_right in B by lra. assert (w2 * (t - e) <= w2 * (3 / 10)) by (apply Rmult_le_compat_l; lra). assert (0 <= w1 * (t - e)) by (apply Rmult_le_pos; lra). lra.
Qed.
Lemma ha_turns s t : exists k, ha t - ha s = H t - H s + tau * IZR k.
Proof. destruct (SH s) as [i Ei]. destruct (SH t) as [j Ej]. exists (j - i)%Z. rewrite Ei, Ej, minus_IZR. ring. Qed.
Lemma rate_forward s t : s < t -> t - s <= 8 / 10 -> exists r, ha_per_day ha zero_to_tau t s (ha s) = Some r /\ w1 <= r <= w2.
Proof.
  intros L B. destruct (slope w1 w2 H s t Hw GH ltac:(lra)) as [m [Bm Em]]. destruct (ha_turns s t) as [k Ek]. unfold ha_per_day. destruct (Req_EM_T (t - s) 0) as [X|X]; [lra|].
  unfold zero_to_tau. rewrite Ek, rmod_turns, rmod_id, Em. 2:{ rewrite Em. split; [apply Rmult_le_pos; lra|]. assert (m * (t - s) <= w2 * (8 / 10)) by (apply Rmult_le_compat; lra). lra. }
  replace (m * (t - s) / (t - s)) with m by (field; lra). destruct (Req_EM_T m 0); [lra|]. exists m. split; [reflexivity|exact Bm].
Qed.
Lemma rate_near s t : s <> t -> Rabs (t - s) <= 3 / 10 -> exists r, ha_per_day ha plus_or_minus_pi t s (ha s) = Some r /\ w1 <= r <= w2.
Proof.
  intros N B. destruct (slope w1 w2 H s t Hw GH N) as [m [Bm Em]]. destruct (ha_turns s t) as [k Ek]. unfold ha_per_day. destruct (Req_EM_T (t - s) 0) as [X|X]; [lra|].
  rewrite Ek, pm_turns, pm_id, Em. 2:{ rewrite Em. assert (Rabs (m * (t - s)) <= w2 * (3 / 10)). { rewrite Rabs_mult, (Rabs_right m) by lra. apply Rmult_le_compat; try lra. apply Rabs_pos. }
    unfold tau in Hturn. pose proof (Rle_abs (m * (t - s))). pose proof (Rle_abs (- (m * (t - s)))). rewrite Rabs_Ropp in *. pose proof PI_RGT_0. lra. }
  replace (m * (t - s) / (t - s)) with m by (field; lra). destruct (Req_EM_T m 0); [lra|]. exists m. split; [reflexivity|exact Bm].
Qed.
Lemma microsecond_pos : 0 < microsecond < 1 / 10 ^ 10. Proof. unfold microsecond. lra. Qed.
(** One correction. *)
Lemma bump_near t e r : event ha desired e -> Rabs (t - e) <= 3 / 10 -> w1 <= r <= w2 ->
  Rabs (t + timebump ha desired t r - e) <= Rmax microsecond (rho * Rabs (t - e)) /\ t + timebump ha desired t r <> t.
Proof.
  intros Ev B Br. unfold timebump. rewrite (adjustment t e Ev B). pose proof microsecond_pos as MP.
  destruct (Req_EM_T ((D e - D t) / r) 0) as [Z|Z].
  - assert (t = e). { apply (grows_inj w1 w2 D t e Hw GD). assert ((D e - D t) / r * r = 0) as X by (rewrite Z; ring). replace ((D e - D t) / r * r) with (D e - D t) in X by (field; lra). lra. }
    subst t. split; [|lra]. replace (e + microsecond - e) with microsecond by ring. rewrite Rabs_right by lra. apply Rmax_l.
  - split; [|lra]. assert (N : t <> e) by (intros ->; apply Z; replace (D e - D e) with 0 by ring; unfold Rdiv; ring).
    destruct (slope w1 w2 D t e Hw GD N) as [m [Bm Em]]. rewrite Em. replace (t + m * (e - t) / r - e) with ((1 - m / r) * (t - e)) by (field; lra). rewrite Rabs_mult.
    apply Rle_trans with (rho * Rabs (t - e)); [|apply Rmax_r]. apply Rmult_le_compat_r; [apply Rabs_pos|].
    assert (I1 : / w2 <= / r) by (apply Rinv_le_contravar; lra). assert (I2 : / r <= / w1) by (apply Rinv_le_contravar; lra). assert (0 < / r) by (apply Rinv_0_lt_compat; lra).
    replace (1 - m / r) with ((r - m) / r) by (field; lra). unfold Rdiv. rewrite Rabs_mult, (Rabs_right (/ r)) by lra. unfold rho, Rdiv. apply Rmult_le_compat; [apply Rabs_pos|lra|apply Rabs_le; lra|exact I2].
Qed.
Lemma rounds_near s t e : s < t -> t - s <= 8 / 10 -> s < e < t -> event ha desired e -> rho <= 1 / 2 ->
  exists t2 t3, rounds ha desired (s, t) = Some (t2, t3) /\ Rabs (t2 - e) <= Rmax microsecond (rho ^ 3 / 5) /\ Rabs (t3 - e) <= Rmax microsecond (rho ^ 4 / 5).
Proof.
  intros L B He Ev Hr. pose proof rho_pos as R0. pose proof microsecond_pos as MP. destruct (interpolated_near s t e L B ltac:(lra) Ev) as [N0 [[I1 I2] I3]]. specialize (I3 (proj1 He)). unfold rounds. cbn [fst snd]. set (t0 := interpolated ha desired (s, t)) in *.
  destruct (rate_forward s t0 ltac:(lra) ltac:(lra)) as [r0 [E0 B0]]. rewrite E0.
  destruct (bump_near t0 e r0 Ev ltac:(lra) B0) as [N1 D1]. set (t1 := t0 + timebump ha desired t0 r0) in *.
  assert (N1' : Rabs (t1 - e) <= Rmax microsecond (rho ^ 2 / 5)). { eapply Rle_trans; [exact N1|]. apply Rle_max_compat_l. cbn [pow]. assert (rho * Rabs (t0 - e) <= rho * (rho / 5)) by (apply Rmult_le_compat_l; lra). lra. }
  assert (M2 : rho ^ 2 / 5 <= 1 / 20) by (cbn [pow]; nra). assert (M2' : Rmax microsecond (rho ^ 2 / 5) <= 1 / 20) by (apply Rmax_lub; lra).
  assert (T10 : Rabs (t1 - t0) <= 3 / 10). { replace (t1 - t0) with ((t1 - e) - (t0 - e)) by ring. eapply Rle_trans; [apply Rabs_triang|]. rewrite Rabs_Ropp. lra. }
  destruct (rate_near t0 t1 (not_eq_sym D1) T10) as [r1 [E1 B1]]. rewrite E1.
  destruct (bump_near t1 e r1 Ev ltac:(lra) B1) as [N2 D2]. set (t2 := t1 + timebump ha desired t1 r1) in *.
  assert (P : forall x y z, x <= Rmax microsecond (rho * y) -> y <= Rmax microsecond z -> x <= Rmax microsecond (rho * z)).
  { intros x y z Hx Hy. eapply Rle_trans; [exact Hx|]. apply Rmax_lub; [apply Rmax_l|]. apply Rle_trans with (rho * Rmax microsecond z); [apply Rmult_le_compat_l; lra|]. unfold Rmax at 1. destruct (Rle_dec microsecond z); [apply Rmax_r|]. apply Rle_trans with microsecond; [nra|apply Rmax_l]. }
  assert (N2' : Rabs (t2 - e) <= Rmax microsecond (rho ^ 3 / 5)). { replace (rho ^ 3 / 5) with (rho * (rho ^ 2 / 5)) by field. apply (P _ _ _ N2 N1'). }
  assert (M3' : Rmax microsecond (rho ^ 3 / 5) <= 1 / 20). { apply Rmax_lub; [lra|]. cbn [pow] in *. assert (0 <= rho * rho) by nra. nra. }
  destruct (bump_near t2 e r1 Ev ltac:(lra) B1) as [N3 D3].
  exists t2, (t2 + timebump ha desired t2 r1). split; [reflexivity|]. split; [exact N2'|]. replace (rho ^ 4 / 5) with (rho * (rho ^ 3 / 5)) by field. apply (P _ _ _ N3 N2').
Qed.
(** An event at the first of two sample times. *)
Lemma rounds_at_sample s t : s < t -> t - s <= 8 / 10 -> event ha desired s -> rounds ha desired (s, t) = None.
Proof.
  intros L B Ev. pose proof (event_between s t s L B ltac:(lra) Ev) as E. unfold rounds. cbn [fst snd].
  assert (I : interpolated ha desired (s, t) = s). { unfold interpolated. cbn [fst snd]. replace (diff s) with 0 by lra. destruct (diff_D t) as [_ [_ [_ X]]]. field. lra. }
  rewrite I. unfold ha_per_day. destruct (Req_EM_T (s - s) 0) as [X|X]; [reflexivity|lra].
Qed.
Lemma last_step_near above rate t2 t3 e x b d : last_step desired above rate t2 t3 = Some (x, b) -> Rabs (t2 - e) <= d -> Rabs (t3 - e) <= d -> Rabs (x - e) <= 4 * d.
Proof.
  unfold last_step. destruct (intersection _ _ _ _) as [q|]; [|discriminate]. intros E. injection E as <- _. intros H2 H3.
  assert (C1 : -1 <= clip q (-1) 2 <= 2). { unfold clip, Rmin, Rmax. destruct (Rle_dec q (-1)); destruct (Rle_dec _ 2); lra. }
  set (k := clip q (-1) 2) in *. replace (t2 + k * (t3 - t2) - e) with ((1 - k) * (t2 - e) + k * (t3 - e)) by ring.
  eapply Rle_trans; [apply Rabs_triang|]. rewrite !Rabs_mult. assert (Rabs (1 - k) <= 2) by (apply Rabs_le; lra). assert (Rabs k <= 2) by (apply Rabs_le; lra).
  pose proof (Rabs_pos (t2 - e)). pose proof (Rabs_pos (t3 - e)).
  assert (A1 : Rabs (1 - k) * Rabs (t2 - e) <= 2 * d) by (apply Rmult_le_compat; try lra; apply Rabs_pos). assert (A2 : Rabs k * Rabs (t3 - e) <= 2 * d) by (apply Rmult_le_compat; try lra; apply Rabs_pos). lra.
Qed.
End Sky.
