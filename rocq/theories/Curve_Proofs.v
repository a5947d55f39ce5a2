From Coq Require Import Reals ZArith List Bool Lra Lia Psatz.
From Verif Require Import Real_Math Real_Math_Proofs Curve_Model Curve_Spec.
Import ListNotations.
Open Scope R_scope.

(** * Evaluation and derivative of one row *)
(** The polynomial with coefficients [cs], highest power first. *)
Fixpoint poly (t : R) (cs : list R) : R :=
  match cs with [] => 0 | c :: r => c * t ^ length r + poly t r end.
Lemma fold_poly t : forall cs v, fold_left (fun value c => value * t + c) cs v = v * t ^ length cs + poly t cs.
Proof.
  induction cs as [|c cs IH]; intros v; cbn [fold_left poly length pow]; [ring|]. rewrite IH. ring.
Qed.
Lemma horner_poly t cs : horner t cs = poly t cs.
Proof. destruct cs; [reflexivity|]. cbn. apply fold_poly. Qed.
Lemma scaled_length w : forall cs, length (scaled w cs) = Nat.pred (length cs).
Proof.
  induction cs as [|c cs IH]; [reflexivity|]. destruct cs as [|c' cs]; [reflexivity|].
  change (scaled w (c :: c' :: cs)) with (INR (length (c' :: cs)) * c / w :: scaled w (c' :: cs)).
  cbn [length]. rewrite IH. reflexivity.
Qed.
Lemma poly_deriv l w : w <> 0 -> forall cs x, derivable_pt_lim (fun x => poly ((x - l) / w) cs) x (poly ((x - l) / w) (scaled w cs)).
Proof.
  intros Hw. assert (D : forall x, derivable_pt_lim (fun x => (x - l) / w) x (/ w)).
  { intros x. replace (/ w) with ((1 - 0) * / w) by ring. unfold Rdiv.
    apply (derivable_pt_lim_ext (mult_real_fct (/ w) (id - fct_cte l))%F).
    - intros y. unfold mult_real_fct, minus_fct, id, fct_cte. ring.
    - replace ((1 - 0) * / w) with (/ w * (1 - 0)) by ring. apply derivable_pt_lim_scal. apply derivable_pt_lim_minus; [apply derivable_pt_lim_id|apply derivable_pt_lim_const]. }
  induction cs as [|c cs IH]; intros x.
  - cbn. apply derivable_pt_lim_const.
  - destruct cs as [|c' cs].
    + cbn. apply (derivable_pt_lim_ext (fct_cte (c * 1 + 0))); [intros y; reflexivity|]. apply derivable_pt_lim_const.
    + change (scaled w (c :: c' :: cs)) with (INR (length (c' :: cs)) * c / w :: scaled w (c' :: cs)).
      set (rest := c' :: cs) in *.
      change (poly ((x - l) / w) (INR (length rest) * c / w :: scaled w rest))
        with (INR (length rest) * c / w * ((x - l) / w) ^ length (scaled w rest) + poly ((x - l) / w) (scaled w rest)).
      rewrite scaled_length.
      apply (derivable_pt_lim_ext (plus_fct (mult_real_fct c (comp (fun t => t ^ length rest) (fun x => (x - l) / w))) (fun x => poly ((x - l) / w) rest))).
      { intros y. reflexivity. }
      apply derivable_pt_lim_plus; [|apply IH].
      replace (INR (length rest) * c / w * ((x - l) / w) ^ Nat.pred (length rest))
        with (c * (INR (length rest) * ((x - l) / w) ^ Nat.pred (length rest) * / w)) by (field; exact Hw).
      apply derivable_pt_lim_scal. apply derivable_pt_lim_comp; [apply D|]. apply derivable_pt_lim_pow.
Qed.
Lemma row_deriv r x : lo r <> hi r -> derivable_pt_lim (row_at r) x (row_at (derivative_row r) x).
Proof.
  intros H. assert (Hw : width r <> 0) by (unfold width; lra).
  unfold row_at, derivative_row, width. cbn. fold (width r). rewrite horner_poly.
  apply (derivable_pt_lim_ext (fun x => poly ((x - lo r) / width r) (co r))).
  - intros y. symmetry. apply horner_poly.
  - apply poly_deriv. exact Hw.
Qed.
Lemma row_cont r : lo r <> hi r -> continuity (row_at r).
Proof. intros H x. apply derivable_continuous_pt. exists (row_at (derivative_row r) x). apply row_deriv. exact H. Qed.
Lemma derivable_pt_lim_eq f x a b : derivable_pt_lim f x a -> a = b -> derivable_pt_lim f x b.
Proof. intros H <-. exact H. Qed.

Lemma spline_ends x0 y0 s0 x1 y1 s1 : x0 <> x1 ->
  let r := build_spline_given_ends x0 y0 s0 x1 y1 s1 in
  row_at r x0 = y0 /\ row_at r x1 = y1 /\
  derivable_pt_lim (row_at r) x0 s0 /\ derivable_pt_lim (row_at r) x1 s1.
Proof.
  intros H r. assert (x1 - x0 <> 0) by lra.
  split; [|split; [|split]].
  - unfold row_at, r, build_spline_given_ends, width, horner. cbn. field. assumption.
  - unfold row_at, r, build_spline_given_ends, width, horner. cbn. field. assumption.
  - eapply derivable_pt_lim_eq; [apply row_deriv; exact H|]. unfold row_at, r, derivative_row, build_spline_given_ends, width, horner. cbn. field. assumption.
  - eapply derivable_pt_lim_eq; [apply row_deriv; exact H|]. unfold row_at, r, derivative_row, build_spline_given_ends, width, horner. cbn. field. assumption.
Qed.

(** * Choice of the row *)
Fixpoint pick (r : row) (rest : list row) (x : R) : row :=
  match rest with [] => r | b :: l => if Rlt_dec x (lo b) then r else pick b l x end.
Definition sorted (rows : list row) : Prop := ascending (map lo rows).
Lemma asc_tail a l : ascending (a :: l) -> ascending l.
Proof. destruct l; cbn; intros H; [exact I|apply H]. Qed.
Lemma asc_head a l b : ascending (a :: l) -> In b l -> a < b.
Proof.
  revert a. induction l as [|c l IH]; intros a H K; [destruct K|]. destruct H as [H1 H2].
  destruct K as [<- |K]; [exact H1|]. pose proof (IH c H2 K). lra.
Qed.
Lemma index_from : forall rest r k x, sorted (r :: rest) -> lo r <= x ->
  exists j, rfloor (interp_from x (lo r) (INR k) (combine (map lo rest) (map INR (seq (S k) (length rest))))) = Z.of_nat (k + j) /\
            nth j (r :: rest) no_row = pick r rest x.
Proof.
  induction rest as [|b rest IH]; intros r k x S L.
  - exists 0%nat. split; [|reflexivity]. cbn. rewrite Nat.add_0_r. apply rfloor_unique. rewrite <- INR_IZR_INZ. lra.
  - cbn [length seq map combine interp_from pick]. destruct (Rlt_dec x (lo b)) as [H|H].
    + exists 0%nat. split; [|reflexivity]. rewrite Nat.add_0_r. apply rfloor_unique. rewrite <- INR_IZR_INZ, S_INR.
      destruct S as [S1 S2]. set (q := (x - lo r) * ((INR k + 1 - INR k) / (lo b - lo r))).
      assert (E : q * (lo b - lo r) = x - lo r) by (unfold q; field; lra).
      assert (0 <= q < 1) by (split; nra). lra.
    + destruct (IH b (Datatypes.S k) x) as [j [E1 E2]]; [apply S|lra|]. exists (Datatypes.S j). split; [|exact E2].
      rewrite E1. f_equal. lia.
Qed.
Lemma splines_pick r rest x : sorted (r :: rest) -> splines (r :: rest) x = row_at (pick r rest x) x.
Proof.
  intros S. unfold splines, row_index. cbn [map length seq combine interp].
  destruct (Rlt_dec x (lo r)) as [H|H].
  - replace (rfloor (INR 0)) with 0%Z by (symmetry; apply rfloor_unique; cbn; lra). cbn [Z.to_nat nth].
    destruct rest as [|b l]; [reflexivity|]. cbn. destruct S as [S1 _]. destruct (Rlt_dec x (lo b)); [reflexivity|lra].
  - destruct (index_from rest r 0 x S) as [j [E1 E2]]; [lra|]. cbn [Nat.add] in E1.
    unfold interp. rewrite E1, Nat2Z.id, E2. reflexivity.
Qed.
Lemma splines_one r x : splines [r] x = row_at r x.
Proof. rewrite splines_pick; [reflexivity|exact I]. Qed.
Lemma derivative_sorted rows : sorted rows -> sorted (derivative rows).
Proof. unfold sorted, derivative. rewrite map_map. intros H. exact H. Qed.
Lemma pick_derivative : forall rest r x, pick (derivative_row r) (map derivative_row rest) x = derivative_row (pick r rest x).
Proof.
  induction rest as [|b l IH]; intros r x; [reflexivity|]. cbn [map pick]. change (lo (derivative_row b)) with (lo b).
  destruct (Rlt_dec x (lo b)); [reflexivity|apply IH].
Qed.
Lemma pick_In : forall rest r x, In (pick r rest x) (r :: rest).
Proof.
  induction rest as [|b l IH]; intros r x; cbn [pick]; [left; reflexivity|].
  destruct (Rlt_dec x (lo b)); [left; reflexivity|]. right. apply IH.
Qed.
(** Away from the joints the choice does not change. *)
Lemma pick_local : forall rest r x, sorted (r :: rest) -> (forall b, In b rest -> lo b <> x) ->
  exists h, 0 < h /\ forall y, Rabs (y - x) < h -> pick r rest y = pick r rest x.
Proof.
  induction rest as [|b l IH]; intros r x S N.
  - exists 1. split; [lra|]. reflexivity.
  - assert (lo b <> x) by (apply N; left; reflexivity). cbn [pick]. destruct (Rlt_dec x (lo b)) as [H1|H1].
    + exists (lo b - x). split; [lra|]. intros y Hy. apply Rabs_def2 in Hy. destruct (Rlt_dec y (lo b)); [reflexivity|lra].
    + destruct (IH b x) as [h [Hh K]]; [apply S|intros c Hc; apply N; right; exact Hc|].
      exists (Rmin h (x - lo b)). split; [apply Rmin_glb_lt; lra|]. intros y Hy.
      assert (Rabs (y - x) < h) by (eapply Rlt_le_trans; [exact Hy|apply Rmin_l]).
      assert (Hy2 : Rabs (y - x) < x - lo b) by (eapply Rlt_le_trans; [exact Hy|apply Rmin_r]). apply Rabs_def2 in Hy2.
      destruct (Rlt_dec y (lo b)); [lra|]. apply K. assumption.
Qed.
Lemma deriv_local f g x a h : 0 < h -> (forall y, Rabs (y - x) < h -> f y = g y) -> derivable_pt_lim g x a -> derivable_pt_lim f x a.
Proof.
  intros Hh E D eps He. destruct (D eps He) as [[d Hd] K]. cbn in K.
  assert (Hm : 0 < Rmin d h) by (apply Rmin_glb_lt; assumption). exists (mkposreal _ Hm). intros k Hk Hk2. cbn in Hk2.
  rewrite (E (x + k)), (E x).
  - apply K; [exact Hk|]. eapply Rlt_le_trans; [exact Hk2|apply Rmin_l].
  - replace (x - x) with 0 by ring. rewrite Rabs_R0. exact Hh.
  - replace (x + k - x) with k by ring. eapply Rlt_le_trans; [exact Hk2|apply Rmin_r].
Qed.
Lemma splines_deriv rows x : rows <> [] -> sorted rows -> Forall (fun r => lo r <> hi r) rows ->
  (forall b, In b (tl rows) -> lo b <> x) ->
  derivable_pt_lim (splines rows) x (splines (derivative rows) x).
Proof.
  intros Hne S W N. destruct rows as [|r rest]; [congruence|]. cbn [tl] in N.
  destruct (pick_local rest r x S N) as [h [Hh K]].
  assert (Ed : splines (derivative (r :: rest)) x = row_at (derivative_row (pick r rest x)) x).
  { unfold derivative. cbn [map]. rewrite splines_pick; [|exact (derivative_sorted _ S)]. rewrite pick_derivative. reflexivity. }
  rewrite Ed. apply (deriv_local _ (row_at (pick r rest x)) x _ h Hh).
  - intros y Hy. rewrite splines_pick by exact S. rewrite K by exact Hy. reflexivity.
  - apply row_deriv. rewrite Forall_forall in W. apply W. apply pick_In.
Qed.

(** * Bounded jumps *)
Lemma jump_local eps f g x h : 0 < h -> (forall y, Rabs (y - x) < h -> f y = g y) -> jump_at_most eps g x -> jump_at_most eps f x.
Proof.
  intros Hh E D d Hd. destruct (D d Hd) as [k [Hk K]].
  exists (Rmin k h). split; [apply Rmin_glb_lt; assumption|]. intros y Hy.
  rewrite (E y), (E x).
  - apply K. eapply Rlt_le_trans; [exact Hy|apply Rmin_l].
  - replace (x - x) with 0 by ring. rewrite Rabs_R0. exact Hh.
  - eapply Rlt_le_trans; [exact Hy|apply Rmin_r].
Qed.
Lemma jump_ext eps f g x : (forall y, f y = g y) -> jump_at_most eps g x -> jump_at_most eps f x.
Proof. intros E. apply (jump_local eps f g x 1); [lra|]. intros y _. apply E. Qed.
Lemma jump_weaken a b f x : a <= b -> jump_at_most a f x -> jump_at_most b f x.
Proof. intros H D d Hd. destruct (D d Hd) as [h [Hh K]]. exists h. split; [exact Hh|]. intros y Hy. specialize (K y Hy). lra. Qed.
Lemma cont_jump f x : continuity_pt f x <-> jump_at_most 0 f x.
Proof.
  split.
  - intros C d Hd. destruct (C d Hd) as [h [Hh K]]. exists h. split; [exact Hh|]. intros y Hy.
    destruct (Req_dec y x) as [-> |N].
    + replace (f x - f x) with 0 by ring. rewrite Rabs_R0. lra.
    + cbn in K. unfold R_dist in K. assert (Rabs (f y - f x) < d); [|lra]. apply K. split; [|exact Hy]. split; [exact I|]. intros E. apply N. symmetry. exact E.
  - intros D d Hd. destruct (D (d / 2)) as [h [Hh K]]; [lra|]. exists h. split; [exact Hh|]. intros y [_ Hy]. cbn in *. unfold R_dist in *.
    specialize (K y Hy). lra.
Qed.
Lemma jump_glue eps f g c : 0 <= eps -> (forall x, x < c -> jump_at_most eps f x) -> jump_at_most 0 f c ->
  (forall x, c <= x -> jump_at_most eps g x) -> Rabs (f c - g c) <= eps ->
  forall x, jump_at_most eps (fun x => if Rlt_dec x c then f x else g x) x.
Proof.
  intros He F Fc G J x. destruct (Rtotal_order x c) as [H|[-> |H]].
  - apply (jump_local _ _ f x (c - x)); [lra| |apply F; exact H]. intros y Hy. apply Rabs_def2 in Hy. destruct (Rlt_dec y c); [reflexivity|lra].
  - intros d Hd. destruct (Fc d Hd) as [h1 [H1 K1]]. destruct (G c (Rle_refl c) d Hd) as [h2 [H2 K2]].
    exists (Rmin h1 h2). split; [apply Rmin_glb_lt; assumption|]. intros y Hy.
    assert (A1 : Rabs (y - c) < h1) by (eapply Rlt_le_trans; [exact Hy|apply Rmin_l]).
    assert (A2 : Rabs (y - c) < h2) by (eapply Rlt_le_trans; [exact Hy|apply Rmin_r]).
    destruct (Rlt_dec c c) as [N|_]; [lra|]. destruct (Rlt_dec y c).
    + specialize (K1 y A1). replace (f y - g c) with ((f y - f c) + (f c - g c)) by ring. eapply Rle_trans; [apply Rabs_triang|]. lra.
    + exact (K2 y A2).
  - apply (jump_local _ _ g x (x - c)); [lra| |apply G; lra]. intros y Hy. apply Rabs_def2 in Hy. destruct (Rlt_dec y c); [lra|reflexivity].
Qed.
Lemma year_order a b : year_of a < year_of b <-> a < b.
Proof. unfold year_of. split; lra. Qed.
Lemma jump_year eps f x : jump_at_most eps f (year_of x) -> jump_at_most eps (fun x => f (year_of x)) x.
Proof.
  intros D d Hd. destruct (D d Hd) as [h [Hh K]]. exists h. split; [exact Hh|]. intros y Hy. apply K.
  apply Rabs_def2 in Hy. apply Rabs_def1; unfold year_of; lra.
Qed.

(** A curve of rows. *)
Definition curve_of (r : row) (rest : list row) (x : R) : R := row_at (pick r rest x) x.
Fixpoint steps (eps : R) (r : row) (rest : list row) : Prop :=
  match rest with
  | [] => True
  | b :: l => Rabs (row_at r (lo b) - row_at b (lo b)) <= eps /\ steps eps b l
  end.
Lemma pick_first r rest : sorted (r :: rest) -> pick r rest (lo r) = r.
Proof. destruct rest as [|b l]; [reflexivity|]. intros [S _]. cbn. destruct (Rlt_dec (lo r) (lo b)); [reflexivity|lra]. Qed.
Lemma curve_jump eps : 0 <= eps -> forall rest r, sorted (r :: rest) -> Forall (fun r => lo r <> hi r) (r :: rest) -> steps eps r rest ->
  forall x, jump_at_most eps (curve_of r rest) x.
Proof.
  intros He. induction rest as [|b l IH]; intros r S W J x.
  - unfold curve_of. cbn [pick]. apply (jump_weaken 0); [exact He|]. apply cont_jump. apply row_cont. inversion W. assumption.
  - destruct J as [J1 J2]. inversion W as [|? ? W1 W2]; subst. assert (S2 := asc_tail _ _ S : sorted (b :: l)).
    apply (jump_ext eps _ (fun x => if Rlt_dec x (lo b) then row_at r x else curve_of b l x)).
    { intros y. unfold curve_of. cbn [pick]. destruct (Rlt_dec y (lo b)); reflexivity. }
    apply jump_glue; [exact He| | | |].
    + intros y _. apply (jump_weaken 0); [exact He|]. apply cont_jump. apply row_cont. exact W1.
    + apply cont_jump. apply row_cont. exact W1.
    + intros y _. apply IH; assumption.
    + unfold curve_of. rewrite pick_first by exact S2. exact J1.
Qed.
Lemma pick_app_left : forall A r b B x, x < lo b -> pick r (A ++ b :: B) x = pick r A x.
Proof.
  induction A as [|a A IH]; intros r b B x H; cbn [app pick].
  - destruct (Rlt_dec x (lo b)); [reflexivity|lra].
  - destruct (Rlt_dec x (lo a)); [reflexivity|]. apply IH. exact H.
Qed.
Lemma pick_app_right : forall A r b B x, Forall (fun a => lo a <= x) A -> lo b <= x -> pick r (A ++ b :: B) x = pick b B x.
Proof.
  induction A as [|a A IH]; intros r b B x F H; cbn [app pick].
  - destruct (Rlt_dec x (lo b)); [lra|reflexivity].
  - inversion F; subst. destruct (Rlt_dec x (lo a)); [lra|]. apply IH; assumption.
Qed.
(** Lists in order. *)
Lemma asc_app : forall A (B : list R), ascending (A ++ B) <-> ascending A /\ ascending B /\ (forall a b, In a A -> In b B -> a < b).
Proof.
  induction A as [|a A IH]; intros B; cbn [app].
  - split; [intros H; split; [exact I|split; [exact H|intros ? ? []]]|intros [_ [H _]]; exact H].
  - split.
    + intros H. pose proof (asc_tail _ _ H) as T. apply IH in T. destruct T as [T1 [T2 T3]]. split; [|split; [exact T2|]].
      * destruct A as [|c A]; [exact I|]. split; [apply H|exact T1].
      * intros x y [<- |Hx] Hy; [|apply T3; assumption]. apply (asc_head _ _ _ H). apply in_or_app. right. exact Hy.
    + intros [H1 [H2 H3]]. destruct A as [|c A].
      * cbn. destruct B as [|b B]; [exact I|]. split; [apply H3; left; reflexivity|exact H2].
      * split; [apply H1|]. apply IH. split; [apply (asc_tail a); exact H1|]. split; [exact H2|]. intros x y Hx Hy. apply H3; [right; exact Hx|exact Hy].
Qed.
Lemma joined_steps eps : forall rest r, joined eps (r :: rest) -> steps eps r rest.
Proof. induction rest as [|b l IH]; intros r H; [exact I|]. destruct H as [_ [H2 H3]]. split; [exact H2|apply IH; exact H3]. Qed.
Lemma joined_sorted eps : forall rows, Forall (fun r => lo r < hi r /\ length (co r) = 4%nat) rows -> joined eps rows -> sorted rows.
Proof.
  induction rows as [|r rows IH]; intros W J; [exact I|]. inversion W as [|? ? [W1 _] W2]; subst. destruct rows as [|b l]; [exact I|].
  destruct J as [J1 [_ J2]]. split; [lra|]. apply IH; assumption.
Qed.
Lemma steps_app eps : forall A r b B, steps eps r (A ++ b :: B) <->
  steps eps r A /\ Rabs (row_at (last (r :: A) no_row) (lo b) - row_at b (lo b)) <= eps /\ steps eps b B.
Proof.
  induction A as [|a A IH]; intros r b B; cbn [app steps].
  - cbn. tauto.
  - rewrite IH. replace (last (r :: a :: A) no_row) with (last (a :: A) no_row) by reflexivity. tauto.
Qed.

(** * Interpolation in the daily table *)
Lemma interp_start x0 y0 rest : ascending (x0 :: map fst rest) -> interp_from x0 x0 y0 rest = y0.
Proof.
  destruct rest as [|[x1 y1] r]; [reflexivity|]. cbn. intros [H _]. destruct (Rlt_dec x0 x1); [|lra]. unfold Rdiv. ring.
Qed.
Lemma lin_cont a b c x : continuity_pt (fun x => a + (x - b) * c) x.
Proof. reg. Qed.
Lemma interp_cont : forall rest x0 y0, ascending (x0 :: map fst rest) -> forall x, jump_at_most 0 (fun x => interp_from x x0 y0 rest) x.
Proof.
  induction rest as [|[x1 y1] r IH]; intros x0 y0 S x.
  - apply cont_jump. cbn. apply continuity_pt_const. intros ? ?. reflexivity.
  - cbn [interp_from]. cbn in S. destruct S as [S1 S2]. set (f := fun x => y0 + (x - x0) * ((y1 - y0) / (x1 - x0))).
    apply (jump_glue 0 f (fun x => interp_from x x1 y1 r)); [lra| | | |].
    + intros y _. apply cont_jump. apply lin_cont.
    + apply cont_jump. apply lin_cont.
    + intros y _. apply IH. exact S2.
    + rewrite interp_start by exact S2. unfold f. replace (y0 + _ - y1) with 0 by (field; lra). rewrite Rabs_R0. lra.
Qed.
Lemma last_cons {A} (l : list A) a b d : last (a :: b :: l) d = last (b :: l) d. Proof. reflexivity. Qed.
Lemma last_any {A} : forall (l : list A) a d d', last (a :: l) d = last (a :: l) d'.
Proof. induction l as [|b l IH]; intros a d d'; [reflexivity|]. rewrite !last_cons. apply IH. Qed.
Lemma last_combine {A B} : forall (l : list A) (m : list B) a b d d', length l = length m ->
  last (combine (a :: l) (b :: m)) (d, d') = (last (a :: l) d, last (b :: m) d').
Proof.
  induction l as [|x l IH]; intros [|y m] a b d d' H; try discriminate; [reflexivity|].
  cbn [combine]. rewrite last_cons. rewrite !(last_cons _ _ _ d), !(last_cons _ _ _ d'). apply (IH m x y d d'). injection H as H. exact H.
Qed.
Lemma last_In {A} : forall (l : list A) a d, In (last (a :: l) d) (a :: l).
Proof. induction l as [|b l IH]; intros a d; [left; reflexivity|]. rewrite last_cons. right. apply IH. Qed.
Lemma asc_last : forall l a, ascending (a :: l) -> a <= last (a :: l) 0.
Proof. intros [|b l] a H; [cbn; lra|]. rewrite last_cons. pose proof (asc_head a (b :: l) _ H (last_In l b 0)). lra. Qed.
Lemma interp_end : forall rest x0 y0, ascending (x0 :: map fst rest) ->
  interp_from (last (x0 :: map fst rest) 0) x0 y0 rest = last (y0 :: map snd rest) 0.
Proof.
  induction rest as [|[x1 y1] r IH]; intros x0 y0 S; [reflexivity|]. cbn [map fst snd]. rewrite !last_cons.
  cbn [interp_from]. assert (S2 := asc_tail _ _ S). cbn [map fst] in S2. pose proof (asc_last _ _ S2).
  destruct (Rlt_dec _ x1); [lra|]. apply IH. exact S2.
Qed.
Lemma combine_fst {A B} : forall (l : list A) (m : list B), length l = length m -> map fst (combine l m) = l /\ map snd (combine l m) = m.
Proof.
  induction l as [|a l IH]; intros [|b m] H; try discriminate; [split; reflexivity|]. injection H as H. destruct (IH m H) as [E1 E2]. cbn. rewrite E1, E2. split; reflexivity.
Qed.
(** The value at a date of the table is the value in the table. *)
Lemma interp_at : forall rest x0 y0 p, ascending (x0 :: map fst rest) -> In p ((x0, y0) :: rest) -> interp_from (fst p) x0 y0 rest = snd p.
Proof.
  induction rest as [|[x1 y1] r IH]; intros x0 y0 p S [<- |H].
  - reflexivity.
  - destruct H.
  - apply interp_start. exact S.
  - cbn [interp_from]. assert (S2 := asc_tail _ _ S). cbn [map fst] in S2. destruct (Rlt_dec (fst p) x1) as [K|K].
    + exfalso. destruct H as [<- |H]; [cbn in K; lra|]. assert (x1 < fst p); [|lra]. apply (asc_head _ _ _ S2). apply in_map. exact H.
    + apply IH; assumption.
Qed.

(** * Assembly of the long-term curve *)
Lemma split_at : forall rows x, sorted rows -> rows <> [] -> start_year rows < x ->
  exists pre r post, rows = pre ++ r :: post /\ firstn (searchsorted (map lo rows) x) rows = pre ++ [r] /\
    Forall (fun a => lo a < x) (pre ++ [r]) /\ Forall (fun a => x <= lo a) post.
Proof.
  induction rows as [|a rows IH]; intros x S Hne H; [congruence|]. cbn [map searchsorted]. cbn in H.
  destruct (Rlt_dec (lo a) x) as [_|N]; [|lra]. cbn [firstn].
  destruct rows as [|b l].
  - exists [], a, []. cbn. repeat split; constructor; [exact H|constructor].
  - destruct (Rlt_dec (lo b) x) as [K|K].
    + destruct (IH x) as [pre [r [post [E1 [E2 [E3 E4]]]]]]; [apply (asc_tail (lo a)); exact S|congruence|exact K|].
      exists (a :: pre), r, post. rewrite E1 at 1. rewrite E2. repeat split; [constructor; assumption|exact E4].
    + exists [], a, (b :: l). cbn [map searchsorted]. destruct (Rlt_dec (lo b) x); [lra|]. cbn. repeat split; [constructor; [exact H|constructor]|].
      apply Forall_forall. intros c [<- |Hc]; [lra|]. assert (lo b < lo c); [|lra].
      apply (asc_head _ _ _ (asc_tail _ _ S)). apply in_map. exact Hc.
Qed.
Lemma parabola_at x : splines [parabola] x = long_term x.
Proof. rewrite splines_one. unfold row_at, parabola, width, horner, long_term. cbn. field. Qed.
Lemma parabola_slope x : splines (derivative [parabola]) x = 65 * ((x - 1825) / 100) / 100.
Proof. unfold derivative. cbn [map]. rewrite splines_one. unfold row_at, parabola, derivative_row, width, horner. cbn. field. Qed.
(** A cubic with the end values and slopes of the parabola is the parabola. *)
Lemma spline_parabola x0 x1 x : x0 <> x1 ->
  row_at (build_spline_given_ends x0 (splines [parabola] x0) (splines (derivative [parabola]) x0) x1 (splines [parabola] x1) (splines (derivative [parabola]) x1)) x = long_term x.
Proof.
  intros H. rewrite !parabola_at, !parabola_slope. unfold row_at, build_spline_given_ends, width, horner, long_term. cbn. field. lra.
Qed.
Definition far_row (x0 x1 : R) : row :=
  build_spline_given_ends x0 (splines [parabola] x0) (splines (derivative [parabola]) x0) x1 (splines [parabola] x1) (splines (derivative [parabola]) x1).

Section Assembly.
  Variables (eps : R) (s15 : list row) (tt dt : list R).
  Hypothesis He : 0 <= eps.
  Hypothesis HS : historic eps s15.
  Hypothesis HD : daily tt dt.
  Hypothesis Hx : start_year s15 < year_of (hd 0 tt).
  Let x := year_of (hd 0 tt).
  Let x0r := year_of (last tt 0).
  Let x1r := IZR (rfloor ((x0r + 800) / 100)) * 100.
  Let right := build_spline_given_ends x0r (last dt 0) (end_slope dt) x1r (splines [parabola] x1r) (splines (derivative [parabola]) x1r).
  Let far_right := far_row x1r (x1r + 100).
  Let a0 := start_year s15.
  Let left := build_spline_given_ends (a0 - 800) (splines [parabola] (a0 - 800)) (splines (derivative [parabola]) (a0 - 800)) a0 (splines s15 a0) (splines (derivative s15) a0).
  Let far_left := far_row (a0 - 800 - 100) (a0 - 800).

  Lemma assembly_order : x <= x0r /\ x0r + 700 < x1r.
  Proof.
    split.
    - unfold x, x0r. destruct HD as [N [_ A]]. destruct tt as [|t0 l]; [congruence|]. pose proof (asc_last _ _ A) as H. cbn [hd]. unfold year_of. lra.
    - unfold x1r. pose proof (rfloor_bounds ((x0r + 800) / 100)). lra.
  Qed.
  Lemma assembled : exists pre r post adj, s15 = pre ++ r :: post /\
    Forall (fun a => lo a < x) (pre ++ [r]) /\ Forall (fun a => x <= lo a) post /\
    lo adj = lo r /\ hi adj = hi r /\ row_at adj (lo r) = row_at r (lo r) /\
    row_at adj x = hd 0 dt + (row_at r x - splines s15 x) /\
    build_delta_t s15 tt dt = Some (far_left :: left :: pre ++ [adj; right; far_right]).
  Proof.
    destruct HS as [Sne [SW SJ]]. pose proof (joined_sorted eps s15 SW SJ) as SS.
    destruct (split_at s15 x SS Sne Hx) as [pre [r [post [E1 [E2 [E3 E4]]]]]].
    assert (Ir : In r s15) by (rewrite E1; apply in_or_app; right; left; reflexivity).
    assert (Wr : lo r < hi r /\ length (co r) = 4%nat) by (rewrite Forall_forall in SW; apply SW; exact Ir).
    assert (Lr : lo r < x) by (rewrite Forall_forall in E3; apply E3; apply in_or_app; right; left; reflexivity).
    destruct r as [l h cs]. cbn in Wr, Lr. destruct Wr as [W1 W2].
    destruct cs as [|a3 [|a2 [|a1 [|b0 [|? ?]]]]]; try discriminate W2.
    set (adj := Row l h [a3; a2; a1 + (hd 0 dt - splines s15 x) / ((x - l) / (h - l)); b0]).
    exists pre, (Row l h [a3; a2; a1; b0]), post, adj.
    split; [exact E1|]. split; [exact E3|]. split; [exact E4|]. split; [reflexivity|]. split; [reflexivity|]. split; [|split].
    - unfold row_at, adj, width, horner. cbn. field. split; [lra|]. lra.
    - unfold row_at, adj, width, horner. cbn. field. lra.
    - unfold build_delta_t. destruct HD as [N [LE A]].
      unfold left, far_left, right, far_right, far_row, a0, adj, x1r, x0r, x in *.
      destruct s15 as [|first s]; [congruence|].
      destruct tt as [|t0 tl']; [congruence|]. destruct dt as [|d0 dl]; [discriminate LE|]. cbn [hd start_year] in *.
      rewrite E2. rewrite rev_app_distr. cbn [rev app]. rewrite rev_involutive. assert (Wp : width parabola = 100) by (unfold width, parabola; cbn; ring).
      rewrite !Wp. reflexivity.
  Qed.

  Lemma right_ok : row_at right x0r = last dt 0 /\ row_at right x1r = long_term x1r /\ derivable_pt_lim (row_at right) x0r (end_slope dt).
  Proof.
    destruct assembly_order as [_ O]. assert (N : x0r <> x1r) by lra.
    destruct (spline_ends x0r (last dt 0) (end_slope dt) x1r (splines [parabola] x1r) (splines (derivative [parabola]) x1r) N) as [E1 [E2 [E3 _]]].
    split; [exact E1|]. split; [|exact E3]. unfold right. rewrite E2. apply parabola_at.
  Qed.
  Lemma left_ok : row_at left (a0 - 800) = long_term (a0 - 800) /\ row_at left a0 = splines s15 a0.
  Proof.
    assert (N : a0 - 800 <> a0) by lra.
    destruct (spline_ends (a0 - 800) (splines [parabola] (a0 - 800)) (splines (derivative [parabola]) (a0 - 800)) a0 (splines s15 a0) (splines (derivative s15) a0) N) as [E1 [E2 _]].
    split; [|exact E2]. unfold left. rewrite E1. apply parabola_at.
  Qed.
  Lemma Rabs_zero a b : a = b -> Rabs (a - b) <= eps.
  Proof. intros ->. replace (b - b) with 0 by ring. rewrite Rabs_R0. exact He. Qed.

  (** The pieces of the curve, their order and their steps. *)
  Lemma curve_ok : exists A adj, build_delta_t s15 tt dt = Some (far_left :: (A ++ [adj]) ++ right :: [far_right]) /\
    sorted (far_left :: (A ++ [adj]) ++ right :: [far_right]) /\
    Forall (fun r => lo r <> hi r) (far_left :: (A ++ [adj]) ++ right :: [far_right]) /\
    steps eps far_left (A ++ [adj]) /\ steps eps right [far_right] /\
    Forall (fun r => lo r < x) (far_left :: A ++ [adj]) /\
    Rabs (row_at adj x - hd 0 dt) <= eps /\
    (exists pre r post, A = left :: pre /\ s15 = pre ++ r :: post /\ lo adj = lo r /\ Forall (fun a => x <= lo a) post).
  Proof.
    destruct assembled as [pre [r [post [adj [E1 [E2 [E3 [E4 [E5 [E6 [E7 E8]]]]]]]]]]].
    destruct HS as [Sne [SW SJ]]. pose proof (joined_sorted eps s15 SW SJ) as SS.
    destruct assembly_order as [O1 O2].
    assert (Hd : exists rest, pre ++ r :: post = hd r pre :: rest /\ a0 = lo (hd r pre) /\ steps eps (hd r pre) rest /\ splines s15 a0 = row_at (hd r pre) a0).
    { rewrite E1 in SJ, SS. unfold a0. rewrite E1. destruct pre as [|q pre]; cbn [app hd start_year] in *.
      - exists post. split; [reflexivity|]. split; [reflexivity|]. split; [apply joined_steps; exact SJ|]. rewrite splines_pick by exact SS. rewrite pick_first by exact SS. reflexivity.
      - exists (pre ++ r :: post). split; [reflexivity|]. split; [reflexivity|]. split; [apply joined_steps; exact SJ|]. rewrite splines_pick by exact SS. rewrite pick_first by exact SS. reflexivity. }
    destruct Hd as [rest [D1 [D2 [D3 D4]]]].
    exists (left :: pre), adj. split; [|split; [|split; [|split; [|split; [|split; [|split]]]]]].
    - rewrite E8. cbn [app]. rewrite <- app_assoc. reflexivity.
    - (* order *)
      unfold sorted. rewrite E1 in SS. unfold sorted in SS. rewrite map_app in SS. cbn [map] in SS.
      cbn [app map]. split; [unfold far_left, left, far_row, build_spline_given_ends; cbn; lra|].
      assert (B1 : forall q, In q (map lo (pre ++ [adj])) -> a0 <= q < x).
      { intros q Hq. replace (map lo (pre ++ [adj])) with (map lo (pre ++ [r])) in Hq by (rewrite !map_app; cbn; rewrite E4; reflexivity).
        apply in_map_iff in Hq. destruct Hq as [c [<- Hc]]. rewrite Forall_forall in E2. split; [|apply E2; exact Hc].
        destruct pre as [|p pre].
        - destruct Hc as [<- |[]]. rewrite D2. cbn. lra.
        - destruct Hc as [<- |Hc]; [rewrite D2; cbn; lra|]. rewrite D2. cbn [hd].
          cbn [app map] in SS. apply Rlt_le. apply (asc_head _ _ _ SS).
          apply in_app_or in Hc. apply in_or_app. destruct Hc as [Hc|[<- |[]]]; [left; apply in_map; exact Hc|right; left; reflexivity]. }
      rewrite map_app. change (ascending ([lo left] ++ map lo (pre ++ [adj]) ++ map lo (right :: [far_right]))).
      apply asc_app. split; [exact I|]. split.
      + apply asc_app. split; [|split].
        * rewrite map_app. cbn [map]. rewrite E4. apply asc_app in SS. destruct SS as [S1 [S2 S3]]. apply asc_app. split; [exact S1|]. split; [exact I|].
          intros u v Hu [<- |[]]. apply S3; [exact Hu|left; reflexivity].
        * cbn. unfold right, far_right, far_row, build_spline_given_ends. cbn. lra.
        * intros u v Hu Hv. apply B1 in Hu. unfold right, far_right, far_row, build_spline_given_ends in Hv. cbn in Hv. destruct Hv as [<- |[<- |[]]]; lra.
      + intros u v [<- |[]] Hv. unfold left, build_spline_given_ends. cbn [lo]. apply in_app_or in Hv. destruct Hv as [Hv|Hv].
        * apply B1 in Hv. lra.
        * unfold right, far_right, far_row, build_spline_given_ends in Hv. cbn in Hv. unfold a0 in *. fold x in Hx. destruct Hv as [<- |[<- |[]]]; lra.
    - (* widths *)
      assert (Wall : forall q, In q s15 -> lo q <> hi q).
      { intros q Hq. rewrite Forall_forall in SW. destruct (SW q Hq). lra. }
      apply Forall_forall. intros q Hq. cbn [app] in Hq. destruct Hq as [<- |[<- |Hq]].
      + unfold far_left, far_row, build_spline_given_ends. cbn. lra.
      + unfold left, build_spline_given_ends. cbn. lra.
      + rewrite <- app_assoc in Hq. apply in_app_or in Hq. destruct Hq as [Hq|[<- |[<- |[<- |[]]]]].
        * apply Wall. rewrite E1. apply in_or_app. left. exact Hq.
        * rewrite E4, E5. apply Wall. rewrite E1. apply in_or_app. right. left. reflexivity.
        * unfold right, build_spline_given_ends. cbn. lra.
        * unfold far_right, far_row, build_spline_given_ends. cbn. lra.
    - (* steps on the left *)
      cbn [app steps]. split.
      + apply Rabs_zero. unfold far_left, far_row. change (lo left) with (a0 - 800). rewrite spline_parabola by lra. symmetry. apply left_ok.
      + destruct left_ok as [_ LO]. destruct pre as [|q pre].
        * cbn [app steps]. split; [|exact I]. cbn [hd] in *. rewrite E4. apply Rabs_zero. rewrite <- D2. rewrite LO, D4. rewrite D2. symmetry. exact E6.
        * cbn [hd app] in *. injection D1 as D1. subst rest. cbn [steps].
          split; [apply Rabs_zero; rewrite <- D2, LO; exact D4|].
          apply steps_app in D3. destruct D3 as [D31 [D32 _]]. apply steps_app. split; [exact D31|]. split; [|exact I].
          rewrite E4, E6. exact D32.
    - cbn [steps]. split; [|exact I]. apply Rabs_zero. change (lo far_right) with x1r. destruct right_ok as [_ [-> _]]. unfold far_right, far_row. rewrite spline_parabola by lra. reflexivity.
    - constructor; [unfold far_left, far_row, build_spline_given_ends; cbn; unfold a0, x in *; lra|].
      cbn [app]. constructor; [unfold left, build_spline_given_ends; cbn; unfold a0, x in *; lra|].
      apply Forall_app in E2. destruct E2 as [E21 E22]. apply Forall_app. split; [exact E21|]. constructor; [|constructor].
      inversion E22. rewrite E4. assumption.
    - rewrite E7. replace (hd 0 dt + (row_at r x - splines s15 x) - hd 0 dt) with (row_at r x - splines s15 x) by ring.
      assert (P : splines s15 x = row_at (pick r post x) x).
      { rewrite E1 in SS. rewrite E1. destruct pre as [|q pre].
        - cbn [app] in *. apply splines_pick. exact SS.
        - cbn [app] in *. rewrite splines_pick by exact SS. rewrite pick_app_right; [reflexivity| |].
          + inversion E2 as [|? ? _ E2']. apply Forall_app in E2'. destruct E2' as [E2' _]. eapply Forall_impl; [|exact E2']. intros u Hu. cbn in Hu. lra.
          + inversion E2 as [|? ? _ E2']. apply Forall_app in E2'. destruct E2' as [_ E2']. inversion E2'. lra. }
      rewrite P. destruct post as [|b post]; [cbn [pick]; apply Rabs_zero; reflexivity|].
      inversion E3 as [|? ? E31 E32]; subst. cbn [pick]. destruct (Rlt_dec x (lo b)) as [K|K]; [apply Rabs_zero; reflexivity|].
      assert (Ex : x = lo b) by lra. 
      assert (SB : sorted (b :: post)).
      { unfold sorted in SS. rewrite map_app in SS. apply asc_app in SS. destruct SS as [_ [SS _]]. apply (asc_tail (lo r)). exact SS. }
      rewrite Ex, pick_first by exact SB.
      assert (JJ : forall pre, joined eps (pre ++ r :: b :: post) -> joined eps (r :: b :: post)).
      { clear. induction pre as [|q pre IH]; intros H; [exact H|]. apply IH. destruct pre; apply H. }
      apply JJ in SJ. apply SJ.
    - exists pre, r, post. split; [reflexivity|]. split; [exact E1|]. split; [exact E4|exact E3].
  Qed.

  Lemma delta_t_pieces : exists A adj, build_delta_t s15 tt dt = Some (far_left :: (A ++ [adj]) ++ right :: [far_right]) /\
    sorted (far_left :: (A ++ [adj])) /\ Forall (fun r => lo r <> hi r) (far_left :: A ++ [adj]) /\
    steps eps far_left (A ++ [adj]) /\ steps eps right [far_right] /\ sorted [right; far_right] /\ Forall (fun r => lo r <> hi r) [right; far_right] /\
    Rabs (row_at adj x - hd 0 dt) <= eps /\
    (exists pre r post, A = left :: pre /\ s15 = pre ++ r :: post /\ lo adj = lo r /\ Forall (fun a => x <= lo a) post) /\ Forall (fun r => lo r < x) (far_left :: A ++ [adj]) /\
    forall y, delta_t (far_left :: (A ++ [adj]) ++ right :: [far_right]) tt dt y =
      if Rlt_dec y (hd 0 tt) then curve_of far_left (A ++ [adj]) (year_of y)
      else if Rlt_dec y (last tt 0) then interp_from y (hd 0 tt) (hd 0 dt) (combine (tl tt) (tl dt))
      else curve_of right [far_right] (year_of y).
  Proof.
    destruct curve_ok as [A [adj [E1 [E2 [E3 [E4 [E5 [E6 [E7 E8]]]]]]]]]. destruct assembly_order as [O1 O2]. pose proof right_ok as RO. pose proof left_ok as LO.
    exists A, adj. split; [exact E1|].
    assert (Sd : sorted (far_left :: (A ++ [adj])) /\ sorted [right; far_right]).
    { unfold sorted in *. rewrite app_comm_cons, map_app in E2. apply asc_app in E2. split; apply E2. }
    assert (Wd : Forall (fun r => lo r <> hi r) (far_left :: A ++ [adj]) /\ Forall (fun r => lo r <> hi r) [right; far_right]).
    { rewrite app_comm_cons in E3. apply Forall_app in E3. exact E3. }
    split; [apply Sd|]. split; [apply Wd|]. split; [exact E4|]. split; [exact E5|]. split; [apply Sd|]. split; [apply Wd|]. split; [exact E7|]. split; [exact E8|]. split; [exact E6|].
    intros y. unfold delta_t. rewrite splines_pick by exact E2.
    destruct HD as [N [LE AS]]. destruct tt as [|t0 tr] eqn:Et; [congruence|]. destruct dt as [|d0 dr] eqn:Ed; [discriminate LE|].
    cbn [hd tl]. injection LE as LE.
    unfold interp_nan. cbn [combine].
    change ((t0, d0) :: combine tr dr) with (combine (t0 :: tr) (d0 :: dr)).
    rewrite (last_combine tr dr t0 d0 t0 d0 LE). cbn [fst]. rewrite (last_any tr t0 t0 0).
    assert (Lx0 : lo right = x0r) by reflexivity. assert (Xx : x = year_of t0) by reflexivity. assert (X0 : x0r = year_of (last (t0 :: tr) 0)) by reflexivity.
    destruct (Rlt_dec y t0) as [K|K].
    - unfold curve_of. rewrite pick_app_left; [reflexivity|]. rewrite Lx0. apply year_order in K. lra.
    - destruct (Rlt_dec (last (t0 :: tr) 0) y) as [K2|K2].
      + destruct (Rlt_dec y (last (t0 :: tr) 0)); [lra|]. unfold curve_of. assert (x0r < year_of y) by (rewrite X0; apply year_order; exact K2). rewrite pick_app_right; [reflexivity| |rewrite Lx0; lra].
        inversion E6; subst. eapply Forall_impl; [|eassumption]. intros q Hq. cbn in Hq. lra.
      + destruct (Rlt_dec y (last (t0 :: tr) 0)) as [K3|K3]; [reflexivity|].
        assert (Ey : y = last (t0 :: tr) 0) by lra. rewrite Ey at 1.
        destruct (combine_fst tr dr LE) as [C1 C2].
        pose proof (interp_end (combine tr dr) t0 d0) as IE. rewrite C1, C2 in IE. rewrite IE by exact AS.
        unfold curve_of. rewrite Ey. fold x0r. change (pick right [far_right] x0r) with (pick right [far_right] (lo right)).
        rewrite pick_first by apply Sd. symmetry. exact (proj1 RO).
  Qed.

  Lemma delta_t_jumps : exists curve, build_delta_t s15 tt dt = Some curve /\ forall y, jump_at_most eps (delta_t curve tt dt) y.
  Proof.
    destruct delta_t_pieces as [A [adj [E1 [S1 [W1 [J1 [J2 [S2 [W2 [JA [_ [F EV]]]]]]]]]]]].
    eexists. split; [exact E1|]. intros y. eapply jump_ext; [exact EV|]. destruct assembly_order as [O1 O2]. pose proof right_ok as RO. pose proof left_ok as LO.
    assert (Xx : x = year_of (hd 0 tt)) by reflexivity. assert (X0 : x0r = year_of (last tt 0)) by reflexivity.
    assert (Pn : pick far_left (A ++ [adj]) x = adj).
    { apply (pick_app_right A far_left adj [] x).
      - inversion F; subst. apply Forall_app in H2. destruct H2 as [H2 _]. eapply Forall_impl; [|exact H2]. intros q Hq. cbn in Hq. lra.
      - inversion F; subst. apply Forall_app in H2. destruct H2 as [_ H2]. inversion H2; subst. lra. }
    destruct HD as [N [LE AS]].
    apply (jump_glue eps (fun y => curve_of far_left (A ++ [adj]) (year_of y))
      (fun y => if Rlt_dec y (last tt 0) then interp_from y (hd 0 tt) (hd 0 dt) (combine (tl tt) (tl dt)) else curve_of right [far_right] (year_of y)) (hd 0 tt) He).
    - intros u _. apply jump_year. apply curve_jump; assumption.
    - apply jump_year. rewrite <- Xx.
      destruct (pick_local (A ++ [adj]) far_left x S1) as [h [Hh K]].
      { intros b Hb. rewrite Forall_forall in F. assert (lo b < x) by (apply F; right; exact Hb). lra. }
      apply (jump_local 0 _ (row_at adj) x h Hh).
      + intros u Hu. unfold curve_of. rewrite (K u Hu), Pn. reflexivity.
      + apply cont_jump. apply row_cont. rewrite Forall_forall in W1. apply W1. right. apply in_or_app. right. left. reflexivity.
    - intros u _. destruct tt as [|t0 tr] eqn:Et; [congruence|]. destruct dt as [|d0 dr] eqn:Ed; [discriminate LE|]. cbn [hd tl].
      injection LE as LE. destruct (combine_fst tr dr LE) as [C1 C2].
      assert (AC : ascending (t0 :: map fst (combine tr dr))) by (rewrite C1; exact AS).
      apply (jump_glue eps (fun y => interp_from y t0 d0 (combine tr dr)) (fun y => curve_of right [far_right] (year_of y)) (last (t0 :: tr) 0) He).
      + intros v _. apply (jump_weaken 0); [exact He|]. apply interp_cont. exact AC.
      + apply interp_cont. exact AC.
      + intros v _. apply jump_year. apply curve_jump; assumption.
      + pose proof (interp_end (combine tr dr) t0 d0 AC) as IE. rewrite C1, C2 in IE. rewrite IE. apply Rabs_zero.
        unfold curve_of. rewrite <- X0. change (pick right [far_right] x0r) with (pick right [far_right] (lo right)).
        rewrite pick_first by exact S2. symmetry. exact (proj1 RO).
    - unfold curve_of. rewrite <- Xx, Pn.
      assert (EI : (if Rlt_dec (hd 0 tt) (last tt 0) then interp_from (hd 0 tt) (hd 0 tt) (hd 0 dt) (combine (tl tt) (tl dt)) else row_at (pick right [far_right] x) x) = hd 0 dt).
      { destruct tt as [|t0 tr] eqn:Et; [congruence|]. destruct dt as [|d0 dr] eqn:Ed; [discriminate LE|]. cbn [hd tl] in *.
        injection LE as LE. destruct (combine_fst tr dr LE) as [C1 C2]. destruct (Rlt_dec t0 (last (t0 :: tr) 0)) as [K|K].
        - apply interp_start. rewrite C1. exact AS.
        - destruct tr as [|t1 tr].
          + destruct dr; [|discriminate LE]. assert (Exx : x = x0r) by reflexivity. rewrite Exx. change (pick right [far_right] x0r) with (pick right [far_right] (lo right)). rewrite pick_first by exact S2. exact (proj1 RO).
          + exfalso. apply K. rewrite last_cons. apply (asc_head _ _ _ AS). apply last_In. }
      rewrite EI. exact JA.
  Qed.
  (** Values in the table, the final slope and the parabolas. *)
  Lemma delta_t_values : exists curve, build_delta_t s15 tt dt = Some curve /\
    (forall t d, In (t, d) (combine tt dt) -> delta_t curve tt dt t = d) /\
    (forall y, year_of y <= start_year s15 - 800 -> delta_t curve tt dt y = long_term (year_of y)) /\
    (forall y, year_of (last tt 0) + 800 <= year_of y -> delta_t curve tt dt y = long_term (year_of y)) /\
    (exists h, 0 < h /\ forall y, year_of (last tt 0) <= year_of y < year_of (last tt 0) + h -> delta_t curve tt dt y = row_at right (year_of y)).
  Proof.
    destruct delta_t_pieces as [A [adj [E1 [S1 [W1 [J1 [J2 [S2 [W2 [JA [HA [F EV]]]]]]]]]]]].
    eexists. split; [exact E1|]. destruct assembly_order as [O1 O2]. pose proof right_ok as RO. pose proof left_ok as LO.
    assert (Xx : x = year_of (hd 0 tt)) by reflexivity. assert (X0 : x0r = year_of (last tt 0)) by reflexivity.
    assert (Ax : a0 < x) by exact Hx.
    destruct HD as [N [LE AS]]. split; [|split; [|split]].
    - intros t d H. unfold delta_t, interp_nan. destruct tt as [|t0 tr] eqn:Et; [congruence|]. destruct dt as [|d0 dr] eqn:Ed; [discriminate LE|]. cbn [combine].
      injection LE as LE. destruct (combine_fst tr dr LE) as [C1 C2].
      assert (AC : ascending (t0 :: map fst (combine tr dr))) by (rewrite C1; exact AS).
      change ((t0, d0) :: combine tr dr) with (combine (t0 :: tr) (d0 :: dr)).
      rewrite (last_combine tr dr t0 d0 t0 d0 LE). cbn [fst]. rewrite (last_any tr t0 t0 0).
      assert (It : In t (t0 :: tr)). { apply in_combine_l in H. exact H. }
      assert (B : t0 <= t <= last (t0 :: tr) 0).
      { split.
        - destruct It as [<- |It]; [lra|]. apply Rlt_le. apply (asc_head _ _ _ AS It).
        - clear - It AS. revert t0 It AS. induction tr as [|t1 tr IH]; intros t0 It AS.
          + destruct It as [<- |[]]. cbn. lra.
          + rewrite last_cons. destruct It as [<- |It].
            * apply Rlt_le. apply (asc_head _ _ _ AS). apply last_In.
            * apply IH; [exact It|apply (asc_tail _ _ AS)]. }
      destruct (Rlt_dec t t0); [lra|]. destruct (Rlt_dec (last (t0 :: tr) 0) t); [lra|].
      exact (interp_at (combine tr dr) t0 d0 (t, d) AC H).
    - intros y Hy. fold a0 in Hy. rewrite EV. destruct (Rlt_dec y (hd 0 tt)) as [K|K]; [|exfalso; apply K; apply year_order; rewrite <- Xx; lra].
      unfold curve_of. destruct HA as [pre [r [post [EA _]]]]. rewrite EA in *.
      assert (Ep : forall u, row_at far_left u = long_term u) by (intros u; unfold far_left, far_row; apply spline_parabola; lra).
      cbn [app pick]. change (lo left) with (a0 - 800). destruct (Rlt_dec (year_of y) (a0 - 800)) as [K2|K2]; [apply Ep|].
      assert (Ey : year_of y = a0 - 800) by lra. rewrite Ey. change (a0 - 800) with (lo left) at 1. rewrite pick_first; [apply LO|].
      unfold sorted in S1. cbn [app map] in S1. exact (asc_tail _ _ S1).
    - intros y Hy. rewrite EV. rewrite <- X0 in Hy. assert (x1r <= year_of y) by (unfold x1r; pose proof (rfloor_bounds ((x0r + 800) / 100)); lra).
      destruct (Rlt_dec y (hd 0 tt)) as [K|K]; [apply year_order in K; rewrite <- Xx in K; lra|].
      destruct (Rlt_dec y (last tt 0)) as [K2|K2]; [apply year_order in K2; rewrite <- X0 in K2; lra|].
      unfold curve_of. cbn [pick]. change (lo far_right) with x1r. destruct (Rlt_dec (year_of y) x1r); [lra|].
      unfold far_right, far_row. apply spline_parabola. lra.
    - exists 700. split; [lra|]. intros y Hy. rewrite <- X0 in Hy. rewrite EV.
      destruct (Rlt_dec y (hd 0 tt)) as [K|K]; [apply year_order in K; rewrite <- Xx in K; lra|].
      destruct (Rlt_dec y (last tt 0)) as [K2|K2]; [apply year_order in K2; rewrite <- X0 in K2; lra|].
      unfold curve_of. cbn [pick]. change (lo far_right) with x1r. destruct (Rlt_dec (year_of y) x1r); [reflexivity|lra].
  Qed.
  (** Before the last row that is kept, the historic table is followed as it is. *)
  Lemma delta_t_history : exists curve, build_delta_t s15 tt dt = Some curve /\
    forall y b, In b s15 -> lo b < x -> a0 <= year_of y < lo b -> delta_t curve tt dt y = splines s15 (year_of y).
  Proof.
    destruct delta_t_pieces as [A [adj [E1 [S1 [W1 [J1 [J2 [S2 [W2 [JA [HA [F EV]]]]]]]]]]]].
    eexists. split; [exact E1|]. intros y b Hb Lb Hy. rewrite EV. assert (Xx : x = year_of (hd 0 tt)) by reflexivity.
    destruct (Rlt_dec y (hd 0 tt)) as [K|K]; [|exfalso; apply K; apply year_order; rewrite <- Xx; lra].
    destruct HA as [pre [r [post [EA [ES [EL EP]]]]]].
    destruct HS as [Sne [SW SJ]]. pose proof (joined_sorted eps s15 SW SJ) as SS.
    assert (Lr : lo b <= lo r).
    { unfold sorted in SS. rewrite ES in SS, Hb. rewrite map_app in SS. apply asc_app in SS. destruct SS as [_ [_ SS]].
      apply in_app_or in Hb. destruct Hb as [Hb|[-> |Hb]].
      - apply Rlt_le. apply SS; [apply in_map; exact Hb|left; reflexivity].
      - lra.
      - rewrite Forall_forall in EP. specialize (EP b Hb). lra. }
    destruct pre as [|q pre].
    { exfalso. unfold a0 in Hy. rewrite ES in Hy. cbn in Hy. lra. }
    assert (A0 : a0 = lo q) by (unfold a0; rewrite ES; reflexivity).
    rewrite ES. rewrite ES in SS. cbn [app] in *. rewrite splines_pick by exact SS. unfold curve_of. rewrite EA. 
    rewrite (pick_app_left (left :: q :: pre) far_left adj []) by (rewrite EL; lra).
    rewrite (pick_app_left pre q r post) by lra. cbn [pick]. change (lo left) with (a0 - 800).
    destruct (Rlt_dec (year_of y) (a0 - 800)); [lra|]. destruct (Rlt_dec (year_of y) (lo q)); [lra|]. reflexivity.
  Qed.
End Assembly.
