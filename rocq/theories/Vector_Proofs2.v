From Coq Require Import List ZArith Reals Bool Lia Lra Psatz.
From Verif Require Import Vector_Model Vector_Spec Vector_Proofs.
Import ListNotations.
Open Scope R_scope.

(** * Rows *)
Lemma linked_app a l1 b l2 c : linked a l1 b -> linked b l2 c -> linked a (l1 ++ l2) c.
Proof. intros H1 H2. induction H1; [assumption|]. cbn. constructor. auto. Qed.
Lemma linked_rev a l b : linked a l b -> linked b (rev (map neg l)) a.
Proof.
  intros H. induction H as [c|v l d H IH]; [constructor|]. cbn. eapply linked_app; [eassumption|].
  rewrite <- (center_neg v). constructor. rewrite target_neg. constructor.
Qed.
Lemma linked_parts v : in_row v -> linked (center v) (parts v) (target v).
Proof.
  intros H. destruct v as [c d f|w|c d [|x l]]; cbn [parts]; try (apply linked_cons; constructor). exact H.
Qed.
Fixpoint all_rows (v : vf) : Prop := match v with Leaf _ _ _ => True | Reversed w => all_rows w | Sum c d l => linked c l d /\ (fix go l := match l with [] => True | w :: l => all_rows w /\ go l end) l end.
Lemma all_rows_sum c d l : all_rows (Sum c d l) <-> linked c l d /\ (forall w, In w l -> all_rows w).
Proof.
  cbn. split; intros [H1 H2]; (split; [assumption|]).
  - clear H1. induction l as [|x l IH]; intros w Hw; [destruct Hw|]. destruct H2 as [H2 H3]. destruct Hw as [<-|Hw]; [assumption|]. apply IH; assumption.
  - clear H1. induction l as [|x l IH]; [exact I|]. split; [apply H2; left; reflexivity|]. apply IH. intros w Hw. apply H2. right. assumption.
Qed.
Lemma all_rows_row v : all_rows v -> in_row v.
Proof. destruct v; cbn; tauto. Qed.
Lemma all_rows_parts v : all_rows v -> forall w, In w (parts v) -> all_rows w.
Proof. intros H w. destruct v as [c d f|u|c d [|x l]]; cbn [parts]; intros Hw; try (destruct Hw as [<-|[]]; assumption). apply all_rows_sum in H as [_ H]. auto. Qed.
Lemma all_rows_neg v : all_rows v -> all_rows (neg v).
Proof. destruct v; cbn [neg]; intros H; try exact H. Qed.
Lemma build_rows e : forall v, build e = Some v -> all_rows v.
Proof.
  induction e as [c t f|a IHa b IHb|a IHa b IHb|a IHa]; cbn [build]; intros v Hv.
  - injection Hv as <-. exact I.
  - destruct (build a) as [x|]; [|discriminate]. destruct (build b) as [y|]; [|discriminate]. specialize (IHa x eq_refl). specialize (IHb y eq_refl).
    unfold add in Hv. destruct (Z.eqb_spec (target x) (center y)) as [E|_]; [|destruct (Z.eqb_spec (target y) (center x)) as [E|_]; [|discriminate]];
    injection Hv as <-; apply all_rows_sum; (split; [eapply linked_app; [apply linked_parts, all_rows_row; assumption|rewrite E; apply linked_parts, all_rows_row; assumption]|]);
    intros w Hw; apply in_app_iff in Hw as [Hw|Hw]; (apply (all_rows_parts x IHa); assumption) || (apply (all_rows_parts y IHb); assumption).
  - destruct (build a) as [x|]; [|discriminate]. destruct (build b) as [y|]; [|discriminate]. specialize (IHa x eq_refl). specialize (IHb y eq_refl).
    unfold sub in Hv. destruct (Z.eqb_spec (center x) (center y)) as [E|_]; [|discriminate]. injection Hv as <-. apply all_rows_sum. split.
    + eapply linked_app; [apply linked_rev, linked_parts, all_rows_row; assumption|]. rewrite <- E. apply linked_parts, all_rows_row. assumption.
    + intros w Hw. apply in_app_iff in Hw as [Hw|Hw]; [|apply (all_rows_parts x IHa); assumption]. apply in_rev, in_map_iff in Hw as (u & <- & Hu). apply all_rows_neg. apply (all_rows_parts y IHb); assumption.
  - destruct (build a) as [x|]; [|discriminate]. injection Hv as <-. apply all_rows_neg. auto.
Qed.
Lemma build_in_row e v : build e = Some v -> in_row v.
Proof. intros H. apply all_rows_row. eapply build_rows. eassumption. Qed.

(** * The geocentric position *)
Section Gcrs.
Variables (X : Z -> R -> vec) (s : R).
Definition good (w : vf) : Prop := forall p u, pv w s = Some (p, u) -> p = vsub (X (target w) s) (X (center w) s).
Lemma go_gcrs c0 l : forall c d a b, (forall w, In w l -> good w) -> linked c l d -> go s (Some a) l = Some b ->
  p_pos a = vsub (X c s) (X c0 s) -> (forall g, p_gcrs a = Some g -> g = vsub (X c0 s) (X earth s)) ->
  (forall g, p_gcrs b = Some g -> g = vsub (X c0 s) (X earth s)) /\
  (p_gcrs b = None <-> p_gcrs a = None /\ forall w, In w l -> center w <> earth) /\
  (l <> [] -> exists l1 w, l = l1 ++ [w] /\ p_center b = center w /\ p_last b = vsub (X d s) (X (center w) s)).
Proof.
  induction l as [|w l IH]; intros c d a b Hg Hl Hb Hp Ha.
  - cbn in Hb. injection Hb as <-. split; [assumption|]. split; [split; [intros ->; split; [reflexivity|intros w []]|tauto]|congruence].
  - inversion Hl as [|v' l' d' Hl' E1 E2]; subst v' l' d' c. cbn [go] in Hb.
    destruct (at_ w s) as [[[[p2 v2] g2] m2]|] eqn:E; [|cbn in Hb; rewrite go_none in Hb; discriminate].
    assert (G : p2 = vsub (X (target w) s) (X (center w) s)) by (apply (Hg w (or_introl eq_refl) p2 v2); unfold pv; rewrite E; reflexivity).
    cbn [sum_step] in Hb.
    match type of Hb with go s (Some ?x) l = _ => set (a' := x) in * end.
    destruct (IH (target w) d a' b) as (I1 & I2 & I3).
    + intros y Hy. apply Hg. right. assumption.
    + assumption.
    + assumption.
    + cbn. rewrite Hp, G. vring.
    + intros g. cbn. destruct (Z.eqb_spec (center w) earth) as [Ee|_]; [|apply Ha]. intros Eg. injection Eg as <-. rewrite Hp, Ee. vring.
    + split; [assumption|]. split.
      * rewrite I2. cbn. destruct (Z.eqb_spec (center w) earth) as [Ee|Ne].
        -- split; [intros [E1 _]; discriminate|]. intros [_ H]. exfalso. apply (H w); [left; reflexivity|assumption].
        -- split; intros [H1 H2]; (split; [assumption|]); intros y; [intros [<-|Hy]; [assumption|apply H2; assumption]|intros Hy; apply H2; right; assumption].
      * intros _. destruct l as [|w' l''].
        -- cbn in Hb. injection Hb as <-. exists [], w. split; [reflexivity|]. split; [reflexivity|]. cbn. inversion Hl'; subst. reflexivity.
        -- destruct I3 as (l1 & y & El & I3); [discriminate|]. rewrite El. exists (w :: l1), y. auto.
Qed.
Lemma gcrs_ok c d l p u g m : l <> [] -> (forall w, In w l -> good w) -> linked c l d -> at_ (Sum c d l) s = Some (p, u, g, m) ->
  exists l1 w, l = l1 ++ [w] /\
  (c = 0%Z /\ center w = earth -> g = Some (vsub (X d s) (X earth s))) /\
  (~ (c = 0%Z /\ center w = earth) -> forall h, g = Some h -> h = vsub (X c s) (X earth s)) /\
  (g = None <-> forall w, In w l -> center w <> earth).
Proof.
  intros N Hg Hl H. rewrite at_sum in H. destruct (go s (Some sum_start) l) as [b|] eqn:E.
  2: { destruct (option_map center (hd_error l)); discriminate. }
  destruct (go_gcrs c l c d sum_start b Hg Hl E) as (G1 & G2 & G3); [cbn; vring|discriminate|].
  destruct (G3 N) as (l1 & w & El & Ec & Elast). exists l1, w. split; [assumption|].
  assert (Hd : option_map center (hd_error l) = Some c) by (inversion Hl; subst; [congruence|reflexivity]).
  rewrite Hd in H. cbn [sum_result] in H. injection H as _ _ Hgc _. rewrite Ec in Hgc.
  destruct (Z.eqb_spec c 0) as [E0|N0]; destruct (Z.eqb_spec (center w) earth) as [E1|N1]; cbn [andb] in Hgc; subst g; (split; [intros [? ?]; try congruence|]); try (split; [intros K h Eh|]).
  all: try (apply G1; assumption). all: try (rewrite G2; cbn; tauto). all: try tauto.
  all: split; [discriminate|]; intros K; exfalso; apply (K w); [rewrite El; apply in_or_app; right; left; reflexivity|assumption].
Qed.
End Gcrs.
(* A chain that goes on beyond a satellite of the Earth. *)
Definition demo_X (b : Z) (_ : R) : vec := V3 (IZR b) 0 0.
Definition demo_leaf (c t : Z) : vf := Leaf c t (fun s => Some (vsub (demo_X t s) (demo_X c s), vzero, None, None)).
Lemma gcrs_wrong : exists c d l p u g m, c = 0%Z /\ linked c l d /\ (forall w, In w l -> good demo_X 0 w) /\
  at_ (Sum c d l) 0 = Some (p, u, Some g, m) /\ g <> vsub (demo_X d 0) (demo_X earth 0).
Proof.
  exists 0%Z, 1002%Z, [demo_leaf 0 399; demo_leaf 399 1001; demo_leaf 1001 1002]. do 4 eexists. split; [reflexivity|].
  split; [apply (linked_cons (demo_leaf 0 399)), (linked_cons (demo_leaf 399 1001)), (linked_cons (demo_leaf 1001 1002)); constructor|].
  split; [|split; [reflexivity|]].
  - intros w [<-|[<-|[<-|[]]]] p u E; unfold pv in E; cbn in E; injection E as <- _; reflexivity.
  - intros E. apply (f_equal vx) in E. cbn in E. unfold earth in E. lra.
Qed.

(** * Light time *)
Definition sound (c : R) (l : lane) : Prop := placed l = moment l - before l.
Lemma loop_sound c n : forall ls r, Forall (sound c) ls -> lt_loop c n ls = Some r ->
  Forall (fun l => sound c l /\ Rabs (lane_lt c l - before l) < 1 / 1000000000000) r /\
  map (fun l => (dist l, moment l)) r = map (fun l => (dist l, moment l)) ls.
Proof.
  induction n as [|n IH]; intros ls r Hs; [discriminate|]. cbn [lt_loop].
  destruct (forallb (lane_small c) ls) eqn:E.
  - intros X. injection X as <-. split; [|reflexivity]. rewrite forallb_forall in E. rewrite Forall_forall in *. intros l Hl.
    split; [auto|]. specialize (E l Hl). unfold lane_small in E. destruct (Rlt_dec _ _); [assumption|discriminate].
  - intros X. destruct (IH (map (lane_next c) ls) r) as [I1 I2]; [|assumption|].
    + rewrite Forall_forall in *. intros l Hl. apply in_map_iff in Hl as (x & <- & _). reflexivity.
    + split; [assumption|]. rewrite I2, map_map. reflexivity.
Qed.
Lemma light_times_ok c obs r : light_times c obs = Some r -> Forall2 (fun x y =>
  fst y = fst x (snd y) / c /\ Rabs (snd y - (snd x - fst y)) < 1 / 1000000000000) obs r.
Proof.
  unfold light_times. destruct (lt_loop c 10 (map lane_start obs)) as [ls|] eqn:E; [|discriminate]. cbn [option_map]. intros X. injection X as <-.
  assert (S0 : Forall (sound c) (map lane_start obs)).
  { apply Forall_forall. intros l Hl. apply in_map_iff in Hl as (x & <- & _). unfold sound, lane_start. cbn. ring. }
  destruct (loop_sound c 10 _ _ S0 E) as [H1 H2]. clear S0 E.
  rewrite map_map in H2. cbn in H2. revert obs H2. induction H1 as [|l ls [Hs Hb] _ IH]; intros [|x obs] H2; try discriminate.
  - constructor.
  - cbn in H2. injection H2 as E1 E2 E3. cbn [map]. constructor; [|apply IH; assumption]. cbn. split; [unfold lane_lt; rewrite E1; reflexivity|].
    rewrite Hs. rewrite <- E2. replace (moment l - before l - (moment l - lane_lt c l)) with (lane_lt c l - before l) by ring. assumption.
Qed.
Lemma loop_converges c k : 0 < c -> 0 <= k -> forall n D ls, Forall (fun l => sound c l /\ lipschitz (k * c) (dist l) /\ Rabs (lane_lt c l - before l) <= D) ls ->
  D * k ^ n < 1 / 1000000000000 -> lt_loop c (S n) ls <> None.
Proof.
  intros Hc Hk. induction n as [|n IH]; intros D ls H HD; cbn [lt_loop].
  - replace (forallb (lane_small c) ls) with true; [discriminate|]. symmetry. apply forallb_forall. intros l Hl. rewrite Forall_forall in H.
    destruct (H l Hl) as (_ & _ & B). unfold lane_small. destruct (Rlt_dec _ _); [reflexivity|]. cbn in HD. lra.
  - destruct (forallb (lane_small c) ls); [discriminate|]. apply (IH (D * k)).
    + rewrite Forall_forall in *. intros l' Hl. apply in_map_iff in Hl as (l & <- & Hl). destruct (H l Hl) as (S1 & L & B).
      split; [reflexivity|]. split; [assumption|]. unfold lane_next. unfold lane_lt in *. cbn. set (lt := dist l (placed l) / c) in *.
      assert (E : dist l (moment l - lt) / c - lt = (dist l (moment l - lt) - dist l (placed l)) / c) by (unfold lt; field; lra).
      rewrite E. unfold Rdiv. rewrite Rabs_mult, (Rabs_right (/ c)) by (apply Rle_ge, Rlt_le, Rinv_0_lt_compat; assumption).
      specialize (L (moment l - lt) (placed l)). rewrite S1 in L at 2. replace (moment l - lt - (moment l - before l)) with (- (lt - before l)) in L by ring. rewrite Rabs_Ropp in L.
      apply Rmult_le_reg_r with c; [assumption|]. rewrite Rmult_assoc, Rinv_l by lra. rewrite Rmult_1_r.
      eapply Rle_trans; [exact L|]. replace (D * k * c) with (k * c * D) by ring. apply Rmult_le_compat_l; [nra|assumption].
    + cbn in HD. lra.
Qed.
Lemma light_times_converge c obs : 0 < c ->
  (forall d t, In (d, t) obs -> lipschitz (1 / 100 * c) d /\ 0 <= d t /\ d t < 1000000 * c) -> light_times c obs <> None.
Proof.
  intros Hc H. unfold light_times. destruct obs as [|o obs]; [discriminate|].
  assert (G : exists D, D < 1000000 /\ 0 <= D /\ forall d t, In (d, t) (o :: obs) -> d t / c <= D).
  { clear - H Hc. induction (o :: obs) as [|[d t] l IH]; [exists 0; split; [lra|]; split; [lra|intros ? ? []]|].
    destruct IH as (D & H1 & H2 & H3); [intros d' t' Hd; apply H; right; assumption|]. destruct (H d t (or_introl eq_refl)) as (_ & P & Q).
    assert (d t / c < 1000000) by (apply Rmult_lt_reg_r with c; [assumption|]; unfold Rdiv; rewrite Rmult_assoc, Rinv_l by lra; lra).
    exists (Rmax D (d t / c)). split; [apply Rmax_lub_lt; assumption|]. split; [eapply Rle_trans; [exact H2|apply Rmax_l]|].
    intros d' t' [E|Hd]; [injection E as <- <-; apply Rmax_r|]. eapply Rle_trans; [apply H3; assumption|apply Rmax_l]. }
  destruct G as (D & D1 & D2 & D3).
  assert (L : lt_loop c 10 (map lane_start (o :: obs)) <> None).
  { apply (loop_converges c (1/100) Hc ltac:(lra) 9 D).
    - apply Forall_forall. intros l Hl. apply in_map_iff in Hl as ([d t] & <- & Hl). destruct (H d t Hl) as (Lp & P & Q).
      split; [unfold sound; cbn; ring|]. split; [assumption|]. unfold lane_lt. cbn. rewrite Rminus_0_r, Rabs_right; [apply D3; assumption|].
      apply Rle_ge. apply Rmult_le_pos; [assumption|apply Rlt_le, Rinv_0_lt_compat; assumption].
    - cbn. lra. }
  destruct (lt_loop c 10 (map lane_start (o :: obs))); [discriminate|congruence].
Qed.
(** The light time against the true one. *)
Lemma light_time_error c k d t lt placed tau_ : 0 < c -> 0 <= k < 1 -> lipschitz (k * c) d ->
  lt = d placed / c -> Rabs (placed - (t - lt)) < 1 / 1000000000000 -> c * tau_ = d (t - tau_) ->
  Rabs (lt - tau_) <= k / (1 - k) / 1000000000000.
Proof.
  intros Hc Hk L E B T.
  assert (E2 : tau_ = d (t - tau_) / c) by (rewrite <- T; field; lra).
  assert (A : Rabs (lt - tau_) <= k * Rabs (placed - (t - tau_))).
  { rewrite E, E2 at 1. replace (d placed / c - d (t - tau_) / c) with ((d placed - d (t - tau_)) / c) by (field; lra).
    unfold Rdiv. rewrite Rabs_mult, (Rabs_right (/ c)) by (apply Rle_ge, Rlt_le, Rinv_0_lt_compat; assumption).
    apply Rmult_le_reg_r with c; [assumption|]. rewrite Rmult_assoc, Rinv_l, Rmult_1_r by lra. eapply Rle_trans; [apply L|]. apply Req_le. ring. }
  assert (T2 : Rabs (placed - (t - tau_)) <= Rabs (placed - (t - lt)) + Rabs (lt - tau_)).
  { replace (placed - (t - tau_)) with ((placed - (t - lt)) + - (lt - tau_)) by ring. eapply Rle_trans; [apply Rabs_triang|]. rewrite Rabs_Ropp. lra. }
  set (e := Rabs (lt - tau_)) in *. assert (0 <= e) by apply Rabs_pos. set (w := Rabs (placed - (t - lt))) in *.
  assert (Q : e * (1 - k) <= k * (1 / 1000000000000)).
  { assert (k * w <= k * (1 / 1000000000000)) by (apply Rmult_le_compat_l; lra). nra. }
  apply Rmult_le_reg_r with (1 - k); [lra|]. replace (k / (1 - k) / 1000000000000 * (1 - k)) with (k * (1 / 1000000000000)) by (field; lra). assumption.
Qed.
(** Distances of slow bodies are Lipschitz. *)
Lemma vlength_sq a : vlength a * vlength a = vx a * vx a + vy a * vy a + vz a * vz a.
Proof. apply sqrt_sqrt. nra. Qed.
Lemma vlength_pos a : 0 <= vlength a. Proof. apply sqrt_pos. Qed.
Lemma cauchy a b : vx a * vx b + vy a * vy b + vz a * vz b <= vlength a * vlength b.
Proof.
  set (d := _ + _ + _). destruct (Rle_dec d 0) as [N|P].
  - eapply Rle_trans; [exact N|]. apply Rmult_le_pos; apply vlength_pos.
  - apply Rsqr_incr_0; [|lra|apply Rmult_le_pos; apply vlength_pos]. unfold Rsqr.
    replace (vlength a * vlength b * (vlength a * vlength b)) with ((vlength a * vlength a) * (vlength b * vlength b)) by ring. rewrite !vlength_sq. unfold d.
    set (x := vx a * vy b - vy a * vx b). set (y := vx a * vz b - vz a * vx b). set (z := vy a * vz b - vz a * vy b).
    assert (E : (vx a * vx a + vy a * vy a + vz a * vz a) * (vx b * vx b + vy b * vy b + vz b * vz b) -
      (vx a * vx b + vy a * vy b + vz a * vz b) * (vx a * vx b + vy a * vy b + vz a * vz b) = x * x + y * y + z * z) by (unfold x, y, z; ring).
    assert (0 <= x * x) by nra. assert (0 <= y * y) by nra. assert (0 <= z * z) by nra. lra.
Qed.
Lemma triangle a b : vlength (vadd a b) <= vlength a + vlength b.
Proof.
  apply Rsqr_incr_0; [|apply vlength_pos|pose proof (vlength_pos a); pose proof (vlength_pos b); lra]. unfold Rsqr.
  rewrite vlength_sq. pose proof (cauchy a b). pose proof (vlength_sq a). pose proof (vlength_sq b). cbn. nra.
Qed.
Lemma distance_lipschitz k o X : slower k X -> lipschitz k (distance o X).
Proof.
  intros H a b. unfold distance.
  assert (S1 : vlength (vsub (X a) o) <= vlength (vsub (X a) (X b)) + vlength (vsub (X b) o)).
  { eapply Rle_trans; [|apply triangle]. apply Req_le. f_equal. vring. }
  assert (S2 : vlength (vsub (X b) o) <= vlength (vsub (X b) (X a)) + vlength (vsub (X a) o)).
  { eapply Rle_trans; [|apply triangle]. apply Req_le. f_equal. vring. }
  pose proof (H a b) as H1. pose proof (H b a) as H2. rewrite (Rabs_minus_sym b a) in H2. apply Rabs_le. lra.
Qed.
Lemma observe_converges c obs : 0 < c ->
  (forall o X t, In (o, X, t) obs -> slower (1 / 100 * c) X /\ distance o X t < 1000000 * c) ->
  light_times c (map (fun x => (distance (fst (fst x)) (snd (fst x)), snd x)) obs) <> None.
Proof.
  intros Hc H. apply light_times_converge; [assumption|]. intros d t Hi. apply in_map_iff in Hi as ([[o X] t'] & E & Hi). cbn in E. injection E as <- <-.
  destruct (H o X t' Hi) as [H1 H2]. split; [apply distance_lipschitz; assumption|]. split; [apply vlength_pos|assumption].
Qed.
