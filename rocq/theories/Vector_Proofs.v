From Coq Require Import List ZArith Reals Bool Lia Lra.
From Verif Require Import Vector_Model Vector_Spec.
Import ListNotations.
Open Scope R_scope.

Lemma vec_ext a b : vx a = vx b -> vy a = vy b -> vz a = vz b -> a = b.
Proof. destruct a, b; cbn; intros; subst; reflexivity. Qed.
Ltac vring := apply vec_ext; cbn; ring.
Lemma vadd_comm a b : vadd a b = vadd b a. Proof. vring. Qed.
Lemma vadd_assoc a b c : vadd a (vadd b c) = vadd (vadd a b) c. Proof. vring. Qed.
Lemma vadd_0_r a : vadd a vzero = a. Proof. vring. Qed.
Lemma vadd_0_l a : vadd vzero a = a. Proof. vring. Qed.
Lemma plus_comm a b : plus_pv a b = plus_pv b a.
Proof. destruct a as [[p u]|], b as [[q w]|]; cbn; try reflexivity. rewrite (vadd_comm p), (vadd_comm u). reflexivity. Qed.
Lemma plus_assoc a b c : plus_pv a (plus_pv b c) = plus_pv (plus_pv a b) c.
Proof. destruct a as [[p u]|], b as [[q w]|], c as [[r x]|]; cbn; try reflexivity. rewrite !vadd_assoc. reflexivity. Qed.
Definition zero_pv : option (vec * vec) := Some (vzero, vzero).
Lemma plus_0_r a : plus_pv a zero_pv = a.
Proof. destruct a as [[p u]|]; cbn; [rewrite !vadd_0_r|]; reflexivity. Qed.
Lemma plus_0_l a : plus_pv zero_pv a = a.
Proof. rewrite plus_comm. apply plus_0_r. Qed.
Lemma opp_plus a b : opp_pv (plus_pv a b) = plus_pv (opp_pv a) (opp_pv b).
Proof. destruct a as [[p u]|], b as [[q w]|]; cbn; try reflexivity. do 2 f_equal; vring. Qed.
Lemma opp_opp a : opp_pv (opp_pv a) = a.
Proof. destruct a as [[p u]|]; cbn; [|reflexivity]. do 2 f_equal; vring. Qed.
Lemma minus_def a b : minus_pv a b = plus_pv (opp_pv b) a.
Proof. destruct a as [[p u]|], b as [[q w]|]; cbn; try reflexivity. do 2 f_equal; vring. Qed.
Definition total (l : list (option (vec * vec))) := fold_right plus_pv zero_pv l.
Lemma total_app l m : total (l ++ m) = plus_pv (total l) (total m).
Proof. induction l as [|a l IH]; cbn [app total fold_right]; [rewrite plus_0_l; reflexivity|]. fold (total (l ++ m)) (total l). rewrite IH, plus_assoc. reflexivity. Qed.
Lemma total_rev l : total (rev l) = total l.
Proof. induction l as [|a l IH]; [reflexivity|]. cbn [rev]. rewrite total_app, IH. cbn [total fold_right]. fold (total l). rewrite plus_0_r, plus_comm. reflexivity. Qed.
Lemma total_opp l : total (map opp_pv l) = opp_pv (total l).
Proof.
  induction l as [|a l IH]; cbn [map total fold_right]; [|fold (total (map opp_pv l)) (total l); rewrite IH, opp_plus; reflexivity].
  unfold zero_pv. cbn. do 2 f_equal; vring.
Qed.

Fixpoint go (t : R) (acc : option progress) (l : list vf) : option progress :=
  match l with [] => acc | w :: l => go t (sum_step acc (center w) (at_ w t)) l end.
Lemma at_sum c d l t : at_ (Sum c d l) t = sum_result (option_map center (hd_error l)) (go t (Some sum_start) l).
Proof.
  cbn [at_]. f_equal. generalize (Some sum_start). induction l as [|w l IH]; intros a; [reflexivity|]. cbn [go]. apply IH.
Qed.
Definition acc_pv (a : option progress) : option (vec * vec) := option_map (fun a => (p_pos a, p_vel a)) a.
Lemma go_none t l : go t None l = None.
Proof. induction l as [|w l IH]; [reflexivity|]. cbn. apply IH. Qed.
Lemma go_pv t l : forall a, acc_pv (go t a l) = plus_pv (acc_pv a) (total (map (fun w => pv w t) l)).
Proof.
  induction l as [|w l IH]; intros a; cbn [go map total fold_right]; [rewrite plus_0_r; reflexivity|].
  rewrite IH. fold (total (map (fun w => pv w t) l)). rewrite plus_assoc. f_equal. unfold pv.
  destruct a as [a|]; [|reflexivity]. cbn. destruct (at_ w t) as [[[[p u] g] m]|]; reflexivity.
Qed.
Lemma pv_sum c d l t : l <> [] -> pv (Sum c d l) t = total (map (fun w => pv w t) l).
Proof.
  intros N. unfold pv at 1. rewrite at_sum. rewrite <- (plus_0_l (total _)).
  change zero_pv with (acc_pv (Some sum_start)). rewrite <- go_pv. destruct l as [|w l]; [congruence|].
  cbn [hd_error option_map]. destruct (go t (Some sum_start) (w :: l)); reflexivity.
Qed.
Lemma pv_empty c d t : pv (Sum c d []) t = None.
Proof. reflexivity. Qed.
Lemma parts_ne v : parts v <> [].
Proof. destruct v as [| |? ? [|]]; discriminate. Qed.
Lemma pv_parts v t : total (map (fun w => pv w t) (parts v)) = pv v t.
Proof.
  destruct v as [c d f|w|c d [|x l]]; cbn [parts map total fold_right]; try apply plus_0_r.
  symmetry. apply pv_sum. discriminate.
Qed.
Lemma pv_reversed v t : pv (Reversed v) t = opp_pv (pv v t).
Proof. unfold pv. cbn. destruct (at_ v t) as [[[[p u] g] m]|]; reflexivity. Qed.
Lemma pv_neg v t : pv (neg v) t = opp_pv (pv v t).
Proof. destruct v; cbn [neg]; try apply pv_reversed. rewrite pv_reversed, opp_opp. reflexivity. Qed.
Lemma center_neg v : center (neg v) = target v. Proof. destruct v; reflexivity. Qed.
Lemma target_neg v : target (neg v) = center v. Proof. destruct v; reflexivity. Qed.
Lemma add_pv a b c t : add a b = Some c -> pv c t = plus_pv (pv a t) (pv b t).
Proof.
  assert (NE : forall x y, parts x ++ parts y <> []) by (intros x y E; apply app_eq_nil in E as [E _]; apply (parts_ne x E)).
  unfold add. destruct (Z.eqb _ _); [|destruct (Z.eqb _ _); [|discriminate]]; intros E; injection E as <-;
    rewrite pv_sum by apply NE; rewrite map_app, total_app, !pv_parts; [reflexivity|apply plus_comm].
Qed.
Lemma sub_pv a b c t : sub a b = Some c -> pv c t = minus_pv (pv a t) (pv b t).
Proof.
  unfold sub. destruct (Z.eqb _ _); [|discriminate]. intros E. injection E as <-.
  rewrite pv_sum.
  - rewrite map_app, total_app, pv_parts, map_rev, total_rev, map_map, minus_def. f_equal.
    rewrite (map_ext _ (fun w => opp_pv (pv w t))) by (intros w; apply pv_neg). rewrite <- (map_map (fun w => pv w t) opp_pv), total_opp, pv_parts. reflexivity.
  - intros E. apply app_eq_nil in E as [_ E]. apply (parts_ne a E).
Qed.

Lemma add_ok a b c : add a b = Some c ->
  (forall t, pv c t = plus_pv (pv a t) (pv b t)) /\
  ((target a = center b /\ center c = center a /\ target c = target b) \/
   (target b = center a /\ center c = center b /\ target c = target a)).
Proof.
  intros H. split; [intros t; apply add_pv; assumption|]. unfold add in H.
  destruct (Z.eqb_spec (target a) (center b)); [injection H as <-; auto|].
  destruct (Z.eqb_spec (target b) (center a)); [injection H as <-; auto|discriminate].
Qed.
Lemma add_refused a b : add a b = None <-> target a <> center b /\ target b <> center a.
Proof.
  unfold add. destruct (Z.eqb_spec (target a) (center b)); [split; [discriminate|tauto]|].
  destruct (Z.eqb_spec (target b) (center a)); [split; [discriminate|tauto]|tauto].
Qed.
Lemma sub_ok a b c : sub a b = Some c ->
  (forall t, pv c t = minus_pv (pv a t) (pv b t)) /\ center c = target b /\ target c = target a.
Proof.
  intros H. split; [intros t; apply sub_pv; assumption|]. unfold sub in H. destruct (Z.eqb _ _); [|discriminate]. injection H as <-. auto.
Qed.
Lemma sub_refused a b : sub a b = None <-> center a <> center b.
Proof. unfold sub. destruct (Z.eqb_spec (center a) (center b)); split; try congruence; tauto. Qed.
Lemma neg_ok a : (forall t, pv (neg a) t = opp_pv (pv a t)) /\ center (neg a) = target a /\ target (neg a) = center a /\
  (forall t, pv (neg (neg a)) t = pv a t).
Proof.
  split; [intros; apply pv_neg|]. split; [apply center_neg|]. split; [apply target_neg|]. intros t. rewrite !pv_neg, opp_opp. reflexivity.
Qed.
Lemma add_assoc a b c : target a = center b -> target b = center c ->
  exists ab bc r, add a b = Some ab /\ add b c = Some bc /\ add ab c = Some r /\ add a bc = Some r.
Proof.
  intros H1 H2. unfold add. rewrite H1, H2, !Z.eqb_refl. do 3 eexists. split; [reflexivity|]. split; [reflexivity|].
  cbn [center target]. rewrite !Z.eqb_refl.
  assert (P : forall c d l, l <> [] -> parts (Sum c d l) = l) by (intros ? ? [|x l] N; [congruence|reflexivity]).
  assert (NE : forall x y, parts x ++ parts y <> []) by (intros x y E; apply app_eq_nil in E as [E _]; apply (parts_ne x E)).
  rewrite !P by apply NE. rewrite app_assoc. auto.
Qed.
Lemma add_comm a b x : add a b = Some x -> exists y, add b a = Some y /\ (forall t, pv y t = pv x t) /\
  (~ (target a = center b /\ target b = center a) -> y = x).
Proof.
  intros H. destruct (add b a) as [y|] eqn:E.
  - exists y. split; [reflexivity|]. split.
    + intros t. rewrite (add_pv _ _ _ t E), (add_pv _ _ _ t H). apply plus_comm.
    + intros N. unfold add in *. destruct (Z.eqb_spec (target a) (center b)); destruct (Z.eqb_spec (target b) (center a)); try tauto; congruence.
  - apply add_refused in E. unfold add in H. destruct (Z.eqb_spec (target a) (center b)); [tauto|]. destruct (Z.eqb_spec (target b) (center a)); [tauto|discriminate].
Qed.
Lemma add_loop : exists a b x y, add a b = Some x /\ add b a = Some y /\ center x <> center y.
Proof. exists (Leaf 0 1 (fun _ => None)), (Leaf 1 0 (fun _ => None)). do 2 eexists. split; [reflexivity|]. split; [reflexivity|]. discriminate. Qed.

Lemma expr_pv X U e : leaves_follow X U e -> forall v, build e = Some v -> forall s p u, pv v s = Some (p, u) ->
  p = vsub (X (target v) s) (X (center v) s) /\ u = vsub (U (target v) s) (U (center v) s).
Proof.
  induction e as [c t f|a IHa b IHb|a IHa b IHb|a IHa]; cbn [leaves_follow build]; intros L v Hv s p u Hp.
  - injection Hv as <-. unfold pv in Hp. cbn in Hp. destruct (f s) as [[[[p' u'] g] m]|] eqn:E; [|discriminate]. injection Hp as <- <-. eapply L. eassumption.
  - destruct L as [La Lb]. destruct (build a) as [x|]; [|discriminate]. destruct (build b) as [y|]; [|discriminate].
    destruct (add_ok _ _ _ Hv) as [Hs Hc]. rewrite Hs in Hp.
    destruct (pv x s) as [[p1 u1]|] eqn:Ex; [|discriminate]. destruct (pv y s) as [[p2 u2]|] eqn:Ey; [|discriminate]. injection Hp as <- <-.
    destruct (IHa La x eq_refl s p1 u1 Ex) as [-> ->]. destruct (IHb Lb y eq_refl s p2 u2 Ey) as [-> ->].
    destruct Hc as [(E & -> & ->)|(E & -> & ->)]; rewrite <- E; split; vring.
  - destruct L as [La Lb]. destruct (build a) as [x|]; [|discriminate]. destruct (build b) as [y|]; [|discriminate].
    destruct (sub_ok _ _ _ Hv) as [Hs [-> ->]]. rewrite Hs in Hp.
    assert (Ec : center x = center y) by (apply Z.eqb_eq; unfold sub in Hv; destruct (Z.eqb _ _); [reflexivity|discriminate]).
    destruct (pv x s) as [[p1 u1]|] eqn:Ex; [|discriminate]. destruct (pv y s) as [[p2 u2]|] eqn:Ey; [|discriminate]. injection Hp as <- <-.
    destruct (IHa La x eq_refl s p1 u1 Ex) as [-> ->]. destruct (IHb Lb y eq_refl s p2 u2 Ey) as [-> ->]. rewrite Ec. split; vring.
  - destruct (build a) as [x|]; [|discriminate]. injection Hv as <-. destruct (neg_ok x) as (Hn & -> & -> & _). rewrite Hn in Hp.
    destruct (pv x s) as [[p1 u1]|] eqn:Ex; [|discriminate]. injection Hp as <- <-. destruct (IHa L x eq_refl s p1 u1 Ex) as [-> ->]. split; vring.
Qed.
Lemma expr_defined e s : leaves_defined e s -> forall v, build e = Some v -> pv v s <> None.
Proof.
  induction e as [c t f|a IHa b IHb|a IHa b IHb|a IHa]; cbn [leaves_defined build]; intros L v Hv.
  - injection Hv as <-. unfold pv. cbn. destruct (f s) as [[[[p u] g] m]|]; congruence.
  - destruct L as [La Lb]. destruct (build a) as [x|]; [|discriminate]. destruct (build b) as [y|]; [|discriminate].
    rewrite (add_pv _ _ _ s Hv). specialize (IHa La x eq_refl). specialize (IHb Lb y eq_refl).
    destruct (pv x s) as [[? ?]|]; [|congruence]. destruct (pv y s) as [[? ?]|]; [discriminate|congruence].
  - destruct L as [La Lb]. destruct (build a) as [x|]; [|discriminate]. destruct (build b) as [y|]; [|discriminate].
    rewrite (sub_pv _ _ _ s Hv). specialize (IHa La x eq_refl). specialize (IHb Lb y eq_refl).
    destruct (pv x s) as [[? ?]|]; [|congruence]. destruct (pv y s) as [[? ?]|]; [discriminate|congruence].
  - destruct (build a) as [x|]; [|discriminate]. injection Hv as <-. specialize (IHa L x eq_refl). rewrite pv_neg. destruct (pv x s) as [[? ?]|]; [discriminate|congruence].
Qed.

(** * Kernels *)
Lemma find_part_ok segments c p : find_part segments c = Some p ->
  part_from segments p /\ part_target p = Some c /\ exists s, In s segments /\ s_target s = c /\ part_center p = Some (s_center s).
Proof.
  unfold find_part. destruct (filter _ segments) as [|s [|s' l]] eqn:E; [discriminate| |].
  - assert (H : In s (filter (fun s => Z.eqb (s_target s) c) segments)) by (rewrite E; left; reflexivity).
    apply filter_In in H as [H1 H2]. apply Z.eqb_eq in H2. intros X. injection X as <-. cbn. rewrite H2. split; [assumption|]. split; [reflexivity|]. exists s. auto.
  - intros X. injection X as <-. assert (H : forall x, In x (s :: s' :: l) -> In x segments /\ s_target x = c).
    { intros x Hx. rewrite <- E in Hx. apply filter_In in Hx as [H1 H2]. apply Z.eqb_eq in H2. auto. }
    unfold stack_segments. cbn [filter]. rewrite Z.eqb_refl.
    set (l' := if Z.eqb (s_center s') (s_center s) then s' :: filter (fun x => Z.eqb (s_center x) (s_center s)) l else filter (fun x => Z.eqb (s_center x) (s_center s)) l).
    assert (Hl : forall x, In x l' -> In x (s' :: l) /\ s_center x = s_center s).
    { intros x Hx. change l' with (filter (fun x => Z.eqb (s_center x) (s_center s)) (s' :: l)) in Hx. apply filter_In in Hx as [H1 H2]. apply Z.eqb_eq in H2. auto. }
    destruct (H s (or_introl eq_refl)) as [Hs Ht]. split; [|split].
    + cbn. split; [discriminate|]. intros x [<-|Hx]; [auto|]. destruct (Hl x Hx) as [H1 H2]. destruct (H x (or_intror H1)) as [H3 H4]. rewrite H2, H4, Ht. auto.
    + cbn. rewrite Ht. reflexivity.
    + exists s. auto.
Qed.
Lemma climb_ok fuel segments : forall c found l t, chain segments c found t -> climb fuel segments c found = Some (Some l) -> chain segments 0 l t.
Proof.
  induction fuel as [|fuel IH]; intros c found l t Hc; cbn [climb].
  - destruct (Z.eqb_spec c 0) as [->|]; [|discriminate]. intros E. injection E as <-. assumption.
  - destruct (Z.eqb_spec c 0) as [->|]; [intros E; injection E as <-; assumption|].
    destruct (find_part segments c) as [p|] eqn:F; [|discriminate]. destruct (find_part_ok _ _ _ F) as (H1 & H2 & s & Hs & Hst & H3). rewrite H3.
    apply IH. econstructor; eassumption.
Qed.
Lemma lookup_ok fuel segments code r : lookup fuel segments code = Some r ->
  r = KeyError \/
  (exists p, r = One p /\ chain segments 0 [p] code) \/
  (exists l, r = Chain 0 code l /\ chain segments 0 l code /\ (l = [] -> code = 0%Z)).
Proof.
  unfold lookup. destruct (in_codes segments code); [|intros E; injection E as <-; auto].
  destruct (climb fuel segments code []) as [[l|]|] eqn:E; [| |discriminate].
  - assert (C := climb_ok fuel segments code [] l code (chain_nil _ _) E). intros X. right.
    destruct l as [|p [|q l]]; injection X as <-; [right|left|right].
    + exists []. split; [reflexivity|]. split; [assumption|]. intros _. inversion C. congruence.
    + eauto.
    + eexists. split; [reflexivity|]. split; [assumption|discriminate].
  - intros X. injection X as <-. auto.
Qed.
Lemma climb_more fuel segments : forall c found, climb fuel segments c found <> None -> climb (S fuel) segments c found = climb fuel segments c found.
Proof.
  induction fuel as [|fuel IH]; intros c found H.
  - cbn in *. destruct (Z.eqb c 0); [reflexivity|congruence].
  - cbn [climb] in *. destruct (Z.eqb c 0); [reflexivity|]. destruct (find_part segments c) as [p|]; [|reflexivity].
    destruct (part_center p) as [c'|]; [|reflexivity]. apply IH. assumption.
Qed.
Lemma lookup_more fuel k segments code r : lookup fuel segments code = Some r -> lookup (k + fuel) segments code = Some r.
Proof.
  intros H. induction k as [|k IH]; [assumption|]. revert IH. cbn [plus]. unfold lookup. destruct (in_codes segments code); [|auto].
  intros IH. rewrite climb_more; [assumption|]. destruct (climb (k + fuel) segments code []); congruence.
Qed.
Lemma lookup_ends segments code : acyclic segments -> exists fuel r, lookup fuel segments code = Some r.
Proof.
  intros [rank H]. exists (S (rank code)). unfold lookup. destruct (in_codes segments code); [|eauto].
  assert (G : forall n c found, (rank c < n)%nat -> climb n segments c found <> None).
  { induction n as [|n IH]; intros c found Hr; [lia|]. cbn [climb]. destruct (Z.eqb_spec c 0); [discriminate|].
    destruct (find_part segments c) as [p|] eqn:F; [|discriminate]. destruct (find_part_ok _ _ _ F) as (_ & _ & s & Hs & Hst & ->).
    apply IH. specialize (H s Hs). rewrite Hst in H. lia. }
  specialize (G (S (rank code)) code [] ltac:(lia)). destruct (climb (S (rank code)) segments code []) as [[[|p [|q l]]|]|]; try congruence; eauto.
Qed.
Lemma lookup_cycle : exists segments code, forall fuel, lookup fuel segments code = None.
Proof.
  set (s := fun c t => {| s_center := c; s_target := t; s_start := 0; s_end := 0; compute := fun _ => None |}).
  exists [s 1 2; s 2 1]%Z, 1%Z. intros fuel.
  assert (G : forall fuel found, climb fuel [s 1 2; s 2 1]%Z 1 found = None /\ climb fuel [s 1 2; s 2 1]%Z 2 found = None).
  { induction fuel0 as [|n IH]; intros found; [split; reflexivity|]. cbn. split; apply IH. }
  unfold lookup. change (in_codes _ _) with true. cbn match. destruct (G fuel []) as [-> _]. reflexivity.
Qed.
Lemma chain_follow X U segments c l t s p u :
  (forall x, In x segments -> forall s p u, compute x s = Some (p, u) -> p = vsub (X (s_target x) s) (X (s_center x) s) /\ u = vsub (U (s_target x) s) (U (s_center x) s)) ->
  chain segments c l t -> total (map (fun w => pv (part_vf w) s) l) = Some (p, u) ->
  p = vsub (X t s) (X c s) /\ u = vsub (U t s) (U c s).
Proof.
  intros HX Hc. revert p u. induction Hc as [c|c q d l t Hq Hqc Hqt Hl IH]; intros p u Hp.
  - cbn in Hp. injection Hp as <- <-. split; vring.
  - cbn [map total fold_right] in Hp. fold (total (map (fun w => pv (part_vf w) s) l)) in Hp.
    destruct (pv (part_vf q) s) as [[p1 u1]|] eqn:E1; [|discriminate]. destruct (total _) as [[p2 u2]|]; [|discriminate].
    injection Hp as <- <-. destruct (IH p2 u2 eq_refl) as [-> ->].
    assert (Q : p1 = vsub (X d s) (X c s) /\ u1 = vsub (U d s) (U c s)).
    { unfold pv in E1. cbn in E1. unfold at_part in E1.
      destruct q as [x|xs].
      - destruct (compute x s) as [[p' u']|] eqn:Ec; [|discriminate]. injection E1 as <- <-. cbn in Hq, Hqc, Hqt.
        injection Hqc as <-. injection Hqt as <-. apply HX; assumption.
      - unfold stack_scalar in E1. destruct (stack_pick (rev xs) s None) as [x|] eqn:Ep; [|discriminate].
        assert (In x xs).
        { apply in_rev. clear - Ep. assert (G : forall l o, stack_pick l s o = Some x -> In x l \/ o = Some x).
          { induction l as [|y l IH]; intros o; cbn; [auto|]. destruct (coversb y s); [intros E; injection E as ->; auto|].
            intros E. destruct (IH _ E) as [|E']; [auto|]. injection E' as ->. auto. }
          destruct (G _ _ Ep); [assumption|discriminate]. }
        destruct Hq as [_ Hq]. destruct (Hq x H) as (H1 & H2 & H3). rewrite Hqc in H2. rewrite Hqt in H3. injection H2 as <-. injection H3 as <-.
        destruct (compute x s) as [[p' u']|] eqn:Ec; [|discriminate]. injection E1 as <- <-. apply HX; assumption. }
    destruct Q as [-> ->]. split; vring.
Qed.
Lemma lookup_position X U fuel segments code r v s p u :
  (forall x, In x segments -> forall s p u, compute x s = Some (p, u) -> p = vsub (X (s_target x) s) (X (s_center x) s) /\ u = vsub (U (s_target x) s) (U (s_center x) s)) ->
  lookup fuel segments code = Some r -> lookup_vf r = Some v -> pv v s = Some (p, u) ->
  center v = 0%Z /\ target v = code /\ p = vsub (X code s) (X 0%Z s) /\ u = vsub (U code s) (U 0%Z s).
Proof.
  intros HX Hl Hv Hp. destruct (lookup_ok _ _ _ _ Hl) as [->|[(q & -> & C)|(l & -> & C & N)]]; cbn [lookup_vf] in Hv; [discriminate| |]; injection Hv as <-.
  - assert (P : total (map (fun w => pv (part_vf w) s) [q]) = Some (p, u)) by (cbn [map total fold_right]; rewrite plus_0_r; exact Hp).
    destruct (chain_follow X U _ _ _ _ s p u HX C P) as [-> ->]. inversion C as [|c' q' d' l' t' Hq Hqc Hqt Hr]; subst. inversion Hr; subst.
    cbn. rewrite Hqc, Hqt. auto.
  - destruct l as [|q l]; [discriminate Hp|]. rewrite pv_sum in Hp by discriminate. rewrite map_map in Hp.
    destruct (chain_follow X U _ _ _ _ s p u HX C Hp) as [-> ->]. auto.
Qed.
Lemma lookup_zero : exists segments r v, lookup 1 segments 0 = Some r /\ lookup_vf r = Some v /\ forall t, pv v t = None.
Proof.
  exists [{| s_center := 0; s_target := 3; s_start := 0; s_end := 1; compute := fun _ => Some (vzero, vzero) |}]. do 2 eexists.
  split; [reflexivity|]. split; [reflexivity|]. reflexivity.
Qed.

(** * Stack *)
Lemma coversb_ok s t : coversb s t = true <-> covers s t.
Proof. unfold coversb, covers. destruct (Rle_dec _ _); [|split; [discriminate|tauto]]. destruct (Rle_dec _ _); [tauto|split; [discriminate|tauto]]. Qed.
Lemma pick_last l t s : last_covering l t s -> stack_pick (rev l) t None = Some s.
Proof.
  intros (Hc & l1 & l2 & -> & H2). rewrite rev_app_distr. cbn [rev]. rewrite <- app_assoc. cbn [app].
  assert (G : forall m o, (forall x, In x m -> ~ covers x t) -> stack_pick (m ++ s :: rev l1) t o = Some s).
  { induction m as [|x m IH]; intros o Hm; cbn.
    - apply coversb_ok in Hc. rewrite Hc. reflexivity.
    - destruct (coversb x t) eqn:E; [exfalso; apply (Hm x); [left; reflexivity|apply coversb_ok; assumption]|]. apply IH. intros y Hy. apply Hm. right. assumption. }
  apply G. intros x Hx. apply H2. apply in_rev. assumption.
Qed.
Lemma last_exists l t : (exists s, In s l /\ covers s t) -> exists s', last_covering l t s'.
Proof.
  induction l as [|x l IH]; intros (s & H & Hc); [destruct H|].
  destruct (existsb (fun y => coversb y t) l) eqn:E.
  - apply existsb_exists in E as (y & Hy & Ey). apply coversb_ok in Ey. destruct IH as (s' & Hc' & l1 & l2 & -> & H2); [eauto|].
    exists s'. split; [assumption|]. exists (x :: l1), l2. auto.
  - exists x. assert (N : forall y, In y l -> ~ covers y t).
    { intros y Hy Cy. apply coversb_ok in Cy. assert (existsb (fun y => coversb y t) l = true) by (apply existsb_exists; eauto). congruence. }
    destruct H as [->|H]; [|exfalso; apply (N s); assumption]. split; [assumption|]. exists [], l. auto.
Qed.
Lemma fill_spec s : forall ts acc res, length acc = length ts -> stack_fill s ts acc = Some res ->
  length res = length ts /\ forall i t a, nth_error ts i = Some t -> nth_error acc i = Some a ->
    nth_error res i = Some (if coversb s t then compute s t else a).
Proof.
  induction ts as [|t ts IH]; intros [|a acc] res L; try discriminate.
  - cbn. intros E. injection E as <-. split; [reflexivity|]. intros [|i]; discriminate.
  - cbn [stack_fill]. destruct (stack_fill s ts acc) as [rest|] eqn:E; [|discriminate].
    destruct (IH acc rest) as [IL IH']; [cbn in L; lia|assumption|]. intros X.
    assert (G : exists h, res = h :: rest /\ h = (if coversb s t then compute s t else a)).
    { destruct (coversb s t); [destruct (compute s t)|]; try discriminate; injection X as <-; eauto. }
    destruct G as (h & -> & ->). split; [cbn; lia|]. intros [|i] t' a'; cbn [nth_error]; [|apply IH'].
    intros E1 E2. injection E1 as <-. injection E2 as <-. reflexivity.
Qed.
Lemma array_spec l : forall ts acc res, length acc = length ts ->
  fold_left (fun acc s => match acc with Some a => stack_fill s ts a | None => None end) l (Some acc) = Some res ->
  length res = length ts /\ forall i t a, nth_error ts i = Some t -> nth_error acc i = Some a ->
    (forall s, last_covering l t s -> nth_error res i = Some (compute s t)) /\
    ((forall s, In s l -> ~ covers s t) -> nth_error res i = Some a).
Proof.
  induction l as [|s l IH]; intros ts acc res L H.
  - cbn in H. injection H as <-. split; [assumption|]. intros i t a Ht Ha. split; [|auto].
    intros s (_ & l1 & l2 & E & _). destruct l1; discriminate.
  - cbn [fold_left] in H. destruct (stack_fill s ts acc) as [acc'|] eqn:E.
    2: { exfalso. clear - H. induction l; cbn in H; [discriminate|auto]. }
    destruct (fill_spec s ts acc acc' L E) as [L' F]. destruct (IH ts acc' res L' H) as [Lr G]. split; [assumption|].
    intros i t a Ht Ha. specialize (F i t a Ht Ha). destruct (G i t _ Ht F) as [G1 G2]. split.
    + intros x (Hc & l1 & l2 & El & Hn). destruct l1 as [|y l1]; cbn in El; injection El as -> ->.
      * apply coversb_ok in Hc. rewrite Hc in *. apply G2. assumption.
      * apply G1. split; [assumption|]. exists l1, l2. auto.
    + intros Hn. rewrite G2 by (intros y Hy; apply Hn; right; assumption).
      destruct (coversb s t) eqn:Ec; [|reflexivity]. exfalso. apply (Hn s); [left; reflexivity|]. apply coversb_ok. assumption.
Qed.
Lemma stack_agree l ts res : stack_array l ts = Some res -> length res = length ts /\
  forall i t, nth_error ts i = Some t ->
   ((exists s, In s l /\ covers s t) -> exists s, last_covering l t s /\ stack_scalar l t = compute s t /\ nth_error res i = Some (compute s t)) /\
   ((forall s, In s l -> ~ covers s t) -> nth_error res i = Some None).
Proof.
  intros H. unfold stack_array in H. destruct (array_spec l ts _ res (map_length _ _) H) as [L G]. split; [assumption|].
  intros i t Ht. assert (Ha : nth_error (map (fun _ : R => @None (vec * vec)) ts) i = Some None) by (rewrite nth_error_map, Ht; reflexivity).
  destruct (G i t None Ht Ha) as [G1 G2]. split; [|assumption]. intros Hex. destruct (last_exists l t Hex) as [s Hs].
  exists s. split; [assumption|]. split; [|apply G1; assumption]. unfold stack_scalar. rewrite (pick_last _ _ _ Hs). reflexivity.
Qed.
Lemma stack_array_works l ts : (forall s t, In s l -> In t ts -> covers s t -> compute s t <> None) -> stack_array l ts <> None.
Proof.
  unfold stack_array. assert (G : forall ts s acc, (forall t, In t ts -> covers s t -> compute s t <> None) -> length acc = length ts -> exists res, stack_fill s ts acc = Some res /\ length res = length ts).
  { induction ts0 as [|t ts0 IH]; intros s [|a acc] H L; try discriminate; cbn; [eauto|].
    destruct (IH s acc) as (rest & -> & Lr); [intros t' Ht'; apply H; right; assumption|cbn in L; lia|].
    destruct (coversb s t) eqn:E; [|eexists; split; [reflexivity|cbn; lia]]. apply coversb_ok in E.
    destruct (compute s t) eqn:C; [eexists; split; [reflexivity|cbn; lia]|]. exfalso. apply (H t (or_introl eq_refl) E C). }
  intros H. assert (L := map_length (fun _ : R => @None (vec * vec)) ts). revert L. generalize (map (fun _ : R => @None (vec * vec)) ts). 
  induction l as [|s l IH]; intros acc L; [discriminate|]. cbn [fold_left].
  destruct (G ts s acc) as (res & -> & Lr); [intros t Ht; apply H; [left; reflexivity|assumption]|assumption|].
  apply IH; [intros s' t Hs; apply H; right; assumption|assumption].
Qed.
