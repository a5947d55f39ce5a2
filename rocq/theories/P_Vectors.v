(** Property theorems C41-C44 and C59: vector functions, kernels, light time. *)
From Coq Require Import List ZArith Reals Lra Lia.
From Verif Require Import Vector_Model Vector_Spec Vector_Proofs Vector_Proofs2.
Import ListNotations.
Open Scope R_scope.

(** * C41 *)
Theorem C41_sum : forall a b c, add a b = Some c ->
  (forall t, pv c t = plus_pv (pv a t) (pv b t)) /\
  ((target a = center b /\ center c = center a /\ target c = target b) \/
   (target b = center a /\ center c = center b /\ target c = target a)).
Proof. exact add_ok. Qed.
Print Assumptions C41_sum.
Theorem C41_sum_refused : forall a b, add a b = None <-> target a <> center b /\ target b <> center a.
Proof. exact add_refused. Qed.
Print Assumptions C41_sum_refused.
Theorem C41_difference : forall a b c, sub a b = Some c ->
  (forall t, pv c t = minus_pv (pv a t) (pv b t)) /\ center c = target b /\ target c = target a.
Proof. exact sub_ok. Qed.
Print Assumptions C41_difference.
Theorem C41_difference_refused : forall a b, sub a b = None <-> center a <> center b.
Proof. exact sub_refused. Qed.
Print Assumptions C41_difference_refused.
Theorem C41_negation : forall a, (forall t, pv (neg a) t = opp_pv (pv a t)) /\ center (neg a) = target a /\ target (neg a) = center a /\
  (forall t, pv (neg (neg a)) t = pv a t).
Proof. exact neg_ok. Qed.
Print Assumptions C41_negation.
Theorem C41_sums_associate : forall a b c, target a = center b -> target b = center c ->
  exists ab bc r, add a b = Some ab /\ add b c = Some bc /\ add ab c = Some r /\ add a bc = Some r.
Proof. exact add_assoc. Qed.
Print Assumptions C41_sums_associate.
(** The full statement has no exception for a closed loop; see the refutation. *)
Theorem C41_operand_order_partial : forall a b x, add a b = Some x -> exists y, add b a = Some y /\ (forall t, pv y t = pv x t) /\
  (~ (target a = center b /\ target b = center a) -> y = x).
Proof. exact add_comm. Qed.
Print Assumptions C41_operand_order_partial.
Theorem C41_operand_order_refuted : exists a b x y, add a b = Some x /\ add b a = Some y /\ center x <> center y.
Proof. exact add_loop. Qed.
Print Assumptions C41_operand_order_refuted.
(** Any expression: the position of its target as seen from its center. *)
Theorem C41_expression : forall X U e, leaves_follow X U e -> forall v, build e = Some v -> forall s p u, pv v s = Some (p, u) ->
  p = vsub (X (target v) s) (X (center v) s) /\ u = vsub (U (target v) s) (U (center v) s).
Proof. exact expr_pv. Qed.
Print Assumptions C41_expression.
Theorem C41_expression_is_defined : forall e s, leaves_defined e s -> forall v, build e = Some v -> pv v s <> None.
Proof. exact expr_defined. Qed.
Print Assumptions C41_expression_is_defined.
Definition demo_earth : expr := EAdd (ELeaf 0 3 (fun s => Some (vsub (demo_X 3 s) (demo_X 0 s), vzero, None, None)))
                                     (ELeaf 3 399 (fun s => Some (vsub (demo_X 399 s) (demo_X 3 s), vzero, None, None))).
Definition demo_mars : expr := ELeaf 0 4 (fun s => Some (vsub (demo_X 4 s) (demo_X 0 s), vzero, None, None)).
Example C41_ex : exists v, build (ESub demo_mars demo_earth) = Some v /\ center v = 399%Z /\ target v = 4%Z /\
  leaves_follow demo_X (fun _ _ => vzero) (ESub demo_mars demo_earth) /\ leaves_defined (ESub demo_mars demo_earth) 0.
Proof.
  eexists. split; [reflexivity|]. split; [reflexivity|]. split; [reflexivity|]. split.
  - cbn [leaves_follow demo_mars demo_earth]. split; [|split]; intros s p u g m E; injection E as <- <- _ _; split; try reflexivity; vring.
  - cbn. repeat split; discriminate.
Qed.

(** * C42 *)
Theorem C42_lookup_is_a_chain : forall fuel segments code r, lookup fuel segments code = Some r ->
  r = KeyError \/
  (exists p, r = One p /\ chain segments 0 [p] code) \/
  (exists l, r = Chain 0 code l /\ chain segments 0 l code /\ (l = [] -> code = 0%Z)).
Proof. exact lookup_ok. Qed.
Print Assumptions C42_lookup_is_a_chain.
Theorem C42_lookup_position : forall X U fuel segments code r v s p u,
  (forall x, In x segments -> forall s p u, compute x s = Some (p, u) -> p = vsub (X (s_target x) s) (X (s_center x) s) /\ u = vsub (U (s_target x) s) (U (s_center x) s)) ->
  lookup fuel segments code = Some r -> lookup_vf r = Some v -> pv v s = Some (p, u) ->
  center v = 0%Z /\ target v = code /\ p = vsub (X code s) (X 0%Z s) /\ u = vsub (U code s) (U 0%Z s).
Proof. exact lookup_position. Qed.
Print Assumptions C42_lookup_position.
(** The full statement is for every set of segments; see the refutation. *)
Theorem C42_lookup_ends_partial : forall segments code, acyclic segments -> exists fuel r, lookup fuel segments code = Some r.
Proof. exact lookup_ends. Qed.
Print Assumptions C42_lookup_ends_partial.
Theorem C42_fuel_does_not_matter : forall fuel k segments code r, lookup fuel segments code = Some r -> lookup (k + fuel) segments code = Some r.
Proof. exact lookup_more. Qed.
Print Assumptions C42_fuel_does_not_matter.
Theorem C42_cyclic_lookup_runs_forever_refuted : exists segments code, forall fuel, lookup fuel segments code = None.
Proof. exact lookup_cycle. Qed.
Print Assumptions C42_cyclic_lookup_runs_forever_refuted.
(** The barycenter itself is looked up without error but cannot be evaluated. *)
Theorem C42_barycenter_cannot_be_evaluated_refuted : exists segments r v, lookup 1 segments 0 = Some r /\ lookup_vf r = Some v /\ forall t, pv v t = None.
Proof. exact lookup_zero. Qed.
Print Assumptions C42_barycenter_cannot_be_evaluated_refuted.
Definition demo_segment (c t : Z) (a b : R) : segment :=
  {| s_center := c; s_target := t; s_start := a; s_end := b; compute := fun s => Some (vsub (demo_X t s) (demo_X c s), vzero) |}.
Example C42_ex : let segments := [demo_segment 0 3 0 9; demo_segment 3 399 0 9; demo_segment 3 399 9 20] in
  acyclic segments /\ lookup 5 segments 399 = Some (Chain 0 399 [Lone (demo_segment 0 3 0 9); Stacked [demo_segment 3 399 0 9; demo_segment 3 399 9 20]]) /\
  lookup 5 segments 4 = Some KeyError.
Proof.
  split; [|split; reflexivity]. exists (fun z => Z.to_nat z). intros s [<-|[<-|[<-|[]]]]; cbn; lia.
Qed.

(** * C43 *)
Theorem C43_stack : forall l ts res, stack_array l ts = Some res -> length res = length ts /\
  forall i t, nth_error ts i = Some t ->
   ((exists s, In s l /\ covers s t) -> exists s, last_covering l t s /\ stack_scalar l t = compute s t /\ nth_error res i = Some (compute s t)) /\
   ((forall s, In s l -> ~ covers s t) -> nth_error res i = Some None).
Proof. exact stack_agree. Qed.
Print Assumptions C43_stack.
Theorem C43_array_does_not_raise : forall l ts,
  (forall s t, In s l -> In t ts -> covers s t -> compute s t <> None) -> stack_array l ts <> None.
Proof. exact stack_array_works. Qed.
Print Assumptions C43_array_does_not_raise.
Example C43_ex : exists res, stack_array [demo_segment 3 399 0 9; demo_segment 3 399 5 20] [6; 30] = Some res /\
  last_covering [demo_segment 3 399 0 9; demo_segment 3 399 5 20] 6 (demo_segment 3 399 5 20).
Proof.
  destruct (stack_array [demo_segment 3 399 0 9; demo_segment 3 399 5 20] [6; 30]) eqn:E.
  - eexists. split; [reflexivity|]. split; [unfold covers; cbn; lra|]. exists [demo_segment 3 399 0 9], []. split; [reflexivity|intros s' []].
  - exfalso. revert E. apply stack_array_works. intros s t [<-|[<-|[]]] _ _; discriminate.
Qed.

(** * C44 *)
Theorem C44_light_time : forall c obs r, light_times c obs = Some r -> Forall2 (fun x y =>
  fst y = fst x (snd y) / c /\ Rabs (snd y - (snd x - fst y)) < 1 / 1000000000000) obs r.
Proof. exact light_times_ok. Qed.
Print Assumptions C44_light_time.
Theorem C44_converges : forall c obs, 0 < c ->
  (forall o X t, In (o, X, t) obs -> slower (1 / 100 * c) X /\ distance o X t < 1000000 * c) ->
  light_times c (map (fun x => (distance (fst (fst x)) (snd (fst x)), snd x)) obs) <> None.
Proof. exact observe_converges. Qed.
Print Assumptions C44_converges.
(** Against the exact light time [tau]. *)
Theorem C44_light_time_error : forall c k d t lt placed tau, 0 < c -> 0 <= k < 1 -> lipschitz (k * c) d ->
  lt = d placed / c -> Rabs (placed - (t - lt)) < 1 / 1000000000000 -> c * tau = d (t - tau) ->
  Rabs (lt - tau) <= k / (1 - k) / 1000000000000.
Proof. exact light_time_error. Qed.
Print Assumptions C44_light_time_error.
Example C44_ex : slower (1 / 100 * 173) (fun t => V3 t 0 0) /\ distance vzero (fun t => V3 t 0 0) 5 < 1000000 * 173.
Proof.
  split.
  - intros a b. unfold vlength, vsub. cbn [vx vy vz]. replace ((a - b) * (a - b) + (0 - 0) * (0 - 0) + (0 - 0) * (0 - 0)) with (Rsqr (a - b)) by (unfold Rsqr; ring).
    rewrite sqrt_Rsqr_abs. pose proof (Rabs_pos (a - b)). lra.
  - unfold distance, vlength, vsub. cbn [vx vy vz vzero]. replace ((5 - 0) * (5 - 0) + (0 - 0) * (0 - 0) + (0 - 0) * (0 - 0)) with (5 * 5) by ring. rewrite sqrt_square by lra. lra.
Qed.

(** * C59 *)
(** The statement is for every sum; the theorem gives what is attached in each
    case, and the last segment starting at the Earth is the good one. *)
Theorem C59_geocentric_position_partial : forall X s c d l p u g m,
  l <> [] -> (forall w, In w l -> good X s w) -> linked c l d -> at_ (Sum c d l) s = Some (p, u, g, m) ->
  exists l1 w, l = l1 ++ [w] /\
  (c = 0%Z /\ center w = earth -> g = Some (vsub (X d s) (X earth s))) /\
  (~ (c = 0%Z /\ center w = earth) -> forall h, g = Some h -> h = vsub (X c s) (X earth s)) /\
  (g = None <-> forall w, In w l -> center w <> earth).
Proof. exact gcrs_ok. Qed.
Print Assumptions C59_geocentric_position_partial.
Theorem C59_sums_are_connected : forall e v, build e = Some v -> in_row v.
Proof. exact build_in_row. Qed.
Print Assumptions C59_sums_are_connected.
Theorem C59_beyond_a_satellite_refuted : exists c d l p u g m, c = 0%Z /\ linked c l d /\ (forall w, In w l -> good demo_X 0 w) /\
  at_ (Sum c d l) 0 = Some (p, u, Some g, m) /\ g <> vsub (demo_X d 0) (demo_X earth 0).
Proof. exact gcrs_wrong. Qed.
Print Assumptions C59_beyond_a_satellite_refuted.
Example C59_ex : exists p u m, at_ (Sum 0 1001 [demo_leaf 0 399; demo_leaf 399 1001]) 0 = Some (p, u, Some (vsub (demo_X 1001 0) (demo_X 399 0)), m) /\
  linked 0 [demo_leaf 0 399; demo_leaf 399 1001] 1001 /\ forall w, In w [demo_leaf 0 399; demo_leaf 399 1001] -> good demo_X 0 w.
Proof.
  do 3 eexists. split; [reflexivity|]. split; [apply (linked_cons (demo_leaf 0 399)), (linked_cons (demo_leaf 399 1001)); constructor|].
  intros w [<-|[<-|[]]] p u E; unfold pv in E; cbn in E; injection E as <- _; reflexivity.
Qed.
