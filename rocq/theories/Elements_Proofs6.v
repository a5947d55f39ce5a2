From Coq Require Import Reals Lra Lia Psatz ZArith List Bool.
From Verif Require Import Real_Math Real_Math_Proofs Vector_Model Geo_Model Kepler_Model Elements_Model Elements_Spec.
Import ListNotations.
Open Scope R_scope.

Section Lanes.
Context {X : Type}.
Lemma zip_map {A B C} (f : A -> B -> C) g h (L : list X) : zip f (map g L) (map h L) = map (fun x => f (g x) (h x)) L.
Proof. induction L as [|x L IH]; [reflexivity|]. cbn. rewrite IH. reflexivity. Qed.
Lemma where_map {A} m (f g : X -> A) L : where_ (map m L) (map f L) (map g L) = map (fun x => if m x : bool then f x else g x) L.
Proof. induction L as [|x L IH]; [reflexivity|]. cbn. rewrite IH. reflexivity. Qed.
Lemma pick_map {A} m (f : X -> A) L : pick (map m L) (map f L) = map f (filter m L).
Proof. induction L as [|x L IH]; [reflexivity|]. cbn. rewrite IH. destruct (m x); reflexivity. Qed.
Lemma put_map {A} m (g h : X -> A) L : put (map m L) (map g L) (map h (filter m L)) = map (fun x => if m x : bool then h x else g x) L.
Proof. induction L as [|x L IH]; [reflexivity|]. cbn. destruct (m x); cbn; rewrite IH; reflexivity. Qed.
End Lanes.
Ltac lanes := cbv zeta; unfold times, inv; repeat (rewrite map_map || rewrite zip_map || rewrite where_map || rewrite pick_map || rewrite put_map).
Lemma rmod_zero : rmod 0 tau = 0.
Proof. apply rmod_id. pose proof tau_pos. lra. Qed.
Ltac decide_all := unfold Rltb, Rleb, Rneb; repeat match goal with |- context [if ?d then _ else _] => match type of d with sumbool _ _ => destruct d end end; cbn [negb andb]; try reflexivity; try lra.

Section Functions.
Context {X : Type}.
Variable L : list X.
Lemma apoapsis_lanes p e : apoapsis_distance_array (map p L) (map e L) = map (fun x => if Rltb (e x) (1 - tiny) then Some (p x * (1 + e x) / (1 - e x * e x)) else None) L.
Proof. unfold apoapsis_distance_array. lanes. reflexivity. Qed.
Lemma argument_lanes n e pos vel : argument_of_periapsis_array (map n L) (map e L) (map pos L) (map vel L) = map (fun x => argument_of_periapsis (n x) (e x) (pos x) (vel x)) L.
Proof. unfold argument_of_periapsis_array. lanes. apply map_ext. intros x. unfold argument_of_periapsis. decide_all. Qed.
Lemma eccentric_lanes v e : eccentric_anomaly_array (map v L) (map e L) = map (fun x => eccentric_anomaly_of (v x) (e x)) L.
Proof. unfold eccentric_anomaly_array. lanes. apply map_ext. intros x. unfold eccentric_anomaly_of. decide_all. Qed.
Lemma node_lanes i h : longitude_of_ascending_node_array (map i L) (map h L) = map (fun x => longitude_of_ascending_node (i x) (h x)) L.
Proof. unfold longitude_of_ascending_node_array. lanes. apply map_ext. intros x. unfold longitude_of_ascending_node. decide_all. apply rmod_zero. Qed.
Lemma mean_lanes E e s : mean_anomaly_array (map E L) (map e L) s = map (fun x => mean_anomaly_of (E x) (e x) s) L.
Proof. unfold mean_anomaly_array. destruct s; lanes; apply map_ext; intros x; unfold mean_anomaly_of; decide_all. Qed.
Lemma motion_lanes a mu : mean_motion_array (map a L) mu = map (fun x => mean_motion (a x) mu) L.
Proof. unfold mean_motion_array. lanes. reflexivity. Qed.
Lemma node_vector_lanes h : node_vector_array (map h L) = map (fun x => node_vector (h x)) L.
Proof. unfold node_vector_array. lanes. apply map_ext. intros x. unfold node_vector. decide_all. Qed.
Lemma periapsis_lanes p e : periapsis_distance_array (map p L) (map e L) = map (fun x => periapsis_distance (p x) (e x)) L.
Proof. unfold periapsis_distance_array. lanes. apply map_ext. intros x. unfold periapsis_distance. decide_all. Qed.
Lemma period_lanes a mu : period_array (map a L) mu = map (fun x => period (a x) mu) L.
Proof. unfold period_array. lanes. apply map_ext. intros x. unfold period. destruct (a x); decide_all. Qed.
Lemma major_lanes p e : semi_major_axis_array (map p L) (map e L) = map (fun x => semi_major_axis (p x) (e x)) L.
Proof. unfold semi_major_axis_array. lanes. apply map_ext. intros x. unfold semi_major_axis. decide_all. Qed.
Lemma minor_lanes p e : semi_minor_axis_array (map p L) (map e L) = map (fun x => semi_minor_axis (p x) (e x)) L.
Proof. unfold semi_minor_axis_array. lanes. apply map_ext. intros x. unfold semi_minor_axis. decide_all. Qed.
Lemma since_lanes M n v p mu : time_since_periapsis_array (map M L) (map n L) (map v L) (map p L) mu = map (fun x => time_since_periapsis (M x) (n x) (v x) (p x) mu) L.
Proof. unfold time_since_periapsis_array. lanes. apply map_ext. intros x. unfold time_since_periapsis. decide_all. Qed.
Definition true_anomaly_lane (e pos vel n : vec) : R :=
  let v := if Rltb (vlength e) tiny then true_anomaly vzero pos vel n
           else let angle := angle_between e pos in if Rltb 0 (dot pos vel) then angle else rmod (- angle) tau in
  if Rltb (1 - tiny) (vlength e) then normpi v else v.
Lemma zero_length : vlength vzero = 0.
Proof. unfold vlength. cbn. rewrite !Rmult_0_r, !Rplus_0_r. apply sqrt_0. Qed.
Lemma true_lanes e pos vel n : true_anomaly_array (map e L) (map pos L) (map vel L) (map n L) = map (fun x => true_anomaly_lane (e x) (pos x) (vel x) (n x)) L.
Proof.
  unfold true_anomaly_array. lanes. apply map_ext. intros x. unfold true_anomaly_lane, true_anomaly. rewrite zero_length.
  destruct (Rlt_dec tiny 0) as [B|_]; [unfold tiny in B; lra|]. destruct (Rlt_dec 0 (1 - tiny)) as [_|B]; [|unfold tiny in B; lra]. decide_all.
Qed.
Lemma true_lane_ok e pos vel n : vlength e <> tiny -> vlength e <> 1 - tiny -> true_anomaly_lane e pos vel n = true_anomaly e pos vel n.
Proof.
  intros N1 N2. unfold true_anomaly_lane, true_anomaly. rewrite zero_length.
  destruct (Rlt_dec tiny 0) as [B|_]; [unfold tiny in B; lra|]. destruct (Rlt_dec 0 (1 - tiny)) as [_|B]; [|unfold tiny in B; lra]. assert (tiny < 1 - tiny) by (unfold tiny; lra).
  decide_all.
Qed.
End Functions.

Section Lane.
Context {X : Type}.
Variable L : list X.
Variable x0 : X.
Definition Lane {A} (l : list A) (y : A) : Prop := exists f, l = map f L /\ f x0 = y.
Lemma lane_zip {A B C} (g : A -> B -> C) a b x y : Lane a x -> Lane b y -> Lane (zip g a b) (g x y).
Proof. intros (f & -> & <-) (f' & -> & <-). rewrite zip_map. exists (fun x => g (f x) (f' x)). auto. Qed.
Lemma lane_map {A B} (g : A -> B) a x : Lane a x -> Lane (map g a) (g x).
Proof. intros (f & -> & <-). rewrite map_map. exists (fun x => g (f x)). auto. Qed.
Ltac two lemma := intros (f & -> & <-) (f1 & -> & <-); rewrite lemma; eexists; split; [reflexivity|reflexivity].
Ltac four lemma := intros (f & -> & <-) (f1 & -> & <-) (f2 & -> & <-) (f3 & -> & <-); rewrite lemma; eexists; split; [reflexivity|reflexivity].
Ltac one lemma := intros (f & -> & <-); rewrite lemma; eexists; split; [reflexivity|reflexivity].
Lemma L_apo p e x y : Lane p x -> Lane e y -> Lane (apoapsis_distance_array p e) (if Rltb y (1 - tiny) then Some (x * (1 + y) / (1 - y * y)) else None).
Proof. two (apoapsis_lanes L). Qed.
Lemma L_arg n e p v x y z u : Lane n x -> Lane e y -> Lane p z -> Lane v u -> Lane (argument_of_periapsis_array n e p v) (argument_of_periapsis x y z u).
Proof. four (argument_lanes L). Qed.
Lemma L_true n e p v x y z u : Lane n x -> Lane e y -> Lane p z -> Lane v u -> Lane (true_anomaly_array n e p v) (true_anomaly_lane x y z u).
Proof. four (true_lanes L). Qed.
Lemma L_ecc p e x y : Lane p x -> Lane e y -> Lane (eccentric_anomaly_array p e) (eccentric_anomaly_of x y).
Proof. two (eccentric_lanes L). Qed.
Lemma L_node p e x y : Lane p x -> Lane e y -> Lane (longitude_of_ascending_node_array p e) (longitude_of_ascending_node x y).
Proof. two (node_lanes L). Qed.
Lemma L_mean p e s x y : Lane p x -> Lane e y -> Lane (mean_anomaly_array p e s) (mean_anomaly_of x y s).
Proof. two (mean_lanes L). Qed.
Lemma L_motion p mu x : Lane p x -> Lane (mean_motion_array p mu) (mean_motion x mu).
Proof. one (motion_lanes L). Qed.
Lemma L_nv p x : Lane p x -> Lane (node_vector_array p) (node_vector x).
Proof. one (node_vector_lanes L). Qed.
Lemma L_peri p e x y : Lane p x -> Lane e y -> Lane (periapsis_distance_array p e) (periapsis_distance x y).
Proof. two (periapsis_lanes L). Qed.
Lemma L_period p mu x : Lane p x -> Lane (period_array p mu) (period x mu).
Proof. one (period_lanes L). Qed.
Lemma L_major p e x y : Lane p x -> Lane e y -> Lane (semi_major_axis_array p e) (semi_major_axis x y).
Proof. two (major_lanes L). Qed.
Lemma L_minor p e x y : Lane p x -> Lane e y -> Lane (semi_minor_axis_array p e) (semi_minor_axis x y).
Proof. two (minor_lanes L). Qed.
Lemma L_since n e p v mu x y z u : Lane n x -> Lane e y -> Lane p z -> Lane v u -> Lane (time_since_periapsis_array n e p v mu) (time_since_periapsis x y z u mu).
Proof. four (since_lanes L). Qed.
Lemma lane_nth {A} (l : list A) y k : Lane l y -> nth_error L k = Some x0 -> nth_error l k = Some y.
Proof. intros (f & -> & <-) H. apply map_nth_error. exact H. Qed.
End Lane.

Lemma lane_eq (L : list (vec * vec)) mu ar k pos vel el : osculating_array (map fst L) (map snd L) mu = Some ar -> nth_error L k = Some (pos, vel) -> osculating pos vel mu = Some el ->
  el_e el <> tiny -> el_e el <> 1 - tiny -> lane ar k el mu /\ (el_e el < 1 - tiny \/ 1 <= el_e el -> nth_error (ar_Q ar) k = Some (Q_of el)) /\
    (1 - tiny <= el_e el -> nth_error (ar_Q ar) k = Some None).
Proof.
  intros Ar At El N1 N2. unfold osculating in El. unfold osculating_array in Ar. destruct (Rle_dec mu 0) as [|Hm]; [discriminate|].
  assert (Lp : Lane L (pos, vel) (map fst L) pos) by (exists fst; auto). assert (Lv : Lane L (pos, vel) (map snd L) vel) by (exists snd; auto).
  revert Ar Lp Lv. generalize (map fst L) (map snd L). intros P V Ar Lp Lv.
  pose proof (lane_zip _ _ crossp _ _ _ _ Lp Lv) as Lh. revert Ar El Lh.
  generalize (zip crossp P V) (crossp pos vel). intros h h' Ar El Lh.
  assert (Le : Lane L (pos, vel) (eccentricity_vector_array P V mu) (eccentricity_vector pos vel mu)) by (unfold eccentricity_vector_array; apply (lane_zip _ _ (fun p v => eccentricity_vector p v mu)); assumption).
  revert Ar El Le. generalize (eccentricity_vector_array P V mu) (eccentricity_vector pos vel mu). intros e e' Ar El Le.
  pose proof (L_nv _ _ _ _ Lh) as Ln. revert Ar El Ln. generalize (node_vector_array h) (node_vector h'). intros n n' Ar El Ln.
  assert (Lpp : Lane L (pos, vel) (semi_latus_rectum_array h mu) (semi_latus_rectum h' mu)) by (unfold semi_latus_rectum_array; apply (lane_map _ _ (fun h => semi_latus_rectum h mu)); assumption).
  revert Ar El Lpp. generalize (semi_latus_rectum_array h mu) (semi_latus_rectum h' mu). intros p p' Ar El Lpp.
  pose proof (lane_map _ _ vlength _ _ Le) as Lel. pose proof (L_true _ _ _ _ _ _ _ _ _ _ Le Lp Lv Ln) as Ltv.
  assert (Li : Lane L (pos, vel) (inclination_array h) (inclination h')) by (unfold inclination_array; apply (lane_map _ _ inclination); assumption).
  revert Ar El Li. generalize (inclination_array h) (inclination h'). intros i i' Ar El Li.
  pose proof (L_node _ _ _ _ _ _ Li Lh) as LOm. revert Ar El LOm. generalize (longitude_of_ascending_node_array i h) (longitude_of_ascending_node i' h'). intros Om Om' Ar El LOm.
  pose proof (L_arg _ _ _ _ _ _ _ _ _ _ Ln Le Lp Lv) as Lw. revert Ar El Lw. generalize (argument_of_periapsis_array n e P V) (argument_of_periapsis n' e' pos vel). intros w w' Ar El Lw.
  assert (N1' : vlength e' <> tiny) by (intros Q; apply N1; revert El; cbv zeta; intros El; assert (Q' : el = Elements p' (vlength e') i' Om' w' (true_anomaly e' pos vel n')) by congruence; rewrite Q'; exact Q).
  assert (N2' : vlength e' <> 1 - tiny) by (intros Q; apply N2; revert El; cbv zeta; intros El; assert (Q' : el = Elements p' (vlength e') i' Om' w' (true_anomaly e' pos vel n')) by congruence; rewrite Q'; exact Q).
  rewrite (true_lane_ok _ _ _ _ N1' N2') in Ltv.
  revert Ar El Ltv. generalize (true_anomaly_array e P V n) (true_anomaly e' pos vel n'). intros v v' Ar El Ltv.
  clear N1' N2'. revert Ar El Lel. generalize (map vlength e) (vlength e'). intros ee ee' Ar El Lel.
  pose proof (L_major _ _ _ _ _ _ Lpp Lel) as La. pose proof (L_ecc _ _ _ _ _ _ Ltv Lel) as LE. pose proof (L_mean _ _ _ _ true _ _ LE Lel) as LM. pose proof (L_mean _ _ _ _ false _ _ LE Lel) as LM'.
  pose proof (lane_map _ _ (fun n => n * DAY_S) _ _ (L_motion _ _ _ mu _ La)) as Lmm.
  pose proof (L_minor _ _ _ _ _ _ Lpp Lel) as Lb. pose proof (L_peri _ _ _ _ _ _ Lpp Lel) as Lq. pose proof (L_apo _ _ _ _ _ _ Lpp Lel) as LQ.
  pose proof (lane_map _ _ (fun P => match P with Some P => Some (P / DAY_S) | None => None end) _ _ (L_period _ _ _ mu _ La)) as LP.
  pose proof (lane_zip _ _ (fun w v => rmod (w + v) tau) _ _ _ _ Lw Ltv) as Lu. pose proof (lane_zip _ _ (fun Om w => rmod (Om + w) tau) _ _ _ _ LOm Lw) as Llp.
  pose proof (lane_zip _ _ (fun lp M => rmod (lp + M) tau) _ _ _ _ (lane_zip _ _ Rplus _ _ _ _ LOm Lw) LM) as LL.
  pose proof (lane_zip _ _ (fun lp v => rmod (lp + v) tau) _ _ _ _ (lane_zip _ _ Rplus _ _ _ _ LOm Lw) Ltv) as Ll.
  pose proof (L_since _ _ _ _ _ _ (mu * (DAY_S * DAY_S)) _ _ _ _ LM' Lmm Ltv Lpp) as Ls.
  cbv beta in *. cbv zeta in Ar, El. assert (El' : el = Elements p' ee' i' Om' w' v') by congruence. clear El. subst el.
  assert (Inj : forall A (x y : A), Some x = Some y -> y = x) by (intros; congruence). apply Inj in Ar. subst ar. unfold lane. cbn [ar_p ar_e ar_i ar_Om ar_w ar_v ar_a ar_b ar_q ar_Q ar_E ar_M ar_n ar_P ar_u ar_lp ar_L ar_l ar_since el_p el_e el_i el_Om el_w el_v] in *.
  split; [|split].
  - refine (conj _ (conj _ (conj _ (conj _ (conj _ (conj _ (conj _ (conj _ (conj _ (conj _ (conj _ (conj _ (conj _ (conj _ (conj _ (conj _ (conj _ _)))))))))))))))));
      (eapply lane_nth; [|exact At]); assumption.
  - intros H. rewrite (lane_nth _ _ _ _ _ LQ At). unfold Q_of, apoapsis_distance. cbn [el_p el_e]. assert (0 < tiny) by (unfold tiny; lra). decide_all.
  - intros H. rewrite (lane_nth _ _ _ _ _ LQ At). decide_all.
Qed.
Lemma combine_map {A B} (a : list A) (b : list B) : length a = length b -> map fst (combine a b) = a /\ map snd (combine a b) = b.
Proof. revert b. induction a as [|x a IH]; intros [|y b] H; try discriminate; [auto|]. cbn in *. destruct (IH b) as [-> ->]; [lia|auto]. Qed.
Lemma nth_combine {A B} (a : list A) (b : list B) k x y : nth_error a k = Some x -> nth_error b k = Some y -> nth_error (combine a b) k = Some (x, y).
Proof. revert b k. induction a as [|z a IH]; intros [|u b] [|k] H1 H2; try discriminate; cbn in *; [congruence|auto]. Qed.
Lemma arrays pos vel mu ar k p v el : length pos = length vel -> osculating_array pos vel mu = Some ar -> nth_error pos k = Some p -> nth_error vel k = Some v ->
  osculating p v mu = Some el -> el_e el <> tiny -> el_e el <> 1 - tiny -> lane ar k el mu /\ (el_e el < 1 - tiny \/ 1 <= el_e el -> nth_error (ar_Q ar) k = Some (Q_of el)).
Proof.
  intros Hl Ar Hp Hv El N1 N2. destruct (combine_map pos vel Hl) as [E1 E2]. assert (Ar2 : osculating_array (map fst (combine pos vel)) (map snd (combine pos vel)) mu = Some ar) by (rewrite E1, E2; exact Ar). clear Ar.
  destruct (lane_eq _ mu ar k p v el Ar2 (nth_combine _ _ _ _ _ Hp Hv) El N1 N2) as (A & B & _). auto.
Qed.
Lemma arrays_refused pos vel mu : osculating_array pos vel mu = None <-> mu <= 0.
Proof. unfold osculating_array. destruct (Rle_dec mu 0); split; intros; try lra; try reflexivity; discriminate. Qed.
Lemma arrays_apoapsis pos vel mu ar k p v el : length pos = length vel -> osculating_array pos vel mu = Some ar -> nth_error pos k = Some p -> nth_error vel k = Some v ->
  osculating p v mu = Some el -> 1 - tiny < el_e el < 1 -> nth_error (ar_Q ar) k = Some None /\ Q_of el <> None.
Proof.
  intros Hl Ar Hp Hv El Hr. destruct (combine_map pos vel Hl) as [E1 E2]. assert (Ar2 : osculating_array (map fst (combine pos vel)) (map snd (combine pos vel)) mu = Some ar) by (rewrite E1, E2; exact Ar). clear Ar. assert (tiny < 1 - tiny) by (unfold tiny; lra).
  destruct (lane_eq _ mu ar k p v el Ar2 (nth_combine _ _ _ _ _ Hp Hv) El ltac:(lra) ltac:(lra)) as (_ & _ & C). split; [apply C; lra|]. unfold Q_of, apoapsis_distance. destruct (Rlt_dec (el_e el) 1); [discriminate|lra].
Qed.
