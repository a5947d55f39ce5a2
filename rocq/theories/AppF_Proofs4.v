(** Apparent places in floats: the whole path. *)
From Coq Require Import ZArith Reals Lia Lra Psatz Bool List.
From Flocq Require Import Core BinarySingleNaN.
From Verif Require Geo_Proofs.
From Verif Require Import Float64 Float64_Proofs Float_Time_Proofs Float_Time_Proofs4 CalF_Proofs2 SexaF_Proofs2 Real_Math Vector_Model Vector_Proofs2 Geo_Model Light_Model Light_Spec Light_Proofs Light_Proofs2 SepF_Model SepF_Spec SepF_Proofs SepF_Proofs2 SepF_Proofs3 SphF_Spec SphF_Proofs RotF_Spec RotF_Proofs RotF_Proofs2 RotF_Proofs4 FrameF_Proofs LightF_Model LightF_Spec LightF_Proofs GeodF_Proofs GeodF_Proofs2 AberF_Model AberF_Spec AberF_Proofs AberF_Proofs2 AberF_Proofs3 DeflF_Model DeflF_Spec DeflF_Proofs DeflF_Proofs2 DeflF_Proofs3 AppF_Model AppF_Spec AppF_Proofs AppF_Proofs2 AppF_Proofs3.
Import ListNotations.
Open Scope R_scope.

Lemma path_ok fs bodies : Forall2 body_for fs bodies -> forall p u x r r', stands_for p x -> 0 <= r -> vlength (vsub x u) <= r * eps * vlength u -> mild_path u bodies r r' ->
  exists v, bend u bodies = Some v /\ exists z, stands_for (deflect_all64 p fs) z /\ vlength (vsub z v) <= r' * eps * vlength v /\ 0 <= r' <= 4096.
Proof.
  intros A. induction A as [|[ef rf] [e rm] fs bodies Hb _ IH]; intros p u x r r' Sp R0 Hx HM.
  - destruct HM as [R1 ->]. exists u. split; [reflexivity|]. exists x. cbn [deflect_all64]. repeat split; assumption.
  - destruct HM as (R1 & M & Next). destruct Hb as (Se & rb & E1 & Fr & E2). cbn [fst snd] in *. subst rf rm. destruct (step_ok p ef u x e rb r M Sp Se Fr (conj R0 R1) Hx) as (d & Ed & z & Sz & Vz). cbn [bend deflect_all64]. rewrite Ed. apply (IH _ _ z (1.05 * r + blur u e (B2R rb)) _ Sz); [|exact Vz|apply Next; exact Ed].
    unfold blur. assert (0 <= strength e (B2R rb) / (openness u e * sqrt (openness u e))); [|lra]. destruct M as (_ & Pe & _ & Hr & HF & _). apply Rmult_le_pos; [apply strength_pos; [apply plain_pos, Pe|lra]|]. apply Rlt_le, Rinv_0_lt_compat. apply Rmult_lt_0_compat; [lra|apply sqrt_lt_R0; lra].
Qed.
Lemma apparent_ok p fs vf lt u bodies w T r' : stands_for p u -> Forall2 body_for fs bodies -> stands_for vf w -> mild_path u bodies 0 r' -> slow_enough w -> near T (6 / 2 ^ 53 * T) lt ->
  (forall v, bend u bodies = Some v -> plain v /\ Rabs (T * C_AUDAY - vlength v) <= / 2000 * vlength v) ->
  exists v, bend u bodies = Some v /\ near_vector (add_aberration v w T) ((7.1 + 1.02 * r') / 2 ^ 53 * vlength v) (apparent64 p vf lt fs).
Proof.
  intros Sp A Sv HM Hw Hl Hv. destruct (path_ok fs bodies A p u u 0 r' Sp (Rle_refl 0)) as (v & Eb & z & Sz & Vz & R'); [|exact HM|].
  { replace (vsub u u) with vzero by (unfold vsub, vzero; f_equal; ring). rewrite Rmult_0_l, Rmult_0_l. replace (vlength vzero) with 0; [lra|]. unfold vlength, vzero. cbn [vx vy vz]. replace (0 * 0 + 0 * 0 + 0 * 0) with 0 by ring. symmetry. apply sqrt_0. }
  exists v. split; [exact Eb|]. destruct (Hv v Eb) as [Pv HT]. pose proof (plain_pos _ Pv) as V0. set (L := vlength v) in *. set (D := vlength (vsub z v)) in *. pose proof eps_small as Ep.
  assert (D0 : 0 <= D) by apply vlength_pos. assert (DL : D <= / 10 ^ 12 * L). { apply Rle_trans with (1 := Vz). apply Rmult_le_compat_r; [lra|]. apply Rle_trans with (4096 * eps); [apply Rmult_le_compat_r; lra|unfold eps; lra]. }
  pose proof (len_diff z v) as LD. fold L D in LD. apply Rabs_le_inv in LD. assert (HT' := HT). apply Rabs_le_inv in HT'.
  assert (P50 : / 2 ^ 80 <= / 2 ^ 51) by (apply Rinv_le; [apply pow_lt; lra|apply Rle_pow; [lra|lia]]). assert (P51 : / 2 ^ 50 = 2 * / 2 ^ 51) by (replace (2 ^ 51) with (2 * 2 ^ 50) by (simpl; ring); rewrite Rinv_mult; lra). assert (Q51 : 2 * 2 ^ 50 = 2 ^ 51) by (simpl; ring). assert (Q80 : 2 ^ 51 <= 2 ^ 80) by (apply Rle_pow; [lra|lia]).
  assert (Fz : far_enough z) by (unfold far_enough; destruct Pv as [Pa Pb]; fold L in Pa, Pb; lra).
  pose proof (aberration_ok _ vf z w lt T Sz Sv Fz Hw ltac:(apply Rabs_le; lra) Hl) as NA. fold (apparent64 p vf lt fs) in NA.
  pose proof (aberration_moved v z w T V0 ltac:(destruct Hw as [Wa Wb]; assert (0 < / 2 ^ 60) by (apply Rinv_0_lt_compat, pow_lt; lra); lra) ltac:(apply Rabs_le; fold L; lra) ltac:(fold L D; lra)) as AM. fold D in AM.
  destruct (coord_le (vsub (add_aberration z w T) (add_aberration v w T))) as (C1 & C2 & C3). cbn [vsub vx vy vz] in C1, C2, C3.
  assert (Bd : 7 / 2 ^ 53 * vlength z + 1.02 * D <= (7.1 + 1.02 * r') / 2 ^ 53 * L). { assert (L0 : 0 < L) by exact V0. assert (EL : 0 < eps * L) by (apply Rmult_lt_0_compat; lra). assert (ZL : eps * vlength z <= eps * (1.001 * L)) by (apply Rmult_le_compat_l; lra). replace (7 / 2 ^ 53) with (7 * eps) by (unfold eps; lra). replace ((7.1 + 1.02 * r') / 2 ^ 53) with ((7.1 + 1.02 * r') * eps) by (unfold eps; lra). lra. }
  unfold near_vector in *. destruct NA as (N1 & N2 & N3). split; [|split]; (eapply near_more; [eassumption|lra]).
Qed.
Lemma gentle_mild n : forall bodies u r, (length bodies <= n)%nat -> gentle_path u bodies -> 0 <= r -> 1.05 ^ n * (r + 5440) <= 9536 -> exists r', mild_path u bodies r r' /\ r' + 5440 <= 1.05 ^ n * (r + 5440).
Proof.
  induction n as [|n IH]; intros bodies u r Len G R0 B.
  - destruct bodies; [|cbn in Len; lia]. exists r. cbn [mild_path]. cbn [pow] in B. rewrite Rmult_1_l in B. split; [split; [lra|reflexivity]|]. cbn [pow]. lra.
  - assert (One : 1 <= 1.05 ^ S n) by (apply pow_R1_Rle; lra). assert (R1 : r <= 4096). { assert (1 * (r + 5440) <= 1.05 ^ S n * (r + 5440)) by (apply Rmult_le_compat_r; lra). lra. }
    destruct bodies as [|[e rm] bodies]; [exists r; cbn [mild_path]; split; [split; [exact R1|reflexivity]|]; assert (1 * (r + 5440) <= 1.05 ^ S n * (r + 5440)) by (apply Rmult_le_compat_r; lra); lra|].
    cbn [gentle_path] in G. destruct G as (M & HK & Next). assert (Bl : 0 <= blur u e rm <= 272). { unfold blur. destruct M as (_ & Pe & _ & Hr & HF & _). assert (F0 : 0 < openness u e * sqrt (openness u e)) by (apply Rmult_lt_0_compat; [lra|apply sqrt_lt_R0; lra]). set (FF := openness u e * sqrt (openness u e)) in *. pose proof (strength_pos e rm (plain_pos _ Pe) ltac:(lra)) as K0. assert (I : 0 < / FF) by (apply Rinv_0_lt_compat, F0). unfold Rdiv. assert (0 <= strength e rm * / FF) by (apply Rmult_le_pos; lra). assert (strength e rm * / FF <= FF * / FF) by (apply Rmult_le_compat_r; lra). rewrite Rinv_r in H0 by lra. lra. }
    assert (Step : 1.05 ^ n * (1.05 * r + blur u e rm + 5440) <= 1.05 ^ S n * (r + 5440)). { cbn [pow]. replace (1.05 * 1.05 ^ n * (r + 5440)) with (1.05 ^ n * (1.05 * (r + 5440))) by lra. apply Rmult_le_compat_l; [apply pow_le; lra|lra]. }
    destruct (compute_deflection u e rm) as [d|] eqn:Ed.
    + destruct (IH bodies (vadd u d) (1.05 * r + blur u e rm) ltac:(cbn in Len; lia) (Next d eq_refl) ltac:(lra) ltac:(lra)) as (r' & HM & HB). exists r'. split; [|lra]. cbn [mild_path]. split; [exact R1|]. split; [exact M|]. intros d' Hd'. rewrite Ed in Hd'. injection Hd' as <-. exact HM.
    + exists r. split; [cbn [mild_path]; split; [exact R1|]; split; [exact M|]; intros d' Hd'; rewrite Ed in Hd'; discriminate|]. assert (1 * (r + 5440) <= 1.05 ^ S n * (r + 5440)) by (apply Rmult_le_compat_r; lra). lra.
Qed.
Lemma four_ok p fs vf lt u bodies w T : (length bodies <= 4)%nat -> stands_for p u -> Forall2 body_for fs bodies -> stands_for vf w -> gentle_path u bodies -> slow_enough w -> near T (6 / 2 ^ 53 * T) lt ->
  (forall v, bend u bodies = Some v -> plain v /\ Rabs (T * C_AUDAY - vlength v) <= / 2000 * vlength v) ->
  exists v, bend u bodies = Some v /\ near_vector (add_aberration v w T) (14 / 10 ^ 14 * vlength v) (apparent64 p vf lt fs).
Proof.
  intros Len Sp A Sv G Hw Hl Hv. destruct (gentle_mild 4 bodies u 0 Len G (Rle_refl 0) ltac:(lra)) as (r' & HM & HB). destruct (apparent_ok p fs vf lt u bodies w T r' Sp A Sv HM Hw Hl Hv) as (v & Eb & N1 & N2 & N3). exists v. split; [exact Eb|].
  assert (Bd : (7.1 + 1.02 * r') / 2 ^ 53 * vlength v <= 14 / 10 ^ 14 * vlength v) by (apply Rmult_le_compat_r; [apply vlength_pos|lra]). split; [|split]; (eapply near_le; [eassumption|exact Bd]).
Qed.
(** The model of [apparent] follows such a path. *)
Lemma path_of ephemeris t observer tlt codes : forall u a, deflect_all ephemeris t observer tlt u codes = Position a -> exists bodies, Forall2 (fun code b => rmass_of code = Some (snd b)) codes bodies /\ bend u bodies = Some a.
Proof.
  induction codes as [|code codes IH]; intros u a H; cbn [deflect_all] in H; [injection H as ->; exists []; split; [constructor|reflexivity]|].
  destruct (deflect_by ephemeris t observer tlt u code) as [v| | |] eqn:E; try discriminate. unfold deflect_by in E. destruct (rmass_of code) as [rm|] eqn:Er; [|discriminate].
  match type of E with match ephemeris ?c with _ => _ end = _ => destruct (ephemeris c) as [body|]; [|discriminate] end.
  destruct (compute_deflection u (compute_deflector_position t observer u body tlt) rm) as [d|] eqn:Ed; [|discriminate]. injection E as <-. destruct (IH _ _ H) as (bodies & F & B). exists ((compute_deflector_position t observer u body tlt, rm) :: bodies). split; [constructor; assumption|]. cbn [bend]. rewrite Ed. exact B.
Qed.
Lemma apparent_path ephemeris t observer velocity u T codes a : apparent ephemeris t observer velocity None u T codes = Position a ->
  exists bodies v, Forall2 (fun code b => rmass_of code = Some (snd b)) codes bodies /\ bend u bodies = Some v /\ a = add_aberration v velocity T.
Proof.
  unfold apparent. destruct (deflect_all ephemeris t observer (vlength u / C_AUDAY) u codes) as [v| | |] eqn:E; try discriminate. intros H. injection H as <-. destruct (path_of _ _ _ _ _ _ _ E) as (bodies & F & B). exists bodies, v. auto.
Qed.
Lemma some_path : exists p fs vf lt u bodies w T, bodies <> [] /\ (length bodies <= 4)%nat /\ stands_for p u /\ Forall2 body_for fs bodies /\ stands_for vf w /\ gentle_path u bodies /\ slow_enough w /\ near T (6 / 2 ^ 53 * T) lt /\
  (forall v, bend u bodies = Some v -> plain v /\ Rabs (T * C_AUDAY - vlength v) <= / 2000 * vlength v).
Proof.
  destruct (of_Z_bf 3 ltac:(unfold fits; lia)) as (t & _ & Ft & Vt). destruct (of_Z_bf 4 ltac:(unfold fits; lia)) as (f & _ & Ff & Vf). destruct (of_Z_bf 0 ltac:(unfold fits; lia)) as (o & _ & Fo & Vo). destruct (of_Z_bf 1 ltac:(unfold fits; lia)) as (i & _ & Fi & Vi). cbn in Vt, Vf, Vo, Vi.
  set (p := F3 (B2SF o) (B2SF t) (B2SF o)). set (ef := F3 (B2SF f) (B2SF o) (B2SF o)). assert (Sp : stands_for p (V3 (B2R o) (B2R t) (B2R o))) by (exists o, t, o; auto). assert (Se : stands_for ef (V3 (B2R f) (B2R o) (B2R o))) by (exists f, o, o; auto). assert (Sv : stands_for (F3 (B2SF i) (B2SF o) (B2SF o)) (V3 (B2R i) (B2R o) (B2R o))) by (exists i, o, o; auto). rewrite Vt, ?Vf, ?Vo, ?Vi in *.
  set (u := V3 0 3 0) in *. set (e := V3 4 0 0) in *.
  assert (L : forall x y z k, 0 <= k -> x * x + y * y + z * z = k * k -> vlength (V3 x y z) = k) by (intros x y z k K H; unfold vlength, dot; cbn [vx vy vz]; rewrite H; apply sqrt_square; exact K).
  pose proof (L 0 3 0 3 ltac:(lra) ltac:(ring)) as L3. pose proof (L 4 0 0 4 ltac:(lra) ltac:(ring)) as L4. assert (W : vadd u e = V3 4 3 0) by (unfold vadd, u, e; cbn [vx vy vz]; f_equal; ring). pose proof (L 4 3 0 5 ltac:(lra) ltac:(ring)) as L5. pose proof (L 1 0 0 1 ltac:(lra) ltac:(ring)) as L1. fold u in L3. fold e in L4.
  assert (Ho : openness u e = 1.8) by (unfold openness, unit_of; rewrite W, L4, L5; unfold dot, e; cbn [smul vx vy vz]; lra). assert (Ha : alignment u e = 0) by (unfold alignment, unit_of; rewrite L3, L4; unfold dot, u, e; cbn [smul vx vy vz]; lra).
  assert (Hk : 0 <= strength e 1 <= / 10 ^ 8) by (unfold strength; rewrite L4; unfold GS, Light_Model.C, AU_M; lra).
  assert (M : mild u e 1). { unfold mild, plain. rewrite W, L3, L4, L5, Ho, Ha, Rabs_R0. repeat split; lra. }
  assert (A : Forall2 body_for [(ef, B2SF i)] [(e, 1)]). { constructor; [|constructor]. split; [exact Se|]. exists i. cbn [snd]. auto. }
  assert (G : gentle_path u [(e, 1)]). { cbn [gentle_path]. split; [exact M|]. split; [|auto]. rewrite Ho. assert (1 <= sqrt 1.8) by (apply Rsqr_incr_0_var; [unfold Rsqr; rewrite sqrt_sqrt by lra; lra|apply sqrt_pos]). lra. }
  destruct (gentle_mild 1 [(e, 1)] u 0 ltac:(cbn; lia) G (Rle_refl 0) ltac:(lra)) as (r' & HM & HB). destruct (path_ok _ _ A p u u 0 r' Sp (Rle_refl 0)) as (v & Eb & z & Sz & Vz & R'); [|exact HM|].
  { replace (vsub u u) with vzero by (unfold vsub, vzero; f_equal; ring). rewrite Rmult_0_l, Rmult_0_l. replace (vlength vzero) with 0; [lra|]. symmetry. apply (L 0 0 0 0); lra. }
  (* the length of the bent ray *)
  assert (Lv : 2.9 <= vlength v <= 3.1).
  { assert (Ed : compute_deflection u e 1 = Some (shift u e (strength e 1))). { rewrite <- Vi. apply shift_value; [apply (mild_plain _ _ _ M)|exact (proj1 (proj2 M))|apply (mild_plain _ _ _ M)|rewrite Ho; assert (/ 2 ^ 40 <= / 2 ^ 0) by (apply Rinv_le; [lra|apply Rle_pow; [lra|lia]]); lra|rewrite Ha, Rabs_R0; lra]. }
    cbn [bend] in Eb. rewrite Ed in Eb. injection Eb as <-. set (d := shift u e (strength e 1)). set (s := vlength (vadd (unit_of (vadd u e)) (unit_of e))). assert (Hs : s * s / 2 = 1.8) by (rewrite <- Ho; symmetry; unfold s; apply F_is; [rewrite L4; lra|rewrite W, L5; lra]). assert (S2 : s <= 2) by (unfold s; apply s_le2; [rewrite L4; lra|rewrite W, L5; lra]). assert (S0 : 0 < s). { destruct (Rle_lt_or_eq_dec 0 s (vlength_pos _)) as [H|H]; [exact H|]. rewrite <- H in Hs. lra. }
    pose proof (shift_len u e (strength e 1) ltac:(rewrite L3; lra) ltac:(rewrite L4; lra) ltac:(rewrite W, L5; lra) (proj1 Hk) S0) as SL. fold d s in SL. rewrite L3, Ho in SL. assert (SL' : vlength d <= 0.1). { apply Rle_trans with (1 := SL). assert (strength e 1 * s <= / 10 ^ 8 * 2) by (apply Rmult_le_compat; lra). lra. }
    pose proof (triangle u d) as T1. pose proof (len_far u (vadd u d)) as T2. replace (vsub u (vadd u d)) with (smul (-(1)) d) in T2 by (unfold vsub, vadd, smul; cbn [vx vy vz]; f_equal; ring). rewrite len_smul, Rabs_Ropp, Rabs_R1, Rmult_1_l in T2. rewrite L3 in T1, T2. lra. }
  pose proof eps_small as Ep. pose proof (len_diff z v) as LD. apply Rabs_le_inv in LD. assert (Dz : vlength (vsub z v) <= / 10 ^ 9). { apply Rle_trans with (1 := Vz). apply Rle_trans with (4096 * eps * 3.1); [|unfold eps; lra]. apply Rmult_le_compat; [apply Rmult_le_pos; lra|lra|apply Rmult_le_compat_r; lra|lra]. }
  assert (Fz : far_enough z) by (unfold far_enough; lra). exists p, [(ef, B2SF i)], (F3 (B2SF i) (B2SF o) (B2SF o)), (light_time64 (deflect_all64 p [(ef, B2SF i)])), u, [(e, 1)], (V3 1 0 0), (vlength z / C_AUDAY).
  split; [discriminate|]. split; [cbn; lia|]. split; [exact Sp|]. split; [exact A|]. split; [exact Sv|]. split; [exact G|]. split; [unfold slow_enough; rewrite L1; lra|]. split; [eapply at_near; [apply light_time_at; eassumption|lra]|].
  intros v' E'. rewrite Eb in E'. injection E' as <-. split; [unfold plain; lra|]. pose proof speed_range as C. replace (vlength z / C_AUDAY * C_AUDAY) with (vlength z) by (field; lra). apply Rabs_le. lra.
Qed.
