(** The deflections as [apparent] applies them. *)
From Coq Require Import Reals ZArith List Bool Lra Lia Psatz.
From Verif Require Import Real_Math Real_Math_Proofs Vector_Model Vector_Proofs Vector_Proofs2 Geo_Model Geo_Spec Geo_Proofs Light_Model Light_Spec Light_Proofs Light_Proofs2 Light_Proofs3 Light_Proofs6.
Import ListNotations.
Open Scope R_scope.

Lemma finds_body eph t o tlt p code body m : rmass_of code = Some m -> body_used eph code body ->
  deflect_by eph t o tlt p code =
    match compute_deflection p (compute_deflector_position t o p body tlt) m with None => NotANumber | Some d => Position (vadd p d) end.
Proof.
  intros Hm [H|[H1 [H2 H3]]]; unfold deflect_by; rewrite Hm.
  - rewrite H, andb_false_r, H. reflexivity.
  - rewrite H1, H2. cbn. rewrite H3. reflexivity.
Qed.
Lemma pushed eph t o v p lt code body m : rmass_of code = Some m -> body_used eph code body -> 0 < m -> p <> vzero ->
  (forall k, 0 <= k <= vlength p -> let e := vsub o (body (t - k / C_AUDAY)) in
     e <> vzero /\ vadd p e <> vzero /\ Rabs (cos (angle_between e p)) <= 99999999999 / 10 ^ 11 /\ 2 * GS / (C * C * vlength e * AU_M * m) <= 1) ->
  exists k q, 0 <= k <= vlength p /\ apparent eph t o v None p lt [code] = Position (add_aberration q v lt) /\ q <> p /\
    dot (vsub q p) p = 0 /\ angle_between p (vsub (body (t - k / C_AUDAY)) o) <= angle_between q (vsub (body (t - k / C_AUDAY)) o).
Proof.
  intros Hm Hb M0 Hp Hk. destruct (deflector_time t o p body Hp) as [k [Rk [E _]]]. specialize (Hk k Rk). cbv zeta in Hk.
  destruct Hk as (He & Hq & Ha & Hs). destruct (deflection_ok p _ m Hp He Hq M0 Ha) as (d & D1 & D2 & D3 & D4 & D5). specialize (D5 Hs).
  exists k, (vadd p d). split; [exact Rk|]. split.
  { unfold apparent. cbn [deflect_all]. rewrite (finds_body eph t o _ p code body m Hm Hb), E, D1. reflexivity. }
  assert (X : vsub (vadd p d) p = d) by (apply vec_ext; cbn; ring).
  replace (vsub (body (t - k / C_AUDAY)) o) with (vopp (vsub o (body (t - k / C_AUDAY)))) by (apply vec_ext; cbn; ring).
  split; [|split; [rewrite X; exact D2|exact D5]].
  intros Z. rewrite Z in X. replace (vsub p p) with vzero in X by (apply vec_ext; cbn; ring). rewrite <- X, vlength_vzero in D3. symmetry in D3.
  assert (L : 0 < vlength p) by (apply vlength_ne; exact Hp). assert (LE : 0 < vlength (vsub o (body (t - k / C_AUDAY)))) by (apply vlength_ne; exact He).
  set (e := vsub o (body (t - k / C_AUDAY))) in *. assert (KP : 0 < 2 * GS / (C * C * vlength e * AU_M * m)).
  { apply Rdiv_lt_0_compat; [unfold GS; lra|]. repeat apply Rmult_lt_0_compat; try assumption; unfold C, AU_M; lra. }
  destruct (Rmult_integral _ _ D3) as [Y|Y]; [destruct (Rmult_integral _ _ Y); lra|].
  pose proof (sines p e Hp He Hq) as S. rewrite !hat_cos in S by assumption.
  destruct (angle_ok (vadd p e) e Hq He) as [B _]. set (psi := angle_between (vadd p e) e) in *.
  assert (psi = 0).
  { assert (NB := a_not_ends p e Hp He Hq). rewrite !hat_cos in NB by assumption. fold psi in NB. specialize (NB Ha).
    assert (psi < PI). { destruct (Req_dec psi PI) as [X'|X']; [rewrite X', cos_PI in NB; lra|lra]. }
    destruct (Req_dec psi 0) as [|N]; [assumption|]. exfalso. assert (0 < tan (psi / 2)) by (apply tan_gt_0; lra). lra. }
  rewrite H, cos_0 in S. assert (cos (angle_between e p) * cos (angle_between e p) < 1).
  { apply abs_between in Ha. nra. }
  assert (0 < vlength p * vlength p * (1 - cos (angle_between e p) * cos (angle_between e p))). { repeat apply Rmult_lt_0_compat; lra. }
  nra.
Qed.
Lemma vec_dec (p : vec) : p = vzero \/ p <> vzero.
Proof. destruct p as [x y z]. unfold vzero. destruct (Req_dec x 0) as [->|X], (Req_dec y 0) as [->|Y], (Req_dec z 0) as [->|Z']; try (left; reflexivity); right; intros H; injection H; intros; contradiction. Qed.
Lemma longer eph t o tlt codes : forall p q, deflect_all eph t o tlt p codes = Position q -> vlength p <= vlength q.
Proof.
  induction codes as [|code codes IH]; cbn; intros p q H; [injection H as <-; lra|].
  destruct (deflect_by eph t o tlt p code) as [r| | |] eqn:E; try discriminate. apply IH in H. refine (Rle_trans _ _ _ _ H).
  unfold deflect_by in E. destruct (rmass_of code) as [m|]; [|discriminate].
  destruct (eph (if (code mod 100 =? 99)%Z && match eph code with Some _ => false | None => true end then (code / 100)%Z else code)) as [body|]; [|discriminate].
  destruct (compute_deflection p _ m) as [d|] eqn:D; [|discriminate]. injection E as <-.
  destruct (vec_dec p) as [->|Hp]; [rewrite vlength_vzero; apply vlength_pos|]. exact (d_longer p _ m Hp d D).
Qed.
Lemma apparent_longer eph t o v g p lt codes q : apparent eph t o v g p lt codes = Position q -> exists r, vlength p <= vlength r /\ q = add_aberration r v lt.
Proof.
  unfold apparent. destruct (deflect_all eph t o _ p codes) as [r| | |] eqn:E; try discriminate. apply longer in E.
  destruct g as [g|]; [|intros H; injection H as <-; eauto].
  destruct (compute_deflection r g _) as [d|] eqn:D; [|discriminate]. intros H. injection H as <-. eexists. split; [|reflexivity].
  destruct (Rle_dec (8 / 10) _).
  - replace (smul 1 d) with d by (apply vec_ext; cbn; ring). destruct (vec_dec r) as [->|Hr]; [|pose proof (d_longer r _ _ Hr d D); lra].
    rewrite vlength_vzero in E. pose proof (vlength_pos p). pose proof (vlength_pos (vadd vzero d)). lra.
  - replace (vadd r (smul 0 d)) with r by (apply vec_ext; cbn; ring). exact E.
Qed.
Lemma earth_push eph t o v p lt g : p <> vzero -> g <> vzero -> vadd p g <> vzero -> Rabs (cos (angle_between g p)) <= 99999999999 / 10 ^ 11 ->
  exists q, apparent eph t o v (Some g) p lt [] = Position (add_aberration q v lt) /\
    if Rlt_dec (snd (compute_limb_angle p g)) (8 / 10) then q = p
    else dot (vsub q p) p = 0 /\ vlength (vsub q p) = 2 * GS / (C * C * vlength g * AU_M * (332946050895 / 10 ^ 6)) * vlength p * tan (angle_between (vadd p g) g / 2).
Proof.
  intros Hp Hg Hq Ha. destruct (deflection_ok p g (332946050895 / 10 ^ 6) Hp Hg Hq ltac:(lra) Ha) as (d & D1 & D2 & D3 & _).
  unfold apparent. cbn [deflect_all]. rewrite D1. eexists. split; [reflexivity|].
  destruct (Rle_dec (8 / 10) (snd (compute_limb_angle p g))); destruct (Rlt_dec (snd (compute_limb_angle p g)) (8 / 10)); try lra.
  - replace (vsub (vadd p (smul 1 d)) p) with d by (apply vec_ext; cbn; ring). split; assumption.
  - apply vec_ext; cbn; ring.
Qed.
Lemma pushed_ex : let o := V3 1 0 0 in let p := V3 0 5 0 in let body (_ : R) := vzero in
  forall k, 0 <= k <= vlength p -> let e := vsub o (body (0 - k / C_AUDAY)) in
     e <> vzero /\ vadd p e <> vzero /\ Rabs (cos (angle_between e p)) <= 99999999999 / 10 ^ 11 /\ 2 * GS / (C * C * vlength e * AU_M * 1) <= 1.
Proof.
  intros o p body k _ e. replace e with (V3 1 0 0) by (unfold e, o, body; apply vec_ext; cbn; ring). pose proof deflection_ex as D. cbv zeta in D. tauto.
Qed.
