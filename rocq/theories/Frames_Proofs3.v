(** Consequences: lengths and angles, poles, latitudes and longitudes. *)
From Coq Require Import Reals Lra Lia ZArith String Bool.
From Coq Require Import List.
From Verif Require Import Real_Math Real_Math_Proofs Vector_Model Vector_Proofs Vector_Proofs2 Geo_Model Geo_Spec Geo_Proofs Geo_Proofs2 Geo_Proofs3 Pi_Bounds Light_Proofs Spin_Model Position_Model Frames_Model Frames_Spec Frames_Proofs Frames_Proofs2.
Import ListNotations.
Open Scope R_scope.

(** * The table *)
Lemma turn_rotation ax a : rotation (turn ax a).
Proof.
  pose proof (rot_ok (- arcseconds a)) as (X & Y & Z). unfold rot_x, rot_y, rot_z in *. rewrite cos_neg, sin_neg, Ropp_involutive in *.
  destruct ax; [exact X| |exact Z]. exact Y.
Qed.
Lemma identity_rotation : rotation identity.
Proof. split; [split; apply mat_ext; apply vec_ext; cbn; unfold dot; cbn; ring|unfold det, dot, cross; cbn; ring]. Qed.
Lemma follows_rotation l base : rotation base -> rotation (follows l base).
Proof. intros H. induction l as [|[a ax] l IH]; [exact H|]. cbn. apply rotation_mxm; [apply turn_rotation|exact IH]. Qed.
Lemma B1950_rotation : rotation B1950_def. Proof. exact (follows_rotation _ _ identity_rotation). Qed.
Lemma FK4_rotation : rotation FK4_def. Proof. exact (follows_rotation _ _ B1950_rotation). Qed.
Lemma definitions_rotation : Forall (fun x => rotation (snd x)) definitions.
Proof.
  unfold definitions. repeat (apply Forall_cons; [cbn [snd]; first [exact identity_rotation|exact B1950_rotation|exact FK4_rotation|exact (follows_rotation _ _ identity_rotation)|exact (follows_rotation _ _ B1950_rotation)|exact (follows_rotation _ _ FK4_rotation)]|]). apply Forall_nil.
Qed.
Lemma definitions_nodup : NoDup (map fst definitions).
Proof.
  unfold definitions. cbn [map fst]. repeat (apply NoDup_cons; [intros H; repeat (destruct H as [H|H]; [discriminate H|]); exact H|]). apply NoDup_nil.
Qed.
Lemma agree_in l d n D : Forall2 agree l d -> NoDup (map fst d) -> In (n, D) d -> exists T, lookup l n = Some T /\ close T D (3 / 10 ^ 16).
Proof.
  intros F. induction F as [|[m A] [k B] l d [E C] F IH]; intros N I; [destruct I|]. cbn in E, C, N. subst k. inversion N as [|? ? Nm N']; subst. cbn [lookup].
  assert (No : forall x, lookup l m = Some x -> False).
  { clear - F Nm. intros x. revert Nm. induction F as [|[p A'] [q B'] l d [E' _] F IH]; cbn; intros Nm H; [discriminate|]. cbn in E'. subst q. destruct (lookup l m) eqn:L; [apply (IH (fun I => Nm (or_intror I)) H)|].
    destruct (String.eqb p m) eqn:Q; [|discriminate]. apply String.eqb_eq in Q. apply Nm. left. exact Q. }
  destruct I as [I|I].
  - inversion I; subst. destruct (lookup l n) as [x|] eqn:L; [destruct (No x eq_refl)|]. rewrite String.eqb_refl. exists A. split; [reflexivity|exact C].
  - destruct (IH N' I) as (T & L & H). rewrite L. exists T. split; [reflexivity|exact H].
Qed.
Lemma lookup_in l n T : lookup l n = Some T -> In (n, T) l.
Proof.
  induction l as [|[m A] l IH]; cbn; [discriminate|]. destruct (lookup l n) as [x|] eqn:L; intros H; [right; apply IH; exact H|]. destruct (String.eqb m n) eqn:Q; [|discriminate]. apply String.eqb_eq in Q. inversion H. subst. left. reflexivity.
Qed.
Lemma forall2_in {A B} (P : A -> B -> Prop) l d x : Forall2 P l d -> In x l -> exists y, In y d /\ P x y.
Proof. induction 1 as [|a b l d H F IH]; intros I; [destruct I|]. destruct I as [<-|I]; [exists b; split; [left; reflexivity|exact H]|]. destruct (IH I) as (y & Y & Q). exists y. split; [right; exact Y|exact Q]. Qed.
Lemma as_defined name T : spice name = Some T -> exists D, In (name, D) definitions /\ rotation D /\ close T D (3 / 10 ^ 16).
Proof.
  intros H. apply lookup_in in H. destruct (forall2_in _ _ _ _ tables_agree H) as ([n D] & I & E & C). cbn in E, C. subst n. exists D. split; [exact I|]. split; [|exact C].
  exact (proj1 (Forall_forall _ _) definitions_rotation _ I).
Qed.
Lemma all_there name D : In (name, D) definitions -> exists T, spice name = Some T /\ close T D (3 / 10 ^ 16).
Proof. intros I. exact (agree_in _ _ _ _ tables_agree definitions_nodup I). Qed.

(** * Lengths and angles *)
Lemma dots_preserve A e : 0 <= e -> (forall u v, Rabs (dot (mxv A u) (mxv A v) - dot u v) <= e * (vlength u * vlength v)) -> preserves A e.
Proof.
  intros Pe H. split; [|split; [exact H|]].
  - intros v. pose proof (H v v) as D. rewrite !dot_self in D. pose proof (vlength_pos v) as P. pose proof (vlength_pos (mxv A v)) as Q. set (l := vlength v) in *. set (m := vlength (mxv A v)) in *. clearbody l m.
    apply Rabs_def2_le in D. destruct (Req_dec l 0) as [->|N].
    { assert (m = 0) by nra. subst m. rewrite Rminus_0_r, Rabs_R0. lra. }
    assert (Pl : 0 < l) by lra. assert (Pel : 0 <= e * l) by nra. apply Rabs_le. split; apply Rnot_lt_le; intros L.
    + assert (e * l * l < (l - m) * l) by (apply Rmult_lt_compat_r; lra). assert (0 <= (l - m) * m) by (apply Rmult_le_pos; lra). nra.
    + assert (e * l * l < (m - l) * l) by (apply Rmult_lt_compat_r; lra). assert (0 <= (m - l) * m) by (apply Rmult_le_pos; lra). nra.
  - intros v. set (w := vsub (mxv (transp A) (mxv A v)) v). assert (E : dot w w = dot (mxv A w) (mxv A v) - dot w v).
    { rewrite (dot_transp A w). unfold w at 2. unfold dot, vsub. cbn [vx vy vz]. ring. }
    pose proof (H w v) as B. rewrite <- E, dot_self in B. pose proof (Rle_abs (vlength w * vlength w)). pose proof (vlength_pos w). pose proof (vlength_pos v).
    apply Rnot_lt_le. intros L. set (a := vlength w) in *. set (b := vlength v) in *. clearbody a b. assert (0 <= e * b) by (apply Rmult_le_pos; assumption).
    assert (a * (e * b) < a * a) by (apply Rmult_lt_compat_l; lra). replace (e * (a * b)) with (a * (e * b)) in B by ring. lra.
Qed.
Lemma preserves_mono A d e : d <= e -> preserves A d -> preserves A e.
Proof.
  intros L (P1 & P2 & P3). split; [|split].
  - intros v. eapply Rle_trans; [apply P1|]. apply Rmult_le_compat_r; [apply vlength_pos|exact L].
  - intros u v. eapply Rle_trans; [apply P2|]. apply Rmult_le_compat_r; [|exact L]. pose proof (vlength_pos u). pose proof (vlength_pos v). nra.
  - intros v. eapply Rle_trans; [apply P3|]. apply Rmult_le_compat_r; [apply vlength_pos|exact L].
Qed.
Lemma comp_length v : Rabs (vx v) <= vlength v /\ Rabs (vy v) <= vlength v /\ Rabs (vz v) <= vlength v.
Proof.
  pose proof (vlength_sq v) as S. pose proof (vlength_pos v) as P.
  assert (H : forall a, a * a <= vlength v * vlength v -> Rabs a <= vlength v).
  { intros a Ha. rewrite <- (Rabs_right (vlength v)) by lra. apply Rsqr_le_abs_0. exact Ha. }
  repeat split; apply H; nra.
Qed.
Lemma row_close a b v e : vclose a b e -> Rabs (dot a v - dot b v) <= 3 * e * vlength v.
Proof.
  intros (X & Y & Z). destruct (comp_length v) as (VX & VY & VZ). unfold dot.
  replace (vx a * vx v + vy a * vy v + vz a * vz v - (vx b * vx v + vy b * vy v + vz b * vz v)) with ((vx a - vx b) * vx v + (vy a - vy b) * vy v + (vz a - vz b) * vz v) by ring.
  assert (P : forall p q, Rabs p <= e -> Rabs q <= vlength v -> Rabs (p * q) <= e * vlength v) by (intros; rewrite Rabs_mult; apply Rmult_le_compat; try apply Rabs_pos; assumption).
  pose proof (P _ _ X VX). pose proof (P _ _ Y VY). pose proof (P _ _ Z VZ). eapply Rle_trans; [apply Rabs_triang|]. eapply Rle_trans; [apply Rplus_le_compat_r, Rabs_triang|]. lra.
Qed.
Lemma mxv_close A B v e : close A B e -> vclose (mxv A v) (mxv B v) (3 * e * vlength v).
Proof. intros (X & Y & Z). unfold vclose. cbn [mxv vx vy vz]. repeat split; apply row_close; assumption. Qed.
Lemma vclose_length a b e : vclose a b e -> vlength (vsub a b) <= 2 * e.
Proof.
  intros (X & Y & Z). assert (Pe : 0 <= e) by (eapply Rle_trans; [apply Rabs_pos|exact X]).
  assert (Sq : forall x, Rabs x <= e -> x * x <= e * e).
  { intros x Hx. rewrite <- (Rabs_right (x * x)) by nra. rewrite Rabs_mult. apply Rmult_le_compat; try apply Rabs_pos; assumption. }
  apply Sq in X, Y, Z. unfold vlength. cbn [vsub vx vy vz] in *. rewrite <- (sqrt_square (2 * e)) by lra. apply sqrt_le_1_alt. nra.
Qed.
Lemma close_preserves T D e : 0 <= e <= 1 / 1000 -> orthogonal D -> close T D e -> preserves T (13 * e).
Proof.
  intros Pe O C. apply dots_preserve; [lra|]. intros u v.
  set (Eu := vsub (mxv T u) (mxv D u)). set (Ev := vsub (mxv T v) (mxv D v)).
  assert (Lu : vlength Eu <= 6 * e * vlength u) by (eapply Rle_trans; [apply (vclose_length _ _ (3 * e * vlength u)), mxv_close, C|lra]).
  assert (Lv : vlength Ev <= 6 * e * vlength v) by (eapply Rle_trans; [apply (vclose_length _ _ (3 * e * vlength v)), mxv_close, C|lra]).
  replace (dot (mxv T u) (mxv T v) - dot u v) with (dot Eu (mxv D v) + dot (mxv D u) Ev + dot Eu Ev).
  - pose proof (cauchy_abs Eu (mxv D v)) as C1. pose proof (cauchy_abs (mxv D u) Ev) as C2. pose proof (cauchy_abs Eu Ev) as C3. rewrite !orth_length in * by assumption.
    pose proof (vlength_pos u) as Pu. pose proof (vlength_pos v) as Pv. pose proof (vlength_pos Eu). pose proof (vlength_pos Ev). set (lu := vlength u) in *. set (lv := vlength v) in *.
    assert (Puv : 0 <= lu * lv) by nra.
    assert (D1 : vlength Eu * lv <= 6 * e * lu * lv) by (apply Rmult_le_compat_r; assumption).
    assert (D2 : lu * vlength Ev <= lu * (6 * e * lv)) by (apply Rmult_le_compat_l; assumption).
    assert (D3 : vlength Eu * vlength Ev <= (6 * e * lu) * (6 * e * lv)) by (apply Rmult_le_compat; assumption).
    assert (D4 : (6 * e * lu) * (6 * e * lv) <= 1 * e * (lu * lv)). { replace ((6 * e * lu) * (6 * e * lv)) with (36 * e * (e * (lu * lv))) by ring. replace (1 * e * (lu * lv)) with (1 * (e * (lu * lv))) by ring. apply Rmult_le_compat_r; [apply Rmult_le_pos; lra|lra]. }
    eapply Rle_trans; [apply Rabs_triang|]. eapply Rle_trans; [apply Rplus_le_compat_r, Rabs_triang|]. lra.
  - rewrite <- (orth_dot D u v O). unfold Eu, Ev, dot, vsub. cbn [vx vy vz]. ring.
Qed.
Lemma table_preserves name T : spice name = Some T -> preserves T (4 / 10 ^ 15).
Proof. intros H. destruct (as_defined _ _ H) as (D & _ & R & C). eapply preserves_mono; [|apply (close_preserves T D (3 / 10 ^ 16)); [split; lra|exact (proj1 R)|exact C]]. lra. Qed.

(** The frame bias, the other way around. *)
Lemma bias_gram : close (mxm (transp bias) bias) identity (1 / 10 ^ 14).
Proof.
  unfold bias. set (x := - (166170 / 10 ^ 7) * ASEC2RAD). set (y := - (68192 / 10 ^ 7) * ASEC2RAD). set (d := - (1460 / 10 ^ 5) * ASEC2RAD).
  assert (Hx : - (81 / 10 ^ 9) <= x <= - (80 / 10 ^ 9)) by (unfold x, ASEC2RAD; lra).
  assert (Hy : - (34 / 10 ^ 9) <= y <= - (33 / 10 ^ 9)) by (unfold y, ASEC2RAD; lra).
  assert (Hd : - (71 / 10 ^ 9) <= d <= - (70 / 10 ^ 9)) by (unfold d, ASEC2RAD; lra).
  clearbody x y d.
  assert (X2 : 0 <= x * x <= 66 / 10 ^ 16) by (split; nra). assert (Y2 : 0 <= y * y <= 12 / 10 ^ 16) by (split; nra). assert (D2 : 0 <= d * d <= 51 / 10 ^ 16) by (split; nra).
  assert (XY : 0 <= x * y <= 28 / 10 ^ 16) by (split; nra). assert (XD : 0 <= x * d <= 58 / 10 ^ 16) by (split; nra). assert (YD : 0 <= y * d <= 25 / 10 ^ 16) by (split; nra).
  assert (Sq : forall u, 0 <= u <= 1 / 10 ^ 13 -> 0 <= u * u <= 1 / 10 ^ 15) by (intros; split; nra).
  assert (Tr : forall u w, - (1 / 10 ^ 6) <= u <= 0 -> - (1 / 10 ^ 13) <= w <= 1 / 10 ^ 13 -> - (1 / 10 ^ 16) <= u * w <= 1 / 10 ^ 16) by (intros; split; nra).
  pose proof (Sq (d * d + x * x) ltac:(lra)) as S1. pose proof (Sq (d * d + y * y) ltac:(lra)) as S2. pose proof (Sq (y * y + x * x) ltac:(lra)) as S3.
  pose proof (Tr d (x * x - y * y) ltac:(lra) ltac:(lra)) as T1. pose proof (Tr x (y * y - d * d) ltac:(lra) ltac:(lra)) as T2. pose proof (Tr y (x * x - d * d) ltac:(lra) ltac:(lra)) as T3.
  clear Sq Tr. unfold close, vclose. repeat split; apply Rabs_le; cbn; unfold dot; cbn.
  1, 5, 9: match goal with |- _ <= ?t <= _ => first
    [replace t with ((d * d + x * x) * (d * d + x * x) / 4) by field | replace t with ((d * d + y * y) * (d * d + y * y) / 4) by field | replace t with ((y * y + x * x) * (y * y + x * x) / 4) by field] end; lra.
  all: match goal with |- _ <= ?t <= _ => first
    [replace t with (x * y - d * (x * x - y * y) / 2) by field | replace t with (y * d - x * (y * y - d * d) / 2) by field | replace t with (- (x * d) - y * (x * x - d * d) / 2) by field] end; lra.
Qed.
Lemma bias_preserves Q : orthogonal Q -> preserves (mxm Q bias) (1 / 10 ^ 13).
Proof.
  intros O. apply dots_preserve; [lra|]. intros u v. rewrite !mxv_mxm, orth_dot by exact O. rewrite dot_transp, <- mxv_mxm.
  pose proof (mxv_close _ _ v _ bias_gram) as C. rewrite mxv_id in C. apply vclose_length in C. set (w := mxv _ v) in *.
  replace (dot u w - dot u v) with (dot u (vsub w v)) by (unfold dot, vsub; cbn [vx vy vz]; ring).
  eapply Rle_trans; [apply cauchy_abs|]. pose proof (vlength_pos u). pose proof (vlength_pos v).
  eapply Rle_trans; [apply Rmult_le_compat_l; [assumption|exact C]|]. assert (0 <= vlength u * vlength v) by nra. lra.
Qed.
Lemma true_equator_form t : exists Q, orthogonal Q /\ Spin_Model.M_of t = mxm Q bias.
Proof.
  unfold Spin_Model.M_of, time_M, mxmxm. eexists. split; [|reflexivity]. apply orth_mxm; [apply nutation_ok|apply precession_ok].
Qed.
Lemma identity_preserves : preserves (M3 (V3 1 0 0) (V3 0 1 0) (V3 0 0 1)) (1 / 10 ^ 13).
Proof.
  apply dots_preserve; [lra|]. intros u v. change (M3 _ _ _) with identity. rewrite !mxv_id, Rminus_eq_0, Rabs_R0. pose proof (vlength_pos u). pose proof (vlength_pos v). nra.
Qed.
Lemma of_date_preserves t : preserves (mxm (compute_precession (tdb_of t)) bias) (1 / 10 ^ 13) /\ preserves (Spin_Model.M_of t) (1 / 10 ^ 13) /\ preserves (build_ecliptic_matrix t) (1 / 10 ^ 13).
Proof.
  destruct (true_equator_form t) as (Q & O & E). split; [apply bias_preserves, precession_ok|]. split; [rewrite E; apply bias_preserves, O|].
  unfold build_ecliptic_matrix. rewrite E, mxm_assoc. apply bias_preserves, orth_mxm; [apply rot_ok|exact O].
Qed.
Lemma fixed_preserves name : spice name <> None -> preserves (spice_matrix name) (1 / 10 ^ 13).
Proof. unfold spice_matrix. destruct (spice name) as [T|] eqn:E; intros H; [|destruct (H eq_refl)]. eapply preserves_mono; [|exact (table_preserves _ _ E)]. lra. Qed.
Lemma frames_preserve at_tt f t m : In f frames -> rotation_at_ at_tt f t = Ok m -> all_of (fun m => preserves m (1 / 10 ^ 13)) m.
Proof.
  assert (D : forall g, (forall t, preserves (g t) (1 / 10 ^ 13)) -> rotation_at_ at_tt (OfDate g) t = Ok m -> all_of (fun m => preserves m (1 / 10 ^ 13)) m).
  { intros g Hg. cbn. destruct t as [[tt|l]|]; [| |discriminate]; intros H; inversion H; subst; cbn; [apply Hg|]. apply Forall_map, Forall_forall. intros; apply Hg. }
  assert (F : forall g, preserves g (1 / 10 ^ 13) -> rotation_at_ at_tt (Fixed g) t = Ok m -> all_of (fun m => preserves m (1 / 10 ^ 13)) m) by (intros g Hg H; inversion H; subst; exact Hg).
  intros [<-|[<-|[<-|[<-|[<-|[<-|[<-|[]]]]]]]].
  - apply F, identity_preserves.
  - apply D. intros u. apply of_date_preserves.
  - apply D. intros u. apply of_date_preserves.
  - apply D. intros u. apply of_date_preserves.
  - apply F, fixed_preserves. discriminate.
  - apply F, fixed_preserves. discriminate.
  - apply F, fixed_preserves. discriminate.
Qed.

(** * The galactic and ecliptic planes *)
Lemma arc_deg a : arcseconds (a * 3600) = degrees_ a.
Proof. unfold arcseconds, degrees_. field. Qed.
Lemma galactic_form v : mxv GALACTIC_def v = mxv (turn A3 1177200) (mxv (turn A1 225360) (mxv (turn A3 1016100) (mxv FK4_def v))).
Proof. change GALACTIC_def with (mxm (turn A3 1177200) (mxm (turn A1 225360) (mxm (turn A3 1016100) FK4_def))). rewrite !mxv_mxm. reflexivity. Qed.
Lemma galactic_angles : arcseconds 1177200 = degrees_ 327 /\ arcseconds 225360 = degrees_ 62.6 /\ arcseconds 1016100 = degrees_ 282.25.
Proof. rewrite <- !arc_deg. repeat split; f_equal; lra. Qed.
Lemma turn3_direction a l b : mxv (turned A3 (cos (degrees_ a)) (sin (degrees_ a))) (direction l b) = direction (l - a) b.
Proof.
  unfold direction. replace (degrees_ (l - a)) with (degrees_ l - degrees_ a) by (unfold degrees_; field). rewrite cos_minus, sin_minus. apply vec_ext; unfold turned, mxv, dot; cbn [r1 r2 r3 vx vy vz]; ring.
Qed.
Lemma galactic_pole_exact v : mxv FK4_def v = direction 192.25 27.4 -> mxv GALACTIC_def v = V3 0 0 1.
Proof.
  intros H. rewrite galactic_form, H. unfold turn. destruct galactic_angles as (E1 & E2 & E3). rewrite E1, E2, E3, turn3_direction.
  unfold direction at 1. replace (192.25 - 282.25) with (- 90) by lra. replace (degrees_ (- 90)) with (- (PI / 2)) by (unfold degrees_; field). rewrite cos_neg, sin_neg, cos_PI2, sin_PI2.
  replace (degrees_ 62.6) with (PI / 2 - degrees_ 27.4) by (unfold degrees_; lra). rewrite cos_shift, sin_shift. set (b := degrees_ 27.4). pose proof (sc2 b) as Q. clearbody b. set (a := degrees_ 327). clearbody a.
  apply vec_ext; unfold turned, mxv, dot; cbn [r1 r2 r3 vx vy vz]; [ring|ring|]. transitivity (sin b * sin b + cos b * cos b); [ring|exact Q].
Qed.
Lemma galactic_zero_exact v : mxv FK4_def v = V3 0 0 1 -> mxv GALACTIC_def v = direction 123 27.4.
Proof.
  intros H. rewrite galactic_form, H. unfold turn. destruct galactic_angles as (E1 & E2 & E3). rewrite E1, E2, E3. replace (degrees_ 62.6) with (PI / 2 - degrees_ 27.4) by (unfold degrees_; lra).
  rewrite cos_shift, sin_shift. unfold direction. replace (degrees_ 123) with (PI / 2 - degrees_ 327 + 2 * PI) by (unfold degrees_; field).
  rewrite cos_plus, sin_plus, cos_2PI, sin_2PI, cos_shift, sin_shift. apply vec_ext; unfold turned, mxv, dot; cbn [r1 r2 r3 vx vy vz]; ring.
Qed.
Lemma spice_close name D v : In (name, D) definitions -> vlength v = 1 -> vclose (mxv (spice_matrix name) v) (mxv D v) (1 / 10 ^ 15).
Proof.
  intros I L. destruct (all_there _ _ I) as (T & E & C). unfold spice_matrix. rewrite E. pose proof (mxv_close _ _ v _ C) as (X & Y & Z). rewrite L in *. unfold vclose. repeat split; (eapply Rle_trans; [eassumption|lra]).
Qed.
Lemma direction_unit l b : vlength (direction l b) = 1.
Proof.
  unfold vlength, direction. cbn [vx vy vz]. pose proof (sc2 (degrees_ b)) as B. pose proof (sc2 (degrees_ l)) as Q. set (sb := sin (degrees_ b)) in *. set (cb := cos (degrees_ b)) in *. set (sl := sin (degrees_ l)) in *. set (cl := cos (degrees_ l)) in *. clearbody sb cb sl cl.
  match goal with |- sqrt ?x = 1 => replace x with 1 end; [apply sqrt_1|]. replace 1 with (sb * sb + cb * cb * (sl * sl + cl * cl)) by (rewrite Q; lra). ring.
Qed.
Lemma galactic_poles v :
  (mxv FK4_def v = direction 192.25 27.4 -> vclose (mxv (spice_matrix "GALACTIC") v) (V3 0 0 1) (1 / 10 ^ 15)) /\
  (mxv FK4_def v = V3 0 0 1 -> vclose (mxv (spice_matrix "GALACTIC") v) (direction 123 27.4) (1 / 10 ^ 15)).
Proof.
  assert (I : In ("GALACTIC"%string, GALACTIC_def) definitions) by (unfold definitions; do 12 right; left; reflexivity).
  assert (O := proj1 FK4_rotation). split; intros H.
  - rewrite <- (galactic_pole_exact v H). apply spice_close; [exact I|]. rewrite <- (orth_length _ v O), H. apply direction_unit.
  - rewrite <- (galactic_zero_exact v H). apply spice_close; [exact I|]. rewrite <- (orth_length _ v O), H. unfold vlength. cbn [vx vy vz]. match goal with |- sqrt ?x = 1 => replace x with 1 by ring end. apply sqrt_1.
Qed.
Lemma on_ecliptic_unit o l : vlength (on_ecliptic o l) = 1.
Proof.
  unfold vlength, on_ecliptic. cbn [vx vy vz]. pose proof (sc2 o) as B. pose proof (sc2 l) as Q. set (sb := sin o) in *. set (cb := cos o) in *. set (sl := sin l) in *. set (cl := cos l) in *. clearbody sb cb sl cl.
  match goal with |- sqrt ?x = 1 => replace x with 1 end; [apply sqrt_1|]. replace 1 with (cl * cl + sl * sl * (sb * sb + cb * cb)) by (rewrite B; lra). ring.
Qed.
Lemma ecliptic_J2000_plane l : vclose (mxv (spice_matrix "ECLIPJ2000") (on_ecliptic (arcseconds 84381.448) l)) (V3 (cos l) (sin l) 0) (1 / 10 ^ 15).
Proof.
  assert (I : In ("ECLIPJ2000"%string, ECLIPJ2000_def) definitions) by (unfold definitions; do 16 right; left; reflexivity).
  replace (V3 (cos l) (sin l) 0) with (mxv ECLIPJ2000_def (on_ecliptic (arcseconds 84381.448) l)); [apply spice_close; [exact I|apply on_ecliptic_unit]|].
  change ECLIPJ2000_def with (mxm (turn A1 84381.448) identity). rewrite mxm_id_r. unfold turn, on_ecliptic. pose proof (sc2 (arcseconds 84381.448)) as B. set (s := sin (arcseconds 84381.448)) in *. set (c := cos (arcseconds 84381.448)) in *. clearbody s c.
  apply vec_ext; unfold turned, mxv, dot; cbn [r1 r2 r3 vx vy vz]; [ring| |ring]. replace (sin l) with (sin l * (s * s + c * c)) at 3 by (rewrite B; ring). ring.
Qed.
Lemma ecliptic_of_date_plane t v l : mxv (Spin_Model.M_of t) v = on_ecliptic (mean_obliquity_radians t + d_eps t) l -> mxv (build_ecliptic_matrix t) v = V3 (cos l) (sin l) 0.
Proof.
  intros H. unfold build_ecliptic_matrix. rewrite mxv_mxm, H. set (o := mean_obliquity_radians t + d_eps t). unfold on_ecliptic, rot_x. rewrite cos_neg, sin_neg, Ropp_involutive. pose proof (sc2 o) as B.
  apply vec_ext; unfold turned, mxv, dot; cbn [r1 r2 r3 vx vy vz]; [ring| |ring]. replace (sin l) with (sin l * (sin o * sin o + cos o * cos o)) at 3 by (rewrite B; ring). ring.
Qed.
Lemma ecliptic_of_date_longitude at_tt tt v l : 0 <= l < tau ->
  mxv (Spin_Model.M_of (at_tt tt)) v = on_ecliptic (mean_obliquity_radians (at_tt tt) + d_eps (at_tt tt)) l ->
  frame_latlon at_tt ecliptic_frame (Some (Single tt)) (Single v) = Ok (Single (0, l, 1)).
Proof.
  intros Hl H. unfold frame_latlon, ecliptic_frame. cbn [rotation_at_ arr_map bind bcast]. rewrite (ecliptic_of_date_plane _ _ _ H). unfold latlon.
  pose proof (spherical_forth 1 0 l ltac:(lra) ltac:(pose proof PI_RGT_0; lra) Hl) as S. unfold from_spherical in S. rewrite cos_0, sin_0, !Rmult_1_l in S. rewrite S. reflexivity.
Qed.

(** * Latitudes and longitudes *)
Lemma latlon_recovers at_tt f t x lat lon d : In f frames -> frame_latlon at_tt f t (Single x) = Ok (Single (lat, lon, d)) ->
  - (PI / 2) <= lat <= PI / 2 /\ 0 <= lon < tau /\ Rabs (d - vlength x) <= 1 / 10 ^ 13 * vlength x /\
  exists m, rotation_at_ at_tt f t = Ok (Single m) /\ from_spherical d lat lon = mxv m x /\
    vlength (vsub (mxv (transp m) (from_spherical d lat lon)) x) <= 1 / 10 ^ 13 * vlength x.
Proof.
  intros I H. unfold frame_latlon in H. destruct (rotation_at_ at_tt f t) as [m|e|] eqn:E; cbn [bind] in H; try discriminate. destruct m as [m|l]; cbn [bcast bind arr_map] in H; [|discriminate].
  pose proof (frames_preserve at_tt f t _ I E) as P. cbn in P. destruct P as (P1 & _ & P3).
  unfold latlon in H. destruct (to_spherical (mxv m x)) as [[d' lat'] lon'] eqn:S. inversion H; subst. destruct (spherical_back _ _ _ _ S) as (B & L & R1 & R2).
  split; [exact R1|]. split; [exact R2|]. split; [rewrite L; apply P1|]. exists m. split; [reflexivity|]. split; [exact B|]. rewrite B. apply P3.
Qed.
Lemma map2_nth {A B D} (f : A -> B -> D) l m i a b : nth_error l i = Some a -> nth_error m i = Some b -> nth_error (map2 f l m) i = Some (f a b).
Proof. revert m i. induction l as [|x l IH]; intros [|y m] [|i]; cbn; try discriminate; [intros [= ->] [= ->]; reflexivity|apply IH]. Qed.
Lemma latlon_each at_tt f ts xs i tt x : length ts = length xs -> nth_error ts i = Some tt -> nth_error xs i = Some x ->
  exists l y, frame_latlon at_tt f (Some (Many ts)) (Many xs) = Ok (Many l) /\ nth_error l i = Some y /\ frame_latlon at_tt f (Some (Single tt)) (Single x) = Ok (Single y).
Proof.
  intros L Ht Hx. unfold frame_latlon. destruct f as [m|g]; cbn [rotation_at_ bind arr_map bcast].
  - exists (map latlon (map (mxv m) xs)). eexists. split; [reflexivity|]. rewrite map_map. rewrite nth_error_map, Hx. cbn. split; reflexivity.
  - unfold bcast_lists. rewrite map_length, L, Nat.eqb_refl. cbn [bind arr_map]. eexists. eexists. split; [reflexivity|]. rewrite nth_error_map.
    rewrite (map2_nth mxv _ _ _ (g (at_tt tt)) x); [cbn; split; reflexivity|rewrite nth_error_map, Ht; reflexivity|exact Hx].
Qed.
Lemma old_names at_tt p jd :
  ecliptic_xyz at_tt p NoEpoch = frame_xyz at_tt ecliptic_J2000_frame (when p) (xyz p) /\
  ecliptic_latlon at_tt p NoEpoch = frame_latlon at_tt ecliptic_J2000_frame (when p) (xyz p) /\
  ecliptic_xyz at_tt p EpochDate = frame_xyz at_tt ecliptic_frame (when p) (xyz p) /\
  ecliptic_latlon at_tt p EpochDate = frame_latlon at_tt ecliptic_frame (when p) (xyz p) /\
  ecliptic_xyz at_tt p (EpochFloat jd) = ecliptic_xyz at_tt p (EpochTime (Single jd)) /\
  ecliptic_latlon at_tt p (EpochFloat jd) = ecliptic_latlon at_tt p (EpochTime (Single jd)) /\
  ecliptic_xyz at_tt p EpochOther = Raise ValueError /\ ecliptic_latlon at_tt p EpochOther = Raise ValueError /\
  (when p = None -> ecliptic_xyz at_tt p EpochDate = Raise AttributeError /\ ecliptic_latlon at_tt p EpochDate = Raise AttributeError /\
     ecliptic_xyz at_tt p NoEpoch <> Raise AttributeError /\ galactic_xyz at_tt p <> Raise AttributeError).
Proof.
  repeat split; try (unfold ecliptic_xyz, ecliptic_latlon, fake_time, frame_xyz, frame_latlon; rewrite H; reflexivity).
  - unfold ecliptic_xyz, frame_xyz, ecliptic_J2000_frame. cbn [rotation_at_ bind bcast]. destruct (xyz p); discriminate.
  - unfold galactic_xyz, frame_xyz, galactic_frame. cbn [rotation_at_ bind bcast]. destruct (xyz p); discriminate.
Qed.
Lemma bcast_map_l {A B C D} (f : A -> B -> D) (g : C -> A) a b : bcast f (arr_map g a) b = bcast (fun c y => f (g c) y) a b.
Proof.
  destruct a as [x|l], b as [y|m]; cbn; [reflexivity|reflexivity|rewrite map_map; reflexivity|]. unfold bcast_lists. rewrite map_length.
  assert (E : forall l m, map2 f (map g l) m = map2 (fun c y => f (g c) y) l m) by (clear; induction l as [|x l IH]; intros [|y m]; cbn; congruence).
  rewrite E. destruct (length l =? length m)%nat; [reflexivity|]. destruct l as [|x [|x' l]]; destruct m as [|y [|y' m]]; cbn; rewrite ?map_map; reflexivity.
Qed.
Lemma bcast_ext {A B D} (f g : A -> B -> D) a b : (forall x y, f x y = g x y) -> bcast f a b = bcast g a b.
Proof.
  intros H. assert (E : forall l m, map2 f l m = map2 g l m) by (induction l as [|x l IH]; intros [|y m]; cbn; [reflexivity|reflexivity|reflexivity|rewrite H, IH; reflexivity]).
  destruct a as [x|l], b as [y|m]; cbn; [rewrite H; reflexivity|f_equal; f_equal; apply map_ext; apply H|f_equal; f_equal; apply map_ext; intros; apply H|].
  unfold bcast_lists. rewrite E. destruct (length l =? length m)%nat; [reflexivity|]. destruct l as [|x [|x' l]]; destruct m as [|y [|y' m]]; try reflexivity; f_equal; f_equal; apply map_ext; intros; apply H.
Qed.
Lemma true_equator_is_radec at_tt w p : (forall tt, Position_Model.M_of w tt = Spin_Model.M_of (at_tt tt)) ->
  radec w p EpochDate = bind (frame_latlon at_tt true_equator_and_equinox_of_date (when p) (xyz p)) (fun l => Ok (arr_map swapped l)) /\
  radec w p NoEpoch = bind (frame_latlon at_tt ICRS_frame (when p) (xyz p)) (fun l => Ok (arr_map swapped l)).
Proof.
  intros Hw.
  assert (C : forall a : arr vec, arr_map swapped (arr_map latlon a) = arr_map spherical a).
  { assert (S : forall v, swapped (latlon v) = spherical v) by (intros v; unfold swapped, latlon, spherical; destruct (to_spherical v) as [[a b] c]; reflexivity).
    intros [v|l]; cbn [arr_map]; [rewrite S; reflexivity|rewrite map_map; f_equal; apply map_ext; exact S]. }
  split.
  - cbn [radec]. unfold frame_latlon, true_equator_and_equinox_of_date. cbn [rotation_at_]. destruct (when p) as [t|]; [|reflexivity]. cbn [bind].
    rewrite bcast_map_l. rewrite (bcast_ext (fun c y => mxv (Spin_Model.M_of (at_tt c)) y) (fun t0 x => mxv (Position_Model.M_of w t0) x)) by (intros; rewrite Hw; reflexivity).
    destruct (bcast _ t (xyz p)) as [a|e|]; cbn [bind]; [rewrite C; reflexivity|reflexivity|reflexivity].
  - cbn [radec]. unfold frame_latlon, ICRS_frame. cbn [rotation_at_ bind bcast]. change (M3 _ _ _) with identity. destruct (xyz p) as [v|l]; cbn [bind arr_map].
    + rewrite mxv_id. symmetry. apply (f_equal (@Ok _)). exact (C (Single v)).
    + replace (map (mxv identity) l) with l by (rewrite <- (map_id l) at 1; apply map_ext; intros; symmetry; apply mxv_id). symmetry. apply (f_equal (@Ok _)). exact (C (Many l)).
Qed.

Lemma old_galactic at_tt p m x v : spice "GALACTIC" = Some m -> xyz p = Single x -> velocity p = Single (Some v) ->
  galactic_xyz at_tt p = Ok (Single (mxv m x)) /\ galactic_latlon at_tt p = Ok (Single (latlon (mxv m x))) /\
  forall e, spice "ECLIPJ2000" = Some e -> ecliptic_xyz at_tt p NoEpoch = Ok (Single (mxv e x)) /\ ecliptic_velocity at_tt p = Ok (Single (Some (mxv e v))).
Proof.
  intros Hm Hx Hv. unfold galactic_xyz, galactic_latlon, frame_xyz, frame_latlon, galactic_frame, spice_matrix. rewrite Hm, Hx. split; [reflexivity|]. split; [reflexivity|].
  intros e He. unfold ecliptic_xyz, ecliptic_velocity, frame_xyz, frame_xyz_and_velocity_, ecliptic_J2000_frame, spice_matrix. rewrite He, Hx, Hv. split; reflexivity.
Qed.

(** The frames with a name of their own. *)
Lemma named_frames at_tt t : exists B E G, rotation_at_ at_tt equatorial_B1950_frame t = Ok (Single B) /\ close B B1950_def (3 / 10 ^ 16) /\
  rotation_at_ at_tt ecliptic_J2000_frame t = Ok (Single E) /\ close E ECLIPJ2000_def (3 / 10 ^ 16) /\
  rotation_at_ at_tt galactic_frame t = Ok (Single G) /\ close G GALACTIC_def (3 / 10 ^ 16).
Proof.
  destruct (all_there "B1950" B1950_def) as (B & HB & CB); [cbn; tauto|]. destruct (all_there "ECLIPJ2000" ECLIPJ2000_def) as (E & HE & CE); [cbn; tauto|].
  destruct (all_there "GALACTIC" GALACTIC_def) as (G & HG & CG); [cbn; tauto|].
  exists B, E, G. cbn [rotation_at_ equatorial_B1950_frame ecliptic_J2000_frame galactic_frame]. unfold spice_matrix. rewrite HB, HE, HG. auto 8.
Qed.
