From Coq Require Import Reals ZArith List String Bool Lra Lia Psatz.
From Verif Require Import Real_Math Real_Math_Proofs Vector_Model Vector_Proofs Geo_Model Geo_Spec Geo_Proofs Geo_Proofs2 Planet_Model Planet_Spec.
Import ListNotations.
Open Scope R_scope.

(** * Derivatives of products of matrices *)
Definition madd (A B : mat) : mat := M3 (vadd (r1 A) (r1 B)) (vadd (r2 A) (r2 B)) (vadd (r3 A) (r3 B)).
Lemma dprod2 f g h a b c t f' g' h' a' b' c' :
  derivable_pt_lim f t f' -> derivable_pt_lim g t g' -> derivable_pt_lim h t h' -> derivable_pt_lim a t a' -> derivable_pt_lim b t b' -> derivable_pt_lim c t c' ->
  derivable_pt_lim (fun s => f s * a s + g s * b s + h s * c s) t (f' * a t + g' * b t + h' * c t + (f t * a' + g t * b' + h t * c')).
Proof.
  intros. eapply dlin; [apply (derivable_pt_lim_plus (fun s => f s * a s + g s * b s) (fun s => h s * c s)); [apply (derivable_pt_lim_plus (fun s => f s * a s) (fun s => g s * b s))|]; apply (derivable_pt_lim_mult _ _ t); eassumption|]. ring.
Qed.
Lemma mderiv_mxm f g t F G : mderiv f t F -> mderiv g t G -> mderiv (fun s => mxm (f s) (g s)) t (madd (mxm F (g t)) (mxm (f t) G)).
Proof.
  intros ((A1 & A2 & A3) & (B1 & B2 & B3) & (C1 & C2 & C3)) ((D1 & D2 & D3) & (E1 & E2 & E3) & (F1 & F2 & F3)).
  split; [|split]; (split; [|split]); cbn.
  all: unfold dot; cbn.
  1: exact (dprod2 _ _ _ _ _ _ t _ _ _ _ _ _ A1 A2 A3 D1 E1 F1).
  1: exact (dprod2 _ _ _ _ _ _ t _ _ _ _ _ _ A1 A2 A3 D2 E2 F2).
  1: exact (dprod2 _ _ _ _ _ _ t _ _ _ _ _ _ A1 A2 A3 D3 E3 F3).
  1: exact (dprod2 _ _ _ _ _ _ t _ _ _ _ _ _ B1 B2 B3 D1 E1 F1).
  1: exact (dprod2 _ _ _ _ _ _ t _ _ _ _ _ _ B1 B2 B3 D2 E2 F2).
  1: exact (dprod2 _ _ _ _ _ _ t _ _ _ _ _ _ B1 B2 B3 D3 E3 F3).
  1: exact (dprod2 _ _ _ _ _ _ t _ _ _ _ _ _ C1 C2 C3 D1 E1 F1).
  1: exact (dprod2 _ _ _ _ _ _ t _ _ _ _ _ _ C1 C2 C3 D2 E2 F2).
  1: exact (dprod2 _ _ _ _ _ _ t _ _ _ _ _ _ C1 C2 C3 D3 E3 F3).
Qed.
Lemma dcos_neg w t w' : derivable_pt_lim w t w' -> derivable_pt_lim (fun s => cos (- w s)) t (- sin (w t) * w') /\ derivable_pt_lim (fun s => sin (- w s)) t (- cos (w t) * w').
Proof.
  intros H. assert (N : derivable_pt_lim (fun s => - w s) t (- w')) by (apply (derivable_pt_lim_opp w); exact H). split.
  - eapply dlin; [apply (derivable_pt_lim_comp (fun s => - w s) cos); [exact N|apply derivable_pt_lim_cos]|]. rewrite sin_neg. ring.
  - eapply dlin; [apply (derivable_pt_lim_comp (fun s => - w s) sin); [exact N|apply derivable_pt_lim_sin]|]. rewrite cos_neg. ring.
Qed.
Ltac dc := apply derivable_pt_lim_const.
Lemma dopp f t d : derivable_pt_lim f t d -> derivable_pt_lim (fun s => - f s) t (- d).
Proof. intros H. apply (derivable_pt_lim_opp f). exact H. Qed.
Lemma mderiv_rotz w t w' : derivable_pt_lim w t w' ->
  mderiv (fun s => rot_z (- w s)) t (M3 (V3 (- sin (w t) * w') (- (- cos (w t) * w')) 0) (V3 (- cos (w t) * w') (- sin (w t) * w') 0) (V3 0 0 0)).
Proof. intros H. destruct (dcos_neg w t w' H) as [C S]. split; [|split]; (split; [|split]); cbn; try dc; try exact C; try exact S. apply dopp, S. Qed.
Lemma mderiv_rotx w t w' : derivable_pt_lim w t w' ->
  mderiv (fun s => rot_x (- w s)) t (M3 (V3 0 0 0) (V3 0 (- sin (w t) * w') (- (- cos (w t) * w'))) (V3 0 (- cos (w t) * w') (- sin (w t) * w'))).
Proof. intros H. destruct (dcos_neg w t w' H) as [C S]. split; [|split]; (split; [|split]); cbn; try dc; try exact C; try exact S. apply dopp, S. Qed.
Lemma mderiv_const M t : mderiv (fun _ => M) t (M3 vzero vzero vzero).
Proof. repeat split; cbn; dc. Qed.
Lemma mderiv_eq f t D E : mderiv f t D -> D = E -> mderiv f t E.
Proof. intros H <-. exact H. Qed.
(** * Frames *)
Lemma body_derivative ra dec w t a' d' w' :
  derivable_pt_lim ra t (DAY_S * a') -> derivable_pt_lim dec t (DAY_S * d') -> derivable_pt_lim w t (DAY_S * w') ->
  mderiv (fun s => frame_rotation_at None (ra s) (dec s) (w s)) t (snd (frame_rotation_and_rate_at None (ra t) (dec t) (w t) a' d' w')).
Proof.
  intros Ha Hd Hw. cbn [frame_rotation_at frame_rotation_and_rate_at snd].
  pose proof (mderiv_mxm _ _ _ _ _ (mderiv_rotx dec t _ Hd) (mderiv_rotz ra t _ Ha)) as D1. cbn beta in D1.
  pose proof (mderiv_mxm _ _ _ _ _ (mderiv_rotz w t _ Hw) D1) as D2. eapply mderiv_eq; [exact D2|]. clear.
  cbn beta. generalize (ra t) (dec t) (w t). intros a d x.
  assert (Sa : cos a * cos a = 1 - sin a * sin a) by (pose proof (sc2 a); lra). assert (Sd : cos d * cos d = 1 - sin d * sin d) by (pose proof (sc2 d); lra). assert (Sx : cos x * cos x = 1 - sin x * sin x) by (pose proof (sc2 x); lra).
  apply mat_ext; apply vec_ext; unfold mscale; gsimp; rewrite ?cos_neg, ?sin_neg; ring [Sa Sd Sx].
Qed.
Lemma mderiv_left M f t D : mderiv f t D -> mderiv (fun s => mxm M (f s)) t (mxm M D).
Proof. intros H. eapply mderiv_eq; [exact (mderiv_mxm _ _ _ _ _ (mderiv_const M t) H)|]. apply mat_ext; apply vec_ext; unfold madd; gsimp; ring. Qed.
Lemma mxm_mscale M k D : mxm M (mscale k D) = mscale k (mxm M D).
Proof. apply mat_ext; apply vec_ext; unfold mscale; gsimp; ring. Qed.
Lemma frame_derivative matrix ra dec w t a' d' w' :
  derivable_pt_lim ra t (DAY_S * a') -> derivable_pt_lim dec t (DAY_S * d') -> derivable_pt_lim w t (DAY_S * w') ->
  mderiv (fun s => frame_rotation_at matrix (ra s) (dec s) (w s)) t (snd (frame_rotation_and_rate_at matrix (ra t) (dec t) (w t) a' d' w')).
Proof.
  intros Ha Hd Hw. pose proof (body_derivative ra dec w t a' d' w' Ha Hd Hw) as D. destruct matrix as [M|]; [|exact D].
  cbn [frame_rotation_at frame_rotation_and_rate_at snd] in *. rewrite <- mxm_mscale. exact (mderiv_left M _ t _ D).
Qed.
Lemma frame_fst matrix ra dec w a d x : fst (frame_rotation_and_rate_at matrix ra dec w a d x) = frame_rotation_at matrix ra dec w.
Proof. destruct matrix; reflexivity. Qed.
(** A place on a body moves at the reported velocity. *)
Lemma place_velocity matrix ra dec w t a' d' w' position :
  derivable_pt_lim ra t (DAY_S * a') -> derivable_pt_lim dec t (DAY_S * d') -> derivable_pt_lim w t (DAY_S * w') ->
  forall F, (forall s, exists a d x, F s = frame_rotation_and_rate_at matrix (ra s) (dec s) (w s) a d x) ->
  F t = frame_rotation_and_rate_at matrix (ra t) (dec t) (w t) a' d' w' ->
  vderiv (fun s => fst (place_at (F s) position)) t (snd (place_at (F t) position)).
Proof.
  intros Ha Hd Hw F HF Ht. unfold place_at. cbn [fst snd]. pose proof (mderiv_transp _ _ _ (frame_derivative matrix ra dec w t a' d' w' Ha Hd Hw)) as D.
  pose proof (mderiv_mxv _ t _ (fun _ => position) vzero D (vderiv_const position t)) as X. cbn beta in X. rewrite <- Ht in X.
  assert (E : forall s, fst (F s) = frame_rotation_at matrix (ra s) (dec s) (w s)) by (intros s; destruct (HF s) as (a & d & x & ->); apply frame_fst).
  assert (Z : forall M u, vadd (mxv M vzero) u = u) by (intros M u; apply vec_ext; gsimp; ring). rewrite Z in X. 
  destruct X as (X1 & X2 & X3). split; [|split]; (eapply dext; [|eassumption]); intros s; cbn beta; rewrite E; reflexivity.
Qed.
(** ** The frame is a rotation, and which one *)
Lemma frame_axes ra dec w : frame_rotation_at None ra dec w = body_axes ra dec w.
Proof. unfold frame_rotation_at, body_axes, axis_rotation. apply mat_ext; apply vec_ext; gsimp; rewrite ?cos_neg, ?sin_neg; ring. Qed.
Lemma frame_is_rotation matrix ra dec w : match matrix with Some M => rotation M | None => True end -> rotation (frame_rotation_at matrix ra dec w).
Proof.
  intros H. assert (B : rotation (frame_rotation_at None ra dec w)) by (cbn; apply rotation_mxm; [apply rot_ok|apply rotation_mxm; apply rot_ok]).
  destruct matrix; [apply rotation_mxm; [exact H|exact B]|exact B].
Qed.
(** ** Places *)
Lemma place_is_spherical lat lon d : place_on_body lat lon d = from_spherical d lat lon.
Proof. unfold place_on_body, from_spherical. apply vec_ext; gsimp; rewrite ?cos_neg, ?sin_neg; ring. Qed.
Lemma place_axes lat lon Rt v : mxv (place_rotation_at lat lon Rt) v =
  V3 (dot (north lat lon) (mxv Rt v)) (dot (east lon) (mxv Rt v)) (dot (up lat lon) (mxv Rt v)).
Proof.
  unfold place_rotation_at, tau. replace (2 * PI / 4 - lat) with (PI / 2 - lat) by field. replace (2 * PI / 2 - lon) with (PI - lon) by field.
  assert (C1 : cos (PI / 2 - lat) = sin lat) by apply cos_shift. assert (S1 : sin (PI / 2 - lat) = cos lat) by apply sin_shift.
  assert (C2 : cos (PI - lon) = - cos lon) by (rewrite cos_minus, cos_PI, sin_PI; ring). assert (S2 : sin (PI - lon) = sin lon) by (rewrite sin_minus, cos_PI, sin_PI; ring).
  unfold mxmxm, north, east, up. apply vec_ext; gsimp; rewrite ?C1, ?S1, ?C2, ?S2; ring.
Qed.
Lemma place_orthogonal lat lon Rt : orthogonal Rt -> orthogonal (place_rotation_at lat lon Rt).
Proof.
  intros H. assert (E : place_rotation_at lat lon Rt = mxm (R_latlon lat lon) Rt).
  { apply mat_ext; [| |].
    all: apply vec_ext.
    all: match goal with |- ?f (?row ?M) = _ => idtac end.
    all: pose proof (place_axes lat lon Rt (V3 1 0 0)) as P1; pose proof (place_axes lat lon Rt (V3 0 1 0)) as P2; pose proof (place_axes lat lon Rt (V3 0 0 1)) as P3;
      pose proof (R_latlon_rows lat lon (mxv Rt (V3 1 0 0))) as Q1; pose proof (R_latlon_rows lat lon (mxv Rt (V3 0 1 0))) as Q2; pose proof (R_latlon_rows lat lon (mxv Rt (V3 0 0 1))) as Q3;
      rewrite <- Q1 in P1; rewrite <- Q2 in P2; rewrite <- Q3 in P3; rewrite <- mxv_mxm in P1, P2, P3; clear Q1 Q2 Q3;
      generalize dependent (place_rotation_at lat lon Rt); generalize (mxm (R_latlon lat lon) Rt); intros [[] [] []] [[] [] []]; unfold mxv, dot; cbn; intros P1 P2 P3; injection P1; injection P2; injection P3; intros; lra. }
  rewrite E. apply orth_mxm; [apply R_latlon_orth|exact H].
Qed.
Lemma zenith_at_place lat lon d Rt : orthogonal Rt -> 
  mxv (place_rotation_at lat lon Rt) (fst (place_at (Rt, Rt) (place_on_body lat lon d))) = V3 0 0 d.
Proof.
  intros [H _]. rewrite place_axes. unfold place_at. cbn [fst]. rewrite <- mxv_mxm, H, mxv_id, place_is_spherical. unfold from_spherical, north, east, up.
  pose proof (sc2 lat) as S1. pose proof (sc2 lon) as S2. assert (Sa : cos lat * cos lat = 1 - sin lat * sin lat) by lra. assert (Sb : cos lon * cos lon = 1 - sin lon * sin lon) by lra.
  apply vec_ext; gsimp; ring [Sa Sb].
Qed.
(** ** Velocities measured in such a frame *)
Lemma still_frame_velocity matrix ra dec w t p v : vderiv p t v ->
  vderiv (fun s => fst (frame_xyz_and_velocity (frame_rotation_at matrix ra dec w) None (p s) v)) t
         (snd (frame_xyz_and_velocity (frame_rotation_at matrix ra dec w) None (p t) v)).
Proof.
  intros H. cbn [frame_xyz_and_velocity fst snd]. pose proof (mderiv_mxv _ t _ p v (mderiv_const (frame_rotation_at matrix ra dec w) t) H) as X. cbn beta in X.
  assert (Z : forall u q, vadd u (mxv (M3 vzero vzero vzero) q) = u) by (intros u q; apply vec_ext; gsimp; ring). rewrite Z in X. exact X.
Qed.
Lemma turning_frame_velocity : exists (w : R -> R) p v,
  (forall t, derivable_pt_lim w t (DAY_S * (1 / 1000))) /\ (forall t, vderiv p t v) /\
  let reported t := frame_xyz_and_velocity (frame_rotation_at None 0 0 (w t)) None (p t) v in
  snd (reported 0) = vzero /\ ~ vderiv (fun t => fst (reported t)) 0 (snd (reported 0)).
Proof.
  exists (fun t => DAY_S * (1 / 1000) * t), (fun _ => V3 1 0 0), vzero. 
  assert (Dw : forall t, derivable_pt_lim (fun t => DAY_S * (1 / 1000) * t) t (DAY_S * (1 / 1000))).
  { intros t. eapply dlin; [apply (derivable_pt_lim_scal id (DAY_S * (1 / 1000)) t 1), derivable_pt_lim_id|]. ring. }
  split; [exact Dw|]. split; [intros t; apply vderiv_const|]. intros reported.
  assert (S : snd (reported 0) = vzero) by (unfold reported; cbn [frame_xyz_and_velocity snd]; apply vec_ext; gsimp; ring). split; [exact S|]. intros D. rewrite S in D. destruct D as (_ & D & _). cbn [vy vzero] in D.
  assert (E : forall s, vy (fst (reported s)) = - sin (DAY_S * (1 / 1000) * s)).
  { intros s. unfold reported. cbn [frame_xyz_and_velocity fst]. unfold frame_rotation_at. gsimp. rewrite Ropp_0, cos_0, sin_0, ?cos_neg, ?sin_neg. ring. }
  assert (D2 : derivable_pt_lim (fun s => vy (fst (reported s))) 0 (- (cos (DAY_S * (1 / 1000) * 0) * (DAY_S * (1 / 1000))))).
  { eapply dext; [intros s; symmetry; apply E|]. apply dopp. apply (derivable_pt_lim_comp (fun s => DAY_S * (1 / 1000) * s) sin); [apply Dw|apply derivable_pt_lim_sin]. }
  pose proof (uniqueness_limite _ _ _ _ D D2) as U. rewrite Rmult_0_r, cos_0 in U. unfold DAY_S in U. lra.
Qed.
Lemma place_moves matrix ra dec w a' d' w' lat lon d t :
  derivable_pt_lim ra t (DAY_S * a' t) -> derivable_pt_lim dec t (DAY_S * d' t) -> derivable_pt_lim w t (DAY_S * w' t) ->
  let F s := frame_rotation_and_rate_at matrix (ra s) (dec s) (w s) (a' s) (d' s) (w' s) in
  vderiv (fun s => fst (place_at (F s) (place_on_body lat lon d))) t (snd (place_at (F t) (place_on_body lat lon d))).
Proof.
  intros Ha Hd Hw F. apply (place_velocity matrix ra dec w t (a' t) (d' t) (w' t)); try assumption; [|reflexivity]. intros s. exists (a' s), (d' s), (w' s). reflexivity.
Qed.
(** ** Building frames *)
Lemma axis_ok axis f : rotation_of_axis axis = Built f -> (1 <= axis <= 3)%Z -> forall x, f x = transp (axis_rotation axis x).
Proof.
  intros H B x. assert (C : axis = 1%Z \/ axis = 2%Z \/ axis = 3%Z) by lia. destruct C as [-> | [-> | -> ] ]; injection H as <-; unfold axis_rotation; apply mat_ext; apply vec_ext; gsimp; ring.
Qed.
Lemma angles_ok scale : forall angles axes M, Forall (fun a => 1 <= a <= 3)%Z axes ->
  apply_angles scale angles axes M = Built (mxm (transp (axis_rotations (combine axes (map (fun a => a * scale) angles)))) M).
Proof.
  induction angles as [|a angles IH]; intros [|x axes] M H; cbn [apply_angles combine map axis_rotations].
  1-3: assert (E : transp identity = identity) by (apply mat_ext; apply vec_ext; gsimp; reflexivity); rewrite E, mxm_id_l; reflexivity.
  apply Forall_cons_iff in H as [Hx H]. assert (exists f, rotation_of_axis x = Built f) as [f Hf].
  { assert (C : x = 1%Z \/ x = 2%Z \/ x = 3%Z) by lia. destruct C as [-> | [-> | -> ] ]; eexists; reflexivity. }
  rewrite Hf. cbn [bind]. rewrite (IH axes _ H), (axis_ok x f Hf Hx), transp_mxm, mxm_assoc. reflexivity.
Qed.
Lemma matrix_ok M : matrix_of (Numbers (columns M)) = Built (transp M).
Proof. reflexivity. Qed.
Lemma offset_rotation s c M t : let '(ra, dec, w) := angles_at s t in
  rotation_of_frame {| f_center := c; f_segment := s; f_matrix := Some M |} t = mxm M (body_axes ra dec w).
Proof. unfold rotation_of_frame. cbn. destruct (angles_at s t) as [[ra dec] w]. rewrite <- frame_axes. reflexivity. Qed.
Lemma build_angles variables segment_map n c angles axes name m s t :
  variables (CENTER n) = Some c -> variables (SPEC n) = Some (Text "ANGLES") -> variables (ANGLES n) = Some (Numbers angles) ->
  variables (AXES n) = Some (Wholes axes) -> Forall (fun a => 1 <= a <= 3)%Z axes -> variables (UNITS n) = Some (Text "ARCSECONDS") ->
  variables (RELATIVE n) = Some (Text name) -> variables (FRAME name) = Some (Whole m) -> segment_map m = Some s -> base s = 1%Z ->
  exists f, build_frame variables segment_map n = Built f /\ f_center f = c /\
    let '(ra, dec, w) := angles_at s t in
    rotation_of_frame f t = mxm (transp (axis_rotations (combine axes (map (fun a => a * ASEC2RAD) angles)))) (body_axes ra dec w).
Proof.
  intros Hc Hs Ha Hx Fx Hu Hr Hf Hm Hb. unfold build_frame, get_assignment, subscript. rewrite Hc. cbn [bind]. rewrite Hs. rewrite Ha, Hx, Hu. cbn [bind unit_scale].
  destruct (string_dec "ARCSECONDS" "ARCSECONDS") as [_|N]; [|contradiction N; reflexivity]. cbn [bind]. rewrite angles_ok by exact Fx. cbn [bind]. rewrite Hr. cbn [bind]. rewrite Hf. cbn [bind].
  unfold finish_frame. rewrite Hm, Hb. cbn [Z.eqb]. eexists. split; [reflexivity|]. split; [reflexivity|].
  pose proof (offset_rotation s c (mxm (transp (axis_rotations (combine axes (map (fun a => a * ASEC2RAD) angles)))) identity_matrix) t) as O.
  destruct (angles_at s t) as [[ra dec] w]. rewrite O. change identity_matrix with identity. rewrite mxm_id_r. reflexivity.
Qed.
Lemma build_matrix variables segment_map n c M name m s t :
  variables (CENTER n) = Some c -> variables (SPEC n) = Some (Text "MATRIX") -> variables (MATRIX n) = Some (Numbers (columns M)) ->
  variables (RELATIVE n) = Some (Text name) -> variables (FRAME name) = Some (Whole m) -> segment_map m = Some s -> base s = 1%Z ->
  exists f, build_frame variables segment_map n = Built f /\ f_center f = c /\
    let '(ra, dec, w) := angles_at s t in rotation_of_frame f t = mxm (transp M) (body_axes ra dec w).
Proof.
  intros Hc Hs Ha Hr Hf Hm Hb. unfold build_frame, get_assignment, subscript. rewrite Hc. cbn [bind]. rewrite Hs. rewrite Ha. cbn [bind]. rewrite matrix_ok. cbn [bind]. rewrite Hr. cbn [bind]. rewrite Hf. cbn [bind].
  unfold finish_frame. rewrite Hm, Hb. cbn [Z.eqb]. eexists. split; [reflexivity|]. split; [reflexivity|]. apply offset_rotation.
Qed.
Lemma build_plain variables segment_map n c s t :
  variables (CENTER n) = Some c -> variables (SPEC n) = None -> segment_map n = Some s -> base s = 1%Z ->
  exists f, build_frame variables segment_map n = Built f /\ f_center f = c /\ let '(ra, dec, w) := angles_at s t in rotation_of_frame f t = body_axes ra dec w.
Proof.
  intros Hc Hs Hm Hb. unfold build_frame, get_assignment. rewrite Hc. cbn [bind]. rewrite Hs. unfold finish_frame. rewrite Hm, Hb. cbn [Z.eqb]. eexists. split; [reflexivity|]. split; [reflexivity|].
  unfold rotation_of_frame. cbn. destruct (angles_at s t) as [[ra dec] w]. apply frame_axes.
Qed.
Lemma moon_chain : build_frame_named moon_variables moon_segments "MOON_ME" = Raised LookupError /\
  (exists f, build_frame_named moon_variables moon_segments "MOON_ME_DE421" = Built f).
Proof.
  split; [reflexivity|]. unfold build_frame_named. cbn -[build_frame].
  destruct (build_angles moon_variables moon_segments 31007 (Whole 301) [6792 / 100; 7862 / 100; 30 / 100] [3; 2; 1]%Z "MOON_PA_DE421" 31006 {| base := 1; angles_at := fun t => (0, 0, t) |} 0) as (f & Hf & _); try reflexivity; [|exists f; exact Hf].
  repeat constructor; lia.
Qed.
(** ** Heights *)
Lemma place_radius_ok a b c h au d : 0 < au ->
  (place_radius a b c h au = Built d <-> a = b /\ b = c /\ d * au * 1000 = a * 1000 + h).
Proof. intros H. unfold place_radius. destruct (Req_EM_T a b) as [E|E]; [|split; [discriminate|tauto]].
  destruct (Req_EM_T b c) as [E2|E2]; [|split; [discriminate|tauto]]. split.
  - intros Q. injection Q as <-. split; [exact E|split; [exact E2|field; lra]].
  - intros (_ & _ & Q). f_equal. apply (Rmult_eq_reg_r (au * 1000)); [|lra]. replace (d * (au * 1000)) with (a * 1000 + h) by (rewrite <- Q; ring). field. lra. Qed.
