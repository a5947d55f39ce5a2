From Coq Require Import Reals ZArith List Bool Lra Lia.
From Verif Require Import Real_Math Real_Math_Proofs Vector_Model Vector_Proofs2 Geo_Model Geo_Spec Geo_Proofs Geo_Proofs2 Geo_Proofs3 Light_Model Light_Proofs Light_Proofs6 Light_Proofs7
  Position_Model Position_Spec Position_Proofs.
Import ListNotations.
Open Scope R_scope.

(** * Earth's deflection is lost by indexing an observer. *)
Lemma earth_deflects : exists u, Light_Model.apparent no_bodies 0 vzero vzero (Some (V3 1 0 0)) (V3 0 5 0) 1 [] = Position u /\ u <> V3 0 5 0 /\
  Light_Model.apparent no_bodies 0 vzero vzero None (V3 0 5 0) 1 [] = Position (V3 0 5 0).
Proof.
  pose proof deflection_ex as D. cbv zeta in D. destruct D as (P0 & G0 & S0 & A0 & _).
  destruct (earth_push no_bodies 0 vzero vzero (V3 0 5 0) 1 (V3 1 0 0) P0 G0 S0 A0) as (q & Eq & Hq).
  assert (E0 : 0 < earth_radius_au < 1) by (unfold earth_radius_au, ERAD, AU_M; lra).
  destruct (Rlt_dec _ _) as [N|N].
  { exfalso. unfold compute_limb_angle in N. cbn [snd] in N. replace (dot (V3 0 5 0) (V3 1 0 0)) with 0 in N by (unfold dot; cbn; ring).
    replace (dot (V3 1 0 0) (V3 1 0 0)) with 1 in N by (unfold dot; cbn; ring). rewrite sqrt_1 in N.
    replace (clip (0 / _) (-1) 1) with 0 in N.
    2:{ unfold Rdiv. rewrite Rmult_0_l. unfold clip. rewrite Rmax_left, Rmin_left by lra. reflexivity. }
    rewrite acos_0 in N. replace (earth_radius_au / 1) with earth_radius_au in N by field. rewrite Rmin_left in N by lra.
    pose proof (asin_bound earth_radius_au) as AB. pose proof PI_RGT_0.
    assert (A : 0 < asin earth_radius_au).
    { apply Rnot_le_lt. intros L. assert (S1 : sin (asin earth_radius_au) = earth_radius_au) by (apply sin_asin; lra).
      assert (0 <= sin (- asin earth_radius_au)) by (apply sin_ge_0; lra). rewrite sin_neg in H0. lra. }
    assert (1 <= (PI - PI / 2) / asin earth_radius_au). { apply Rmult_le_reg_r with (asin earth_radius_au); [exact A|]. replace ((PI - PI / 2) / asin earth_radius_au * asin earth_radius_au) with (PI - PI / 2) by (field; lra). lra. }
    lra. }
  destruct Hq as [Q1 Q2].
  assert (T : 0 < tan (angle_between (vadd (V3 0 5 0) (V3 1 0 0)) (V3 1 0 0) / 2)).
  { destruct (angle_ok (vadd (V3 0 5 0) (V3 1 0 0)) (V3 1 0 0) S0 G0) as [B Hc]. set (psi := angle_between (vadd _ _) _) in *.
    assert (L1 : vlength (V3 1 0 0) = 1) by (apply length_of_sq; [lra|unfold dot; cbn; ring]).
    assert (L2 : vlength (vadd (V3 0 5 0) (V3 1 0 0)) * vlength (vadd (V3 0 5 0) (V3 1 0 0)) = 26).
    { rewrite vlength_sq. cbn. ring. }
    rewrite L1 in Hc. replace (dot _ _) with 1 in Hc by (unfold dot; cbn; ring). set (m := vlength (vadd _ _)) in *.
    assert (M0 : 0 < m) by (apply vlength_ne; exact S0).
    assert (psi <> 0). { intros E. rewrite E, cos_0 in Hc. nra. }
    assert (psi <> PI). { intros E. rewrite E, cos_PI in Hc. nra. }
    apply tan_gt_0; lra. }
  assert (Nq : q <> V3 0 5 0).
  { intros ->. replace (vsub (V3 0 5 0) (V3 0 5 0)) with vzero in Q2 by (unfold vsub, vzero; cbn; f_equal; ring). rewrite vlength_vzero in Q2.
    assert (L1 : vlength (V3 1 0 0) = 1) by (apply length_of_sq; [lra|unfold dot; cbn; ring]).
    assert (L5 : vlength (V3 0 5 0) = 5) by (apply length_of_sq; [lra|unfold dot; cbn; ring]).
    rewrite L1, L5 in Q2. set (T0 := tan _) in *. assert (0 < 2 * GS / (C * C * 1 * AU_M * (332946050895 / 10 ^ 6)) * 5).
    { unfold GS, C, AU_M. lra. } nra. }
  assert (Q0 : q <> vzero).
  { intros ->. unfold dot, vsub, vzero in Q1. cbn in Q1. lra. }
  exists q. rewrite Eq, no_aberration by exact Q0. split; [reflexivity|]. split; [exact Nq|].
  unfold Light_Model.apparent. cbn [deflect_all]. rewrite no_aberration by exact P0. reflexivity.
Qed.
Definition watcher : position :=
  at_ None (Some (Code 0)) (Some (Thing 0)) (Many [vzero; vzero]) (Many [Some vzero; Some vzero]) (Some (Many [V3 1 0 0; V3 1 0 0])) (Many [0; 0]).
Definition steady (o : position) : outcome seen :=
  Ok {| s_vector := arr_map (fun _ => V3 0 5 0) (xyz o); s_velocity := arr_map (fun _ => Some vzero) (xyz o);
        s_time := arr_map (fun _ => 0) (xyz o); s_light := arr_map (fun _ => 1) (xyz o) |}.
Lemma deflection_lost : exists r a a' q q', getitem watcher 0 = Ok r /\
  observe watcher (Some (Thing 1)) steady = Ok a /\ apparent_ a [] = Ok q /\
  observe r (Some (Thing 1)) steady = Ok a' /\ apparent_ a' [] = Ok q' /\ Ok (xyz q') <> element 0 (Ok (xyz q)).
Proof.
  destruct earth_deflects as (u & E1 & N & E2).
  assert (F1 : one_lane no_bodies [] 0 vzero (Some vzero) (Some (V3 1 0 0)) (V3 0 5 0) 1 = Ok u) by (unfold one_lane; rewrite E1; reflexivity).
  assert (F2 : one_lane no_bodies [] 0 vzero (Some vzero) None (V3 0 5 0) 1 = Ok (V3 0 5 0)) by (unfold one_lane; rewrite E2; reflexivity).
  do 3 eexists. do 2 eexists. split; [reflexivity|]. split; [reflexivity|]. split.
  { unfold apparent_, apparent_xyz. cbn -[one_lane]. rewrite F1. cbn -[one_lane]. reflexivity. }
  split; [reflexivity|]. split.
  { unfold apparent_, apparent_xyz. cbn -[one_lane]. rewrite F2. cbn -[one_lane]. reflexivity. }
  cbn. intros H. injection H as H. symmetry in H. contradiction.
Qed.

(** * Altitude and azimuth, hour angle and declination. *)
Lemma bcast_lane {A B D} (f : A -> B -> D) a b : (size a = size b \/ size a = None \/ size b = None) ->
  exists r, bcast f a b = Ok r /\ forall j x y, lane a j = Some x -> lane b j = Some y -> lane r j = Some (f x y).
Proof.
  destruct a as [x|l], b as [y|m]; cbn; intros H.
  - eexists. split; [reflexivity|]. intros j x' y' Hx Hy. injection Hx as <-. injection Hy as <-. reflexivity.
  - eexists. split; [reflexivity|]. intros j x' y' Hx Hy. injection Hx as <-. cbn. rewrite nth_error_map, Hy. reflexivity.
  - eexists. split; [reflexivity|]. intros j x' y' Hx Hy. injection Hy as <-. cbn. rewrite nth_error_map, Hx. reflexivity.
  - destruct H as [H|[H|H]]; try discriminate. injection H as H. unfold bcast_lists. rewrite H, Nat.eqb_refl. eexists. split; [reflexivity|].
    intros j x' y' Hx Hy. cbn. rewrite nth_error_map2, Hx, Hy by exact H. reflexivity.
Qed.
Lemma lane_map {A B} (f : A -> B) a j x : lane a j = Some x -> lane (arr_map f a) j = Some (f x).
Proof. destruct a; cbn; [intros E; injection E as ->; reflexivity|]. intros E. rewrite nth_error_map, E. reflexivity. Qed.
Lemma size_map {A B} (f : A -> B) a : size (arr_map f a) = size a.
Proof. destruct a; cbn; [reflexivity|]. rewrite map_length. reflexivity. Qed.
Lemma horizon_one M u : on_horizon M u (let '(r, alt, az) := to_spherical (mxv M u) in (alt, az, r)).
Proof.
  destruct (to_spherical (mxv M u)) as [[r alt] az] eqn:E. apply spherical_back in E as (E & Er & Ha & Hz). cbn. auto.
Qed.
Lemma meridian_one M lon u : by_meridian M lon u (let '(au, dec, sub) := to_spherical (mxv M u) in (rmod (lon - sub + PI) tau - PI, dec, au)).
Proof.
  pose proof (hadec_ok lon (mxv M u)) as H. unfold hadec in H. destruct (to_spherical (mxv M u)) as [[r dec] sub].
  destruct (H _ _ _ eq_refl) as (Er & Hd & Hh & Ep). cbn. auto.
Qed.

(** The answer of a position that knows its observer. *)
Lemma horizon_of_observer w p cb f t : class p <> Astrometric -> center_barycentric p = Other cb -> rotation_at w (target cb) = Some f ->
  when cb = Some t -> (size t = size (xyz p) \/ size t = None) ->
  exists ans, altaz_ w p = Ok ans /\ forall j s u, lane t j = Some s -> lane (xyz p) j = Some u -> exists h, lane ans j = Some h /\ on_horizon (f s) u h.
Proof.
  intros K B F W S. assert (E : altaz_ w p = bind (bcast mxv (arr_map f t) (xyz p)) (fun x => Ok (arr_map (fun v => let '(r, alt, az) := to_spherical v in (alt, az, r)) x))).
  { unfold altaz_. rewrite B. unfold altaz_rotation. rewrite F, W. destruct (class p); try contradiction; reflexivity. }
  rewrite E. destruct (bcast_lane mxv (arr_map f t) (xyz p)) as (r & Er & Hr). { rewrite size_map. tauto. }
  rewrite Er. cbn [bind]. eexists. split; [reflexivity|]. intros j s u Hs Hu. eexists. split.
  - apply (lane_map _ r j). apply Hr; [apply lane_map; exact Hs|exact Hu].
  - apply horizon_one.
Qed.
(** The answer of a difference of vectors, whose center is the place. *)
Lemma horizon_of_center w p f t : class p <> Astrometric -> center_barycentric p = NoBary -> rotation_at w (center p) = Some f ->
  when p = Some t -> (size t = size (xyz p) \/ size t = None) ->
  exists ans, altaz_ w p = Ok ans /\ forall j s u, lane t j = Some s -> lane (xyz p) j = Some u -> exists h, lane ans j = Some h /\ on_horizon (f s) u h.
Proof.
  intros K B F W S. assert (E : altaz_ w p = bind (bcast mxv (arr_map f t) (xyz p)) (fun x => Ok (arr_map (fun v => let '(r, alt, az) := to_spherical v in (alt, az, r)) x))).
  { unfold altaz_. rewrite B, F, W. destruct (class p); try contradiction; reflexivity. }
  rewrite E. destruct (bcast_lane mxv (arr_map f t) (xyz p)) as (r & Er & Hr). { rewrite size_map. tauto. }
  rewrite Er. cbn [bind]. eexists. split; [reflexivity|]. intros j s u Hs Hu. eexists. split.
  - apply (lane_map _ r j). apply Hr; [apply lane_map; exact Hs|exact Hu].
  - apply horizon_one.
Qed.

Lemma rep_length {A} n (a : arr A) l : rep n a = Ok l -> length l = n.
Proof.
  destruct a as [x|m]; cbn; intros H; [injection H as <-; apply repeat_length|]. destruct (Nat.eqb_spec (length m) n); [|discriminate]. injection H as <-. assumption.
Qed.
Lemma lanes_length eph codes ts os vs gs xs lts us n : length ts = n -> length os = n -> length vs = n -> length gs = n -> length xs = n -> length lts = n ->
  lanes_ eph codes ts os vs gs xs lts = Ok us -> length us = n.
Proof.
  revert ts os vs gs xs lts us. induction n as [|n IH]; intros [|t ts] [|o os] [|v vs] [|g gs] [|x xs] [|l lts] us H1 H2 H3 H4 H5 H6 H; cbn in *; try discriminate.
  - injection H as <-. reflexivity.
  - destruct (one_lane eph codes t o v g x l); cbn [bind] in H; try discriminate.
    destruct (lanes_ eph codes ts os vs gs xs lts) as [us0| |] eqn:E; cbn [bind] in H; try discriminate. injection H as <-. cbn. f_equal.
    eapply IH; [| | | | | |exact E]; congruence.
Qed.
Lemma apparent_size p cb t codes u : apparent_xyz p cb t codes = Ok u -> size u = size (xyz p).
Proof.
  unfold apparent_xyz. intros H.
  assert (G : forall eph, match xyz p with
      | Single x =>
          match xyz cb, velocity cb, t, light_time p with
          | Single o, Single v, Single t, Single lt =>
              match observer_gcrs cb with
              | None => bind (one_lane eph codes t o v None x lt) (fun u => Ok (Single u))
              | Some (Single g) => bind (one_lane eph codes t o v (Some g) x lt) (fun u => Ok (Single u))
              | Some _ => Raise ValueError
              end
          | _, _, _, _ => Raise ValueError
          end
      | Many xs =>
          let n := length xs in
          bind (rep n t) (fun ts => bind (rep n (xyz cb)) (fun os => bind (rep n (velocity cb)) (fun vs =>
          bind (oarr n (observer_gcrs cb)) (fun gs => bind (rep n (light_time p)) (fun lts =>
          bind (lanes_ eph codes ts os vs gs xs lts) (fun us => Ok (Many us)))))))
      end = Ok u -> size u = size (xyz p)).
  { clear H. intros eph H. destruct (xyz p) as [x|xs].
    - destruct (xyz cb), (velocity cb), t, (light_time p); try discriminate. destruct (observer_gcrs cb) as [[g|]|]; try discriminate;
        (destruct (one_lane _ _ _ _ _ _ _ _); cbn [bind] in H; try discriminate; injection H as <-; reflexivity).
    - cbv zeta in H. destruct (rep _ t) as [ts| |] eqn:E1; cbn [bind] in H; try discriminate.
      destruct (rep _ (xyz cb)) as [os| |] eqn:E2; cbn [bind] in H; try discriminate.
      destruct (rep _ (velocity cb)) as [vs| |] eqn:E3; cbn [bind] in H; try discriminate.
      destruct (oarr _ (observer_gcrs cb)) as [gs| |] eqn:E4; cbn [bind] in H; try discriminate.
      destruct (rep _ (light_time p)) as [lts| |] eqn:E5; cbn [bind] in H; try discriminate.
      destruct (lanes_ _ _ _ _ _ _ _ _) as [us| |] eqn:E6; cbn [bind] in H; try discriminate. injection H as <-. cbn. f_equal.
      eapply lanes_length; [| | | |reflexivity| |exact E6]; try (eapply rep_length; eassumption).
      unfold oarr in E4. destruct (observer_gcrs cb) as [g|].
      + destruct (rep _ g) as [l| |] eqn:E7; cbn [bind] in E4; try discriminate. injection E4 as <-. rewrite map_length. eapply rep_length. eassumption.
      + injection E4 as <-. apply repeat_length. }
  destruct (ephemeris p) as [e|]; [exact (G e H)|]. destruct codes as [|code codes]; [exact (G no_bodies H)|].
  destruct (rmass_of code); discriminate.
Qed.

(** From observer to horizon. *)
Lemma observed_horizon w p n f t b sees s a codes q : target p = Some (Thing n) -> rotation_of w n = Some f -> when p = Some t ->
  sees p = Ok s -> (size t = size (s_vector s) \/ size t = None) ->
  observe p b sees = Ok a -> apparent_ a codes = Ok q ->
  center a = target p /\ target a = b /\ center q = target p /\ target q = b /\ when q = Some (s_time s) /\ class q = Apparent /\
  altaz_ w a = Raise ValueError /\
  exists ans, altaz_ w q = Ok ans /\ forall j s u, lane t j = Some s -> lane (xyz q) j = Some u -> exists h, lane ans j = Some h /\ on_horizon (f s) u h.
Proof.
  intros T F W Es S O A. unfold observe in O. destruct (class p); try discriminate. rewrite Es in O. cbn [bind] in O. injection O as <-.
  unfold apparent_ in A. cbn [construct class center_barycentric when xyz velocity center target] in A.
  destruct (apparent_xyz _ _ _ _) as [u| |] eqn:E; cbn [bind] in A; try discriminate. injection A as <-. apply apparent_size in E. cbn [xyz] in E.
  cbn [construct class center_barycentric when xyz velocity center target]. rewrite T. cbn [obody_eqb body_eqb].
  split; [reflexivity|]. split; [reflexivity|]. split; [reflexivity|]. split; [reflexivity|]. split; [reflexivity|]. split; [reflexivity|]. split; [reflexivity|].
  apply horizon_of_observer with (cb := p); try reflexivity; try discriminate.
  - unfold rotation_at. rewrite T. exact F.
  - exact W.
  - cbn [xyz construct]. rewrite E. exact S.
Qed.
Lemma no_rotation w p cb : class p <> Astrometric -> center_barycentric p = Other cb -> rotation_at w (target cb) = None -> altaz_ w p = Raise ValueError.
Proof. intros K B F. unfold altaz_. rewrite B. unfold altaz_rotation. rewrite F. destruct (class p); try contradiction; reflexivity. Qed.
Lemma wrong_error w p : class p <> Astrometric -> center_barycentric p = NoBary -> rotation_at w (center p) = None -> altaz_ w p = Raise AttributeError.
Proof. intros K B F. unfold altaz_. rewrite B, F. destruct (class p); try contradiction; reflexivity. Qed.
(** A place asked for its own altitude and azimuth. *)
Lemma own_horizon w n f s x v g e : rotation_of w n = Some f ->
  exists h, altaz_ w (at_ e (Some (Code 0)) (Some (Thing n)) (Single x) v g (Single s)) = Ok (Single h) /\ on_horizon (f s) x h.
Proof.
  intros F. unfold altaz_. cbn. unfold altaz_rotation. cbn. rewrite F. cbn. eexists. split; [reflexivity|]. apply horizon_one.
Qed.
Lemma from_altaz_ok w p n f s alt az r : target p = Some (Thing n) -> rotation_of w n = Some f -> when p = Some (Single s) -> orthogonal (f s) ->
  exists q u, from_altaz_ w p alt az r = Ok q /\ xyz q = Single u /\ class q = Apparent /\ mxv (f s) u = from_spherical r alt az /\
    altaz_ w q = Raise AttributeError /\ hadec_ w q = Raise AttributeError /\ radec w q EpochDate = Raise AttributeError.
Proof.
  intros T F W O. unfold from_altaz_, altaz_rotation. rewrite T. cbn [rotation_at]. rewrite F, W. cbn [bind arr_map].
  do 2 eexists. split; [reflexivity|]. split; [reflexivity|]. split; [reflexivity|]. split; [|repeat split].
  destruct O as [O _]. rewrite <- mxv_mxm, O, mxv_id. reflexivity.
Qed.
Lemma hadec_ok_ w p lon t : longitude w (center p) = Some lon -> when p = Some t -> (size t = size (xyz p) \/ size t = None) ->
  exists ans, hadec_ w p = Ok ans /\ forall j s u, lane t j = Some s -> lane (xyz p) j = Some u -> exists h, lane ans j = Some h /\ by_meridian (itrs_of w s) lon u h.
Proof.
  intros F W S. unfold hadec_. rewrite W. destruct (bcast_lane (fun t x => mxv (itrs_of w t) x) t (xyz p)) as (r & Er & Hr). { tauto. }
  rewrite Er. cbn [bind]. rewrite F. eexists. split; [reflexivity|]. intros j s u Hs Hu. eexists. split.
  - apply (lane_map _ r j). apply Hr; [exact Hs|exact Hu].
  - apply meridian_one.
Qed.
Lemma hadec_refused w p t : longitude w (center p) = None -> when p = Some t -> (size t = size (xyz p) \/ size t = None) -> hadec_ w p = Raise ValueError.
Proof.
  intros F W S. unfold hadec_. rewrite W. destruct (bcast_lane (fun t x => mxv (itrs_of w t) x) t (xyz p)) as (r & Er & _). { tauto. }
  rewrite Er. cbn [bind]. rewrite F. reflexivity.
Qed.

(** * Right ascension and declination. *)
Lemma radec_there_and_back w ra dec d t c b : 0 < d -> -90 < dec < 90 -> 0 <= ra < 24 ->
  let p := position_of_radec w ra dec d None t c b in
  radec w p NoEpoch = Ok (Single (ra / 24 * tau, dec / 360 * tau, d)) /\ class p = class_for c /\ target p = b /\ when p = t.
Proof.
  intros Hd Hdec Hra p. pose proof PI_RGT_0. split; [|split; [apply build_class|split; reflexivity]].
  unfold p, position_of_radec. cbn [build_position construct radec xyz arr_map]. unfold spherical. rewrite spherical_forth; [reflexivity|exact Hd| |]; unfold tau; nra.
Qed.
Lemma radec_epoch_back w ra dec d e t c b : 0 < d -> -90 < dec < 90 -> 0 <= ra < 24 -> orthogonal (M_of w e) ->
  radec w (position_of_radec w ra dec d (Some e) t c b) (EpochTime (Single e)) = Ok (Single (ra / 24 * tau, dec / 360 * tau, d)).
Proof.
  intros Hd Hdec Hra [O _]. pose proof PI_RGT_0. unfold position_of_radec. cbn [build_position construct radec xyz bcast bind arr_map].
  rewrite <- mxv_mxm, O, mxv_id. unfold spherical. rewrite spherical_forth; [reflexivity|exact Hd| |]; unfold tau; nra.
Qed.
(** With the matrix of [Time.M], whose last factor is not quite a rotation. *)
Lemma abs3 a b c x : Rabs a <= x -> Rabs b <= x -> Rabs c <= x -> forall u v w, Rabs (a * u + b * v + c * w) <= x * (Rabs u + Rabs v + Rabs w).
Proof.
  intros Ha Hb Hc u v w. eapply Rle_trans; [apply Rabs_triang|]. eapply Rle_trans; [apply Rplus_le_compat_r, Rabs_triang|]. rewrite !Rabs_mult.
  pose proof (Rabs_pos u). pose proof (Rabs_pos v). pose proof (Rabs_pos w). nra.
Qed.
Lemma sum_abs u : (Rabs (vx u) + Rabs (vy u) + Rabs (vz u)) * (Rabs (vx u) + Rabs (vy u) + Rabs (vz u)) <= 3 * (vlength u * vlength u).
Proof.
  rewrite vlength_sq. set (a := Rabs (vx u)). set (b := Rabs (vy u)). set (c := Rabs (vz u)).
  assert (vx u * vx u = a * a) as -> by (unfold a; rewrite <- Rabs_mult, Rabs_right; [reflexivity|apply Rle_ge; nra]).
  assert (vy u * vy u = b * b) as -> by (unfold b; rewrite <- Rabs_mult, Rabs_right; [reflexivity|apply Rle_ge; nra]).
  assert (vz u * vz u = c * c) as -> by (unfold c; rewrite <- Rabs_mult, Rabs_right; [reflexivity|apply Rle_ge; nra]).
  pose proof (Rle_0_sqr (a - b)). pose proof (Rle_0_sqr (b - c)). pose proof (Rle_0_sqr (a - c)). unfold Rsqr in *. lra.
Qed.
Lemma small_matrix E x u : 0 <= x -> (forall r, r = r1 E \/ r = r2 E \/ r = r3 E -> Rabs (vx r) <= x /\ Rabs (vy r) <= x /\ Rabs (vz r) <= x) ->
  vlength (mxv E u) <= 3 * x * vlength u.
Proof.
  intros Hx H. pose proof (sum_abs u) as S. set (s := Rabs (vx u) + Rabs (vy u) + Rabs (vz u)) in *.
  assert (S0 : 0 <= s) by (unfold s; pose proof (Rabs_pos (vx u)); pose proof (Rabs_pos (vy u)); pose proof (Rabs_pos (vz u)); lra).
  assert (Hr : forall r, r = r1 E \/ r = r2 E \/ r = r3 E -> dot r u * dot r u <= (x * s) * (x * s)).
  { intros r Hr. destruct (H r Hr) as (A & B & D). pose proof (abs3 _ _ _ _ A B D (vx u) (vy u) (vz u)) as Q. fold s in Q.
    change (vx r * vx u + vy r * vy u + vz r * vz u) with (dot r u) in Q. apply Rsqr_le_abs_1. rewrite (Rabs_right (x * s)) by (apply Rle_ge; nra). exact Q. }
  pose proof (vlength_pos (mxv E u)) as P1. pose proof (vlength_pos u) as P2.
  apply Rsqr_incr_0_var; [|apply Rmult_le_pos; [lra|exact P2]]. unfold Rsqr. rewrite vlength_sq. unfold mxv. cbn [vx vy vz].
  pose proof (Hr (r1 E) (or_introl eq_refl)). pose proof (Hr (r2 E) (or_intror (or_introl eq_refl))). pose proof (Hr (r3 E) (or_intror (or_intror eq_refl))).
  apply Rle_trans with (3 * (x * s * (x * s))); [lra|]. replace (3 * (x * s * (x * s))) with (3 * (x * x) * (s * s)) by ring.
  apply Rle_trans with (3 * (x * x) * (3 * (vlength u * vlength u))); [apply Rmult_le_compat_l; [nra|exact S]|right; ring].
Qed.
Lemma radec_epoch_close w ra dec d e t c b N P : rotation N -> rotation P -> M_of w e = time_M N P bias ->
  let v := from_spherical d (dec / 360 * tau) (ra / 24 * tau) in
  exists u, xyz (position_of_radec w ra dec d (Some e) t c b) = Single u /\
    vlength (vsub (mxv (M_of w e) u) v) <= 3 / 10 ^ 14 * vlength v.
Proof.
  intros [ON _] [OP _] HM v. eexists. split; [reflexivity|]. fold v. rewrite HM. unfold time_M, mxmxm. set (A := mxm N P).
  assert (OA : orthogonal A) by (apply orth_mxm; assumption).
  rewrite transp_mxm, !mxv_mxm. set (y := mxv (transp A) v).
  assert (Ly : vlength y = vlength v) by (apply orth_length, orth_transp, OA).
  assert (Ev : v = mxv A y). { unfold y. rewrite <- mxv_mxm. destruct OA as [O _]. rewrite O, mxv_id. reflexivity. }
  rewrite Ev at 1.
  assert (D : forall a b, vsub (mxv A a) (mxv A b) = mxv A (vsub a b)). { intros a b0. unfold vsub, mxv, dot. cbn. f_equal; ring. }
  rewrite D, orth_length by exact OA. rewrite <- Ly, <- mxv_mxm.
  pose proof bias_close as B. cbv zeta in B. set (Bm := mxm bias (transp bias)) in *.
  set (Em := M3 (vsub (r1 Bm) (V3 1 0 0)) (vsub (r2 Bm) (V3 0 1 0)) (vsub (r3 Bm) (V3 0 0 1))).
  replace (vsub (mxv Bm y) y) with (mxv Em y) by (unfold Em, mxv, vsub, dot; cbn; f_equal; ring).
  replace (3 / 10 ^ 14 * vlength y) with (3 * (1 / 10 ^ 14) * vlength y) by (unfold Rdiv; ring).
  assert (Sy1 : vx (r2 Bm) = vy (r1 Bm)) by (unfold Bm, mxm, transp, dot; cbn; unfold dot; cbn; ring).
  assert (Sy2 : vx (r3 Bm) = vz (r1 Bm)) by (unfold Bm, mxm, transp, dot; cbn; unfold dot; cbn; ring).
  assert (Sy3 : vy (r3 Bm) = vz (r2 Bm)) by (unfold Bm, mxm, transp, dot; cbn; unfold dot; cbn; ring).
  destruct B as (B1 & B2 & B3 & B4 & B5 & B6). assert (T : 0 <= 1 / 10 ^ 14) by lra.
  apply small_matrix; [exact T|]. intros r [-> |[-> | ->]]; unfold Em; cbn [r1 r2 r3]; unfold vsub; cbn [vx vy vz]; rewrite ?Rminus_0_r, ?Sy1, ?Sy2, ?Sy3; auto.
Qed.
Lemma epochs w p e : match e with
  | EpochFloat x => radec w p e = radec w p (EpochTime (Single x))
  | EpochDate => match when p with Some t => radec w p e = radec w p (EpochTime t) | None => radec w p e = Raise AttributeError end
  | EpochOther => radec w p e = Raise ValueError
  | _ => True
  end.
Proof. destruct e; try exact I; try reflexivity. unfold radec. destruct (when p); reflexivity. Qed.
Lemma cirs_float w p x : cirs_xyz w p (EpochFloat x) = Raise AttributeError /\
  cirs_xyz w p (EpochTime (Single x)) = Ok (arr_map (mxv (C_of w x)) (xyz p)).
Proof. split; [reflexivity|]. unfold cirs_xyz. destruct (xyz p); reflexivity. Qed.

(** * Sunlight and the Earth in the way. *)
Lemma sun_lane X V p c b t sun : tells X V p -> center p = Some c -> target p = Some b -> when p = Some t ->
  (c = Code 399 \/ observer_gcrs p = Some (arr_map (fun s => vsub (X c s) (X (Code 399) s)) t)) ->
  is_sunlit_ p sun = Ok (arr_map (fun s => Geo_Model.is_sunlit (vsub (X b s) (X (Code 399) s)) (sun s) earth_radius_au) t).
Proof.
  intros (c' & b' & t' & Hc' & Hb' & Ht' & Hx & _) Hc Hb Ht H. rewrite Hc in Hc'. rewrite Hb in Hb'. rewrite Ht in Ht'. injection Hc' as <-. injection Hb' as <-. injection Ht' as <-.
  unfold is_sunlit_. rewrite Ht, Hc.
  assert (E : (if obody_eqb (Some c) (Some (Code 399)) then Ok (xyz p) else match observer_gcrs p with None => Raise ValueError | Some g => numpy_op vadd spread (xyz p) g end)
              = Ok (arr_map (fun s => vsub (X b s) (X (Code 399) s)) t)).
  { destruct (obody_eqb (Some c) (Some (Code 399))) eqn:Ec.
    - apply obody_eqb_ok in Ec. injection Ec as ->. rewrite Hx. reflexivity.
    - destruct H as [-> |H]; [discriminate|]. rewrite H, Hx, numpy_op_same. f_equal. apply arr_map_ext. intros s. unfold vadd, vsub. cbn. f_equal; ring. }
  rewrite E. cbn [bind]. destruct t as [s|l]; cbn [arr_map bcast]; [reflexivity|]. unfold bcast_lists. rewrite map_length, Nat.eqb_refl. f_equal. f_equal.
  rewrite <- (map_id l) at 1. rewrite map2_maps. reflexivity.
Qed.
Lemma radius_pos : 0 <= earth_radius_au. Proof. unfold earth_radius_au, ERAD, AU_M. lra. Qed.
Lemma sunlit_truth X V p c b t sun : tells X V p -> center p = Some c -> target p = Some b -> when p = Some t ->
  (c = Code 399 \/ observer_gcrs p = Some (arr_map (fun s => vsub (X c s) (X (Code 399) s)) t)) ->
  exists ans, is_sunlit_ p sun = Ok ans /\ forall j s, lane t j = Some s ->
    let earth := X (Code 399) s in let sat := vsub (X b s) earth in sun s <> sat ->
    exists v, lane ans j = Some v /\ (v = true <-> forall k, 0 < k -> ~ in_ball (vadd sat (smul k (vsub (sun s) sat))) vzero earth_radius_au).
Proof.
  intros T Hc Hb Ht H. rewrite (sun_lane X V p c b t sun T Hc Hb Ht H). eexists. split; [reflexivity|]. intros j s Hs earth sat N.
  eexists. split; [apply lane_map; exact Hs|]. apply sunlit_ok; [apply radius_pos|exact N].
Qed.
Lemma behind_truth X V p c b t : tells X V p -> center p = Some c -> target p = Some b -> when p = Some t ->
  observer_gcrs p = Some (arr_map (fun s => vsub (X c s) (X (Code 399) s)) t) ->
  exists ans, is_behind_earth_ p = Ok ans /\ forall j s, lane t j = Some s ->
    let from := vsub (X c s) (X (Code 399) s) in let way := vsub (X b s) (X c s) in way <> vzero ->
    exists v, lane ans j = Some v /\ (v = true <-> exists k, 0 < k < 1 /\ in_ball (vadd from (smul k way)) vzero earth_radius_au).
Proof.
  intros (c' & b' & t' & Hc' & Hb' & Ht' & Hx & _) Hc Hb Ht H. rewrite Hc in Hc'. rewrite Hb in Hb'. rewrite Ht in Ht'. injection Hc' as <-. injection Hb' as <-. injection Ht' as <-.
  unfold is_behind_earth_. rewrite H, Hx.
  set (f := fun s => vsub (X c s) (X (Code 399) s)). set (g := fun s => vsub (X b s) (X c s)).
  destruct (bcast_lane (fun g x => Geo_Model.is_behind_earth g x earth_radius_au) (arr_map f t) (arr_map g t)) as (r & Er & Hr). { left. rewrite !size_map. reflexivity. }
  exists r. split; [exact Er|]. intros j s Hs N. eexists. split.
  - apply Hr; apply lane_map; exact Hs.
  - apply behind_ok; [apply radius_pos|exact N].
Qed.
Lemma sunlit_refused p sun : center p <> Some (Code 399) -> observer_gcrs p = None -> is_sunlit_ p sun = Raise ValueError.
Proof. intros Hc Hg. unfold is_sunlit_. destruct (when p); [|reflexivity]. rewrite (obody_neq _ _ Hc), Hg. reflexivity. Qed.
(** The place of the observer, after observe() and apparent(). *)
Lemma apparent_keeps_place p b sees a codes q : observe p b sees = Ok a -> apparent_ a codes = Ok q ->
  match observer_gcrs p with
  | None => observer_gcrs q = None
  | Some g => exists g', observer_gcrs q = Some g' /\ (g' = g \/ exists x, g = Single x /\ g' = Many [x])
  end.
Proof.
  intros O Q. unfold observe in O. destruct (class p); try discriminate. destruct (sees p) as [s| |]; cbn [bind] in O; try discriminate. injection O as <-.
  unfold apparent_ in Q. cbn [construct class center_barycentric when] in Q.
  match type of Q with bind ?m _ = _ => destruct m; cbn [bind] in Q; try discriminate end. injection Q as <-. cbn [observer_gcrs]. unfold reshaped. cbn [xyz].
  destruct (observer_gcrs p) as [g|]; destruct (s_vector s), (xyz p); try reflexivity; try (exists g; split; [reflexivity|left; reflexivity]).
  destruct g as [x|gs]; [exists (Many [x]); split; [reflexivity|right; exists x; split; reflexivity]|exists (Many gs); split; [reflexivity|left; reflexivity]].
Qed.
