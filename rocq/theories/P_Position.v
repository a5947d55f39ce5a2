(** C97-C101: position objects. *)
From Coq Require Import Reals ZArith List Lra Lia.
From Verif Require Import Real_Math Vector_Model Geo_Model Geo_Spec Geo_Proofs Geo_Proofs3 Light_Model Position_Model Position_Spec Position_Proofs Position_Proofs2.
Import ListNotations.
Open Scope R_scope.

(** * C97 *)
Theorem C97_difference_partial : forall X V a b, tells X V a -> tells X V b -> when a = when b -> center a = center b ->
  exists r, sub_ a b = Ok r /\ tells X V r /\ center r = target b /\ target r = target a /\ when r = when a /\
    class r = class_for (target b).
Proof. exact difference. Qed.
Print Assumptions C97_difference_partial.
Theorem C97_centers_must_agree : forall a b, center a <> center b -> sub_ a b = Raise ValueError.
Proof. exact difference_refused. Qed.
Print Assumptions C97_centers_must_agree.
Theorem C97_negative_partial : forall X V p, tells X V p -> tells X V (neg_ p) /\ center (neg_ p) = target p /\ target (neg_ p) = center p /\
  when (neg_ p) = when p /\ xyz (neg_ (neg_ p)) = xyz p /\ velocity (neg_ (neg_ p)) = velocity p.
Proof. exact negative. Qed.
Print Assumptions C97_negative_partial.
(** One position and an array of them: refused, unless there are one or three. *)
Theorem C97_one_and_many_partial : forall a b x l, xyz a = Single x -> xyz b = Many l -> length l <> 1%nat -> length l <> 3%nat ->
  sub_ a b = Raise ValueError /\ sub_ b a = Raise ValueError.
Proof. exact mixed_refused. Qed.
Print Assumptions C97_one_and_many_partial.
(** With three, the components of the one are spread over the three. *)
Theorem C97_one_and_three_refuted : exists X V a b r xs, tells X V a /\ tells X V b /\ center a = center b /\ when a = Some (Many [0; 0; 0]) /\ when b = Some (Single 0) /\
  sub_ a b = Ok r /\ xyz r = Many xs /\ (forall x, In x xs -> x <> vsub (X (Code 599) 0) (X (Code 499) 0)) /\
  target a = Some (Code 599) /\ target b = Some (Code 499).
Proof. exact three_garbled. Qed.
Print Assumptions C97_one_and_three_refuted.
Theorem C97_times_refuted : exists X V a b r, tells X V a /\ tells X V b /\ center a = center b /\ when a <> when b /\ sub_ a b = Ok r /\ ~ tells X V r.
Proof. exact times_ignored. Qed.
Print Assumptions C97_times_refuted.
(** The negative of a barycentric position says that it is barycentric, though its
    center is the planet, and observes as if it were. *)
Theorem C97_negative_class_refuted : exists X V p seen_by r, tells X V p /\ class p = Barycentric /\
  center (neg_ p) = Some (Code 499) /\ class (neg_ p) = Barycentric /\ class (neg_ p) <> class_for (center (neg_ p)) /\
  (forall o x, class o = Barycentric -> xyz o = Single x ->
     seen_by o = Ok {| s_vector := Single (vsub (X (Code 599) 0) x); s_velocity := Single None; s_time := Single 0; s_light := Single 0 |}) /\
  observe (neg_ p) (Some (Code 599)) seen_by = Ok r /\ center r = Some (Code 0) /\ target r = Some (Code 599) /\
  xyz r <> Single (vsub (X (Code 599) 0) (X (Code 0) 0)).
Proof. exact negation_class. Qed.
Print Assumptions C97_negative_class_refuted.
Example C97_ex : tells demo_X (fun _ _ => vzero) (demo_at 499 (Many [0; 1])) /\ tells demo_X (fun _ _ => vzero) (demo_at 10 (Many [0; 1])) /\
  when (demo_at 499 (Many [0; 1])) = when (demo_at 10 (Many [0; 1])) /\ center (demo_at 499 (Many [0; 1])) = center (demo_at 10 (Many [0; 1])).
Proof. split; [apply demo_tells|]. split; [apply demo_tells|]. split; reflexivity. Qed.

(** * C98 *)
Theorem C98_element_partial : forall n p i, has_length n p -> (- Z.of_nat n <= i < Z.of_nat n)%Z ->
  exists xs vs ts x v t r, xyz p = Many xs /\ velocity p = Many vs /\ when p = Some (Many ts) /\
    nth_error xs (place n i) = Some x /\ nth_error vs (place n i) = Some v /\ nth_error ts (place n i) = Some t /\
    getitem p i = Ok r /\ class r = class p /\ xyz r = Single x /\ velocity r = Single v /\ when r = Some (Single t) /\
    (center p = None -> default_center (class p) = None -> center r = None) /\ (forall c, center p = Some c -> center r = Some c) /\ target r = target p.
Proof. exact getitem_ok. Qed.
Print Assumptions C98_element_partial.
Theorem C98_out_of_range : forall n p i, has_length n p -> (i < - Z.of_nat n \/ Z.of_nat n <= i)%Z -> getitem p i = Raise IndexError.
Proof. exact getitem_out. Qed.
Print Assumptions C98_out_of_range.
Theorem C98_single : forall p x i, xyz p = Single x -> getitem p i = Raise IndexError.
Proof. exact getitem_single. Qed.
Print Assumptions C98_single.
Theorem C98_radec_partial : forall w n p i r e, has_length n p -> getitem p i = Ok r -> (forall t, e <> EpochTime (Many t)) ->
  radec w r e = element i (radec w p e).
Proof. exact radec_elements. Qed.
Print Assumptions C98_radec_partial.
Theorem C98_hadec_partial : forall w n p i r, has_length n p -> getitem p i = Ok r -> center p <> None -> hadec_ w r = element i (hadec_ w p).
Proof. exact hadec_elements. Qed.
Print Assumptions C98_hadec_partial.
Theorem C98_separation_partial : forall n p q i r s, has_length n p -> has_length n q -> getitem p i = Ok r -> getitem q i = Ok s ->
  separation_from r s = element i (separation_from p q).
Proof. exact separation_elements. Qed.
Print Assumptions C98_separation_partial.
Theorem C98_separation_from_one_partial : forall n p q x i r, has_length n p -> xyz q = Single x -> getitem p i = Ok r ->
  separation_from r q = element i (separation_from p q) /\ separation_from q r = element i (separation_from q p).
Proof. exact separation_one. Qed.
Print Assumptions C98_separation_from_one_partial.
(** Altitude and azimuth survive, because the center is the observer's place. *)
Theorem C98_altaz_partial : forall w n p cb f i r, has_length n p -> getitem p i = Ok r -> class p <> Astrometric ->
  (center_barycentric p = NoBary \/ center_barycentric p = Other cb /\ center p = target cb /\ when p = when cb) ->
  center p <> Some (Code 0) -> rotation_at w (center p) = Some f -> altaz_ w r = element i (altaz_ w p).
Proof. exact altaz_elements. Qed.
Print Assumptions C98_altaz_partial.
(** But the observer, the ephemeris and the geocentric position are lost. *)
Theorem C98_apparent_refuted : forall n p i r codes, has_length n p -> class p = Astrometric -> center p <> Some (Code 0) -> getitem p i = Ok r ->
  apparent_ r codes = Raise AttributeError.
Proof. exact element_not_apparent. Qed.
Print Assumptions C98_apparent_refuted.
Theorem C98_sunlit_refuted : forall n p i r sun, has_length n p -> center p <> None -> center p <> Some (Code 399) -> getitem p i = Ok r ->
  is_sunlit_ r sun = Raise ValueError /\ is_behind_earth_ r = Raise ValueError.
Proof. exact element_not_sunlit. Qed.
Print Assumptions C98_sunlit_refuted.
Theorem C98_phase_refuted : forall n p i r sun, has_length n p -> center p <> Some (Code 0) -> getitem p i = Ok r -> phase_angle_ r sun = Raise AttributeError.
Proof. exact element_no_phase. Qed.
Print Assumptions C98_phase_refuted.
Theorem C98_observer_refuted : forall n p i r b sees a, has_length n p -> class p = Barycentric -> getitem p i = Ok r -> observe r b sees = Ok a ->
  (forall c codes, In c [10; 599; 699]%Z -> apparent_ a (c :: codes) = Raise TypeError) /\
  (forall q, apparent_ a [] = Ok q -> observer_gcrs q = None).
Proof. exact element_observer. Qed.
Print Assumptions C98_observer_refuted.
(** Without deflectors the answer is there, but differs: the Earth's is missing. *)
Theorem C98_earth_deflection_refuted : exists r a a' q q', getitem watcher 0 = Ok r /\
  observe watcher (Some (Thing 1)) steady = Ok a /\ apparent_ a [] = Ok q /\
  observe r (Some (Thing 1)) steady = Ok a' /\ apparent_ a' [] = Ok q' /\ Ok (xyz q') <> element 0 (Ok (xyz q)).
Proof. exact deflection_lost. Qed.
Print Assumptions C98_earth_deflection_refuted.
Example C98_ex : has_length 2 (demo_at 499 (Many [0; 1])) /\ exists r, getitem (demo_at 499 (Many [0; 1])) (-1) = Ok r /\ when r = Some (Single 1).
Proof. split; [do 3 eexists; repeat split|]. eexists. split; reflexivity. Qed.

(** * C99 *)
Theorem C99_observed_partial : forall w p n f t b sees s a codes q, target p = Some (Thing n) -> rotation_of w n = Some f -> when p = Some t ->
  sees p = Ok s -> (size t = size (s_vector s) \/ size t = None) ->
  observe p b sees = Ok a -> apparent_ a codes = Ok q ->
  center a = target p /\ target a = b /\ center q = target p /\ target q = b /\ when q = Some (s_time s) /\ class q = Apparent /\
  altaz_ w a = Raise ValueError /\
  exists ans, altaz_ w q = Ok ans /\ forall j s u, lane t j = Some s -> lane (xyz q) j = Some u -> exists h, lane ans j = Some h /\ on_horizon (f s) u h.
Proof. exact observed_horizon. Qed.
Print Assumptions C99_observed_partial.
(** A difference of vectors such as satellite minus place. *)
Theorem C99_difference_partial : forall w p f t, class p <> Astrometric -> center_barycentric p = NoBary -> rotation_at w (center p) = Some f ->
  when p = Some t -> (size t = size (xyz p) \/ size t = None) ->
  exists ans, altaz_ w p = Ok ans /\ forall j s u, lane t j = Some s -> lane (xyz p) j = Some u -> exists h, lane ans j = Some h /\ on_horizon (f s) u h.
Proof. exact horizon_of_center. Qed.
Print Assumptions C99_difference_partial.
Theorem C99_no_horizon_partial : forall w p cb, class p <> Astrometric -> center_barycentric p = Other cb -> rotation_at w (target cb) = None -> altaz_ w p = Raise ValueError.
Proof. exact no_rotation. Qed.
Print Assumptions C99_no_horizon_partial.
Theorem C99_hour_angle : forall w p lon t, longitude w (center p) = Some lon -> when p = Some t -> (size t = size (xyz p) \/ size t = None) ->
  exists ans, hadec_ w p = Ok ans /\ forall j s u, lane t j = Some s -> lane (xyz p) j = Some u -> exists h, lane ans j = Some h /\ by_meridian (itrs_of w s) lon u h.
Proof. exact hadec_ok_. Qed.
Print Assumptions C99_hour_angle.
Theorem C99_no_meridian : forall w p t, longitude w (center p) = None -> when p = Some t -> (size t = size (xyz p) \/ size t = None) -> hadec_ w p = Raise ValueError.
Proof. exact hadec_refused. Qed.
Print Assumptions C99_no_meridian.
(** A direction given by altitude and azimuth is the right one, but carries neither
    time nor center, so that it cannot be asked for its altitude and azimuth. *)
Theorem C99_from_altaz_partial : forall w p n f s alt az r, target p = Some (Thing n) -> rotation_of w n = Some f -> when p = Some (Single s) -> orthogonal (f s) ->
  exists q u, from_altaz_ w p alt az r = Ok q /\ xyz q = Single u /\ class q = Apparent /\ mxv (f s) u = from_spherical r alt az /\
    altaz_ w q = Raise AttributeError /\ hadec_ w q = Raise AttributeError /\ radec w q EpochDate = Raise AttributeError.
Proof. exact from_altaz_ok. Qed.
Print Assumptions C99_from_altaz_partial.
(** The explanation meant for positions without a horizon is unreachable there. *)
Theorem C99_wrong_error_refuted : forall w p, class p <> Astrometric -> center_barycentric p = NoBary -> rotation_at w (center p) = None -> altaz_ w p = Raise AttributeError.
Proof. exact wrong_error. Qed.
Print Assumptions C99_wrong_error_refuted.
(** A place's own barycentric position has no altitude, yet is given one: that of the
    vector from the barycenter to the place. *)
Theorem C99_own_horizon_refuted : forall w n f s x v g e, rotation_of w n = Some f ->
  exists h, altaz_ w (at_ e (Some (Code 0)) (Some (Thing n)) (Single x) v g (Single s)) = Ok (Single h) /\ on_horizon (f s) x h.
Proof. exact own_horizon. Qed.
Print Assumptions C99_own_horizon_refuted.
Example C99_ex : exists w a q, rotation_of w 0 = Some (fun _ => identity) /\ target watcher = Some (Thing 0) /\ when watcher = Some (Many [0; 0]) /\
  steady watcher = Ok {| s_vector := Many [V3 0 5 0; V3 0 5 0]; s_velocity := Many [Some vzero; Some vzero]; s_time := Many [0; 0]; s_light := Many [1; 1] |} /\
  observe watcher (Some (Thing 1)) steady = Ok a /\ apparent_ a [] = Ok q.
Proof.
  destruct deflection_lost as (r & a & a' & q & q' & _ & Ea & Eq & _).
  exists {| M_of := fun _ => identity; C_of := fun _ => identity; itrs_of := fun _ => identity; rotation_of := fun _ => Some (fun _ => identity); longitude_at := fun _ => None |}, a, q.
  repeat split; assumption.
Qed.

(** * C100 *)
Theorem C100_there_and_back : forall w ra dec d t c b, 0 < d -> -90 < dec < 90 -> 0 <= ra < 24 ->
  let p := position_of_radec w ra dec d None t c b in
  radec w p NoEpoch = Ok (Single (ra / 24 * tau, dec / 360 * tau, d)) /\ class p = class_for c /\ target p = b /\ when p = t.
Proof. exact radec_there_and_back. Qed.
Print Assumptions C100_there_and_back.
Theorem C100_of_an_epoch_partial : forall w ra dec d e t c b, 0 < d -> -90 < dec < 90 -> 0 <= ra < 24 -> orthogonal (M_of w e) ->
  radec w (position_of_radec w ra dec d (Some e) t c b) (EpochTime (Single e)) = Ok (Single (ra / 24 * tau, dec / 360 * tau, d)).
Proof. exact radec_epoch_back. Qed.
Print Assumptions C100_of_an_epoch_partial.
(** The matrix of a time ends with the frame bias, which is not quite orthogonal. *)
Theorem C100_of_an_epoch_close_partial : forall w ra dec d e t c b N P, rotation N -> rotation P -> M_of w e = time_M N P bias ->
  let v := from_spherical d (dec / 360 * tau) (ra / 24 * tau) in
  exists u, xyz (position_of_radec w ra dec d (Some e) t c b) = Single u /\
    vlength (vsub (mxv (M_of w e) u) v) <= 3 / 10 ^ 14 * vlength v.
Proof. exact radec_epoch_close. Qed.
Print Assumptions C100_of_an_epoch_close_partial.
Theorem C100_epochs_partial : forall w p e, match e with
  | EpochFloat x => radec w p e = radec w p (EpochTime (Single x))
  | EpochDate => match when p with Some t => radec w p e = radec w p (EpochTime t) | None => radec w p e = Raise AttributeError end
  | EpochOther => radec w p e = Raise ValueError
  | _ => True
  end.
Proof. exact epochs. Qed.
Print Assumptions C100_epochs_partial.
(** [cirs_xyz] is documented to take a float too, but never manages. *)
Theorem C100_cirs_float_refuted : forall w p x, cirs_xyz w p (EpochFloat x) = Raise AttributeError /\
  cirs_xyz w p (EpochTime (Single x)) = Ok (arr_map (mxv (C_of w x)) (xyz p)).
Proof. exact cirs_float. Qed.
Print Assumptions C100_cirs_float_refuted.
Example C100_ex : rotation identity /\ 0 < 1 /\ -90 < 45 < 90 /\ 0 <= 13 < 24 /\ orthogonal identity.
Proof.
  assert (O : orthogonal identity). { split; unfold mxm, transp, identity, dot; cbn; unfold dot; cbn; repeat f_equal; ring. }
  split; [split; [exact O|unfold det, cross, identity, dot; cbn; ring]|]. repeat split; try lra; apply O.
Qed.

(** * C101 *)
Theorem C101_sunlit : forall X V p c b t sun, tells X V p -> center p = Some c -> target p = Some b -> when p = Some t ->
  (c = Code 399 \/ observer_gcrs p = Some (arr_map (fun s => vsub (X c s) (X (Code 399) s)) t)) ->
  exists ans, is_sunlit_ p sun = Ok ans /\ forall j s, lane t j = Some s ->
    let earth := X (Code 399) s in let sat := vsub (X b s) earth in sun s <> sat ->
    exists v, lane ans j = Some v /\ (v = true <-> forall k, 0 < k -> ~ in_ball (vadd sat (smul k (vsub (sun s) sat))) vzero earth_radius_au).
Proof. exact sunlit_truth. Qed.
Print Assumptions C101_sunlit.
Theorem C101_behind_earth : forall X V p c b t, tells X V p -> center p = Some c -> target p = Some b -> when p = Some t ->
  observer_gcrs p = Some (arr_map (fun s => vsub (X c s) (X (Code 399) s)) t) ->
  exists ans, is_behind_earth_ p = Ok ans /\ forall j s, lane t j = Some s ->
    let from := vsub (X c s) (X (Code 399) s) in let way := vsub (X b s) (X c s) in way <> vzero ->
    exists v, lane ans j = Some v /\ (v = true <-> exists k, 0 < k < 1 /\ in_ball (vadd from (smul k way)) vzero earth_radius_au).
Proof. exact behind_truth. Qed.
Print Assumptions C101_behind_earth.
Theorem C101_unknown : forall p sun, center p <> Some (Code 399) -> observer_gcrs p = None -> is_sunlit_ p sun = Raise ValueError.
Proof. exact sunlit_refused. Qed.
Print Assumptions C101_unknown.
(** Observing from a place keeps its geocentric position; over an array of times a
    single place gets a last axis of length one. *)
Theorem C101_apparent_keeps_the_place : forall p b sees a codes q, observe p b sees = Ok a -> apparent_ a codes = Ok q ->
  match observer_gcrs p with
  | None => observer_gcrs q = None
  | Some g => exists g', observer_gcrs q = Some g' /\ (g' = g \/ exists x, g = Single x /\ g' = Many [x])
  end.
Proof. exact apparent_keeps_place. Qed.
Print Assumptions C101_apparent_keeps_the_place.
Example C101_ex : exists X V p, tells X V p /\ center p = Some (Thing 0) /\ target p = Some (Thing 1) /\ when p = Some (Single 0) /\
  observer_gcrs p = Some (arr_map (fun s => vsub (X (Thing 0) s) (X (Code 399) s)) (Single 0)) /\ vsub (X (Thing 1) 0) (X (Thing 0) 0) <> vzero.
Proof.
  set (X := fun (b : body) (s : R) => match b with Thing 0 => V3 1 0 0 | Thing 1 => V3 0 1 0 | _ => vzero end).
  exists X, (fun _ _ => vzero), (at_ None (Some (Thing 0)) (Some (Thing 1)) (Single (vsub (X (Thing 1%nat) 0) (X (Thing 0%nat) 0))) (Single (Some (vsub vzero vzero)))
    (Some (Single (vsub (X (Thing 0%nat) 0) (X (Code 399) 0)))) (Single 0)).
  split; [exists (Thing 0), (Thing 1), (Single 0); repeat split|]. repeat split. unfold X, vsub, vzero. cbn. intros E. injection E. intros. lra.
Qed.
