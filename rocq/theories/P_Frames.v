(** Reference frames (C143-C145). *)
From Coq Require Import Reals Lra Lia ZArith String Bool.
From Coq Require Import List.
From Verif Require Import Real_Math Vector_Model Vector_Proofs Geo_Model Geo_Spec Geo_Proofs Spin_Model Position_Model Frames_Model Frames_Spec Frames_Proofs3.
Import ListNotations.
Open Scope R_scope.

(** * C143 *)
Theorem C143_matrices_are_as_defined : forall name T, spice name = Some T ->
  exists D, In (name, D) definitions /\ rotation D /\ close T D (3 / 10 ^ 16).
Proof. exact as_defined. Qed.
Print Assumptions C143_matrices_are_as_defined.
Theorem C143_every_definition_has_its_matrix : forall name D, In (name, D) definitions -> exists T, spice name = Some T /\ close T D (3 / 10 ^ 16).
Proof. exact all_there. Qed.
Print Assumptions C143_every_definition_has_its_matrix.
(** The definition by the IAU in 1958: the north galactic pole is at right ascension 12h 49m
    (192.25 degrees) and declination 27.4 degrees of the equinox of 1950, and the north
    celestial pole is at galactic longitude 123 degrees. *)
Theorem C143_galactic_pole_and_origin : forall v,
  (mxv FK4_def v = direction 192.25 27.4 -> vclose (mxv (spice_matrix "GALACTIC") v) (V3 0 0 1) (1 / 10 ^ 15)) /\
  (mxv FK4_def v = V3 0 0 1 -> vclose (mxv (spice_matrix "GALACTIC") v) (direction 123 27.4) (1 / 10 ^ 15)).
Proof. exact galactic_poles. Qed.
Print Assumptions C143_galactic_pole_and_origin.
Theorem C143_ecliptic_of_J2000 : forall l,
  vclose (mxv (spice_matrix "ECLIPJ2000") (on_ecliptic (arcseconds 84381.448) l)) (V3 (cos l) (sin l) 0) (1 / 10 ^ 15).
Proof. exact ecliptic_J2000_plane. Qed.
Print Assumptions C143_ecliptic_of_J2000.
Theorem C143_named_frames : forall at_tt t, exists B E G, rotation_at_ at_tt equatorial_B1950_frame t = Ok (Single B) /\ close B B1950_def (3 / 10 ^ 16) /\
  rotation_at_ at_tt ecliptic_J2000_frame t = Ok (Single E) /\ close E ECLIPJ2000_def (3 / 10 ^ 16) /\
  rotation_at_ at_tt galactic_frame t = Ok (Single G) /\ close G GALACTIC_def (3 / 10 ^ 16).
Proof. exact named_frames. Qed.
Print Assumptions C143_named_frames.
Example C143_ex : spice "GALACTIC" <> None /\ spice "MARSIAU" <> None /\ (exists v, mxv FK4_def v = direction 192.25 27.4) /\ List.length definitions = 21%nat.
Proof.
  split; [discriminate|]. split; [discriminate|]. split; [|reflexivity]. exists (mxv (transp FK4_def) (direction 192.25 27.4)). rewrite <- mxv_mxm, (proj1 (proj1 FK4_rotation)). apply mxv_id.
Qed.

(** * C144 *)
Theorem C144_fixed_frames : forall name T, spice name = Some T -> preserves T (4 / 10 ^ 15).
Proof. exact table_preserves. Qed.
Print Assumptions C144_fixed_frames.
Theorem C144_all_frames : forall at_tt f t m, In f frames -> rotation_at_ at_tt f t = Ok m -> all_of (fun m => preserves m (1 / 10 ^ 13)) m.
Proof. exact frames_preserve. Qed.
Print Assumptions C144_all_frames.
Example C144_ex : In ecliptic_frame frames /\ forall at_tt t, exists m, rotation_at_ at_tt ecliptic_frame (Some (Many [t; t + 1])) = Ok m.
Proof. split; [do 3 right; left; reflexivity|]. intros at_tt t. eexists. reflexivity. Qed.

(** * C145 *)
Theorem C145_latitude_and_longitude_give_the_vector_back : forall at_tt f t x lat lon d, In f frames ->
  frame_latlon at_tt f t (Single x) = Ok (Single (lat, lon, d)) ->
  - (PI / 2) <= lat <= PI / 2 /\ 0 <= lon < tau /\ Rabs (d - vlength x) <= 1 / 10 ^ 13 * vlength x /\
  exists m, rotation_at_ at_tt f t = Ok (Single m) /\ from_spherical d lat lon = mxv m x /\
    vlength (vsub (mxv (transp m) (from_spherical d lat lon)) x) <= 1 / 10 ^ 13 * vlength x.
Proof. exact latlon_recovers. Qed.
Print Assumptions C145_latitude_and_longitude_give_the_vector_back.
Theorem C145_arrays : forall at_tt f ts xs i tt x, List.length ts = List.length xs -> nth_error ts i = Some tt -> nth_error xs i = Some x ->
  exists l y, frame_latlon at_tt f (Some (Many ts)) (Many xs) = Ok (Many l) /\ nth_error l i = Some y /\
    frame_latlon at_tt f (Some (Single tt)) (Single x) = Ok (Single y).
Proof. exact latlon_each. Qed.
Print Assumptions C145_arrays.
Theorem C145_ecliptic_of_date : forall at_tt tt v l, 0 <= l < tau ->
  mxv (Spin_Model.M_of (at_tt tt)) v = on_ecliptic (mean_obliquity_radians (at_tt tt) + d_eps (at_tt tt)) l ->
  frame_latlon at_tt ecliptic_frame (Some (Single tt)) (Single v) = Ok (Single (0, l, 1)).
Proof. exact ecliptic_of_date_longitude. Qed.
Print Assumptions C145_ecliptic_of_date.
Theorem C145_equatorial_frames_are_radec : forall at_tt w p, (forall tt, Position_Model.M_of w tt = Spin_Model.M_of (at_tt tt)) ->
  radec w p EpochDate = bind (frame_latlon at_tt true_equator_and_equinox_of_date (when p) (xyz p)) (fun l => Ok (arr_map swapped l)) /\
  radec w p NoEpoch = bind (frame_latlon at_tt ICRS_frame (when p) (xyz p)) (fun l => Ok (arr_map swapped l)).
Proof. exact true_equator_is_radec. Qed.
Print Assumptions C145_equatorial_frames_are_radec.
Theorem C145_old_names : forall at_tt p jd,
  ecliptic_xyz at_tt p NoEpoch = frame_xyz at_tt ecliptic_J2000_frame (when p) (xyz p) /\
  ecliptic_latlon at_tt p NoEpoch = frame_latlon at_tt ecliptic_J2000_frame (when p) (xyz p) /\
  ecliptic_xyz at_tt p EpochDate = frame_xyz at_tt ecliptic_frame (when p) (xyz p) /\
  ecliptic_latlon at_tt p EpochDate = frame_latlon at_tt ecliptic_frame (when p) (xyz p) /\
  ecliptic_xyz at_tt p (EpochFloat jd) = ecliptic_xyz at_tt p (EpochTime (Single jd)) /\
  ecliptic_latlon at_tt p (EpochFloat jd) = ecliptic_latlon at_tt p (EpochTime (Single jd)) /\
  ecliptic_xyz at_tt p EpochOther = Raise ValueError /\ ecliptic_latlon at_tt p EpochOther = Raise ValueError /\
  (when p = None -> ecliptic_xyz at_tt p EpochDate = Raise AttributeError /\ ecliptic_latlon at_tt p EpochDate = Raise AttributeError /\
     ecliptic_xyz at_tt p NoEpoch <> Raise AttributeError /\ galactic_xyz at_tt p <> Raise AttributeError).
Proof. exact old_names. Qed.
Print Assumptions C145_old_names.
Theorem C145_fixed_frames_by_old_names : forall at_tt p m x v, spice "GALACTIC" = Some m -> xyz p = Single x -> velocity p = Single (Some v) ->
  galactic_xyz at_tt p = Ok (Single (mxv m x)) /\ galactic_latlon at_tt p = Ok (Single (latlon (mxv m x))) /\
  forall e, spice "ECLIPJ2000" = Some e -> ecliptic_xyz at_tt p NoEpoch = Ok (Single (mxv e x)) /\ ecliptic_velocity at_tt p = Ok (Single (Some (mxv e v))).
Proof. exact old_galactic. Qed.
Print Assumptions C145_fixed_frames_by_old_names.
Example C145_ex : (0 <= PI / 2 < tau) /\ forall at_tt x, exists y, frame_latlon at_tt galactic_frame None (Single x) = Ok (Single y).
Proof. split; [pose proof PI_RGT_0; unfold tau; lra|]. intros at_tt x. eexists. reflexivity. Qed.
