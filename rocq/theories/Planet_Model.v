(** Model of skyfield/planetarylib.py (frames of other bodies and places on them)
    and of [_to_spherical_and_rates] in functions.py, over real numbers. *)
From Coq Require Import Reals ZArith List String Bool.
From Verif Require Import Real_Math Vector_Model Geo_Model.
Import ListNotations.
Open Scope R_scope.

(** functions.py 10, [_AVOID_DIVIDE_BY_ZERO], and its addition in binary64, which
    changes nothing unless the other number is tiny as well. *)
Definition tiny : R := / 2 ^ 1022.
Definition tiny_limit : R := / 2 ^ 968.
Definition plus_tiny (s : R) : R := if Rlt_dec s tiny_limit then s + tiny else s.
(** functions.py 93-110, [_to_spherical_and_rates]: the latitude, longitude and
    length, then their rates. Only for vectors other than zero, where the division
    by the length gives nan. *)
Definition to_spherical_and_rates (r v : vec) : (R * R * R) * (R * R * R) :=
  let length := vlength r in
  let lat := atan2 (vz r) (hypot (vx r) (vy r)) in
  let lon := rmod (atan2 (vy r) (vx r)) tau in
  let range_rate := dot r v / length in
  let x2_plus_y2 := plus_tiny (vx r * vx r + vy r * vy r) in
  let lat_rate := (x2_plus_y2 * vz v - vz r * (vx r * vx v + vy r * vy v)) / ((x2_plus_y2 + vz r * vz r) * sqrt x2_plus_y2) in
  let lon_rate := (vx r * vy v - vx v * vy r) / x2_plus_y2 in
  ((lat, lon, length), (lat_rate, lon_rate, range_rate)).
(** positionlib.py 477-507, [frame_latlon_and_rates]. *)
Definition frame_latlon_and_rates (Rt : mat) (V : option mat) (r v : vec) : (R * R * R) * (R * R * R) :=
  let '(r, v) := frame_xyz_and_velocity Rt V r v in to_spherical_and_rates r v.

Definition mscale (k : R) (M : mat) : mat := M3 (smul k (r1 M)) (smul k (r2 M)) (smul k (r3 M)).
Definition DAY_S : R := 86400.
(** planetarylib.py 167-173, [Frame.rotation_at]; [ra], [dec], [w] are the angles the
    segment computes, [matrix] the attribute [_matrix]. *)
Definition frame_rotation_at (matrix : option mat) (ra dec w : R) : mat :=
  let Rt := mxm (rot_z (- w)) (mxm (rot_x (- dec)) (rot_z (- ra))) in
  match matrix with Some M => mxm M Rt | None => Rt end.
(** planetarylib.py 175-209, [Frame.rotation_and_rate_at]; the rates are per second. *)
Definition frame_rotation_and_rate_at (matrix : option mat) (ra dec w radot decdot wdot : R) : mat * mat :=
  let Rt := mxm (rot_z (- w)) (mxm (rot_x (- dec)) (rot_z (- ra))) in
  let ca := cos w in
  let sa := sin w in
  let u := cos dec in
  let v := - sin dec in
  let domega0 := wdot + u * radot in
  let domega1 := ca * decdot - sa * v * radot in
  let domega2 := sa * decdot + ca * v * radot in
  let drdtrt := M3 (V3 0 domega0 domega2) (V3 (- domega0) 0 domega1) (V3 (- domega2) (- domega1) 0) in
  let dRdt := mxm drdtrt Rt in
  match matrix with
  | Some M => (mxm M Rt, mscale DAY_S (mxm M dRdt))
  | None => (Rt, mscale DAY_S dRdt)
  end.
(** planetarylib.py 224-231, [PlanetTopos.from_latlon_distance]: the position fixed
    to the body. *)
Definition place_on_body (lat lon distance : R) : vec := mxv (rot_z lon) (mxv (rot_y (- lat)) (V3 distance 0 0)).
(** planetarylib.py 241-247, [PlanetTopos._at]. *)
Definition place_at (frame : mat * mat) (position : vec) : vec * vec :=
  (mxv (transp (fst frame)) position, mxv (transp (snd frame)) position).
(** planetarylib.py 249-265, [PlanetTopos.rotation_at]. *)
Definition place_rotation_at (lat lon : R) (Rt : mat) : mat :=
  let Rt := mxmxm (rot_y (tau / 4 - lat)) (rot_z (tau / 2 - lon)) Rt in
  M3 (r1 Rt) (vopp (r2 Rt)) (r3 Rt).

(** ** [PlanetaryConstants]

    planetarylib.py 26-30: the variables read from text kernels and the map from
    body code to segment. A key is the name formatted from its parts; a value is a
    whole number, a text, or a list of numbers. *)
Inductive key :=
| FRAME (name : string) | CENTER (n : Z) | SPEC (n : Z) | ANGLES (n : Z) | AXES (n : Z) | UNITS (n : Z) | MATRIX (n : Z) | RELATIVE (n : Z).
Inductive value := Whole (n : Z) | Text (s : string) | Numbers (l : list R) | Wholes (l : list Z).
Inductive build_error := ValueError | KeyError | IndexError | TypeError | NotImplementedError | LookupError | AssertionError.
Inductive built (A : Type) := Built (a : A) | Raised (e : build_error).
Arguments Built {A} _.
Arguments Raised {A} _.
Definition bind {A B} (x : built A) (f : A -> built B) : built B := match x with Built a => f a | Raised e => Raised e end.
(** A segment of a binary kernel, as used: its base frame and its angles. *)
Record orientation := { base : Z; angles_at : R -> R * R * R }.
Record frame := { f_center : value; f_segment : orientation; f_matrix : option mat }.
(** planetarylib.py 150-151: the rotation for an axis number, and the only unit. A
    negative axis number counts from the end of the tuple. *)
Definition rotation_of_axis (axis : Z) : built (R -> mat) :=
  (if Z.eqb axis 0 then Raised TypeError
   else if Z.eqb axis 1 then Built rot_x
   else if Z.eqb axis 2 then Built rot_y
   else if Z.eqb axis 3 then Built rot_z
   else if Z.eqb axis (-1) then Built rot_z
   else if Z.eqb axis (-2) then Built rot_y
   else if Z.eqb axis (-3) then Built rot_x
   else if Z.eqb axis (-4) then Raised TypeError
   else Raised IndexError)%Z.
Definition unit_scale (units : value) : built R :=
  match units with Text s => if string_dec s "ARCSECONDS" then Built ASEC2RAD else Raised KeyError | Whole _ => Raised KeyError | _ => Raised TypeError end.
(** planetarylib.py 111-114, the loop over angles and axes. *)
Fixpoint apply_angles (scale : R) (angles : list R) (axes : list Z) (matrix : mat) : built mat :=
  match angles, axes with
  | angle :: angles, axis :: axes =>
      bind (rotation_of_axis axis) (fun rot => apply_angles scale angles axes (mxm (rot (angle * scale)) matrix))
  | _, _ => Built matrix
  end.
(** planetarylib.py 115-118: nine numbers, row by row. *)
Definition matrix_of (v : value) : built mat :=
  match v with
  | Numbers [a; b; c; d; e; f; g; h; i] => Built (M3 (V3 a b c) (V3 d e f) (V3 g h i))
  | _ => Raised ValueError
  end.
Definition identity_matrix : mat := M3 (V3 1 0 0) (V3 0 1 0) (V3 0 0 1).
Section Constants.
Variable variables : key -> option value.
Variable segment_map : Z -> option orientation.
(** planetarylib.py 85-92, [_get_assignment]; and the plain subscript. *)
Definition get_assignment (k : key) : built value := match variables k with Some v => Built v | None => Raised ValueError end.
Definition subscript (k : key) : built value := match variables k with Some v => Built v | None => Raised KeyError end.
(** planetarylib.py 120-135: the end of [build_frame], after the matrix. *)
Definition finish_frame (center : value) (integer : Z) (matrix : option mat) : built frame :=
  match segment_map integer with
  | None => Raised LookupError
  | Some s => if Z.eqb (base s) 1 then Built {| f_center := center; f_segment := s; f_matrix := matrix |} else Raised AssertionError
  end.
(** planetarylib.py 99-135, [build_frame], without its second argument. *)
Definition build_frame (integer : Z) : built frame :=
  bind (get_assignment (CENTER integer)) (fun center =>
  match variables (SPEC integer) with
  | None => finish_frame center integer None
  | Some spec =>
      bind (match spec with
            | Text "ANGLES" =>
                bind (subscript (ANGLES integer)) (fun angles =>
                bind (subscript (AXES integer)) (fun axes =>
                bind (subscript (UNITS integer)) (fun units =>
                bind (unit_scale units) (fun scale =>
                match angles, axes with
                | Numbers angles, Wholes axes => apply_angles scale angles axes identity_matrix
                | _, _ => Raised TypeError
                end))))
            | Text "MATRIX" => bind (subscript (MATRIX integer)) matrix_of
            | _ => Raised NotImplementedError
            end) (fun matrix =>
      bind (subscript (RELATIVE integer)) (fun relative =>
      match relative with
      | Text name =>
          bind (subscript (FRAME name)) (fun v =>
          match v with Whole n => finish_frame center n (Some matrix) | _ => Raised LookupError end)
      | _ => Raised KeyError
      end))
  end).
(** planetarylib.py 94-97, [build_frame_named]. *)
Definition build_frame_named (name : string) : built frame :=
  bind (get_assignment (FRAME name)) (fun v => match v with Whole n => build_frame n | _ => Raised ValueError end).
End Constants.
Definition rotation_of_frame (f : frame) (t : R) : mat :=
  let '(ra, dec, w) := angles_at (f_segment f) t in frame_rotation_at (f_matrix f) ra dec w.
(** planetarylib.py 137-148, [build_latlon_degrees]: the distance from the centre, for
    the three radii of the body in kilometres. *)
Definition place_radius (a b c elevation_m au_km : R) : built R :=
  if Req_EM_T a b then if Req_EM_T b c then Built ((a + elevation_m * (1 / 1000)) / au_km) else Raised ValueError else Raised ValueError.
