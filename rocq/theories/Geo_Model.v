(** Model of the geometry in skyfield/functions.py, precessionlib.py,
    nutationlib.py, framelib.py, positionlib.py, geometry.py and toposlib.py, over
    the real numbers. One vector at a time: NumPy's extra array dimension is not
    modelled. *)
From Coq Require Import Reals.
From Verif Require Import Real_Math Vector_Model.
Open Scope R_scope.

(** A 3x3 matrix by rows. *)
Record mat := M3 { r1 : vec; r2 : vec; r3 : vec }.
(** functions.py 22-30, [dots]. *)
Definition dot (a b : vec) : R := vx a * vx b + vy a * vy b + vz a * vz b.
Definition smul (k : R) (a : vec) : vec := V3 (k * vx a) (k * vy a) (k * vz a).
(** functions.py 32-34, [T]. *)
Definition transp (M : mat) : mat :=
  M3 (V3 (vx (r1 M)) (vx (r2 M)) (vx (r3 M))) (V3 (vy (r1 M)) (vy (r2 M)) (vy (r3 M))) (V3 (vz (r1 M)) (vz (r2 M)) (vz (r3 M))).
(** functions.py 36-46, [mxv], [mxm], [mxmxm]. *)
Definition mxv (M : mat) (v : vec) : vec := V3 (dot (r1 M) v) (dot (r2 M) v) (dot (r3 M) v).
Definition mxm (A B : mat) : mat :=
  let T := transp B in
  M3 (V3 (dot (r1 A) (r1 T)) (dot (r1 A) (r2 T)) (dot (r1 A) (r3 T)))
     (V3 (dot (r2 A) (r1 T)) (dot (r2 A) (r2 T)) (dot (r2 A) (r3 T)))
     (V3 (dot (r3 A) (r1 T)) (dot (r3 A) (r2 T)) (dot (r3 A) (r3 T))).
Definition mxmxm (A B C : mat) : mat := mxm (mxm A B) C.

(** functions.py 132-151. *)
Definition rot_x (a : R) : mat := M3 (V3 1 0 0) (V3 0 (cos a) (- sin a)) (V3 0 (sin a) (cos a)).
Definition rot_y (a : R) : mat := M3 (V3 (cos a) 0 (sin a)) (V3 0 1 0) (V3 (- sin a) 0 (cos a)).
Definition rot_z (a : R) : mat := M3 (V3 (cos a) (- sin a) 0) (V3 (sin a) (cos a) 0) (V3 0 0 1).
(** functions.py 161-164. *)
Definition angular_velocity_matrix (w : vec) : mat :=
  M3 (V3 0 (- vz w) (vy w)) (V3 (vz w) 0 (- vx w)) (V3 (- vy w) (vx w) 0).

(** precessionlib.py 5-69, [compute_precession]. *)
Definition ASEC2RAD : R := 4848136811095359935899141 / 10 ^ 30.
Definition T0 : R := 2451545.
Definition precession_of_angles (eps0 psia omegaa chia : R) : mat :=
  let sa := sin eps0 in let ca := cos eps0 in
  let sb := sin (- psia) in let cb := cos (- psia) in
  let sc := sin (- omegaa) in let cc := cos (- omegaa) in
  let sd := sin chia in let cd := cos chia in
  M3 (V3 (cd * cb - sb * sd * cc)
         (cd * sb * ca + sd * cc * cb * ca - sa * sd * sc)
         (cd * sb * sa + sd * cc * cb * sa + ca * sd * sc))
     (V3 (- sd * cb - sb * cd * cc)
         (- sd * sb * ca + cd * cc * cb * ca - sa * cd * sc)
         (- sd * sb * sa + cd * cc * cb * sa + ca * cd * sc))
     (V3 (sb * sc)
         (- sc * cb * ca - sa * cc)
         (- sc * cb * sa + cc * ca)).
Definition eps0_arcsec : R := 84381406 / 1000.
Definition psia_arcsec (t : R) : R :=
  ((((- (951 / 10 ^ 10) * t + 132851 / 10 ^ 9) * t - 114045 / 10 ^ 8) * t - 10790069 / 10 ^ 7) * t + 5038481507 / 10 ^ 6) * t.
Definition omegaa_arcsec (t : R) : R :=
  (((((3337 / 10 ^ 10) * t - 467 / 10 ^ 9) * t - 772503 / 10 ^ 8) * t + 512623 / 10 ^ 7) * t - 25754 / 10 ^ 6) * t + eps0_arcsec.
Definition chia_arcsec (t : R) : R :=
  ((((- (560 / 10 ^ 10) * t + 170663 / 10 ^ 9) * t - 121197 / 10 ^ 8) * t - 23814292 / 10 ^ 7) * t + 10556403 / 10 ^ 6) * t.
Definition compute_precession (jd_tdb : R) : mat :=
  let t := (jd_tdb - T0) / 36525 in
  precession_of_angles (eps0_arcsec * ASEC2RAD) (psia_arcsec t * ASEC2RAD) (omegaa_arcsec t * ASEC2RAD) (chia_arcsec t * ASEC2RAD).

(** nutationlib.py 44-69, [build_nutation_matrix]. *)
Definition build_nutation_matrix (mean_obliquity true_obliquity psi : R) : mat :=
  let cobm := cos mean_obliquity in let sobm := sin mean_obliquity in
  let cobt := cos true_obliquity in let sobt := sin true_obliquity in
  let cpsi := cos psi in let spsi := sin psi in
  M3 (V3 cpsi (- spsi * cobm) (- spsi * sobm))
     (V3 (spsi * cobt) (cpsi * cobm * cobt + sobm * sobt) (cpsi * sobm * cobt - cobm * sobt))
     (V3 (spsi * sobt) (cpsi * cobm * sobt - sobm * cobt) (cpsi * sobm * sobt + cobm * cobt)).

(** framelib.py 9-34, [build_matrix]: the bias matrix B (ICRS_to_J2000). *)
Definition bias_of (xi0 eta0 da0 : R) : mat :=
  let yx := - da0 in let zx := xi0 in let xy := da0 in let zy := eta0 in let xz := - xi0 in let yz := - eta0 in
  M3 (V3 (1 - 1 / 2 * (yx * yx + zx * zx)) xy xz)
     (V3 yx (1 - 1 / 2 * (yx * yx + zy * zy)) yz)
     (V3 zx zy (1 - 1 / 2 * (zy * zy + zx * zx))).
Definition bias : mat := bias_of (- (166170 / 10 ^ 7) * ASEC2RAD) (- (68192 / 10 ^ 7) * ASEC2RAD) (- (1460 / 10 ^ 5) * ASEC2RAD).
(** timelib.py 748-767, [Time.M]. *)
Definition time_M (N P B : mat) : mat := mxmxm N P B.

(** functions.py 59-73, [angle_between]. *)
Definition angle_between (u v : vec) : R :=
  let a := smul (vlength v) u in
  let b := smul (vlength u) v in
  2 * atan2 (vlength (vsub a b)) (vlength (vadd a b)).

(** functions.py 75-91 and 112-125, [to_spherical] and [from_spherical];
    [hypot(x, y)] is the root of the sum of squares. *)
Definition hypot (x y : R) : R := sqrt (x * x + y * y).
Definition to_spherical (p : vec) : R * R * R :=
  (vlength p, atan2 (vz p) (hypot (vx p) (vy p)), rmod (atan2 (vy p) (vx p)) tau).
Definition from_spherical (r theta phi : R) : vec :=
  let rxy := r * cos theta in V3 (rxy * cos phi) (rxy * sin phi) (r * sin theta).

(** positionlib.py 443-460, [frame_xyz_and_velocity]. [V] is the matrix returned by
    [_dRdt_times_RT_at], or [None] when the frame has no such method. *)
Definition frame_xyz_and_velocity (Rt : mat) (V : option mat) (r v : vec) : vec * vec :=
  let r := mxv Rt r in
  let v := mxv Rt v in
  match V with Some V => (r, vadd v (mxv V r)) | None => (r, v) end.
(** positionlib.py 118-135, [from_time_and_frame_vectors]. *)
Definition from_time_and_frame_vectors (Rt : mat) (V : option mat) (r v : vec) : vec * vec :=
  let v := match V with Some V => vsub v (mxv V r) | None => v end in
  let RT := transp Rt in
  (mxv RT r, mxv RT v).

(** geometry.py 5-28, [intersect_line_and_sphere]; [None] is a pair of nans. *)
Definition intersect_line_and_sphere (endpoint center : vec) (radius : R) : option (R * R) :=
  let minus_b := 2 * dot (smul (/ vlength endpoint) endpoint) center in
  let c := dot center center - radius * radius in
  let discriminant := minus_b * minus_b - 4 * c in
  if Rlt_dec discriminant 0 then None
  else let dsqrt := sqrt discriminant in Some ((minus_b - dsqrt) / 2, (minus_b + dsqrt) / 2).
(** [nan_to_num] of one of them. *)
Definition nan_to_num (x : option R) : R := match x with Some a => a | None => 0 end.
(** positionlib.py 570-592, [is_sunlit], from the geocentric positions of the
    satellite and of the Sun; [erad] is ERAD. *)
Definition is_sunlit (satellite sun : vec) (erad : R) : bool :=
  let earth_m := vopp satellite in
  let near_far := intersect_line_and_sphere (vadd sun earth_m) earth_m erad in
  if Rle_dec (nan_to_num (option_map snd near_far)) 0 then true else false.
(** positionlib.py 594-610, [is_behind_earth]; [target] is seen from [observer]. *)
Definition is_behind_earth (observer target : vec) (erad : R) : bool :=
  let earth_m := vopp observer in
  let near_far := intersect_line_and_sphere target earth_m erad in
  if Rlt_dec 0 (nan_to_num (option_map snd near_far))
  then if Rlt_dec (nan_to_num (option_map fst near_far)) (vlength target) then true else false
  else false.

(** geometry.py 30-66, [line_and_ellipsoid_intersection]; [None] is nan. *)
Definition vdiv (a b : vec) : vec := V3 (vx a / vx b) (vy a / vy b) (vz a / vz b).
Definition vmul (a b : vec) : vec := V3 (vx a * vx b) (vy a * vy b) (vz a * vz b).
Definition vector_projection (a b : vec) : vec := smul (dot a b / dot b b) b.
Definition line_and_ellipsoid_intersection (line_start line_direction radii : vec) : option vec :=
  let start := vdiv line_start radii in
  let direction := vdiv line_direction radii in
  let closest_point := vsub start (vector_projection start direction) in
  let startmag := vlength start in
  let pmag := vlength closest_point in
  let sign :=
    if Rlt_dec startmag 1 then Some 1
    else if Rlt_dec (dot (vsub closest_point start) direction) 0 then None else Some (-1) in
  let half_chord_length := if Rlt_dec (1 - pmag * pmag) 0 then None else Some (sqrt (1 - pmag * pmag)) in
  let unit_direction := smul (/ vlength direction) direction in
  if Req_EM_T startmag 1 then Some line_start
  else match sign, half_chord_length with
       | Some s, Some h => Some (vmul (vadd closest_point (smul (s * h) unit_direction)) radii)
       | _, _ => None
       end.

(** toposlib.py 75-76: the rows of [rot_y(latitude)] in reverse, and the rotation
    from the Earth-fixed axes to north, east and up. *)
Definition R_lat (lat : R) : mat := let M := rot_y lat in M3 (r3 M) (r2 M) (r1 M).
Definition R_latlon (lat lon : R) : mat := mxm (R_lat lat) (rot_z (- lon)).
(** positionlib.py 883-908, [_to_altaz] without refraction: altitude, azimuth and
    distance of a vector given in Earth-fixed axes. *)
Definition altaz (lat lon : R) (p : vec) : R * R * R :=
  let '(r, alt, az) := to_spherical (mxv (R_latlon lat lon) p) in (alt, az, r).
(** positionlib.py 236-267, [hadec]: hour angle, declination and distance. *)
Definition hadec (lon : R) (p : vec) : R * R * R :=
  let '(r, dec, sublongitude) := to_spherical p in
  (rmod (lon - sublongitude + PI) tau - PI, dec, r).
(** positionlib.py 622-650, [from_altaz], in Earth-fixed axes. *)
Definition from_altaz (lat lon : R) (alt az r : R) : vec :=
  mxv (transp (R_latlon lat lon)) (from_spherical r alt az).

(** toposlib.py 128-190: [Geoid.__init__] and [latlon]. [a] is the radius and [finv]
    the inverse flattening. *)
Definition omf2 (finv : R) : R := let omf := (finv - 1) / finv in omf * omf.
Definition e2 (finv : R) : R := let f := 1 / finv in 2 * f - f * f.
Definition polar_radius (a finv : R) : R := a * (1 - 1 / finv).
Definition latlon (a finv lat lon elevation : R) : vec :=
  let sinphi := sin lat in
  let cosphi := cos lat in
  let omf2 := omf2 finv in
  let c := 1 / sqrt (cosphi * cosphi + sinphi * sinphi * omf2) in
  let s := omf2 * c in
  let xy := (a * c + elevation) * cosphi in
  V3 (xy * cos lon) (xy * sin lon) ((a * s + elevation) * sinphi).
(** toposlib.py 254-277, [_compute_latitude]: one round, and the whole loop. A
    state is (aC, hyp, lat). *)
Definition latitude_round (a finv x y z lat : R) : R * R * R :=
  let R0 := sqrt (x * x + y * y) in
  let sin_lat := sin lat in
  let e2_sin_lat := e2 finv * sin_lat in
  let aC := a / sqrt (1 - e2_sin_lat * sin_lat) in
  let hyp := z + aC * e2_sin_lat in
  (aC, hyp, atan2 hyp R0).
Definition compute_latitude (a finv : R) (p : vec) : R * R * R :=
  let '(x, y, z) := (vx p, vy p, vz p) in
  let lat := atan2 z (sqrt (x * x + y * y)) in
  let '(_, _, lat) := latitude_round a finv x y z lat in
  let '(_, _, lat) := latitude_round a finv x y z lat in
  latitude_round a finv x y z lat.
(** toposlib.py 203-235: [latlon_of] and [height_of]. *)
Definition height_from (x y aC hyp : R) : R :=
  let R0 := sqrt (x * x + y * y) in sqrt (hyp * hyp + R0 * R0) - aC.
Definition longitude_of (p : vec) : R := rmod (atan2 (vy p) (vx p) - PI) tau - PI.

(** framelib.py 89-103 and 125-133: the rotation of the [tirs] frame, and of the
    [itrs] frame when no polar motion table is loaded. [theta] is the sidereal
    time in radians and [w] is DAY_S * ANGVEL. *)
Definition itrs_rotation (theta : R) (M : mat) : mat := mxm (rot_z (- theta)) M.
Definition itrs_angvel_matrix (w : R) : mat := M3 (V3 0 w 0) (V3 (- w) 0 0) (V3 0 0 0).
(** framelib.py 148-152, [build_ecliptic_matrix]. *)
Definition ecliptic_rotation (true_obliquity : R) (M : mat) : mat := mxm (rot_x (- true_obliquity)) M.
(** toposlib.py 30-33 and 43-50: velocity of an Earth-fixed position, and its
    position and velocity in the GCRS. *)
Definition itrs_velocity (w : R) (r : vec) : vec := V3 (w * - vy r) (w * vx r) (w * (0 * vz r)).
Definition itrs_at (w theta : R) (M : mat) (r : vec) : vec * vec :=
  let RT := transp (itrs_rotation theta M) in (mxv RT r, mxv RT (itrs_velocity w r)).
(** toposlib.py 117-125: rotation to the horizon frame and its rate. *)
Definition topos_rotation (lat lon theta : R) (M : mat) : mat := mxm (R_latlon lat lon) (itrs_rotation theta M).
Definition topos_rate (w lat : R) : mat := angular_velocity_matrix (mxv (R_lat lat) (V3 0 0 w)).
