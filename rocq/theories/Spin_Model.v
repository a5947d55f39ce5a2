(** Model of the rotation of the Earth: skyfield/earthlib.py, the sidereal times,
    polar motion and CIRS matrix of timelib.py, the terrestrial frames of
    framelib.py, the satellite frame of sgp4lib.py, and the deprecated conversions
    of earthlib.py and positionlib.py. Real numbers, one time at a time. [pi],
    [tau], [DEG2RAD] and [ASEC2RAD] stand for the exact numbers whose digits
    constants.py lists. *)
From Coq Require Import Reals List.
From Verif Require Import Real_Math Vector_Model Geo_Model.
Import ListNotations.
Open Scope R_scope.

(** constants.py 3-21. *)
Definition DAY_S : R := 86400.
Definition AU_M : R := 149597870700.
Definition ERAD : R := 6378136.6.
Definition ANGVEL : R := 72921150 / 10 ^ 12.
Definition IERS_2010_INVERSE_EARTH_FLATTENING : R := 298.25642.
Definition arcsecond : R := PI / 648000.
Definition degree : R := PI / 180.

(** earthlib.py 129-137, [earth_rotation_angle]. *)
Definition earth_rotation_angle (jd_ut1 fraction_ut1 : R) : R :=
  let th := 0.7790572732640 + 0.00273781191135448 * (jd_ut1 - T0 + fraction_ut1) in
  rmod (rmod th 1 + rmod jd_ut1 1 + fraction_ut1) 1.
(** earthlib.py 110-127, [sidereal_time]. *)
Definition sidereal_time (whole ut1_fraction tdb_fraction : R) : R :=
  let theta := earth_rotation_angle whole ut1_fraction in
  let t := (whole - T0 + tdb_fraction) / 36525 in
  let st := 0.014506 +
    ((((- (0.0000000368) * t - 0.000029956) * t - 0.00000044) * t + 1.3915817) * t + 4612.156534) * t in
  rmod (st / 54000 + theta * 24) 24.
(** nutationlib.py 71-98, [mean_obliquity], in arcseconds. *)
Definition mean_obliquity (jd_tdb : R) : R :=
  let t := (jd_tdb - T0) / 36525 in
  ((((- (0.0000000434) * t - 0.000000576) * t + 0.00200340) * t - 0.0001831) * t - 46.836769) * t + 84381.406.

(** A [Time]: its two floats, the fractions of the other scales (timelib.py
    829-847), the nutation angles in radians and the complementary terms of the
    equation of the equinoxes (nutationlib.py), and the polar motion table of its
    timescale: rows of TT, x and y in arcseconds. *)
Record moment := Moment {
  whole : R; tt_fraction : R; tdb_fraction : R; ut1_fraction : R;
  d_psi : R; d_eps : R; c_terms : R; polar_motion_table : option (list (R * R * R)) }.
(** timelib.py 867-881. *)
Definition tt_of (t : moment) : R := whole t + tt_fraction t.
Definition tdb_of (t : moment) : R := whole t + tdb_fraction t.
Definition ut1_of (t : moment) : R := whole t + ut1_fraction t.
(** timelib.py 804-807. *)
Definition mean_obliquity_radians (t : moment) : R := mean_obliquity (tdb_of t) * arcsecond.
(** timelib.py 850-863, [gmst] and [gast]. *)
Definition gmst (t : moment) : R := sidereal_time (whole t) (ut1_fraction t) (tdb_fraction t).
Definition gast (t : moment) : R :=
  let eq_eq := d_psi t * cos (mean_obliquity_radians t) + c_terms t in
  rmod (gmst t + eq_eq / tau * 24) 24.
(** timelib.py 748-767 and 900-911: [M], from nutation, precession and bias. *)
Definition M_of (t : moment) : mat :=
  let mean := mean_obliquity_radians t in
  time_M (build_nutation_matrix mean (mean + d_eps t) (d_psi t)) (compute_precession (tdb_of t)) bias.
(** timelib.py 774-783, [C] and [CT]. *)
Definition C_of (t : moment) : mat :=
  let eq_origins := earth_rotation_angle (ut1_of t) 0 - gast t / 24 in
  mxm (rot_z (2 * PI * eq_origins)) (M_of t).
Definition CT_of (t : moment) : mat := transp (C_of t).

(** [numpy.interp] for increasing abscissae: the end values are held. *)
Fixpoint interp_from (x x0 y0 : R) (rest : list (R * R)) : R :=
  match rest with
  | [] => y0
  | (x1, y1) :: rest => if Rlt_dec x x1 then (y1 - y0) / (x1 - x0) * (x - x0) + y0 else interp_from x x1 y1 rest
  end.
Definition interp (x : R) (table : list (R * R)) : R :=
  match table with
  | [] => 0
  | (x0, y0) :: rest => if Rle_dec x x0 then y0 else interp_from x x0 y0 rest
  end.
(** timelib.py 885-891, [polar_motion_angles], in arcseconds. *)
Definition polar_motion_angles (t : moment) : R * R * R :=
  match polar_motion_table t with
  | None => (0, 0, 0)
  | Some table =>
      let sprime := - (47.0e-6) * (tdb_of t - T0) / 36525 in
      (sprime, interp (tt_of t) (map (fun row => let '(jd, x, _) := row in (jd, x)) table),
               interp (tt_of t) (map (fun row => let '(jd, _, y) := row in (jd, y)) table))
  end.
(** timelib.py 893-899, [polar_motion_matrix]. *)
Definition polar_motion_matrix (t : moment) : mat :=
  let '(sprime, x, y) := polar_motion_angles t in
  mxmxm (rot_x (y * arcsecond)) (rot_y (x * arcsecond)) (rot_z (- sprime * arcsecond)).

(** framelib.py 106-109 and 132-138: [rotation_at] of [tirs] and of [itrs]. *)
Definition tirs_rotation_at (t : moment) : mat := mxm (rot_z (- gast t * tau / 24)) (M_of t).
Definition itrs_rotation_at (t : moment) : mat :=
  let Rt := mxm (rot_z (- gast t * tau / 24)) (M_of t) in
  match polar_motion_table t with Some _ => mxm (polar_motion_matrix t) Rt | None => Rt end.
(** framelib.py 89-93: [_itrs_angvel_matrix]. *)
Definition spin_matrix : mat := itrs_angvel_matrix (DAY_S * ANGVEL).
(** toposlib.py 28-50, [ITRSPosition]: its position and velocity at a time. *)
Definition site_at (itrs_xyz : vec) (t : moment) : vec * vec :=
  let RT := transp (itrs_rotation_at t) in
  (mxv RT itrs_xyz, mxv RT (smul (ANGVEL * DAY_S) (V3 (- vy itrs_xyz) (vx itrs_xyz) (0 * vz itrs_xyz)))).
(** toposlib.py 88-98, [lst_hours_at]. *)
Definition lst_hours_at (longitude_hours : R) (t : moment) : R :=
  let sprime := - (47.0e-6) * (whole t - T0 + tdb_fraction t) / 36525 in
  rmod (gast t + longitude_hours + sprime / 54000) 24.

(** sgp4lib.py 325-342, [theta_GMST1982]. *)
Definition theta_GMST1982 (jd_ut1 fraction_ut1 : R) : R * R :=
  let t := (jd_ut1 - T0 + fraction_ut1) / 36525 in
  let g := 67310.54841 + (8640184.812866 + (0.093104 + (- (6.2e-6)) * t) * t) * t in
  let dg := 8640184.812866 + (0.093104 * 2 + (- (6.2e-6) * 3) * t) * t in
  (rmod (rmod jd_ut1 1 + fraction_ut1 + rmod (g / DAY_S) 1) 1 * tau,
   (1 + dg / (DAY_S * 36525)) * tau).
(** sgp4lib.py 314-319, [TEME.rotation_at]. *)
Definition TEME_rotation_at (t : moment) : mat :=
  let '(theta, _) := theta_GMST1982 (whole t) (ut1_fraction t) in
  let angle := theta - gast t / 24 * tau in
  mxm (rot_z angle) (M_of t).
(** sgp4lib.py 348-350, [_cross]. *)
Definition cross_120 (a b : vec) : vec :=
  V3 (vy a * vz b - vz a * vy b) (vz a * vx b - vx a * vz b) (vx a * vy b - vy a * vx b).
(** sgp4lib.py 352-373, [TEME_to_ITRF]. *)
Definition TEME_to_ITRF (jd_ut1 : R) (rTEME vTEME : vec) (xp yp fraction_ut1 : R) : vec * vec :=
  let '(theta, theta_dot) := theta_GMST1982 jd_ut1 fraction_ut1 in
  let angular_velocity := smul theta_dot (V3 0 0 (-1)) in
  let Rt := rot_z (- theta) in
  let rPEF := mxv Rt rTEME in
  let vPEF := vadd (mxv Rt vTEME) (cross_120 angular_velocity rPEF) in
  if Req_EM_T xp 0 then
    if Req_EM_T yp 0 then (rPEF, vPEF)
    else let W := mxm (rot_x yp) (rot_y xp) in (mxv W rPEF, mxv W vPEF)
  else let W := mxm (rot_x yp) (rot_y xp) in (mxv W rPEF, mxv W vPEF).
(** sgp4lib.py 204-213, [EarthSatellite._at], from the kilometres that SGP4 returns;
    and 190-202, [ITRF_position_velocity_error]. *)
Definition AU_KM : R := 149597870.700.
Definition satellite_at (r_km v_km_s : vec) (t : moment) : vec * vec :=
  let r := smul (/ AU_KM) r_km in
  let v := smul DAY_S (smul (/ AU_KM) v_km_s) in
  let Rt := transp (TEME_rotation_at t) in
  (mxv Rt r, mxv Rt v).
Definition ITRF_position_velocity (r_km v_km_s : vec) (t : moment) : vec * vec :=
  TEME_to_ITRF (whole t) (smul (/ AU_KM) r_km) (smul DAY_S (smul (/ AU_KM) v_km_s)) 0 0 (ut1_fraction t).

(** positionlib.py 934-970, [ITRF_to_GCRS] and [ITRF_to_GCRS2]; [later] is the time
    one second after [t], which is looked at with [_high_accuracy]. *)
Definition ITRF_to_GCRS (t : moment) (r : vec) : vec := mxv (transp (itrs_rotation_at t)) r.
Definition second_spin (t later : moment) : R := (gast later - gast t) / 24 * tau.
Definition ITRF_to_GCRS2 (t : moment) (r v : vec) (high_accuracy : option moment) : vec * vec :=
  let angvel := match high_accuracy with Some later => second_spin t later | None => ANGVEL end in
  let spin := rot_z (gast t / 24 * tau) in
  let Rt := mxm (transp (M_of t)) spin in
  let z := 0 * angvel in
  let V := M3 (V3 z (- DAY_S * angvel) z) (V3 (DAY_S * angvel) z z) (V3 z z z) in
  let velocity := vadd v (mxv V r) in
  (mxv Rt r, mxv Rt velocity).

(** earthlib.py 11-44, [terra]; elevation in au, gast in hours. *)
Definition earth_radius_au : R := ERAD / AU_M.
Definition one_minus_flattening : R := 1 - 1 / IERS_2010_INVERSE_EARTH_FLATTENING.
Definition terra (latitude longitude elevation gast : R) : vec * vec :=
  let omf2 := one_minus_flattening * one_minus_flattening in
  let sinphi := sin latitude in
  let cosphi := cos latitude in
  let c := 1 / sqrt (cosphi * cosphi + sinphi * sinphi * omf2) in
  let s := omf2 * c in
  let ach := earth_radius_au * c + elevation in
  let ash := earth_radius_au * s + elevation in
  let stlocl := 15 * degree * gast + longitude in
  let ac := ach * cosphi in
  let acsst := ac * sin stlocl in
  let accst := ac * cos stlocl in
  (V3 accst acsst (0 + ash * sinphi), smul (ANGVEL * DAY_S) (V3 (- acsst) accst 0)).
(** earthlib.py 46-64, [reverse_terra]: latitude, longitude, and elevation in
    metres. Division by zero is as in Coq: see [C106]. *)
Fixpoint terra_rounds (n : nat) (a e2 z R0 C lat : R) : R * R :=
  match n with
  | O => (C, lat)
  | S n => let C := 1 / sqrt (1 - e2 * (sin lat * sin lat)) in terra_rounds n a e2 z R0 C (atan2 (z + a * C * e2 * sin lat) R0)
  end.
Definition reverse_terra (xyz_au : vec) (gast : R) (iterations : nat) : R * R * R :=
  let R0 := sqrt (vx xyz_au * vx xyz_au + vy xyz_au * vy xyz_au) in
  let lon := rmod (atan2 (vy xyz_au) (vx xyz_au) - 15 * degree * gast - PI) tau - PI in
  let lat := atan2 (vz xyz_au) R0 in
  let a := ERAD / AU_M in
  let f := 1 / IERS_2010_INVERSE_EARTH_FLATTENING in
  let e2 := 2 * f - f * f in
  let '(C, lat) := terra_rounds iterations a e2 (vz xyz_au) R0 1 lat in
  (lat, lon, (R0 / cos lat - a * C) * AU_M).
