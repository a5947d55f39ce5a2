(** Model of position angles, the stereographic projection, planetary magnitudes
    and phase angles, over real numbers. *)
From Coq Require Import Reals ZArith List Bool.
From Verif Require Import Real_Math Vector_Model Geo_Model.
Import ListNotations.
Open Scope R_scope.

(** ** trigonometry.py *)
(** The parts of an [Angle] that are looked at: its radians, whether it is signed,
    and whether its preference is ['hours']. *)
Record sky_angle := { a_radians : R; a_signed : bool; a_hours : bool }.
(** trigonometry.py 38-44: latitude and longitude of a pair. *)
Definition lat_and_lon (p : sky_angle * sky_angle) : sky_angle * sky_angle :=
  let '(lat, lon) := p in if a_signed lon then (lon, lat) else (lat, lon).
(** trigonometry.py 46-49. *)
Definition eastward (lon : sky_angle) : R := if a_hours lon then a_radians lon else - a_radians lon.
(** trigonometry.py 7-54, [position_angle_of], in radians. *)
Definition position_angle_of (anglepair1 anglepair2 : sky_angle * sky_angle) : R :=
  let '(lat1, lon1) := lat_and_lon anglepair1 in
  let '(lat2, lon2) := lat_and_lon anglepair2 in
  let lon1 := eastward lon1 in
  let lon2 := eastward lon2 in
  let lat1 := a_radians lat1 in
  let lat2 := a_radians lat2 in
  rmod (atan2 (sin (lon2 - lon1)) (cos lat1 * tan lat2 - sin lat1 * cos (lon2 - lon1))) tau.

(** ** projections.py *)
(** Division with [None] for a zero divisor (NumPy gives nan or an infinity). *)
Definition divide (a b : R) : option R := if Req_EM_T b 0 then None else Some (a / b).
(** [p / length_of(p)]. *)
Definition unit_of (p : vec) : option vec := if Req_EM_T (vlength p) 0 then None else Some (smul (/ vlength p) p).
Fixpoint units_of (ps : list vec) : option (list vec) :=
  match ps with
  | [] => Some []
  | p :: r => match unit_of p, units_of r with Some u, Some us => Some (u :: us) | _, _ => None end
  end.
Definition vsum (us : list vec) : vec := fold_right vadd vzero us.
(** projections.py 44-50: one centre, or the mean of several. *)
Definition center_of_one (p : vec) : option vec := unit_of p.
Definition center_of_many (ps : list vec) : option vec :=
  match units_of ps with
  | Some us => unit_of (smul (/ INR (length us)) (vsum us))
  | None => None
  end.
(** projections.py 53-69, [project]. *)
Definition project (c position : vec) : option (R * R) :=
  match unit_of position with
  | None => None
  | Some u =>
      let '(V3 x_c y_c z_c) := c in
      let '(V3 x y z) := u in
      match divide 1 (sqrt (x_c * x_c + y_c * y_c)) with
      | None => None
      | Some t0 =>
          let t1 := x * x_c in
          let t2 := sqrt (- (z_c * z_c) + 1) in
          let t3 := t0 * t2 in
          let t4 := y * y_c in
          match divide 1 (t1 * t3 + t3 * t4 + z * z_c + 1) with
          | None => None
          | Some t5 =>
              let t6 := t0 * z_c in
              Some (t0 * t5 * (x * y_c - x_c * y), - t5 * (t1 * t6 - t2 * z + t4 * t6))
          end
      end
  end.

(** ** magnitudelib.py *)
(** [numpy.log10]; [None] (nan or an infinity) for arguments that are not positive. *)
Definition log10 (x : R) : option R := if Rlt_dec 0 x then Some (ln x / ln 10) else None.
Definition plus (a b : option R) : option R := match a, b with Some x, Some y => Some (x + y) | _, _ => None end.
Definition times (k : R) (a : option R) : option R := option_map (Rmult k) a.
Definition degrees_of (radians : R) : R := radians * (360 / tau).
(** [5 * log10(r * delta)], and [2.5 * log10(r * r) + 2.5 * log10(delta * delta)]. *)
Definition distance_factor (r delta : R) : option R := times 5 (log10 (r * delta)).
Definition distance_factor2 (r delta : R) : option R := plus (times (5 / 2) (log10 (r * r))) (times (5 / 2) (log10 (delta * delta))).

(** magnitudelib.py 118-128, [_mercury_magnitude]. *)
Definition mercury_magnitude (r delta ph : R) : option R :=
  let ph_ang_factor := 6.3280e-02 * ph - 1.6336e-03 * ph ^ 2 + 3.3644e-05 * ph ^ 3 - 3.4265e-07 * ph ^ 4 + 1.6893e-09 * ph ^ 5 - 3.0334e-12 * ph ^ 6 in
  plus (plus (Some (-0.613)) (distance_factor r delta)) (Some ph_ang_factor).
(** magnitudelib.py 130-142, [_venus_magnitude]. *)
Definition venus_magnitude (r delta ph : R) : option R :=
  let condition := if Rlt_dec ph 163.7 then true else false in
  let a0 := if condition then 0 else 236.05828 + 4.384 in
  let a1 := if condition then - 1.044E-03 else - 2.81914E+00 in
  let a2 := if condition then 3.687E-04 else 8.39034E-03 in
  let a3 := if condition then - 2.814E-06 else 0 in
  let a4 := if condition then 8.938E-09 else 0 in
  let ph_ang_factor := (((a4 * ph + a3) * ph + a2) * ph + a1) * ph + a0 in
  plus (plus (Some (-4.384)) (distance_factor r delta)) (Some ph_ang_factor).
(** magnitudelib.py 144-147, [_earth_magnitude]. *)
Definition earth_magnitude (r delta ph : R) : option R :=
  let ph_ang_factor := -1.060e-03 * ph + 2.054e-04 * ph ^ 2 in
  plus (plus (Some (-3.99)) (distance_factor r delta)) (Some ph_ang_factor).
(** magnitudelib.py 149-187, [_mars_magnitude]. *)
Definition mars_magnitude (r delta ph : R) : option R :=
  let condition := if Rle_dec ph 50 then true else false in
  let a := if condition then 2.267E-02 else - 0.02573 in
  let b := if condition then - 1.302E-04 else 0.0003445 in
  let ph_ang_factor := a * ph + b * ph ^ 2 in
  plus (Some (if condition then -1.601 else -0.367)) (plus (distance_factor2 r delta) (Some ph_ang_factor)).
(** magnitudelib.py 189-206, [_jupiter_magnitude]. *)
Definition jupiter_polynomial (x : R) : R := ((((- 1.876 * x + 2.809) * x - 0.062) * x - 0.363) * x - 1.507) * x + 1.
Definition jupiter_magnitude (r delta ph : R) : option R :=
  if Rle_dec ph 12 then plus (plus (Some (-9.395)) (distance_factor r delta)) (Some ((6.16E-04 * ph - 3.7E-04) * ph))
  else plus (plus (Some (-9.428)) (distance_factor r delta)) (times (-2.5) (log10 (jupiter_polynomial (ph / 180)))).
(** magnitudelib.py 208-259, [_saturn_magnitude]. *)
Definition sub_lat_geoc (sun_sub_lat earth_sub_lat : R) : R :=
  let product := sun_sub_lat * earth_sub_lat in if Rle_dec 0 product then sqrt product else 0.
Definition saturn_magnitude (r delta ph sun_sub_lat earth_sub_lat : R) (rings : bool) : option R :=
  let sub := sub_lat_geoc sun_sub_lat earth_sub_lat in
  let within := if Rle_dec ph 6.5 then if Rle_dec sub 27 then true else false else false in
  let ap_mag :=
    if within then
      if rings then
        Some (-8.914 - 1.825 * sin (sub / (360 / tau)) + 0.026 * ph - 0.378 * sin (sub / (360 / tau)) * exp (-2.25 * ph))
      else Some (-8.95 - 3.7e-4 * ph + 6.16e-4 * ph ^ 2)
    else if (if Rlt_dec 6.5 ph then true else false) && negb rings
    then Some (-8.94 + 2.446e-4 * ph + 2.672e-4 * ph ^ 2 - 1.506e-6 * ph ^ 3 + 4.767e-9 * ph ^ 4)
    else None in
  plus ap_mag (distance_factor2 r delta).
(** magnitudelib.py 264-277, [_uranus_magnitude]. *)
Definition uranus_magnitude (r delta ph sun_sub_lat earth_sub_lat : R) : option R :=
  let sub_lat := (Rabs sun_sub_lat + Rabs earth_sub_lat) / 2 in
  plus (plus (plus (Some (-7.110)) (distance_factor r delta)) (Some (-0.00084 * sub_lat)))
       (Some (if Rlt_dec 3.1 ph then (1.045e-4 * ph + 6.587e-3) * ph else 0)).
(** magnitudelib.py 279-304, [_neptune_magnitude]. *)
Definition clipped (x lo hi : R) : R := Rmin (Rmax x lo) hi.
Definition neptune_magnitude (r delta ph year : R) : option R :=
  let ap_mag := plus (Some (clipped (-6.89 - 0.0054 * (year - 1980)) (-7.00) (-6.89))) (distance_factor2 r delta) in
  if Rlt_dec 1.9 ph then
    if Rle_dec 2000 year then plus (plus ap_mag (Some (7.944e-3 * ph))) (Some (9.617e-5 * ph ^ 2)) else None
  else ap_mag.

Inductive planet := Mercury | Venus | Earth | Mars | Jupiter | Saturn | Uranus | Neptune.
(** magnitudelib.py 306-325, [_FUNCTIONS]. *)
Definition magnitude_function (target : Z) : option planet :=
  match target with
  | 199 | 1 => Some Mercury
  | 299 | 2 => Some Venus
  | 399 => Some Earth
  | 499 | 4 => Some Mars
  | 599 | 5 => Some Jupiter
  | 699 | 6 => Some Saturn
  | 799 | 7 => Some Uranus
  | 899 | 8 => Some Neptune
  | _ => None
  end%Z.
(** magnitudelib.py 32-35. *)
Definition saturn_pole : vec := V3 0.08547883 0.07323576 0.99364475.
Definition uranus_pole : vec := V3 (-0.21199958) (-0.94155916) (-0.26176809).
(** Magnitude of a planet from distances, angles in degrees and the year. *)
Definition magnitude_of (p : planet) (r delta ph sun_lat observer_lat year : R) : option R :=
  match p with
  | Mercury => mercury_magnitude r delta ph
  | Venus => venus_magnitude r delta ph
  | Earth => earth_magnitude r delta ph
  | Mars => mars_magnitude r delta ph
  | Jupiter => jupiter_magnitude r delta ph
  | Saturn => saturn_magnitude r delta ph sun_lat observer_lat true
  | Uranus => uranus_magnitude r delta ph sun_lat observer_lat
  | Neptune => neptune_magnitude r delta ph year
  end.
Definition pole_of (p : planet) : vec := match p with Saturn => saturn_pole | Uranus => uranus_pole | _ => vzero end.
Inductive magnitude_result := Cannot_compute | Magnitude (m : option R).
(** magnitudelib.py 37-116, [planetary_magnitude]: position of the observer and
    vector to the planet; the Sun is at the origin; [year] is [t.J]. *)
Definition planetary_magnitude (target : Z) (sun_to_observer observer_to_planet : vec) (year : R) : magnitude_result :=
  match magnitude_function target with
  | None => Cannot_compute
  | Some p =>
      let sun_to_planet := vadd sun_to_observer observer_to_planet in
      let r := vlength sun_to_planet in
      let delta := vlength observer_to_planet in
      let ph_ang := degrees_of (angle_between sun_to_planet observer_to_planet) in
      let sun_sub_lat := degrees_of (angle_between (pole_of p) sun_to_planet) - 90 in
      let observer_sub_lat := degrees_of (angle_between (pole_of p) observer_to_planet) - 90 in
      Magnitude (magnitude_of p r delta ph_ang sun_sub_lat observer_sub_lat year)
  end.

(** ** Phase angle *)
(** positionlib.py 536-556, [phase_angle]: [target] is the vector from the
    observer, [center] and [sun] are barycentric. almanac.py 24-32 is the same. *)
Definition phase_angle (target center sun : vec) : R :=
  let v := vadd (vsub target sun) center in angle_between target v.
(** positionlib.py 558-570 and almanac.py 34-41, [fraction_illuminated]. *)
Definition fraction_illuminated (target center sun : vec) : R := / 2 * (1 + cos (phase_angle target center sun)).
(** positionlib.py 339-370, [separation_from], for two single positions. *)
Definition separation_from (u v : vec) : R := angle_between u v.
(** almanac.py 148-152, [moon_node_at]: the Moon's ecliptic latitude is positive. *)
Definition moon_node_at (ecliptic_moon : vec) : bool :=
  let '(_, lat, _) := to_spherical ecliptic_moon in if Rlt_dec 0 lat then true else false.
