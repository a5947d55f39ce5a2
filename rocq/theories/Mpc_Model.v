(** Model of minor planets and comets from their rows in the files of the Minor Planet
    Center: [mpcorb_orbit] and [comet_orbit] of skyfield/data/mpc.py, [_KeplerOrbit._at]
    and [elements_at_epoch] of skyfield/keplerlib.py. Over the real numbers; [None] is an
    exception. *)
From Coq Require Import Reals ZArith String.
From Verif Require Import Cal_Model Real_Math Vector_Model Geo_Model Frames_Model Kepler_Model Elements_Model.
Open Scope R_scope.

(** timelib.py 976-998, [julian_day] with a day that has a fraction. *)
Definition julian_day_real (year month : Z) (day : R) (julian_before : option Z) : R :=
  let y := ((month - 1) / 12)%Z in
  let month := ((month - 1) mod 12)%Z in
  let year := (year + y)%Z in
  let month := (month + 1)%Z in
  let janfeb := (month <=? 2)%Z in
  let g := (year + 4716 - b2z janfeb)%Z in
  let f := ((month + 9) mod 12)%Z in
  let e := IZR (1461 * g / 4) + day - 1402 in
  let J := e + IZR ((153 * f + 2) / 5) in
  let mask := match julian_before with
              | None => 1
              | Some c => if Rle_dec (IZR c) J then 1 else 0
              end in
  J + IZR (38 - (g + 184) / 100 * 3 / 4) * mask.
(** timelib.py 301-312 with [_jd] 205-210: the TT of [ts.tt(year, month, day)]. *)
Definition tt_of_day (cut : option Z) (year month : Z) (day : R) : R := julian_day_real year month day cut - 1 / 2.
(** data/mpc.py 215-237: the date and the orbit of a comet. *)
Definition comet_of_row (cut : option Z) (perihelion_year perihelion_month : Z) (perihelion_day q e i Om w gm_km3_s2 : R) : option orbit :=
  comet_orbit q e i Om w (tt_of_day cut perihelion_year perihelion_month perihelion_day) gm_km3_s2.
(** data/mpc.py 80-110, [mpcorb_orbit]; the epoch is unpacked in Data_Model. *)
Definition mpcorb_orbit (a e i Om w M epoch gm_km3_s2 : R) : option orbit :=
  let p := a * (1 - e * e) in
  from_mean_anomaly p e i Om w M epoch gm_km3_s2.
(** data/mpc.py 109 and 236: [inertial_frames['ECLIPJ2000'].T]. *)
Definition to_equator : mat := transp (spice_matrix "ECLIPJ2000"%string).
(** keplerlib.py 222-237, [_KeplerOrbit._at]; [fuel] and [bound] as in [propagate]. *)
Definition orbit_at (rotation : option mat) (fuel : nat) (bound : R) (o : orbit) (tt : R) : option (vec * vec) :=
  match propagate stumpff fuel bound (o_position o) (o_velocity o) (o_epoch o) tt (mu_au3_d2 o) with
  | Some (pos, vel) => match rotation with Some M => Some (mxv M pos, mxv M vel) | None => Some (pos, vel) end
  | None => None
  end.
(** keplerlib.py 239-245, [elements_at_epoch]. *)
Definition elements_at_epoch (o : orbit) : option elements :=
  osculating (km (o_position o)) (km_per_s (o_velocity o)) (mu_au3_d2 o / CONVERT_GM).
