(** Model in binary64 of places on an ellipsoid: from latitude, longitude and elevation to
    the vector in the axes of the Earth, and back. The angles are in radians and the
    lengths in au, after the conversions of units. The functions of the mathematical
    library are parameters. *)
From Coq Require Import ZArith.
From Verif Require Import Float64 Wrap_Model SepF_Model.
From Verif Require Measure_Model.
Open Scope Z_scope.

(** toposlib.py 139-146, [Geoid.__init__]: the radius in au and the inverse flattening. *)
Record geoid64 := Geoid64 { g_radius : b64; g_finv : b64 }.
Definition omf2_64 (g : geoid64) : b64 := let omf := fdiv (fsub (g_finv g) (of_Z 1)) (g_finv g) in fmul omf omf.
Definition e2_64 (g : geoid64) : b64 := let f := fdiv (of_Z 1) (g_finv g) in fsub (fmul (of_Z 2) f) (fmul f f).
(** toposlib.py 285-286; the floats of the literals 298.257223563, 6378136.6 and
    298.25642. *)
Definition wgs84_64 : geoid64 := Geoid64 (fdiv (of_Z 6378137) Measure_Model.AU_M64) (fl 5246996566011272 (-44)).
Definition iers2010_64 : geoid64 := Geoid64 (fdiv (fl 6848472026605158 (-30)) Measure_Model.AU_M64) (fl 5246982429581477 (-44)).

Section Library.
Variables (arctan2 : b64 -> b64 -> b64) (sin cos : b64 -> b64).
(** toposlib.py 182-200, [Geoid.latlon]. *)
Definition latlon64 (g : geoid64) (lat lon elevation : b64) : fvec :=
  let sinphi := sin lat in
  let cosphi := cos lat in
  let omf2 := omf2_64 g in
  let c := fdiv (of_Z 1) (fsqrt (fadd (fmul cosphi cosphi) (fmul (fmul sinphi sinphi) omf2))) in
  let s := fmul omf2 c in
  let radius_xy := fmul (g_radius g) c in
  let xy := fmul (fadd radius_xy elevation) cosphi in
  let x := fmul xy (cos lon) in
  let y := fmul xy (sin lon) in
  let radius_z := fmul (g_radius g) s in
  F3 x y (fmul (fadd radius_z elevation) sinphi).
(** toposlib.py 268-281, [_compute_latitude]: one round, and the loop; the results aC,
    hyp and lat. *)
Definition latitude_round64 (g : geoid64) (R z lat : b64) : b64 * b64 * b64 :=
  let sin_lat := sin lat in
  let e2_sin_lat := fmul (e2_64 g) sin_lat in
  let aC := fdiv (g_radius g) (fsqrt (fsub (of_Z 1) (fmul e2_sin_lat sin_lat))) in
  let hyp := fadd z (fmul aC e2_sin_lat) in
  (aC, hyp, arctan2 hyp R).
Definition radius_xy64 (p : fvec) : b64 := fsqrt (fadd (fmul (fx p) (fx p)) (fmul (fy p) (fy p))).
Definition compute_latitude64 (g : geoid64) (p : fvec) : b64 * b64 * b64 :=
  let R := radius_xy64 p in
  let lat := arctan2 (fz p) R in
  let '(_, _, lat) := latitude_round64 g R (fz p) lat in
  let '(_, _, lat) := latitude_round64 g R (fz p) lat in
  latitude_round64 g R (fz p) lat.
(** toposlib.py 236-245, [geographic_position_of]: latitude, longitude and elevation; the
    same expressions are in [latlon_of] and [height_of]. *)
Definition geographic64 (g : geoid64) (p : fvec) : b64 * b64 * b64 :=
  let R := radius_xy64 p in
  let '(aC, hyp, lat) := compute_latitude64 g p in
  let lon := geographic_longitude64 (arctan2 (fy p) (fx p)) in
  (lat, lon, fsub (fsqrt (fadd (fmul hyp hyp) (fmul R R))) aC).
End Library.
