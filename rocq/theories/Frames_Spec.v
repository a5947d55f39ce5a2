(** What the inertial frames are: the rotations by which the SPICE toolkit of NAIF defines
    them (chgirf.f, which builders/build_spice.py reads), with angles in arcseconds. *)
From Coq Require Import Reals List String.
From Coq Require Import List.
From Verif Require Import Real_Math Vector_Model Geo_Model Geo_Spec Position_Model Frames_Model.
Import ListNotations.
Open Scope R_scope.

Inductive axis := A1 | A2 | A3.
(** The coordinates that a vector has after the axes have been turned around one of them,
    by the angle of the given cosine and sine. *)
Definition turned (ax : axis) (c s : R) : mat :=
  match ax with
  | A1 => M3 (V3 1 0 0) (V3 0 c s) (V3 0 (- s) c)
  | A2 => M3 (V3 c 0 (- s)) (V3 0 1 0) (V3 s 0 c)
  | A3 => M3 (V3 c s 0) (V3 (- s) c 0) (V3 0 0 1)
  end.
Definition arcseconds (a : R) : R := a * PI / 648000.
Definition turn (ax : axis) (a : R) : mat := turned ax (cos (arcseconds a)) (sin (arcseconds a)).
(** The last rotation of a definition is made first, after those of the base frame. *)
Definition follows (l : list (R * axis)) (base : mat) : mat := fold_right (fun p m => mxm (turn (snd p) (fst p)) m) base l.

Definition B1950_def : mat := follows [(1152.84248596724, A3); ((- 1002.26108439117), A2); (1153.0406620033, A3)] identity.
Definition FK4_def : mat := follows [(0.525, A3)] B1950_def.
Definition DE_118_def : mat := follows [(0.53155, A3)] B1950_def.
Definition DE_96_def : mat := follows [(0.4107, A3)] B1950_def.
Definition DE_102_def : mat := follows [(0.1359, A3)] B1950_def.
Definition DE_108_def : mat := follows [(0.4775, A3)] B1950_def.
Definition DE_111_def : mat := follows [(0.588, A3)] B1950_def.
Definition DE_114_def : mat := follows [(0.5529, A3)] B1950_def.
Definition DE_122_def : mat := follows [(0.5316, A3)] B1950_def.
Definition DE_125_def : mat := follows [(0.5754, A3)] B1950_def.
Definition DE_130_def : mat := follows [(0.5247, A3)] B1950_def.
Definition GALACTIC_def : mat := follows [(1177200, A3); (225360, A1); (1016100, A3)] FK4_def.
Definition MARSIAU_def : mat := follows [(324000, A3); (133610.4, A2); ((- 152348.4), A3)] identity.
Definition ECLIPJ2000_def : mat := follows [(84381.448, A1)] identity.
Definition ECLIPB1950_def : mat := follows [(84404.836, A1)] B1950_def.
Definition DE_140_def : mat := follows [(1152.71013777252, A3); ((- 1002.25042010533), A2); (1153.75719544491, A3)] identity.
Definition DE_142_def : mat := follows [(1152.72061453864, A3); ((- 1002.25052830351), A2); (1153.74663857521, A3)] identity.
Definition DE_143_def : mat := follows [(1153.03919093833, A3); ((- 1002.24822382286), A2); (1153.42900222357, A3)] identity.
Definition definitions : list (string * mat) := [
  ("J2000", identity);
  ("B1950", B1950_def);
  ("FK4", FK4_def);
  ("DE-118", DE_118_def);
  ("DE-96", DE_96_def);
  ("DE-102", DE_102_def);
  ("DE-108", DE_108_def);
  ("DE-111", DE_111_def);
  ("DE-114", DE_114_def);
  ("DE-122", DE_122_def);
  ("DE-125", DE_125_def);
  ("DE-130", DE_130_def);
  ("GALACTIC", GALACTIC_def);
  ("DE-200", identity);
  ("DE-202", identity);
  ("MARSIAU", MARSIAU_def);
  ("ECLIPJ2000", ECLIPJ2000_def);
  ("ECLIPB1950", ECLIPB1950_def);
  ("DE-140", DE_140_def);
  ("DE-142", DE_142_def);
  ("DE-143", DE_143_def)]%string.

(** Each entry of one matrix within [e] of that of another. *)
Definition vclose (a b : vec) (e : R) : Prop := Rabs (vx a - vx b) <= e /\ Rabs (vy a - vy b) <= e /\ Rabs (vz a - vz b) <= e.
Definition close (A B : mat) (e : R) : Prop := vclose (r1 A) (r1 B) e /\ vclose (r2 A) (r2 B) e /\ vclose (r3 A) (r3 B) e.

(** A matrix that preserves lengths and angles to a relative [e], and whose transpose
    undoes it to that accuracy. *)
Definition preserves (A : mat) (e : R) : Prop :=
  (forall v, Rabs (vlength (mxv A v) - vlength v) <= e * vlength v) /\
  (forall u v, Rabs (dot (mxv A u) (mxv A v) - dot u v) <= e * (vlength u * vlength v)) /\
  (forall v, vlength (vsub (mxv (transp A) (mxv A v)) v) <= e * vlength v).

(** The direction of a right ascension and declination, or longitude and latitude, in degrees. *)
Definition degrees_ (a : R) : R := a * PI / 180.
Definition direction (lon lat : R) : vec :=
  V3 (cos (degrees_ lat) * cos (degrees_ lon)) (cos (degrees_ lat) * sin (degrees_ lon)) (sin (degrees_ lat)).
(** The point of the ecliptic that is [l] from the equinox, in coordinates of the equator. *)
Definition on_ecliptic (obliquity l : R) : vec := V3 (cos l) (sin l * cos obliquity) (sin l * sin obliquity).
(** One matrix, or each of an array of them. *)
Definition all_of {A} (P : A -> Prop) (a : arr A) : Prop := match a with Single x => P x | Many l => Forall P l end.
(** The frames of framelib.py that do not turn with the Earth. *)
Definition frames : list frame := [ICRS_frame; mean_equator_and_equinox_of_date; true_equator_and_equinox_of_date; ecliptic_frame; equatorial_B1950_frame; ecliptic_J2000_frame; galactic_frame].
(** Right ascension comes before declination, but latitude before longitude. *)
Definition swapped (a : R * R * R) : R * R * R := let '(x, y, z) := a in (y, x, z).
