(** Model of the reference frames of skyfield/framelib.py and skyfield/data/spice.py,
    and of the accessors of skyfield/positionlib.py that use them. *)
From Coq Require Import Reals ZArith List Bool String.
From Coq Require Import List.
From Verif Require Import Real_Math Vector_Model Geo_Model Spin_Model Position_Model.
Import ListNotations.
Open Scope R_scope.

(** data/spice.py 5-81, [inertial_frames], as the decimal numbers that are written there
    (the floats nearest to them are what NumPy holds). *)
Definition inertial_frames : list (string * mat) := [
  ("J2000", M3 (V3 1 0 0)
        (V3 0 1 0)
        (V3 0 0 1));
  ("B1950", M3 (V3 0.99992570795236291 0.011178938126427691 0.0048590038414544293)
        (V3 (- 0.011178938137770135) 0.9999375133499887 (- 2.715792625851078e-05))
        (V3 (- 0.0048590038153592712) (- 2.7162594714247048e-05) 0.9999881946023742));
  ("FK4", M3 (V3 0.99992567949568767 0.011181483239171792 0.0048590037723143858)
        (V3 (- 0.01118148322046629) 0.99993748489331347 (- 2.7170293744002029e-05))
        (V3 (- 0.0048590038153592712) (- 2.7162594714247048e-05) 0.9999881946023742));
  ("DE-118", M3 (V3 0.99992567914061581 0.011181514992482714 0.0048590037714515821)
        (V3 (- 0.011181514973402329) 0.99993748453824161 (- 2.7170448043105616e-05))
        (V3 (- 0.0048590038153592712) (- 2.7162594714247048e-05) 0.9999881946023742));
  ("DE-96", M3 (V3 0.99992568569166396 0.011180929131774816 0.004859003787369841)
        (V3 (- 0.011180929119611181) 0.99993749108928975 (- 2.7167601165747207e-05))
        (V3 (- 0.0048590038153592712) (- 2.7162594714247048e-05) 0.9999881946023742));
  ("DE-102", M3 (V3 0.99992570058677066 0.011179596947047826 0.004859003823560055)
        (V3 (- 0.011179596950612145) 0.99993750598439646 (- 2.716112767048625e-05))
        (V3 (- 0.0048590038153592712) (- 2.7162594714247048e-05) 0.9999881946023742));
  ("DE-108", M3 (V3 0.99992568207060584 0.011181252967069354 0.0048590037785712081)
        (V3 (- 0.011181252951082478) 0.99993748746823163 (- 2.7169174781036253e-05))
        (V3 (- 0.0048590038153592712) (- 2.7162594714247048e-05) 0.9999881946023742));
  ("DE-111", M3 (V3 0.99992567608045124 0.011181788652696216 0.0048590037640154644)
        (V3 (- 0.011181788630384961) 0.99993748147807704 (- 2.7171777842249146e-05))
        (V3 (- 0.0048590038153592712) (- 2.7162594714247048e-05) 0.9999881946023742));
  ("DE-114", M3 (V3 0.99992567798323728 0.011181618493732738 0.004859003768639205)
        (V3 (- 0.011181618473430402) 0.99993748338086308 (- 2.7170950987511777e-05))
        (V3 (- 0.0048590038153592712) (- 2.7162594714247048e-05) 0.9999881946023742));
  ("DE-122", M3 (V3 0.99992567913790542 0.011181515234874401 0.0048590037714449962)
        (V3 (- 0.011181515215791154) 0.99993748453553122 (- 2.7170449220961369e-05))
        (V3 (- 0.0048590038153592712) (- 2.7162594714247048e-05) 0.9999881946023742));
  ("DE-125", M3 (V3 0.99992567676350608 0.011181727569991416 0.0048590037656752851)
        (V3 (- 0.011181727548401311) 0.99993748216113176 (- 2.7171481022599927e-05))
        (V3 (- 0.0048590038153592712) (- 2.7162594714247048e-05) 0.9999881946023742));
  ("DE-130", M3 (V3 0.99992567951195044 0.011181481784821675 0.0048590037723539028)
        (V3 (- 0.011181481766133343) 0.99993748490957624 (- 2.7170286676867509e-05))
        (V3 (- 0.0048590038153592712) (- 2.7162594714247048e-05) 0.9999881946023742));
  ("GALACTIC", M3 (V3 (- 0.054875539395742523) (- 0.87343710472759606) (- 0.48383499177002515))
        (V3 0.49410945362774389 (- 0.44482959429757496) 0.74698224869989183)
        (V3 (- 0.86766613568337381) (- 0.19807638961301985) 0.45598379452141991));
  ("DE-200", M3 (V3 1 0 0)
        (V3 0 1 0)
        (V3 0 0 1));
  ("DE-202", M3 (V3 1 0 0)
        (V3 0 1 0)
        (V3 0 0 1));
  ("MARSIAU", M3 (V3 0.67325774746002498 0.73940787491414595 (- 3.6947768825436786e-17))
        (V3 (- 0.58963083782625325) 0.53688031082163401 0.60340285625473833)
        (V3 0.44616082366044196 (- 0.40624564781301037) 0.79743651350036859));
  ("ECLIPJ2000", M3 (V3 1 0 0)
        (V3 0 0.91748206206918181 0.39777715593191371)
        (V3 0 (- 0.39777715593191371) 0.91748206206918181));
  ("ECLIPB1950", M3 (V3 0.99992570795236291 0.011178938126427691 0.0048590038414544293)
        (V3 (- 0.012189277138214926) 0.91736881787898283 0.39785157220522011)
        (V3 (- 9.9405009203520217e-06) (- 0.3978812427417045) 0.91743692784599817));
  ("DE-140", M3 (V3 0.99992567653846676 0.011181770119802481 0.0048589521583800562)
        (V3 (- 0.011181770179728694) 0.99993748168487007 (- 2.7154519585747306e-05))
        (V3 (- 0.0048589520204735384) (- 2.7179184981447069e-05) 0.99998819485359658));
  ("DE-142", M3 (V3 0.99992567654026054 0.011181769732063588 0.0048589526815459912)
        (V3 (- 0.011181769790785997) 0.99993748168921248 (- 2.7154769316986656e-05))
        (V3 (- 0.0048589525464097748) (- 2.7178939228786992e-05) 0.99998819485104773));
  ("DE-143", M3 (V3 0.999925676543585 0.011181774307743055 0.0048589414674685858)
        (V3 (- 0.011181774330053015) 0.99993748163825025 (- 2.7162211525057475e-05))
        (V3 (- 0.0048589414161271738) (- 2.7171394236557294e-05) 0.99998819490533486))
]%string.
(** data/spice.py 83: the list made a dictionary, and a lookup in it; a later entry
    of the same name would replace an earlier one. *)
Fixpoint lookup (l : list (string * mat)) (name : string) : option mat :=
  match l with
  | [] => None
  | (n, m) :: l => match lookup l name with Some m' => Some m' | None => if String.eqb n name then Some m else None end
  end.
Definition spice (name : string) : option mat := lookup inertial_frames name.
Definition spice_matrix (name : string) : mat := match spice name with Some m => m | None => M3 vzero vzero vzero end.

(** framelib.py: what [rotation_at(t)] is for each kind of frame. The frames that turn
    with the Earth are in Spin_Model. *)
Inductive frame := Fixed (m : mat) | OfDate (f : moment -> mat).
(** framelib.py 37-50. *)
Definition ICRS_frame : frame := Fixed (M3 (V3 1 0 0) (V3 0 1 0) (V3 0 0 1)).
(** framelib.py 52-63; timelib.py 908-910 and 967, [Time.P]. *)
Definition mean_equator_and_equinox_of_date : frame := OfDate (fun t => mxm (compute_precession (tdb_of t)) bias).
(** framelib.py 65-91. *)
Definition true_equator_and_equinox_of_date : frame := OfDate Spin_Model.M_of.
(** framelib.py 148-160. *)
Definition build_ecliptic_matrix (t : moment) : mat :=
  let true_obliquity := mean_obliquity_radians t + d_eps t in mxm (rot_x (- true_obliquity)) (Spin_Model.M_of t).
Definition ecliptic_frame : frame := OfDate build_ecliptic_matrix.
(** framelib.py 162-182. *)
Definition equatorial_B1950_frame : frame := Fixed (spice_matrix "B1950").
Definition ecliptic_J2000_frame : frame := Fixed (spice_matrix "ECLIPJ2000").
Definition galactic_frame : frame := Fixed (spice_matrix "GALACTIC").

(** [rotation_at] with the time of a position, which may be [None]: then the frames of
    date look for an attribute of [None]. A time is its TT; [at_tt] is what the timescale
    and the theories of nutation make of it. *)
Definition rotation_at_ (at_tt : R -> moment) (f : frame) (t : option (arr R)) : outcome (arr mat) :=
  match f with
  | Fixed m => Ok (Single m)
  | OfDate g => match t with None => Raise AttributeError | Some t => Ok (arr_map (fun tt => g (at_tt tt)) t) end
  end.
(** positionlib.py 433-441, [frame_xyz]. *)
Definition frame_xyz (at_tt : R -> moment) (f : frame) (t : option (arr R)) (x : arr vec) : outcome (arr vec) :=
  bind (rotation_at_ at_tt f t) (fun m => bcast mxv m x).
(** positionlib.py 443-460, [frame_xyz_and_velocity], of frames that have no rate. *)
Definition frame_xyz_and_velocity_ (at_tt : R -> moment) (f : frame) (p : position) : outcome (arr vec * arr (option vec)) :=
  bind (rotation_at_ at_tt f (when p)) (fun m =>
  bind (bcast mxv m (xyz p)) (fun r =>
  bind (bcast (fun m v => option_map (mxv m) v) m (velocity p)) (fun v => Ok (r, v)))).
(** positionlib.py 462-475, [frame_latlon]: latitude, longitude and distance. *)
Definition latlon (v : vec) : R * R * R := let '(d, lat, lon) := to_spherical v in (lat, lon, d).
Definition frame_latlon (at_tt : R -> moment) (f : frame) (t : option (arr R)) (x : arr vec) : outcome (arr (R * R * R)) :=
  bind (rotation_at_ at_tt f t) (fun m => bind (bcast mxv m x) (fun x => Ok (arr_map latlon x))).
(** positionlib.py 921-933, [_Fake]: the time that an epoch means. A time built from a
    float has no timescale, and none is needed for the equator and ecliptic of date. *)
Definition fake_time (p : position) (e : epoch) : outcome (option (arr R)) :=
  match e with
  | EpochTime t => Ok (Some t)
  | EpochFloat jd => Ok (Some (Single jd))
  | EpochDate => Ok (when p)
  | _ => Raise ValueError
  end.
(** positionlib.py 415-430: the old names. *)
Definition ecliptic_xyz (at_tt : R -> moment) (p : position) (e : epoch) : outcome (arr vec) :=
  match e with
  | NoEpoch => frame_xyz at_tt ecliptic_J2000_frame (when p) (xyz p)
  | _ => bind (fake_time p e) (fun t => frame_xyz at_tt ecliptic_frame t (xyz p))
  end.
Definition ecliptic_velocity (at_tt : R -> moment) (p : position) : outcome (arr (option vec)) :=
  bind (frame_xyz_and_velocity_ at_tt ecliptic_J2000_frame p) (fun rv => Ok (snd rv)).
Definition ecliptic_latlon (at_tt : R -> moment) (p : position) (e : epoch) : outcome (arr (R * R * R)) :=
  match e with
  | NoEpoch => frame_latlon at_tt ecliptic_J2000_frame (when p) (xyz p)
  | _ => bind (fake_time p e) (fun t => frame_latlon at_tt ecliptic_frame t (xyz p))
  end.
Definition galactic_xyz (at_tt : R -> moment) (p : position) : outcome (arr vec) := frame_xyz at_tt galactic_frame (when p) (xyz p).
Definition galactic_latlon (at_tt : R -> moment) (p : position) : outcome (arr (R * R * R)) := frame_latlon at_tt galactic_frame (when p) (xyz p).
