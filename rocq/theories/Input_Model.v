(** Model of how angles are given: [_interpret_angle] and [_ltude] of
    skyfield/units.py, [Topos] of toposlib.py, [Star] of starlib.py, the positions
    built from angles in positionlib.py, and data/hipparcos.py. Numbers given by the
    caller are exact and keep their sign bit; angles are real numbers of radians. *)
From Coq Require Import ZArith QArith Qreals Reals Bool String Ascii List.
From Verif Require Import PyNum Real_Math Units_Model Data_Model.
Import ListNotations.

(** A number or an array of numbers. *)
Inductive number := One (x : R) | Many (l : list R).
Definition each (f : R -> R) (n : number) : number := match n with One x => One (f x) | Many l => Many (map f l) end.
Definition real (x : snum) : R := Q2R (value_of x).

(** What a caller can pass. An [Angle] is its radians. Integers inside tuples, lists
    and arrays are numbers like the others. *)
Inductive arg :=
  | ANone | AInt (z : Z) | AFloat (x : snum) | AStr (s : txt) | ATuple (l : list snum) | AList (l : list snum)
  | AArray (l : list snum) | AAngle (radians : number) | AOther.
Inductive result (A : Type) := Ok (a : A) | TypeError | ValueError | StopIteration | KeyError.
Arguments Ok {A} _. Arguments TypeError {A}. Arguments ValueError {A}. Arguments StopIteration {A}. Arguments KeyError {A}.
Definition bind {A B} (r : result A) (f : A -> result B) : result B :=
  match r with Ok a => f a | TypeError => TypeError | ValueError => ValueError | StopIteration => StopIteration | KeyError => KeyError end.

(** units.py 521-548, [_unsexagesimalize]. *)
Definition unsex (a : arg) : result arg :=
  match a with
  | ATuple [] => StopIteration
  | ATuple l => Ok (AFloat (unsexagesimalize l))
  | _ => Ok a
  end.
(** functions.py 166-180, [_to_array], and then arithmetic, which refuses text.
    [float64(None)] is a nan in NumPy; no constructor below passes [None] on except
    [position_of_radec], and here it is refused. *)
Definition to_array (a : arg) : result number :=
  match a with
  | AInt z => Ok (One (IZR z))
  | AFloat x => Ok (One (real x))
  | ATuple l | AList l | AArray l => Ok (Many (map real l))
  | AStr _ | ANone | AAngle _ | AOther => TypeError
  end.
(** units.py 281-286: [Angle(degrees=...)], where a turn is 360, and [Angle(hours=...)],
    where it is 24; the radians. *)
Definition angle_given (turn : R) (a : arg) : result number :=
  bind (unsex a) (fun a => bind (to_array a) (fun n => Ok (each (fun x => x / turn * tau)%R n))).
(** units.py 550-566, [_interpret_angle]; arithmetic on Python's own objects. *)
Definition python_number (a : arg) : result number :=
  match a with
  | AInt z => Ok (One (IZR z))
  | AFloat x => Ok (One (real x))
  | AArray l => Ok (Many (map real l))
  | _ => TypeError
  end.
Definition interpret_angle (angle_object angle_float : arg) : result number :=
  match angle_object with
  | AAngle r => Ok r
  | ANone =>
      match angle_float with
      | ANone => ValueError
      | _ => bind (unsex angle_float) (fun a => bind (python_number a) (fun n => Ok (each (fun x => x / 360 * tau)%R n)))
      end
  | _ => ValueError
  end.

(** [str.upper] and [endswith] with one letter; units.py 568-586, [_ltude]. *)
Definition upper (c : ascii) : ascii :=
  if (97 <=? ord c)%Z && (ord c <=? 122)%Z then ascii_of_nat (nat_of_ascii c - 32) else c.
Definition last_is (c : ascii) (s : txt) : bool := match rev s with x :: _ => Ascii.eqb x c | [] => false end.
Definition signed_number (q : Q) : snum := S_ (Qltb q 0) (Qabs.Qabs q).
Definition ltude (value : arg) (psuffix nsuffix : ascii) : result arg :=
  match value with
  | AStr s =>
      let s := map upper (strip s) in
      let number sign := match py_float (removelast s) with
                         | Some q => Ok (AFloat (signed_number (sign * q)))
                         | None => ValueError
                         end in
      if last_is psuffix s then number 1%Q
      else if last_is nsuffix s then number (-1)%Q
      else ValueError
  | _ => unsex value
  end.
(** toposlib.py 302-330, [Topos.__init__]: one of its two angles, then both, in
    radians. *)
Definition topos_angle (value degrees : arg) (psuffix nsuffix : ascii) : result number :=
  match degrees with
  | ANone =>
      match value with
      | AAngle r => Ok (each (fun x => x / 360 * tau)%R (each (fun x => x * 360 / tau)%R r))
      | AStr _ | AFloat _ | ATuple _ => bind (ltude value psuffix nsuffix) (angle_given 360)
      | _ => TypeError
      end
  | _ => angle_given 360 degrees
  end.
(** The errors of text and types come before any angle is computed. *)
Definition topos (latitude longitude latitude_degrees longitude_degrees : arg) : result (number * number) :=
  bind (topos_angle latitude latitude_degrees "N" "S") (fun lat =>
  bind (topos_angle longitude longitude_degrees "E" "W") (fun lon => Ok (lat, lon))).

(** starlib.py 44-80, [Star.__init__], before the vectors are computed. *)
Record star := { s_ra : number; s_dec : number; s_ra_mas : arg; s_dec_mas : arg; s_parallax : arg; s_radial : arg; s_epoch : arg }.
Definition star_angle (turn : R) (object given : arg) : result number :=
  match given with
  | ANone => match object with AAngle r => Ok r | _ => TypeError end
  | _ => angle_given turn given
  end.
Definition star_init (ra dec ra_hours dec_degrees ra_mas dec_mas parallax radial epoch : arg) : result star :=
  bind (star_angle 24 ra ra_hours) (fun a =>
  bind (star_angle 360 dec dec_degrees) (fun d =>
  Ok {| s_ra := a; s_dec := d; s_ra_mas := ra_mas; s_dec_mas := dec_mas; s_parallax := parallax; s_radial := radial; s_epoch := epoch |})).
(** starlib.py 97-107 and 185-187, [from_dataframe] and [_unwrap]; a data frame is a
    function from names of columns. *)
Definition frame := string -> option arg.
Definition zero : snum := S_ false 0.
Definition column (df : frame) (name : string) : result arg := match df name with Some a => Ok a | None => KeyError end.
Definition get (df : frame) (name : string) (default : arg) : arg := match df name with Some a => a | None => default end.
Definition shift (x : snum) : snum := signed_number (1721045 + value_of x * (1461 # 4)).
Definition epoch_of (years : arg) : result arg :=
  match years with
  | AFloat x => Ok (AFloat (shift x))
  | AInt z => Ok (AFloat (shift (signed_number (inject_Z z))))
  | AArray l => Ok (AArray (map shift l))
  | _ => TypeError
  end.
Definition from_dataframe (df : frame) : result star :=
  bind (column df "epoch_year") (fun years => bind (epoch_of years) (fun epoch =>
  bind (column df "ra_hours") (fun ra_hours => bind (column df "dec_degrees") (fun dec_degrees =>
  star_init ANone ANone ra_hours dec_degrees (get df "ra_mas_per_year" (AInt 0)) (get df "dec_mas_per_year" (AInt 0))
            (get df "parallax_mas" (AInt 0)) (AFloat zero) epoch)))).

(** positionlib.py 53-54 and 110-111: the angles of [position_of_radec], of
    [position_from_radec] and of [from_radec]: declination, then right ascension. *)
Definition radec_angles (ra_hours dec_degrees : arg) : result (number * number) :=
  bind (to_array dec_degrees) (fun theta => bind (to_array ra_hours) (fun phi =>
  Ok (each (fun x => x / 360 * tau)%R theta, each (fun x => x / 24 * tau)%R phi))).
(** positionlib.py 645-646: the angles of [from_altaz]. *)
Definition altaz_angles (alt az alt_degrees az_degrees : arg) : result (number * number) :=
  bind (interpret_angle alt alt_degrees) (fun alt => bind (interpret_angle az az_degrees) (fun az => Ok (alt, az))).

(** data/hipparcos.py 33-46 and 61-76: the columns that are kept, in the order of the
    file, under their new names, and the two that are added. A field of blanks is a
    nan, here [None]; a field that is no number makes pandas keep a column of text,
    which is left out. *)
Record hip_row := { h_hip : option Q; h_magnitude : option Q; h_ra_degrees : option Q; h_dec_degrees : option Q;
                    h_parallax : option Q; h_ra_mas : option Q; h_dec_mas : option Q; h_ra_hours : option Q; h_epoch_year : Q }.
Fixpoint split_bar (word s : txt) : list txt :=
  match s with
  | [] => [rev word]
  | c :: r => if Ascii.eqb c "|" then rev word :: split_bar [] r else split_bar (c :: word) r
  end.
Definition hip_columns : list nat := [1; 5; 8; 9; 11; 12; 13]%nat.
Definition load_hip (line : txt) : option hip_row :=
  match map (fun k => py_float (nth k (split_bar [] line) [])) hip_columns with
  | [hip; magnitude; ra; dec; plx; pmra; pmdec] =>
      Some {| h_hip := hip; h_magnitude := magnitude; h_ra_degrees := ra; h_dec_degrees := dec; h_parallax := plx;
              h_ra_mas := pmra; h_dec_mas := pmdec; h_ra_hours := option_map (fun x => x / 15)%Q ra; h_epoch_year := (7965 # 4)%Q |}
  | _ => None
  end.
(** The data frame with a row of the catalogue, where nothing is missing. *)
Definition hip_frame (r : hip_row) : frame := fun name =>
  let of q := option_map (fun q => AFloat (signed_number q)) q in
  if String.eqb name "magnitude" then of (h_magnitude r) else if String.eqb name "ra_degrees" then of (h_ra_degrees r)
  else if String.eqb name "dec_degrees" then of (h_dec_degrees r) else if String.eqb name "parallax_mas" then of (h_parallax r)
  else if String.eqb name "ra_mas_per_year" then of (h_ra_mas r) else if String.eqb name "dec_mas_per_year" then of (h_dec_mas r)
  else if String.eqb name "ra_hours" then of (h_ra_hours r) else if String.eqb name "epoch_year" then of (Some (h_epoch_year r))
  else None.
