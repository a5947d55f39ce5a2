(** Model of skyfield/relativity.py, starlib.py, of the limb and refraction
    functions of earthlib.py, and of [Astrometric.apparent] in positionlib.py,
    over the real numbers. One vector at a time. *)
From Coq Require Import Reals ZArith List Bool.
From Verif Require Import Real_Math Vector_Model Geo_Model.
Import ListNotations.
Open Scope R_scope.

(** constants.py 5-32. *)
Definition AU_M : R := 149597870700.
Definition AU_KM : R := 149597870700 / 1000.
Definition DAY_S : R := 86400.
Definition DEG2RAD : R := 17453292519943296 / 10 ^ 18.
Definition RAD2DEG : R := 57295779513082321 / 10 ^ 15.
Definition C : R := 299792458.
Definition GS : R := 132712440017987 * 10 ^ 6.
Definition ERAD : R := 63781366 / 10.
Definition C_AUDAY : R := C * DAY_S / AU_M.
(** [x + _AVOID_DIVIDE_BY_ZERO] (functions.py 10): adding the smallest normal
    float changes a float only if that is about as small, so the sum is
    modelled as [x] unless [x] is zero. *)
Definition tiny : R := / 2 ^ 1022.
Definition plus_tiny (x : R) : R := if Req_EM_T x 0 then tiny else x.
(** [where(x, x, 1.0)]. *)
Definition or_one (x : R) : R := if Req_EM_T x 0 then 1 else x.
(** [numpy.clip]. *)
Definition clip (x lo hi : R) : R := Rmin (Rmax x lo) hi.

(** relativity.py 164-187, [add_aberration]; the updated position. *)
Definition add_aberration (position velocity : vec) (light_time : R) : vec :=
  let p1mag := light_time * C_AUDAY in
  let vemag := vlength velocity in
  let beta := vemag / C_AUDAY in
  let dt := dot position velocity in
  let cosd := dt / plus_tiny (p1mag * vemag) in
  let gammai := sqrt (1 - beta * beta) in
  let p := beta * cosd in
  let q := (1 + p / (1 + gammai)) * light_time in
  let r := 1 + p in
  smul (/ r) (vadd (smul gammai position) (smul q velocity)).

(** relativity.py 104-123, [light_time_difference]. *)
Definition light_time_difference (position deflector_position : vec) : R :=
  let dis := vlength position in
  let u1 := smul (/ plus_tiny dis) position in
  dot u1 deflector_position / C_AUDAY.

(** relativity.py 125-162, [_compute_deflection]. [None]: the result is nan,
    because [emag] or [fac2] is zero and so a zero is multiplied by an infinity
    or divided by zero. *)
Definition hat (v : vec) : vec := smul (/ or_one (vlength v)) v.
Definition compute_deflection (position pe : vec) (rmass : R) : option vec :=
  let pq := vadd position pe in
  let pmag := vlength position in
  let emag := vlength pe in
  let phat := hat position in
  let qhat := hat pq in
  let ehat := hat pe in
  let pdotq := dot phat qhat in
  let qdote := dot qhat ehat in
  let edotp := dot ehat phat in
  let flag := if Rle_dec (Rabs edotp) (99999999999 / 10 ^ 11) then 1 else 0 in
  let fac1 := 2 * GS / (C * C * emag * AU_M * rmass) in
  let fac2 := 1 + qdote in
  if Req_EM_T emag 0 then None
  else if Req_EM_T fac2 0 then None
  else Some (smul (flag * fac1 / fac2 * pmag) (vsub (smul pdotq ehat) (smul edotp qhat))).

(** relativity.py 80-102, [_compute_deflector_position]; [body] is
    [deflector.at(time).xyz.au]. *)
Definition compute_deflector_position (t : R) (observer position : vec) (body : R -> vec) (tlt : R) : vec :=
  let gpv := vsub (body t) observer in
  let dlt := light_time_difference position gpv in
  let tclose := t - clip dlt 0 tlt in
  vsub observer (body tclose).

(** earthlib.py 13, 66-108, [compute_limb_angle]. *)
Definition earth_radius_au : R := ERAD / AU_M.
Definition compute_limb_angle (position_au observer_au : vec) : R * R :=
  let disobj := sqrt (dot position_au position_au) in
  let disobs := sqrt (dot observer_au observer_au) in
  let aprad := asin (Rmin (earth_radius_au / disobs) 1) in
  let zdlim := PI - aprad in
  let coszd := clip (dot position_au observer_au / (disobj * disobs)) (-1) 1 in
  let zdobj := acos coszd in
  ((zdlim - zdobj) * RAD2DEG, (PI - zdobj) / aprad).

(** relativity.py 7-34, the masses. *)
Definition rmasses : list (Z * R) :=
  [(199%Z, 6023600); (299%Z, 40852371 / 100); (399%Z, 332946050895 / 10 ^ 6); (499%Z, 3098708); (599%Z, 10473486 / 10 ^ 4);
   (699%Z, 3497898 / 10 ^ 3); (799%Z, 2290298 / 100); (899%Z, 1941224 / 100); (999%Z, 135200000); (10%Z, 1);
   (301%Z, 27068700387534 / 10 ^ 6)].
Definition rmass_of (code : Z) : option R := option_map snd (find (fun p => (fst p =? code)%Z) rmasses).
(** What [apparent] can do besides returning: KeyError for a body without a known
    mass, ValueError for one missing from the ephemeris. *)
Inductive apparent_result := Position (v : vec) | NotANumber | UnknownMass (code : Z) | MissingBody (code : Z).
(** positionlib.py 768-788, one pass of the loop. [ephemeris] gives the positions
    of the bodies it has. *)
Definition deflect_by (ephemeris : Z -> option (R -> vec)) (t : R) (observer : vec) (tlt : R) (target : vec) (code : Z) : apparent_result :=
  match rmass_of code with
  | None => UnknownMass code
  | Some rmass =>
      let code := if (code mod 100 =? 99)%Z && match ephemeris code with None => true | _ => false end
                  then (code / 100)%Z else code in
      match ephemeris code with
      | None => MissingBody code
      | Some body =>
          match compute_deflection target (compute_deflector_position t observer target body tlt) rmass with
          | None => NotANumber
          | Some d => Position (vadd target d)
          end
      end
  end.
Fixpoint deflect_all (ephemeris : Z -> option (R -> vec)) (t : R) (observer : vec) (tlt : R) (target : vec) (codes : list Z) : apparent_result :=
  match codes with
  | [] => Position target
  | code :: codes =>
      match deflect_by ephemeris t observer tlt target code with
      | Position target => deflect_all ephemeris t observer tlt target codes
      | other => other
      end
  end.
(** positionlib.py 728-806, [Astrometric.apparent], the position. [gcrs] is
    [_observer_gcrs_au], or [None]. A nan stays nan. *)
Definition apparent (ephemeris : Z -> option (R -> vec)) (t : R) (observer velocity : vec) (gcrs : option vec)
  (target : vec) (light_time : R) (codes : list Z) : apparent_result :=
  match deflect_all ephemeris t observer (vlength target / C_AUDAY) target codes with
  | Position target =>
      match gcrs with
      | None => Position (add_aberration target velocity light_time)
      | Some g =>
          match compute_deflection target g (332946050895 / 10 ^ 6) with
          | None => NotANumber
          | Some d =>
              let nadir := snd (compute_limb_angle target g) in
              let seen := if Rle_dec (8 / 10) nadir then 1 else 0 in
              Position (add_aberration (vadd target (smul seen d)) velocity light_time)
          end
      end
  | other => other
  end.

(** starlib.py 135-183, [_compute_vectors], for one star with a numeric parallax. *)
Definition star_parallax (parallax_mas : R) : R := if Rle_dec parallax_mas 0 then / 10 ^ 6 else parallax_mas.
Definition star_distance (parallax_mas : R) : R := 1 / sin (star_parallax parallax_mas * (1 / 10 ^ 3) * ASEC2RAD).
Definition star_position (ra dec parallax_mas : R) : vec :=
  let dist := star_distance parallax_mas in
  V3 (dist * cos dec * cos ra) (dist * cos dec * sin ra) (dist * sin dec).
Definition doppler (radial_km_per_s : R) : R := 1 / (1 - radial_km_per_s / C * 1000).
Definition star_velocity (ra dec ra_mas_per_year dec_mas_per_year parallax_mas radial_km_per_s : R) : vec :=
  let parallax := star_parallax parallax_mas in
  let k := doppler radial_km_per_s in
  let pmr := ra_mas_per_year / (parallax * (36525 / 100)) * k in
  let pmd := dec_mas_per_year / (parallax * (36525 / 100)) * k in
  let rvl := radial_km_per_s * DAY_S / AU_KM * k in
  let cra := cos ra in let sra := sin ra in let cdc := cos dec in let sdc := sin dec in
  V3 (- pmr * sra - pmd * sdc * cra + rvl * cdc * cra)
     (pmr * cra - pmd * sdc * sra + rvl * cdc * sra)
     (pmd * cdc + rvl * sdc).
(** starlib.py 109-133, [_observe_from_bcrs]: vector, velocity and light time. *)
Definition star_observe (position velocity : vec) (epoch tdb : R) (observer observer_velocity : vec) : vec * vec * R :=
  let dt := light_time_difference position observer in
  let position := vadd position (smul (tdb + dt - epoch) velocity) in
  let vector := vsub position observer in
  let vel := vsub observer_velocity velocity in
  (vector, vel, vlength vector / C_AUDAY).

(** earthlib.py 139-148, [refraction]. *)
Definition refraction (alt_degrees temperature_C pressure_mbar : R) : R :=
  let r := (16667 / 10 ^ 6) / tan ((alt_degrees + (731 / 100) / (alt_degrees + 44 / 10)) * DEG2RAD) in
  let d := r * ((28 / 100) * pressure_mbar / (temperature_C + 273)) in
  if Rle_dec (-1) alt_degrees then if Rle_dec alt_degrees (899 / 10) then d else 0 else 0.
(** earthlib.py 150-159, [refract], for one altitude: at most [fuel] passes of the
    loop, [None] if it is still going. *)
Fixpoint refract_loop (fuel : nat) (alt_degrees temperature_C pressure_mbar alt : R) : option R :=
  match fuel with
  | O => None
  | S fuel =>
      let alt_new := alt_degrees + refraction alt temperature_C pressure_mbar in
      if Rlt_dec (3 / 10 ^ 5) (Rabs (alt_new - alt))
      then refract_loop fuel alt_degrees temperature_C pressure_mbar alt_new
      else Some alt_new
  end.
Definition refract (fuel : nat) (alt_degrees temperature_C pressure_mbar : R) : option R :=
  refract_loop fuel alt_degrees temperature_C pressure_mbar alt_degrees.

(** The same for an array: one pass updates the elements still marked, then marks
    those that moved. *)
Record refracting := { given : R; current : R; mask : bool }.
Definition refract_pass (temperature_C pressure_mbar : R) (x : refracting) : refracting :=
  let alt_new := given x + refraction (current x) temperature_C pressure_mbar in
  let alt := if mask x then alt_new else current x in
  {| given := given x; current := alt; mask := if Rlt_dec (3 / 10 ^ 5) (Rabs (alt - current x)) then true else false |}.
Fixpoint refract_passes (fuel : nat) (temperature_C pressure_mbar : R) (xs : list refracting) : option (list R) :=
  if existsb mask xs then
    match fuel with
    | O => None
    | S fuel => refract_passes fuel temperature_C pressure_mbar (map (refract_pass temperature_C pressure_mbar) xs)
    end
  else Some (map current xs).
Definition refract_array (fuel : nat) (alt_degrees : list R) (temperature_C pressure_mbar : R) : option (list R) :=
  refract_passes fuel temperature_C pressure_mbar (map (fun a => {| given := a; current := a; mask := true |}) alt_degrees).
