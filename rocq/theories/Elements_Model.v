(** Model of [osculating_elements_of] and of the attributes of [OsculatingElements] in
    skyfield/elementslib.py that Kepler_Model.v leaves out, for one state and for
    arrays of states. Over the real numbers; [None] is an exception, or an infinite
    number where a number is expected. *)
From Coq Require Import Reals ZArith List Bool.
From Verif Require Import Real_Math Vector_Model Geo_Model Kepler_Model.
Import ListNotations.
Open Scope R_scope.

(** data/gravitational_parameters.py 3-82, [GM_dict]: km^3/s^2 by code, in the decimal
    digits written there. *)
Definition GM_dict : list (Z * R) :=
  [(0%Z, 13289051879223172 / 10 ^ 5); (1%Z, 22031780000000021 / 10 ^ 12); (2%Z, 32485859200000006 / 10 ^ 11);
   (3%Z, 40350323550225981 / 10 ^ 11); (4%Z, 42828375214000022 / 10 ^ 12); (5%Z, 12671276480000021 / 10 ^ 8);
   (6%Z, 37940585200000003 / 10 ^ 9); (7%Z, 5794548600000008 / 10 ^ 9); (8%Z, 68365271005800236 / 10 ^ 10);
   (9%Z, 97700000000000068 / 10 ^ 14); (10%Z, 13271244004193938 / 10 ^ 5); (199%Z, 22031780000000021 / 10 ^ 12);
   (299%Z, 32485859200000006 / 10 ^ 11); (399%Z, 39860043543609598 / 10 ^ 11); (499%Z, 4282837362069909 / 10 ^ 11);
   (599%Z, 1266865349115908 / 10 ^ 7); (699%Z, 379312072349389 / 10 ^ 7); (799%Z, 5793951322279009 / 10 ^ 9);
   (899%Z, 6835099502439672 / 10 ^ 9); (999%Z, 8693390780381926 / 10 ^ 13); (301%Z, 49028000661637961 / 10 ^ 13);
   (401%Z, 7087546066894452 / 10 ^ 19); (402%Z, 9615569648120313 / 10 ^ 20); (501%Z, 5959924010272514 / 10 ^ 12);
   (502%Z, 3202739815114734 / 10 ^ 12); (503%Z, 9887819980080976 / 10 ^ 12); (504%Z, 7179304867611079 / 10 ^ 12);
   (505%Z, 1487604677404272 / 10 ^ 16); (506%Z, 1380080696078966 / 10 ^ 16); (601%Z, 2503458199931431 / 10 ^ 15);
   (602%Z, 721118506650989 / 10 ^ 14); (603%Z, 4120856508658532 / 10 ^ 14); (604%Z, 7311574218947423 / 10 ^ 14);
   (605%Z, 1539419035933117 / 10 ^ 13); (606%Z, 8978137030983542 / 10 ^ 12); (607%Z, 3712085754472412 / 10 ^ 16);
   (608%Z, 1205095752388872 / 10 ^ 13); (609%Z, 5532371285376407 / 10 ^ 16); (610%Z, 1265765099012197 / 10 ^ 16);
   (611%Z, 3512333288208074 / 10 ^ 17); (612%Z, 3424829447502984 / 10 ^ 19); (615%Z, 3718871247516475 / 10 ^ 19);
   (616%Z, 107520800100761 / 10 ^ 16); (617%Z, 9290325122028795 / 10 ^ 18); (701%Z, 8346344431770477 / 10 ^ 14);
   (702%Z, 8509338094489388 / 10 ^ 14); (703%Z, 2269437003741248 / 10 ^ 13); (704%Z, 2053234302535623 / 10 ^ 13);
   (705%Z, 43195168992321 / 10 ^ 13); (801%Z, 1427598140725034 / 10 ^ 12); (901%Z, 1062509269522026 / 10 ^ 13);
   (902%Z, 2150552267969335 / 10 ^ 18); (903%Z, 3663917107480563 / 10 ^ 18); (904%Z, 4540734312735987 / 10 ^ 19);
   (905%Z, 2 / 10 ^ 20); (2000001%Z, 62809393 / 10 ^ 6); (2000002%Z, 13923011000000001 / 10 ^ 15);
   (2000003%Z, 16224149999999999 / 10 ^ 16); (2000004%Z, 17288008999999999 / 10 ^ 15);
   (2000010%Z, 55423920000000004 / 10 ^ 16); (2000015%Z, 20981550000000002 / 10 ^ 16);
   (2000016%Z, 15300480000000001 / 10 ^ 16); (2000031%Z, 28448720000000001 / 10 ^ 16); (2000048%Z, 1135159 / 10 ^ 6);
   (2000052%Z, 11108039999999999 / 10 ^ 16); (2000065%Z, 14264810000000001 / 10 ^ 16);
   (2000087%Z, 98635300000000004 / 10 ^ 17); (2000088%Z, 1155799 / 10 ^ 6); (2000433%Z, 4463 / 10 ^ 7);
   (2000451%Z, 10295259999999999 / 10 ^ 16); (2000511%Z, 2331286 / 10 ^ 6); (2000704%Z, 23573170000000001 / 10 ^ 16)].
(** Python's [dict.get]. *)
Fixpoint dict_get (d : list (Z * R)) (k : Z) : option R :=
  match d with [] => None | (c, x) :: d => if Z.eqb c k then Some x else dict_get d k end.
Definition get0 (k : Z) : R := match dict_get GM_dict k with Some x => x | None => 0 end.

(** A center or target: an integer, or an object such as a satellite. *)
Inductive body := Code (c : Z) | Object.
(** What is read of a position: xyz in au, velocity in au per day. *)
Record state := State { s_center : body; s_target : body; s_xyz : vec; s_velocity : vec }.
(** elementslib.py 32-43: the sum of the masses, or ValueError. An object is in no
    dictionary. *)
Definition gm_of (center target : body) : option R :=
  match center with
  | Object => None
  | Code c =>
      let gm := get0 c in
      let orbits_barycenter := (Z.leb 0 c && Z.leb c 9)%bool in
      let gm := if orbits_barycenter then gm else gm + match target with Code t => get0 t | Object => 0 end in
      if Req_EM_T gm 0 then None else Some gm
  end.
(** units.py: [Distance.km] and [Velocity.km_per_s]. *)
Definition km (v : vec) : vec := smul AU_KM v.
Definition km_per_s (v : vec) : vec := smul (AU_KM / DAY_S) v.
(** elementslib.py 14-55, [osculating_elements_of], with the mass it used. *)
Definition osculating_elements_of (s : state) (reference_frame : option mat) (gm_km3_s2 : option R) : option (elements * R) :=
  match (match gm_km3_s2 with Some gm => Some gm | None => gm_of (s_center s) (s_target s) end) with
  | None => None
  | Some gm =>
      let turn v := match reference_frame with Some M => mxv M v | None => v end in
      match osculating (km (turn (s_xyz s))) (km_per_s (turn (s_velocity s))) gm with
      | Some el => Some (el, gm)
      | None => None
      end
  end.

(** elementslib.py 88-205, the attributes of one set of elements: distances in km,
    angles in radians. *)
Definition a_of (el : elements) : option R := semi_major_axis (el_p el) (el_e el).
Definition b_of (el : elements) : R := semi_minor_axis (el_p el) (el_e el).
Definition q_of (el : elements) : R := periapsis_distance (el_p el) (el_e el).
Definition Q_of (el : elements) : option R := apoapsis_distance (el_p el) (el_e el).
Definition argument_of_latitude (el : elements) : R := rmod (el_w el + el_v el) tau.
Definition longitude_of_periapsis (el : elements) : R := rmod (el_Om el + el_w el) tau.
Definition eccentric_anomaly_el (el : elements) : R := eccentric_anomaly_of (el_v el) (el_e el).
Definition mean_anomaly (el : elements) : R := mean_anomaly_of (eccentric_anomaly_el el) (el_e el) true.
Definition mean_longitude (el : elements) : R := rmod (el_Om el + el_w el + mean_anomaly el) tau.
Definition true_longitude (el : elements) : R := rmod (el_Om el + el_w el + el_v el) tau.
Definition mean_motion_per_day (el : elements) (mu : R) : R := mean_motion (a_of el) mu * DAY_S.
Definition period_in_days (el : elements) (mu : R) : option R :=
  match period (a_of el) mu with Some P => Some (P / DAY_S) | None => None end.

(** * Arrays. A list has one entry for each state. *)
Definition Rltb (x y : R) : bool := if Rlt_dec x y then true else false.
Definition Rleb (x y : R) : bool := if Rle_dec x y then true else false.
Definition Rneb (x y : R) : bool := if Req_EM_T x y then false else true.
(** NumPy: an operation on two arrays of one shape; [where(mask, a, b)], which is also
    [op(..., out=b, where=mask)]; [a\[mask\]]; [a\[mask\] = values]. *)
Fixpoint zip {A B C} (f : A -> B -> C) (a : list A) (b : list B) : list C :=
  match a, b with x :: a, y :: b => f x y :: zip f a b | _, _ => [] end.
Fixpoint where_ {A} (mask : list bool) (a b : list A) : list A :=
  match mask, a, b with m :: mask, x :: a, y :: b => (if m then x else y) :: where_ mask a b | _, _, _ => [] end.
Fixpoint pick {A} (mask : list bool) (a : list A) : list A :=
  match mask, a with m :: mask, x :: a => if m then x :: pick mask a else pick mask a | _, _ => [] end.
Fixpoint put {A} (mask : list bool) (a values : list A) : list A :=
  match mask, a with
  | m :: mask, x :: a =>
      if m then match values with y :: values => y :: put mask a values | [] => x :: put mask a [] end
      else x :: put mask a values
  | _, _ => []
  end.
Definition inv (m : list bool) : list bool := map negb m.
Definition times (a b : list bool) : list bool := zip andb a b.

(** elementslib.py 246-251. *)
Definition apoapsis_distance_array (p e : list R) : list (option R) :=
  where_ (map (fun e => Rltb e (1 - tiny)) e) (zip (fun p e => Some (p * (1 + e) / (1 - e * e))) p e) (map (fun _ => None) p).
(** 254, 265-280. *)
Definition argument_of_periapsis_array (n e pos vel : list vec) : list R :=
  let w := map (fun _ => 0) pos in
  let equatorial := map (fun n => Rltb (vlength n) tiny) n in
  let circular := map (fun e => Rltb (vlength e) tiny) e in
  let inds := times (inv circular) equatorial in
  let angle := map (fun e => rmod (atan2 (vy e) (vx e)) tau) (pick inds e) in
  let condition := zip (fun p v => Rleb 0 (vz (crossp p v))) (pick inds pos) (pick inds vel) in
  let w := put inds w (where_ condition angle (map (fun a => rmod (- a) tau) angle)) in
  let inds := times (inv circular) (inv equatorial) in
  let angle := zip angle_between (pick inds n) (pick inds e) in
  let condition := map (fun e => Rltb 0 (vz e)) (pick inds e) in
  put inds w (where_ condition angle (map (fun a => rmod (- a) tau) angle)).
(** 283, 291-300. *)
Definition eccentric_anomaly_array (v e : list R) : list R :=
  let E := map (fun _ => 0) e in
  let inds := map (fun e => Rltb e 1) e in
  let E := put inds E (zip (fun v e => 2 * atan (sqrt ((1 - e) / (1 + e)) * tan (v / 2))) (pick inds v) (pick inds e)) in
  let inds := map (fun e => Rltb 1 e) e in
  put inds E (zip (fun v e => normpi (2 * arctanh (tan (v / 2) / sqrt ((e + 1) / (e - 1))))) (pick inds v) (pick inds e)).
(** 311-319. *)
Definition eccentricity_vector_array (pos vel : list vec) (mu : R) : list vec :=
  zip (fun p v => eccentricity_vector p v mu) pos vel.
Definition inclination_array (h : list vec) : list R := map inclination h.
(** 322-326. *)
Definition longitude_of_ascending_node_array (i : list R) (h : list vec) : list R :=
  map (fun x => rmod x tau) (where_ (map (fun i => Rneb i 0) i) (map (fun h => atan2 (vx h) (- vy h)) h) (map (fun _ => 0) i)).
(** 329, 338-350. *)
Definition mean_anomaly_array (E e : list R) (shift : bool) : list R :=
  let M := map (fun _ => 0) e in
  let inds := map (fun e => Rltb e 1) e in
  let M := put inds M (zip (fun E e => rmod (E - e * sin E) tau) (pick inds E) (pick inds e)) in
  let inds := map (fun e => Rltb 1 e) e in
  if shift then put inds M (zip (fun E e => normpi (e * sinh E - E)) (pick inds E) (pick inds e))
  else put inds M (zip (fun E e => e * sinh E - E) (pick inds E) (pick inds e)).
(** 353-354. *)
Definition mean_motion_array (a : list (option R)) (mu : R) : list R := map (fun a => mean_motion a mu) a.
(** 357-365. *)
Definition node_vector_array (h : list vec) : list vec :=
  let n_vec := map (fun h => V3 (- vy h) (vx h) 0) h in
  let n := map vlength n_vec in
  where_ (map (fun n => Rneb n 0) n) (zip (fun v n => smul (/ n) v) n_vec n) n_vec.
(** 367-371. *)
Definition periapsis_distance_array (p e : list R) : list R :=
  where_ (map (fun e => Rneb e 1) e) (zip (fun p e => p * (1 - e) / (1 - e * e)) p e) (map (fun p => p / 2) p).
(** 374-378; an infinite [a] is positive, and so is the root of its cube. *)
Definition period_array (a : list (option R)) (mu : R) : list (option R) :=
  where_ (map (fun a => match a with Some a => Rltb 0 a | None => true end) a)
    (map (fun a => match a with Some a => Some (tau * sqrt (a ^ 3 / mu)) | None => None end) a) (map (fun _ => None) a).
(** 381-389. *)
Definition semi_latus_rectum_array (h : list vec) (mu : R) : list R := map (fun h => semi_latus_rectum h mu) h.
Definition semi_major_axis_array (p e : list R) : list (option R) :=
  where_ (map (fun e => Rneb e 1) e) (zip (fun p e => Some (p / (1 - e * e))) p e) (map (fun _ => None) p).
(** 392, 400-409. *)
Definition semi_minor_axis_array (p e : list R) : list R :=
  let b := map (fun _ => 0) e in
  let inds := map (fun e => Rltb e 1) e in
  let b := put inds b (zip (fun p e => p / sqrt (1 - e * e)) (pick inds p) (pick inds e)) in
  let inds := map (fun e => Rltb 1 e) e in
  put inds b (zip (fun p e => p * sqrt (e * e - 1) / (1 - e * e)) (pick inds p) (pick inds e)).
(** 412-416, 423-430. *)
Definition time_since_periapsis_array (M n v p : list R) (mu : R) : list R :=
  let parabolic := map (fun n => Rltb n too_small) n in
  let t := where_ (inv parabolic) (zip Rdiv M n) (map (fun _ => 0) p) in
  let D := map (fun v => tan (v / 2)) (pick parabolic v) in
  put parabolic t (zip (fun p D => sqrt (2 * (p / 2) ^ 3 / mu) * (D + D ^ 3 / 3)) (pick parabolic p) D).
(** 433, 449-473. *)
Definition true_anomaly_array (e pos vel n : list vec) : list R :=
  let v := map (fun _ => 0) pos in
  let circular := map (fun e => Rltb (vlength e) tiny) e in
  let equatorial := map (fun n => Rltb (vlength n) tiny) n in
  let inds := inv circular in
  let angle := zip angle_between (pick inds e) (pick inds pos) in
  let condition := zip (fun p v => Rltb 0 (dot p v)) (pick inds pos) (pick inds vel) in
  let v := put inds v (where_ condition angle (map (fun a => rmod (- a) tau) angle)) in
  let inds := times circular equatorial in
  let angle := map (fun p => acos (vx p / vlength p)) (pick inds pos) in
  let condition := map (fun v => Rltb (vx v) 0) (pick inds vel) in
  let v := put inds v (where_ condition angle (map (fun a => rmod (- a) tau) angle)) in
  let inds := times circular (inv equatorial) in
  let angle := zip angle_between (pick inds n) (pick inds pos) in
  let condition := map (fun p => Rleb 0 (vz p)) (pick inds pos) in
  let v := put inds v (where_ condition angle (map (fun a => rmod (- a) tau) angle)) in
  let inds := map (fun e => Rltb (1 - tiny) (vlength e)) e in
  put inds v (map normpi (pick inds v)).

(** 58-205, [OsculatingElements] of arrays. *)
Record elements_array := Elements_array {
  ar_p : list R; ar_e : list R; ar_i : list R; ar_Om : list R; ar_w : list R; ar_v : list R;
  ar_a : list (option R); ar_b : list R; ar_q : list R; ar_Q : list (option R); ar_E : list R; ar_M : list R;
  ar_n : list R; ar_P : list (option R); ar_u : list R; ar_lp : list R; ar_L : list R; ar_l : list R; ar_since : list R }.
Definition osculating_array (pos vel : list vec) (mu : R) : option elements_array :=
  if Rle_dec mu 0 then None
  else
    let h := zip crossp pos vel in
    let e_vec := eccentricity_vector_array pos vel mu in
    let n_vec := node_vector_array h in
    let p := semi_latus_rectum_array h mu in
    let e := map vlength e_vec in
    let i := inclination_array h in
    let Om := longitude_of_ascending_node_array i h in
    let w := argument_of_periapsis_array n_vec e_vec pos vel in
    let v := true_anomaly_array e_vec pos vel n_vec in
    let a := semi_major_axis_array p e in
    let E := eccentric_anomaly_array v e in
    let M := mean_anomaly_array E e true in
    let n := map (fun n => n * DAY_S) (mean_motion_array a mu) in
    Some (Elements_array p e i Om w v a (semi_minor_axis_array p e) (periapsis_distance_array p e) (apoapsis_distance_array p e) E M n
            (map (fun P => match P with Some P => Some (P / DAY_S) | None => None end) (period_array a mu))
            (zip (fun w v => rmod (w + v) tau) w v) (zip (fun Om w => rmod (Om + w) tau) Om w)
            (zip (fun lp M => rmod (lp + M) tau) (zip Rplus Om w) M) (zip (fun lp v => rmod (lp + v) tau) (zip Rplus Om w) v)
            (time_since_periapsis_array (mean_anomaly_array E e false) n v p (mu * (DAY_S * DAY_S)))).
