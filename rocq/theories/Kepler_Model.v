(** Model of skyfield/keplerlib.py, skyfield/elementslib.py and the orbits of
    skyfield/data/mpc.py, over the real numbers. One orbit and one date at a time:
    NumPy's arrays of orbits and of dates are not modelled. Units are those of the
    arguments. An exception is [None]. *)
From Coq Require Import Reals List.
From Verif Require Import Real_Math Vector_Model Geo_Model.
Import ListNotations.
Open Scope R_scope.

(** sgp4lib.py, [_cross]; numpy [cross]. *)
Definition crossp (a b : vec) : vec :=
  V3 (vy a * vz b - vz a * vy b) (vz a * vx b - vx a * vz b) (vx a * vy b - vy a * vx b).
(** elementslib.py 242-243, [normpi]. *)
Definition normpi (x : R) : R := rmod (x + PI) tau - PI.
(** numpy [sign]. *)
Definition rsign (x : R) : R := if Rlt_dec 0 x then 1 else if Rlt_dec x 0 then -1 else 0.

(** * keplerlib.py *)
(** The loop of 282-290. A zero denominator gives infinities and then nans, which
    never pass the test, so the loop ends with the exception of 292. *)
Fixpoint halley (n : nat) (e M E : R) : option R :=
  match n with
  | O => None
  | S n =>
      let f1 := 1 - e * cos E in
      let f2 := e * sin E in
      let f := E - f2 - M in
      let d := f1 * f1 - 1 / 2 * f * f2 in
      if Req_EM_T d 0 then None
      else
        let dE := f * f1 / d in
        let E := E - dE in
        if Rlt_dec (Rabs dE) (1 / 10 ^ 14) then Some E else halley n e M E
  end.
(** 271-292, [eccentric_anomaly]. With [e] = 0, and with [e] = pi/4, the start value
    divides by zero, which raises or leads to the exception of 292. *)
Definition eccentric_anomaly (e M : R) : option R :=
  let M := normpi M in
  let sign_M := rsign M in
  let M := M * sign_M in
  if Req_EM_T e 0 then None else
  let ebar := 1 / 4 * PI / e - 1 in
  if Req_EM_T ebar 0 then None else
  let E := 1 / 2 * PI * ebar * (rsign ebar * sqrt (1 + M / (e * ebar * ebar)) - 1) in
  match halley 10 e M E with Some E => Some (E * sign_M) | None => None end.
(** 294-321. *)
Definition true_anomaly_hyperbolic (e E : R) : R := 2 * atan (sqrt ((e + 1) / (e - 1)) * tanh (E / 2)).
Definition true_anomaly_closed (e E : R) : R := 2 * atan (sqrt ((1 + e) / (1 - e)) * tan (E / 2)).
(** [x ** (1/3)] for a positive [x]. *)
Definition cube_root (x : R) : R := Rpower x (1 / 3).
Definition true_anomaly_parabolic (p gm M : R) : R :=
  let delta_t := sqrt (2 * p ^ 3 / gm) * M in
  let periapsis_distance := p / 2 in
  let A := 3 / 2 * sqrt (gm / (2 * periapsis_distance ^ 3)) * delta_t in
  let B := cube_root (A + (A * A + 1)) in
  2 * atan (B - 1 / B).

(** 323-373, [ele_to_vec]. *)
Definition elements_vec (p e i Om w v mu : R) : vec * vec :=
  let r := p / (1 + e * cos v) in
  let h := sqrt (p * mu) in
  let u := v + w in
  let X := r * (cos Om * cos u - sin Om * sin u * cos i) in
  let Y := r * (sin Om * cos u + cos Om * sin u * cos i) in
  let Z := r * (sin i * sin u) in
  let X_dot := X * h * e / (r * p) * sin v - h / r * (cos Om * sin u + sin Om * cos u * cos i) in
  let Y_dot := Y * h * e / (r * p) * sin v - h / r * (sin Om * sin u - cos Om * cos u * cos i) in
  let Z_dot := Z * h * e / (r * p) * sin v + h / r * sin i * cos u in
  (V3 X Y Z, V3 X_dot Y_dot Z_dot).
Definition ele_to_vec (p e i Om w v mu : R) : option (vec * vec) :=
  if Rlt_dec 1 e then
    if Rlt_dec (acos (-1 / e)) v then None
    else if Rle_dec 0 i then if Rle_dec i PI then Some (elements_vec p e i Om w v mu) else None else None
  else if Rle_dec 0 i then if Rle_dec i PI then Some (elements_vec p e i Om w v mu) else None else None.

(** 377-393: [find_trunc] gives 10, so each series has nine terms. *)
Definition series_terms : nat := 9.
(** 395-433, [stumpff]; the lower bound of 401-402 is the range of floats. *)
Definition stumpff (x : R) : R * R * R * R :=
  let z := sqrt (Rabs x) in
  if Rlt_dec x (-1) then
    let c0 := cosh z in let c1 := sinh z / z in (c0, c1, (1 - c0) / x, (1 - c1) / x)
  else if Rlt_dec 1 x then
    let c0 := cos z in let c1 := sin z / z in (c0, c1, (1 - c0) / x, (1 - c1) / x)
  else
    let c3 := sum_f_R0 (fun k => (- x) ^ k / INR (fact (2 * k + 3))) (pred series_terms) in
    let c2 := sum_f_R0 (fun k => (- x) ^ k / INR (fact (2 * k + 2))) (pred series_terms) in
    (1 - x * c2, 1 - x * c3, c2, c3).

Section Propagate.
(** [st] is [stumpff], or an exact version of it. *)
Variable st : R -> R * R * R * R.
(** The numbers of 469-488. *)
Record conic := Conic { k_f : R; k_bq : R; k_b2rv : R; k_br0 : R; k_qovr0 : R }.
Definition conic_of (position velocity : vec) (gm : R) : conic :=
  let r0 := vlength position in
  let rv := dot position velocity in
  let hvec := crossp position velocity in
  let h2 := dot hvec hvec in
  let eqvec := vadd (smul (/ gm) (crossp velocity hvec)) (smul (/ r0) (vopp position)) in
  let e := vlength eqvec in
  let q := h2 / (gm * (1 + e)) in
  let b := sqrt (q / gm) in
  Conic (1 - e) (b * q) (b * b * rv) (b * r0) (q / r0).
(** 514-516, [kepler]. *)
Definition kepler (k : conic) (x : R) : R :=
  let '(_, c1, c2, c3) := st (k_f k * x * x) in
  x * (k_br0 k * c1 + x * (k_b2rv k * c2 + x * k_bq k * c3)).
Definition rclip (x bound : R) : R :=
  if Rlt_dec x (- bound) then - bound else if Rlt_dec bound x then bound else x.
(** 546-558 and 560-572, the doubling of the bracket towards the past or the future:
    [outer] is [lower] or [upper], [inner] the other end. [None] is the exception, or
    not enough fuel. *)
Fixpoint widen_past (fuel : nat) (k : conic) (bound dt inner outer x kfun : R) : option (R * R) :=
  if Rlt_dec dt kfun then
    match fuel with
    | O => None
    | S fuel =>
        let inner := outer in
        let outer := outer * 2 in
        let oldx := x in
        let x := rclip outer bound in
        if Req_EM_T x oldx then None else widen_past fuel k bound dt inner outer x (kepler k x)
    end
  else Some (outer, inner).
Fixpoint widen_future (fuel : nat) (k : conic) (bound dt inner outer x kfun : R) : option (R * R) :=
  if Rlt_dec kfun dt then
    match fuel with
    | O => None
    | S fuel =>
        let inner := outer in
        let outer := outer * 2 in
        let oldx := x in
        let x := rclip outer bound in
        if Req_EM_T x oldx then None else widen_future fuel k bound dt inner outer x (kepler k x)
    end
  else Some (inner, outer).
(** 528-572: the bracket. *)
Definition bracket (fuel : nat) (k : conic) (bound dt : R) : option (R * R) :=
  let x := rclip (dt / k_bq k) bound in
  if Rlt_dec dt 0 then widen_past fuel k bound dt 0 x x (kepler k x)
  else if Rlt_dec 0 dt then widen_future fuel k bound dt 0 x x (kepler k x)
  else Some (0, 0).
(** 574-600, the bisection. [None] is not enough fuel. *)
Definition middle (lower upper : R) : R := if Rle_dec lower upper then (upper + lower) / 2 else upper.
Fixpoint bisect (fuel : nat) (k : conic) (dt lower upper x : R) (lcount mostc : nat) : option R :=
  if Rlt_dec lower x then
    if Rlt_dec x upper then
      if Nat.ltb lcount mostc then
        match fuel with
        | O => None
        | S fuel =>
            let kfun := kepler k x in
            let upper := if Rlt_dec kfun dt then upper else x in
            let lower := if Rlt_dec dt kfun then lower else x in
            let again := if Nat.ltb 64 mostc then if Req_EM_T upper 0 then false else if Req_EM_T lower 0 then false else true else false in
            let mostc := if again then 64%nat else mostc in
            let lcount := if again then 0%nat else lcount in
            bisect fuel k dt lower upper (middle lower upper) (S lcount) mostc
        end
      else Some x
    else Some x
  else Some x.
(** 602-611: the new state from the root. *)
Definition moved (k : conic) (dt x : R) (position velocity : vec) : vec * vec :=
  let '(c0, c1, c2, c3) := st (k_f k * x * x) in
  let br := k_br0 k * c0 + x * (k_b2rv k * c1 + x * k_bq k * c2) in
  let pc := 1 - k_qovr0 k * x * x * c2 in
  let vc := dt - k_bq k * x ^ 3 * c3 in
  let pcdot := - k_qovr0 k / br * x * c1 in
  let vcdot := 1 - k_bq k / br * x * x * c2 in
  (vadd (smul pc position) (smul vc velocity), vadd (smul pcdot position) (smul vcdot velocity)).
(** 435-615, [propagate]. [bound] stands for the range of floats, 490-504. *)
Definition propagate (fuel : nat) (bound : R) (position velocity : vec) (t0 t1 gm : R) : option (vec * vec) :=
  if Rle_dec gm 0 then None
  else if Req_EM_T (vlength velocity) 0 then None
  else if Req_EM_T (vlength position) 0 then None
  else if Req_EM_T (dot (crossp position velocity) (crossp position velocity)) 0 then None
  else
    let k := conic_of position velocity gm in
    let dt := t1 - t0 in
    match bracket fuel k bound dt with
    | None => None
    | Some (lower, upper) =>
        match bisect fuel k dt lower upper (middle lower upper) 0 1000 with
        | None => None
        | Some x => Some (moved k dt x position velocity)
        end
    end.
End Propagate.

(** constants.py, and keplerlib.py 17. *)
Definition AU_KM : R := 1495978707 / 10.
Definition DAY_S : R := 86400.
Definition DEG2RAD : R := 17453292519943296 / 10 ^ 18.
Definition CONVERT_GM : R := DAY_S * DAY_S / AU_KM / AU_KM / AU_KM.
(** keplerlib.py 20-53: position in au, velocity in au per day. *)
Record orbit := Orbit { o_position : vec; o_velocity : vec; o_epoch : R; mu_au3_d2 : R }.
Definition with_state (epoch mu : R) (s : option (vec * vec)) : option orbit :=
  match s with Some (p, v) => Some (Orbit p v epoch mu) | None => None end.
(** 60-92. *)
Definition from_periapsis (p e i Om w t_periapsis gm_km3_s2 : R) : option orbit :=
  let gm := gm_km3_s2 * CONVERT_GM in
  with_state t_periapsis gm (ele_to_vec p e (DEG2RAD * i) (DEG2RAD * Om) (DEG2RAD * w) 0 gm).
(** 94-149, with the angles in radians; the position is in km and the velocity in km/s,
    converted by [Distance] and [Velocity]. *)
Definition from_true_anomaly (p_km e i Om w v epoch : R) (mu_km_s mu_au3_d2 : option R) : option orbit :=
  let nonzero (m : option R) := match m with Some x => if Req_EM_T x 0 then false else true | None => false end in
  let get (m : option R) := match m with Some x => x | None => 0 end in
  if Bool.eqb (nonzero mu_km_s) (nonzero mu_au3_d2) then None
  else
    let mu_km_s := if nonzero mu_au3_d2 then get mu_au3_d2 * AU_KM ^ 3 / DAY_S ^ 2 else get mu_km_s in
    match ele_to_vec p_km e i Om w v mu_km_s with
    | Some (p, v) => Some (Orbit (smul (/ AU_KM) p) (smul (DAY_S / AU_KM) v) epoch mu_km_s)
    | None => None
    end.
(** 151-220. *)
Definition anomaly_of (e p gm M : R) : option R :=
  if Rlt_dec e 1 then
    match eccentric_anomaly e M with Some E => Some (true_anomaly_closed e E) | None => None end
  else if Rlt_dec 1 e then
    match eccentric_anomaly e M with Some E => Some (true_anomaly_hyperbolic e E) | None => None end
  else Some (true_anomaly_parabolic p gm M).
Definition from_mean_anomaly (p e i Om w M epoch gm_km3_s2 : R) : option orbit :=
  let gm := gm_km3_s2 * CONVERT_GM in
  match anomaly_of e p gm (DEG2RAD * M) with
  | Some v => with_state epoch gm (ele_to_vec p e (DEG2RAD * i) (DEG2RAD * Om) (DEG2RAD * w) v gm)
  | None => None
  end.
(** data/mpc.py 215-237, [comet_orbit], before the rotation to the equator. *)
Definition comet_orbit (q e i Om w t_perihelion gm_km3_s2 : R) : option orbit :=
  let p := if Req_EM_T e 1 then q * 2 else let a := q / (1 - e) in a * (1 - e * e) in
  from_periapsis p e i Om w t_perihelion gm_km3_s2.
(** data/mpc.py 239-261, the semilatus rectum of [_comet_orbits]. *)
Definition comet_orbits_p (q e : R) : R :=
  let parabolic := if Req_EM_T e 1 then 1 else 0 in
  let p := (1 - e * e) / (1 - e + parabolic) in
  let p := if Req_EM_T e 1 then p + 2 else p in
  p * q.

(** * elementslib.py; [None] for an infinite number *)
(** 311-314. *)
Definition eccentricity_vector (pos vel : vec) (mu : R) : vec :=
  let r := vlength pos in
  let v := vlength vel in
  smul (/ mu) (vsub (smul (v * v - mu / r) pos) (smul (dot pos vel) vel)).
(** 357-365. *)
Definition node_vector (h : vec) : vec :=
  let n := V3 (- vy h) (vx h) 0 in
  if Req_EM_T (vlength n) 0 then n else smul (/ vlength n) n.
(** 381-382, 367-371, 246-250, 385-389. *)
Definition semi_latus_rectum (h : vec) (mu : R) : R := vlength h * vlength h / mu.
Definition periapsis_distance (p e : R) : R := if Req_EM_T e 1 then p / 2 else p * (1 - e) / (1 - e * e).
Definition apoapsis_distance (p e : R) : option R := if Rlt_dec e 1 then Some (p * (1 + e) / (1 - e * e)) else None.
Definition semi_major_axis (p e : R) : option R := if Req_EM_T e 1 then None else Some (p / (1 - e * e)).
(** 392-400. *)
Definition semi_minor_axis (p e : R) : R :=
  if Rlt_dec e 1 then p / sqrt (1 - e * e)
  else if Rlt_dec 1 e then p * sqrt (e * e - 1) / (1 - e * e)
  else 0.
(** 317-319. *)
Definition inclination (h : vec) : R := angle_between h (V3 0 0 1).
(** 322-326. *)
Definition longitude_of_ascending_node (i : R) (h : vec) : R :=
  if Req_EM_T i 0 then 0 else rmod (atan2 (vx h) (- vy h)) tau.
(** 253-264. *)
Definition tiny : R := 1 / 10 ^ 15.
Definition argument_of_periapsis (n e pos vel : vec) : R :=
  if Rlt_dec (vlength e) tiny then 0
  else if Rlt_dec (vlength n) tiny then
    let angle := rmod (atan2 (vy e) (vx e)) tau in
    if Rle_dec 0 (vz (crossp pos vel)) then angle else rmod (- angle) tau
  else
    let angle := angle_between n e in
    if Rlt_dec 0 (vz e) then angle else rmod (- angle) tau.
(** 433-448. *)
Definition true_anomaly (e pos vel n : vec) : R :=
  let v :=
    if Rlt_dec tiny (vlength e) then
      let angle := angle_between e pos in if Rlt_dec 0 (dot pos vel) then angle else rmod (- angle) tau
    else if Rlt_dec (vlength n) tiny then
      let angle := acos (vx pos / vlength pos) in if Rlt_dec (vx vel) 0 then angle else rmod (- angle) tau
    else
      let angle := angle_between n pos in if Rle_dec 0 (vz pos) then angle else rmod (- angle) tau in
  if Rlt_dec (vlength e) (1 - tiny) then v else normpi v.
(** 283-292; [arctanh x] is [ln ((1 + x) / (1 - x)) / 2]. *)
Definition arctanh (x : R) : R := ln ((1 + x) / (1 - x)) / 2.
Definition eccentric_anomaly_of (v e : R) : R :=
  if Rlt_dec e 1 then 2 * atan (sqrt ((1 - e) / (1 + e)) * tan (v / 2))
  else if Rlt_dec 1 e then normpi (2 * arctanh (tan (v / 2) / sqrt ((e + 1) / (e - 1))))
  else 0.
(** 329-337. *)
Definition mean_anomaly_of (E e : R) (shift : bool) : R :=
  if Rlt_dec e 1 then rmod (E - e * sin E) tau
  else if Rlt_dec 1 e then let M := e * sinh E - E in if shift then normpi M else M
  else 0.
(** 353-354, for a finite [a]; with an infinite [a] the motion is zero. *)
Definition mean_motion (a : option R) (mu : R) : R :=
  match a with Some a => sqrt (mu / Rabs a ^ 3) | None => 0 end.
(** 374-378. *)
Definition period (a : option R) (mu : R) : option R :=
  match a with Some a => if Rlt_dec 0 a then Some (tau * sqrt (a ^ 3 / mu)) else None | None => None end.
(** 412-424. *)
Definition too_small : R := 864 / 10 ^ 17.
Definition time_since_periapsis (M n v p mu : R) : R :=
  if Rle_dec too_small n then M / n
  else let D := tan (v / 2) in sqrt (2 * (p / 2) ^ 3 / mu) * (D + D ^ 3 / 3).
(** 58-205, [OsculatingElements], for positions in km, velocities in km/s and [mu] in
    km^3/s^2. *)
Record elements := Elements { el_p : R; el_e : R; el_i : R; el_Om : R; el_w : R; el_v : R }.
Definition osculating (pos vel : vec) (mu : R) : option elements :=
  if Rle_dec mu 0 then None
  else
    let h := crossp pos vel in
    let e := eccentricity_vector pos vel mu in
    let n := node_vector h in
    Some (Elements (semi_latus_rectum h mu) (vlength e) (inclination h)
            (longitude_of_ascending_node (inclination h) h) (argument_of_periapsis n e pos vel) (true_anomaly e pos vel n)).
(** 151-167: days since periapsis. *)
Definition days_since_periapsis (el : elements) (mu : R) : R :=
  let M := mean_anomaly_of (eccentric_anomaly_of (el_v el) (el_e el)) (el_e el) false in
  time_since_periapsis M (mean_motion (semi_major_axis (el_p el) (el_e el)) mu * DAY_S) (el_v el) (el_p el) (mu * (DAY_S * DAY_S)).
