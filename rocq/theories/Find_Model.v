(** Model of [_find] in skyfield/almanac.py, behind [find_risings],
    [find_settings] and [find_transits], over real numbers. The hour angle,
    declination, distance and altitude of the target come from the ephemeris and
    are functions of time here. *)
From Coq Require Import Reals ZArith List Bool.
From Verif Require Import Real_Math Almanac_Model.
Import ListNotations.
Open Scope R_scope.

(** [numpy.ceil]. *)
Definition rceil (x : R) : Z := (- rfloor (- x))%Z.
(** almanac.py 390-391: the number of sample times. *)
Definition sample_count (tt0 tt1 : R) : nat := Z.to_nat (rceil ((tt1 - tt0) / (8 / 10)) + 1).
(** [numpy.linspace(a, b, n)]; a negative [n] raises an exception there. *)
Definition linspace (a b : R) (n : nat) : list R := map (fun i => a + INR i * ((b - a) / INR (n - 1))) (seq 0 n).
Definition pairs (ts : list R) : list (R * R) := combine ts (tl ts).
(** almanac.py 16, [_MICROSECOND]. *)
Definition microsecond : R := 1 / 86400 / 10 ^ 6.
(** almanac.py 426-430. *)
Definition zero_to_tau (radians : R) : R := rmod radians tau.
Definition plus_or_minus_pi (radians : R) : R := rmod (radians + PI) tau - PI.

(** almanac.py 356-373, [build_horizon_function]: the altitude of the centre at
    rising, from the distance in metres. *)
Inductive target_kind := Sun | Moon | Other.
Definition horizon_of (k : target_kind) (distance_m : R) : R :=
  match k with
  | Sun => - 50 / 21600 * tau
  | Moon => - 34 / 21600 * tau - 17374 * 10 ^ 2 / distance_m
  | Other => - 34 / 21600 * tau
  end.

(** almanac.py 334-335, [_transit_ha]. *)
Definition transit_ha (lat dec altitude : R) : R := 0.

Section Find.
(** Hour angle of the target, and the hour angle [f(latitude, dec, h(distance))]
    sought for its declination, at each moment. *)
Variables ha desired : R -> R.

(** almanac.py 406-407. *)
Definition difference (t : R) : R := rmod (desired t - ha t) tau.
(** almanac.py 412: neighbours between which [difference] grows. *)
Definition grows (p : R * R) : bool := if Rlt_dec 0 (difference (snd p) - difference (fst p)) then true else false.
Definition brackets (tt0 tt1 : R) : list (R * R) := filter grows (pairs (linspace tt0 tt1 (sample_count tt0 tt1))).
(** almanac.py 420-423. *)
Definition interpolated (p : R * R) : R :=
  let a := difference (fst p) in
  let b := tau - difference (snd p) in
  (b * fst p + a * snd p) / (a + b).
(** almanac.py 451-454: [ha_per_day]; [None] when it is nan or the division by it
    below is. *)
Definition ha_per_day (normalize : R -> R) (t old_t old_ha : R) : option R :=
  if Req_EM_T (t - old_t) 0 then None
  else let r := normalize (ha t - old_ha) / (t - old_t) in if Req_EM_T r 0 then None else Some r.
(** almanac.py 444-446 and 461-462. *)
Definition timebump (t rate : R) : R :=
  let ha_adjustment := plus_or_minus_pi (desired t - ha t) in
  let timebump := ha_adjustment / rate in
  if Req_EM_T timebump 0 then microsecond else timebump.
(** almanac.py 436-467, the three rounds; [previous_t] and [t]. *)
Definition rounds (p : R * R) : option (R * R) :=
  let t0 := interpolated p in
  match ha_per_day zero_to_tau t0 (fst p) (ha (fst p)) with
  | None => None
  | Some r0 =>
      let t1 := t0 + timebump t0 r0 in
      match ha_per_day plus_or_minus_pi t1 t0 (ha t0) with
      | None => None
      | Some r1 =>
          let t2 := t1 + timebump t1 r1 in
          Some (t2, t2 + timebump t2 r1)
      end
  end.
(** almanac.py 469-470 and 555-569, [find_transits]; [None]: nan. *)
Definition find_transits (tt0 tt1 : R) : list (option R) := map (fun p => option_map snd (rounds p)) (brackets tt0 tt1).

(** Altitude above the horizon altitude [h], and the rate of the altitude. *)
Variables above rate : R -> R.
(** almanac.py 494-513: the last two times, the parabola between them, clipped,
    and whether the target really crosses. *)
Definition last_step (t2 t3 : R) : option (R * bool) :=
  let tdiff := t3 - t2 in
  match intersection (above t2) (above t3) (rate t2 * tdiff) (rate t3 * tdiff) with
  | None => None
  | Some x =>
      let x := clip x (-1) 2 in
      let inside := if Rlt_dec (-1) x then if Rlt_dec x 2 then true else false else false in
      let crosses := if Req_EM_T (rmod (desired t2) PI) 0 then inside else true in
      Some (t2 + x * tdiff, crosses)
  end.
(** almanac.py 515-553, [find_risings] and [find_settings]. *)
Definition find_crossings (tt0 tt1 : R) : list (option (R * bool)) :=
  map (fun p => match rounds p with None => None | Some (t2, t3) => last_step t2 t3 end) (brackets tt0 tt1).
End Find.
