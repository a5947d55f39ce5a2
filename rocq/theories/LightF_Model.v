(** Model in binary64 of the correction for light travel time. *)
From Coq Require Import ZArith List Bool.
From Coq.Floats Require Import SpecFloat.
From Verif Require Import Float64 SepF_Model.
Import ListNotations.
Open Scope Z_scope.

(** constants.py 4, 12, 17 and 32: [C_AUDAY = C * DAY_S / AU_M]. *)
Definition C_AUDAY64 : b64 := fdiv (fmul (of_Z 299792458) (of_Z 86400)) (of_Z 149597870700).
(** The literal [1e-12]. *)
Definition TOLERANCE64 : b64 := fl 4951760157141521 (-92).

(** vectorlib.py 167-205, [_correct_for_light_travel_time], for an array of
    observations. One entry of the array: the position of the target as a function of
    the fraction of the TDB Julian date at which it is placed (the whole part stays
    the same: [tdb_jd(whole, fraction)] keeps both as they are), the position of the
    observer and the [tdb_fraction] of the observation. *)
Record sight64 := Sight { target64 : b64 -> fvec; observer64 : fvec; fraction64 : b64 }.
(** A sight, the fraction at which the target is placed now, and [light_time0]. *)
Record lane64 := Lane { sight : sight64; placed64 : b64; before64 : b64 }.
(** [tposition - cposition]. *)
Definition lane_vector (l : lane64) : fvec := fminus (target64 (sight l) (placed64 l)) (observer64 (sight l)).
(** [light_time = distance / C_AUDAY]. *)
Definition lane_time (l : lane64) : b64 := fdiv (length64 (lane_vector l)) C_AUDAY64.
(** [max(abs(delta), initial=0.0) < 1e-12], one entry. The maximum of an array with
    a NaN is NaN, and the comparison false: so it is all the entries, or false. *)
Definition lane_small64 (l : lane64) : bool := fltb (fabs (fsub (lane_time l) (before64 l))) TOLERANCE64.
(** [tdb_fraction - light_time]. *)
Definition lane_step (l : lane64) : lane64 := Lane (sight l) (fsub (fraction64 (sight l)) (lane_time l)) (lane_time l).
(** The loop; [None] is the ValueError, light-travel time failed to converge. *)
Fixpoint light_loop64 (n : nat) (ls : list lane64) : option (list lane64) :=
  match n with
  | O => None
  | S n => if forallb lane_small64 ls then Some ls else light_loop64 n (map lane_step ls)
  end.
Definition lane_first (x : sight64) : lane64 := Lane x (fraction64 x) (of_Z 0).
(** The positions returned, with their light times. *)
Definition light_times64 (obs : list sight64) : option (list (fvec * b64)) :=
  option_map (map (fun l => (lane_vector l, lane_time l))) (light_loop64 10 (map lane_first obs)).
