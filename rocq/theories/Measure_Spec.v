(** Vocabulary for the properties of measurement objects. *)
From Coq Require Import Reals ZArith List.
From Flocq Require Import Core BinarySingleNaN.
From Verif Require Import Float64 Float64_Proofs Measure_Model.
Open Scope R_scope.

(** An object made from the number [x] in the unit [u], by any of the ways to make one
    that the documentation lists. *)
Inductive made_from : class -> unit_name -> b64 -> measure -> Prop :=
| made_au x k y o : distance (Some x) k y = Value o -> made_from Distance au x o
| made_km x k o : distance None (Some x) k = Value o -> made_from Distance km x o
| made_m x o : distance None None (Some x) = Value o -> made_from Distance m x o
| made_au_per_d x o : velocity (Some x) None = Value o -> made_from Velocity au_per_d x o
| made_km_per_s x a o : velocity a (Some x) = Value o -> made_from Velocity km_per_s x o
| made_radians x d h p s o : angle None (Some x) d h p s = Value o -> made_from Angle radians x o
| made_degrees x h p s o : angle None None (Some x) h p s = Value o -> made_from Angle degrees x o
| made_hours x p s o : angle None None None (Some x) p s = Value o -> made_from Angle hours x o
| made_from_degrees x s : made_from Angle degrees x (from_degrees x s)
| made_by_name c n x o : class_constructor c n x = Value o -> made_from c n x o.
(** The units of each class, and the size of each: in metres, metres per second, and
    turns. *)
Definition unit_of_class (c : class) (n : unit_name) : Prop :=
  match c, n with
  | Distance, (au | km | m) => True
  | Velocity, (au_per_d | km_per_s | m_per_s) => True
  | Angle, (radians | degrees | hours | underscore_degrees | underscore_hours) => True
  | _, _ => False
  end.
Definition unit_size (n : unit_name) : R :=
  match n with
  | au => 149597870700
  | km => 1000
  | m => 1
  | au_per_d => 149597870700 / 86400
  | km_per_s => 1000
  | m_per_s => 1
  | radians => / (2 * PI)
  | degrees | underscore_degrees => / 360
  | hours | underscore_hours => / 24
  end.
(** The number of the unit in a full turn, and of the period in a day. *)
Definition in_a_turn (u : angle_unit) : R :=
  match u with ARadians => 2 * PI | ADegrees => 360 | AArcminutes => 360 * 60 | AArcseconds => 360 * 3600 | AMas => 360 * 3600 * 1000 end.
Definition in_a_day (p : period) : R := match p with PerDay => 1 | PerHour => 24 | PerMinute => 24 * 60 | PerSecond => 24 * 3600 end.
(** [y] is a finite float equal to [r] up to the relative error [k / 2^53]. *)
Definition nearly (k : R) (y : b64) (r : R) : Prop :=
  exists b : bf, y = B2SF b /\ is_finite b = true /\ Rabs (B2R b - r) <= k * / 2 ^ 53 * Rabs r.
