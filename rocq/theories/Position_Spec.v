(** Vocabulary for the properties of position objects. *)
From Coq Require Import Reals ZArith List.
From Verif Require Import Real_Math Vector_Model Geo_Model Position_Model.
Import ListNotations.
Open Scope R_scope.

(** [X b s] is where body [b] is at time [s] and [V b s] its velocity. A position
    tells the truth about them when, at each of its times, it is the vector from its
    center to its target. *)
Definition tells (X V : body -> R -> vec) (p : position) : Prop :=
  exists c b t, center p = Some c /\ target p = Some b /\ when p = Some t /\
    xyz p = arr_map (fun s => vsub (X b s) (X c s)) t /\
    velocity p = arr_map (fun s => Some (vsub (V b s) (V c s))) t.
(** The class that the documentation promises for a center. *)
Definition class_for (c : option body) : kind :=
  match c with Some (Code 0) => Barycentric | Some (Code 399) => Geocentric | _ => ICRF end.
(** As many vectors, velocities and times as [n]. *)
Definition has_length (n : nat) (p : position) : Prop :=
  exists xs vs ts, xyz p = Many xs /\ velocity p = Many vs /\ when p = Some (Many ts) /\
    length xs = n /\ length vs = n /\ length ts = n.
(** Element [i] of an answer. *)
Definition element {A} (i : Z) (a : outcome (arr A)) : outcome (arr A) :=
  bind a (fun a => bind (arr_index a i) (fun x => Ok (Single x))).
(** The place [i] in a list of [n], counting from the end if negative. *)
Definition place (n : nat) (i : Z) : nat := Z.to_nat (if (i <? 0)%Z then i + Z.of_nat n else i)%Z.
(** What is in place [j] of a value; a single value is in every place. *)
Definition lane {A} (a : arr A) (j : nat) : option A :=
  match a with Single x => Some x | Many l => nth_error l j end.
Definition size {A} (a : arr A) : option nat := match a with Single _ => None | Many l => Some (length l) end.
(** Altitude, azimuth and distance of a vector, in the frame whose axes point north,
    east and up. *)
Definition on_horizon (M : mat) (u : vec) (h : R * R * R) : Prop :=
  let '(alt, az, r) := h in
  mxv M u = from_spherical r alt az /\ r = vlength (mxv M u) /\ - (PI / 2) <= alt <= PI / 2 /\ 0 <= az < tau.
(** Hour angle, declination and distance of a vector, seen from a longitude. *)
Definition by_meridian (M : mat) (lon : R) (u : vec) (h : R * R * R) : Prop :=
  let '(ha, dec, r) := h in
  mxv M u = from_spherical r dec (lon - ha) /\ r = vlength (mxv M u) /\ - (PI / 2) <= dec <= PI / 2 /\ - PI <= ha < PI.
