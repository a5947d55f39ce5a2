(** Vocabulary for the properties of position angles, the stereographic plot and
    magnitudes. *)
From Coq Require Import Reals.
From Verif Require Import Real_Math Vector_Model Geo_Model Geo_Spec.
Open Scope R_scope.

(** The direction [q] is seen from the place [lat], [lon] of the sphere at the angle
    [bearing] from north, turning towards the east: its part along the sphere there
    is [s] long, and points that way. *)
Definition seen_at_bearing (lat lon : R) (q : vec) (bearing : R) : Prop :=
  exists s, 0 <= s /\ s * s = 1 - dot (up lat lon) q * dot (up lat lon) q /\
    dot (north lat lon) q = s * cos bearing /\ dot (east lon) q = s * sin bearing.
Definition unit_vector (u : vec) : Prop := dot u u = 1.
(** Directions along the sphere at the direction [c]: east, and north. *)
Definition off_axis (c : vec) : R := sqrt (vx c * vx c + vy c * vy c).
Definition east_at (c : vec) : vec := smul (/ off_axis c) (V3 (- vy c) (vx c) 0).
Definition north_at (c : vec) : vec := cross c (east_at c).
(** Common logarithm. *)
Definition lg (x : R) : R := ln x / ln 10.
