(** Vocabulary for the geometry properties. *)
From Coq Require Import Reals.
From Verif Require Import Real_Math Vector_Model Geo_Model.
Open Scope R_scope.

Definition identity : mat := M3 (V3 1 0 0) (V3 0 1 0) (V3 0 0 1).
Definition orthogonal (M : mat) : Prop := mxm M (transp M) = identity /\ mxm (transp M) M = identity.
Definition cross (a b : vec) : vec :=
  V3 (vy a * vz b - vz a * vy b) (vz a * vx b - vx a * vz b) (vx a * vy b - vy a * vx b).
Definition det (M : mat) : R := dot (r1 M) (cross (r2 M) (r3 M)).
(** A rotation: orthogonal with determinant one. *)
Definition rotation (M : mat) : Prop := orthogonal M /\ det M = 1.
(** The rotations of the Explanatory Supplement (functions.py 153-159). *)
Definition R1 (a : R) : mat := rot_x (- a).
Definition R3 (a : R) : mat := rot_z (- a).

(** Derivatives of vectors. *)
Definition vderiv (f : R -> vec) (t : R) (d : vec) : Prop :=
  derivable_pt_lim (fun s => vx (f s)) t (vx d) /\
  derivable_pt_lim (fun s => vy (f s)) t (vy d) /\
  derivable_pt_lim (fun s => vz (f s)) t (vz d).
Definition mderiv (f : R -> mat) (t : R) (d : mat) : Prop :=
  vderiv (fun s => r1 (f s)) t (r1 d) /\ vderiv (fun s => r2 (f s)) t (r2 d) /\ vderiv (fun s => r3 (f s)) t (r3 d).

(** A point at distance [k] from [o] in the direction of [d] is in the ball. *)
Definition in_ball (p center : vec) (radius : R) : Prop := vlength (vsub p center) <= radius.
Definition on_ellipsoid (p radii : vec) : Prop :=
  (vx p / vx radii) * (vx p / vx radii) + (vy p / vy radii) * (vy p / vy radii) + (vz p / vz radii) * (vz p / vz radii) = 1.
(** Local directions in Earth-fixed axes. *)
Definition up (lat lon : R) : vec := V3 (cos lat * cos lon) (cos lat * sin lon) (sin lat).
Definition north (lat lon : R) : vec := V3 (- sin lat * cos lon) (- sin lat * sin lon) (cos lat).
Definition east (lon : R) : vec := V3 (- sin lon) (cos lon) 0.
(** Distance from the axis to the ellipsoid along the normal. *)
Definition normal_radius (a finv lat : R) : R := a / sqrt (1 - e2 finv * sin lat * sin lat).
(** Bound on how fast that normal moves along the axis with latitude. *)
Definition axis_rate (a finv : R) : R := a * e2 finv / (omf2 finv * omf2 finv).
