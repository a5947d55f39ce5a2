(** Vocabulary for frames of other bodies and for rates of angles. *)
From Coq Require Import Reals ZArith List String.
From Verif Require Import Real_Math Vector_Model Geo_Model Geo_Spec Planet_Model.
Import ListNotations.
Open Scope R_scope.

(** An angle, known up to whole turns, that changes at the given rate: near [t] it
    agrees with a function that has this derivative. *)
Definition turns_at_rate (angle : R -> R) (t rate : R) : Prop :=
  exists phi delta, 0 < delta /\ phi t = angle t /\ derivable_pt_lim phi t rate /\
    forall s, Rabs (s - t) < delta -> exists k, phi s = angle s + tau * IZR k.
(** The rotation of axes by an angle about an axis, as the SPICE documents write it. *)
Definition axis_rotation (axis : Z) (angle : R) : mat :=
  match axis with
  | 1%Z => M3 (V3 1 0 0) (V3 0 (cos angle) (sin angle)) (V3 0 (- sin angle) (cos angle))
  | 2%Z => M3 (V3 (cos angle) 0 (- sin angle)) (V3 0 1 0) (V3 (sin angle) 0 (cos angle))
  | _ => M3 (V3 (cos angle) (sin angle) 0) (V3 (- sin angle) (cos angle) 0) (V3 0 0 1)
  end.
(** From the frame to the one it is relative to: the first axis leftmost. *)
Fixpoint axis_rotations (l : list (Z * R)) : mat :=
  match l with [] => identity | (axis, angle) :: l => mxm (axis_rotation axis angle) (axis_rotations l) end.
(** A motion of the axes of a body given by the right ascension and declination
    (as its complement) of the pole and the angle of the prime meridian: the body's
    axes turned about its pole, tilted, and turned again. *)
Definition body_axes (ra dec w : R) : mat := mxm (axis_rotation 3 w) (mxm (axis_rotation 1 dec) (axis_rotation 3 ra)).
(** The matrix listed column by column. *)
Definition columns (M : mat) : list R :=
  [vx (r1 M); vx (r2 M); vx (r3 M); vy (r1 M); vy (r2 M); vy (r3 M); vz (r1 M); vz (r2 M); vz (r3 M)].
(** The chain MOON_ME, MOON_ME_DE421, MOON_PA_DE421 of the kernel moon_080317.tf. *)
Definition moon_variables (k : key) : option value :=
  match k with
  | FRAME "MOON_ME" => Some (Whole 31001) | FRAME "MOON_ME_DE421" => Some (Whole 31007) | FRAME "MOON_PA_DE421" => Some (Whole 31006)
  | CENTER _ => Some (Whole 301)
  | SPEC 31001 => Some (Text "MATRIX") | MATRIX 31001 => Some (Numbers [1; 0; 0; 0; 1; 0; 0; 0; 1]) | RELATIVE 31001 => Some (Text "MOON_ME_DE421")
  | SPEC 31007 => Some (Text "ANGLES") | ANGLES 31007 => Some (Numbers [6792 / 100; 7862 / 100; 30 / 100]) | AXES 31007 => Some (Wholes [3; 2; 1]%Z)
  | UNITS 31007 => Some (Text "ARCSECONDS") | RELATIVE 31007 => Some (Text "MOON_PA_DE421")
  | _ => None
  end.
Definition moon_segments (n : Z) : option orientation :=
  if Z.eqb n 31006 then Some {| base := 1; angles_at := fun t => (0, 0, t) |} else None.
