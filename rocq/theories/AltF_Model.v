(** Model in binary64 of directions in a reference frame: a position is rotated, and its
    spherical coordinates are taken. *)
From Verif Require Import Float64 SepF_Model SphF_Model RotF_Model.

(** positionlib.py 471-475, [frame_latlon], and 895-896, [_to_altaz] without refraction:
    the distance, the latitude or altitude, and the longitude or azimuth. The matrix is
    one that is made of elementary turns. *)
Definition frame_latlon64 (arctan2 hypot : b64 -> b64 -> b64) (sin cos : b64 -> b64) (dot3 : fvec -> fvec -> b64) (dot9 : fvec -> fmat -> fvec -> b64) (t : turns) (xyz : fvec) : b64 * b64 * b64 :=
  to_spherical64 arctan2 hypot (mxv64 dot3 (turns64 sin cos dot3 dot9 t) xyz).
