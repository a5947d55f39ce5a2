(** Model in binary64 of the aberration of light and of the time at which a ray passes
    closest to a body. *)
From Coq Require Import ZArith.
From Verif Require Import Float64 SepF_Model LightF_Model.
Open Scope Z_scope.

(** functions.py 10, [_AVOID_DIVIDE_BY_ZERO]: the smallest normal float. *)
Definition tiny64 : b64 := fl 1 (-1022).
(** functions.py 22-30, [dots]; [sum(axis=0)] adds from left to right. *)
Definition dots64 (v u : fvec) : b64 := fadd (fadd (fmul (fx v) (fx u)) (fmul (fy v) (fy u))) (fmul (fz v) (fz u)).
(** A vector divided by a float. *)
Definition fshrink (p : fvec) (k : b64) : fvec := F3 (fdiv (fx p) k) (fdiv (fy p) k) (fdiv (fz p) k).
(** relativity.py 164-187, [add_aberration]; the updated position. *)
Definition add_aberration64 (position velocity : fvec) (light_time : b64) : fvec :=
  let p1mag := fmul light_time C_AUDAY64 in
  let vemag := length64 velocity in
  let beta := fdiv vemag C_AUDAY64 in
  let dot := dots64 position velocity in
  let cosd := fdiv dot (fadd (fmul p1mag vemag) tiny64) in
  let gammai := fsqrt (fsub (of_Z 1) (fmul beta beta)) in
  let p := fmul beta cosd in
  let q := fmul (fadd (of_Z 1) (fdiv p (fadd (of_Z 1) gammai))) light_time in
  let r := fadd (of_Z 1) p in
  fshrink (fplus (fscale position gammai) (fscale velocity q)) r.
(** relativity.py 104-123, [light_time_difference]; [einsum] is a parameter. *)
Definition light_time_difference64 (dot3 : fvec -> fvec -> b64) (position deflector_position : fvec) : b64 :=
  let dis := length64 position in
  let u1 := fshrink position (fadd dis tiny64) in
  fdiv (dot3 u1 deflector_position) C_AUDAY64.
(** vectorlib.py 190 and eclipselib.py 66: the light time of a vector. *)
Definition light_time64 (p : fvec) : b64 := fdiv (length64 p) C_AUDAY64.
