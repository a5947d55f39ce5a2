(** Model in binary64 of an apparent place. *)
From Coq Require Import ZArith List.
From Verif Require Import Float64 SepF_Model LightF_Model AberF_Model DeflF_Model.
Import ListNotations.

(** positionlib.py 768-790: [target_au += d] for each deflector in turn. A deflector is
    the position of the observer relative to it and its reciprocal mass; how the former is
    computed is not part of this model. For an observer near the Earth the last deflector
    is the Earth (793-798), if the flag there is 1. *)
Fixpoint deflect_all64 (target : fvec) (deflectors : list (fvec * b64)) : fvec :=
  match deflectors with
  | [] => target
  | (pe, rmass) :: deflectors => deflect_all64 (fplus target (compute_deflection64 target pe rmass)) deflectors
  end.
(** positionlib.py 728-800, [Astrometric.apparent], the position. *)
Definition apparent64 (target velocity : fvec) (light_time : b64) (deflectors : list (fvec * b64)) : fvec :=
  add_aberration64 (deflect_all64 target deflectors) velocity light_time.
