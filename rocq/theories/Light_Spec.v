(** Vocabulary for the light and star properties. *)
From Coq Require Import Reals ZArith List.
Import ListNotations.
From Verif Require Import Real_Math Vector_Model Geo_Model Geo_Spec.
Open Scope R_scope.

(** Special relativity, with the speed of light 1: energy and momentum seen by an
    observer who moves with velocity [w]. *)
Definition lorentz_factor (w : vec) : R := / sqrt (1 - dot w w).
Definition boosted_energy (w : vec) (E : R) (k : vec) : R := lorentz_factor w * (E - dot w k).
Definition boosted_momentum (w : vec) (E : R) (k : vec) : vec :=
  vadd k (smul ((lorentz_factor w - 1) * (dot k w / dot w w) - lorentz_factor w * E) w).
Definition unit_of (v : vec) : vec := smul (/ vlength v) v.
(** Where light seems to come from, for an observer who moves with velocity [w],
    if it comes from the direction [u] for one at rest. *)
Definition seen_from (w u : vec) : vec :=
  smul (/ boosted_energy w 1 (vopp u)) (vopp (boosted_momentum w 1 (vopp u))).

(** The line of sight from [o] along [d] passes inside the ball about the origin. *)
Definition sight_blocked (o d : vec) (radius : R) : Prop :=
  exists s, 0 <= s /\ vlength (vadd o (smul s d)) < radius.
(** Right ascension, declination and distance, as functions of time, of something
    that moves uniformly. *)
Definition uniform_motion (ra dec dist : R -> R) (p v : vec) : Prop :=
  forall t, from_spherical (dist t) (dec t) (ra t) = vadd p (smul t v).

(** The list of all results, if each is there. *)
Fixpoint all_results (l : list (option R)) : option (list R) :=
  match l with
  | nil => Some nil
  | Some x :: l => match all_results l with Some r => Some (x :: r) | None => None end
  | None :: _ => None
  end.

(** The body an ephemeris offers for a deflector's code: under that code, or, for a
    planet's centre (codes that end in 99), its system's barycentre. *)
Definition body_used (ephemeris : Z -> option (R -> vec)) (code : Z) (body : R -> vec) : Prop :=
  ephemeris code = Some body \/ ((code mod 100 =? 99)%Z = true /\ ephemeris code = None /\ ephemeris (code / 100)%Z = Some body).
