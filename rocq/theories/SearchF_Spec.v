(** Vocabulary for searches over float times, independent of the search code. *)
From Coq Require Import ZArith Reals List.
From Flocq Require Import Core BinarySingleNaN.
From Verif Require Import Float64 Float64_Proofs.
Import ListNotations.
Open Scope R_scope.

(** The number that a float stands for. *)
Definition val (x : b64) : R := SF2R radix2 x.
(** A Julian date between 12600 BC and AD 3181, held in one float. *)
Definition day_number (x : b64) : Prop := exists b : bf, x = B2SF b /\ is_finite b = true /\ Rabs (B2R b) <= 2883000.
(** A function of time: it does not tell the two zeros apart. *)
Definition time_function64 (f : b64 -> Z) : Prop :=
  forall x y, day_number x -> day_number y -> val x = val y -> f x = f y.
(** A sampling step from a tenth of a second to 179 years. *)
Definition usual_step (step_days : b64) : Prop :=
  exists b : bf, step_days = B2SF b /\ is_finite b = true /\ / 2 ^ 20 <= B2R b <= 2 ^ 16.

(** The values [vs] lead from [v0] to [v1], each different from the one before. *)
Fixpoint leads (v0 : Z) (vs : list Z) (v1 : Z) : Prop :=
  match vs with
  | [] => v0 = v1
  | v :: r => v <> v0 /\ leads v r v1
  end.
(** Strictly increasing times, all after [a] and up to [b]. *)
Fixpoint in_order (a : R) (ts : list R) (b : R) : Prop :=
  match ts with
  | [] => a <= b
  | t :: r => a < t /\ in_order t r b
  end.
(** A list of changes [(c, v)]: from time [c] on the value is [v]. *)
Fixpoint value_at (v0 : Z) (cs : list (R * Z)) (t : R) : Z :=
  match cs with
  | [] => v0
  | (c, v) :: r => if Rle_dec c t then value_at v r t else v0
  end.
(** Changes at least [gap] apart. *)
Fixpoint apart (gap : R) (cs : list (R * Z)) : Prop :=
  match cs with
  | [] => True
  | (c, _) :: r => (forall d, In d r -> c + gap <= fst d) /\ apart gap r
  end.
(** Over the floats from [a] to [b] the function goes through exactly the changes [cs]. *)
Definition goes_through (f : b64 -> Z) (gap : R) (a b : b64) (cs : list (R * Z)) : Prop :=
  leads (f a) (map snd cs) (f b) /\ apart gap cs /\ (forall d, In d cs -> val a < fst d <= val b) /\
  forall t, day_number t -> val a <= val t <= val b -> f t = value_at (f a) cs (val t).
(** A millisecond, in days, and a little more for rounding. *)
Definition millisecond : R := 1.000001 / 86400000.
(** The event reports the change, at most a millisecond late. *)
Definition reports (ev : b64 * Z) (ch : R * Z) : Prop :=
  snd ev = snd ch /\ fst ch <= val (fst ev) <= fst ch + millisecond.
(** The function has another value a millisecond or less before the event. *)
Definition change_seen (f : b64 -> Z) (a : b64) (ev : b64 * Z) : Prop :=
  f (fst ev) = snd ev /\ exists s, day_number s /\ val a <= val s /\ val s < val (fst ev) <= val s + millisecond /\ f s <> snd ev.
(** One change, to the value 1 at time [c], reported as three events out of order. *)
Definition spoiled (jd0 jd1 : b64) (c : R) (evs : list (b64 * Z)) : Prop :=
  length evs = 3%nat /\ ~ Forall2 reports evs [(c, 1%Z)] /\ ~ in_order (val jd0) (map (fun ev => val (fst ev)) evs) (val jd1).
