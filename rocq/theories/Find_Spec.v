(** Vocabulary for rising, setting and transit searches. *)
From Coq Require Import Reals ZArith.
From Verif Require Import Real_Math.
Open Scope R_scope.

(** [f] and [g] agree up to whole turns. *)
Definition same_angle (f g : R -> R) : Prop := forall t, exists k, f t = g t + tau * IZR k.
(** The hour angle is the one sought. *)
Definition event (ha desired : R -> R) (t : R) : Prop := exists k, desired t - ha t = tau * IZR k.
(** A quantity that grows at a rate between [w1] and [w2]. *)
Definition grows_between (w1 w2 : R) (f : R -> R) : Prop :=
  forall s t, s <= t -> w1 * (t - s) <= f t - f s <= w2 * (t - s).
(** A turning sky: the hour angle grows, and the way left to the hour angle sought
    shrinks, at rates between [w1] and [w2], less than a turn in 0.8 days. *)
Definition turning_sky (ha desired : R -> R) (w1 w2 : R) : Prop :=
  0 < w1 <= w2 /\ w2 * (8 / 10) < tau /\
  exists H D, same_angle ha H /\ same_angle (fun t => desired t - ha t) (fun t => - D t) /\
    grows_between w1 w2 H /\ grows_between w1 w2 D.
(** A reported time within [bound] days of the event; [None] is nan. *)
Definition close (bound e : R) (r : option R) : Prop := exists x, r = Some x /\ Rabs (x - e) <= bound.
(** The same for a time reported with its flag, unless it is nan. *)
Definition close_crossing (bound e : R) (r : option (R * bool)) : Prop := forall x b, r = Some (x, b) -> Rabs (x - e) <= bound.
