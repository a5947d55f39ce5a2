(** Vocabulary for the search properties, independent of the search code. *)
From Coq Require Import ZArith QArith Qabs List Bool Morphisms.
From Verif Require Import Search_Model.
Import ListNotations.
Open Scope Q_scope.

(** A function of time: it does not see how a number is written. *)
Notation time_function f := (Proper (Qeq ==> eq) f).
Notation real_function f := (Proper (Qeq ==> Qeq) f).

(** The values [vs] lead from [v0] to [v1], each different from the one before. *)
Fixpoint chain (v0 : Z) (vs : list Z) (v1 : Z) : Prop :=
  match vs with
  | [] => v0 = v1
  | v :: r => v <> v0 /\ chain v r v1
  end.

(** Strictly increasing times, all after [a] and up to [b]. *)
Fixpoint increasing_in (a : Q) (ts : list Q) (b : Q) : Prop :=
  match ts with
  | [] => a <= b
  | t :: r => a < t /\ increasing_in t r b
  end.
(** Times that never decrease, from [a] on and up to [b]. *)
Fixpoint ascending (a : Q) (ts : list Q) (b : Q) : Prop :=
  match ts with
  | [] => a <= b
  | t :: r => a <= t /\ ascending t r b
  end.

(** A list of changes [(c, v)]: at time [c] the value becomes [v]. The value just
    before time [t], and the value with changes at [t] itself included. *)
Fixpoint value_before (v0 : Z) (cs : list (Q * Z)) (t : Q) : Z :=
  match cs with
  | [] => v0
  | (c, v) :: r => if Qle_bool t c then v0 else value_before v r t
  end.
Fixpoint value_upto (v0 : Z) (cs : list (Q * Z)) (t : Q) : Z :=
  match cs with
  | [] => v0
  | (c, v) :: r => if Qle_bool c t then value_upto v r t else v0
  end.
(** Consecutive changes are at least [gap] apart. *)
Fixpoint spaced (gap : Q) (cs : list (Q * Z)) : Prop :=
  match cs with
  | (c, _) :: r => match r with (c', _) :: _ => c + gap <= c' | [] => True end /\ spaced gap r
  | [] => True
  end.
(** The function [f] goes through exactly the changes [cs] over [a, b]. At the
    instant of a change it may have the old or the new value. *)
Definition history (f : Q -> Z) (gap a b : Q) (cs : list (Q * Z)) : Prop :=
  chain (f a) (map snd cs) (f b) /\ spaced gap cs /\ ascending a (map fst cs) b /\
  forall t, a <= t <= b -> f t = value_before (f a) cs t \/ f t = value_upto (f a) cs t.

(** A usable sampling attribute. *)
Definition positive_sampling (s : sampling) : Prop :=
  match s with StepDays d => 0 < d | RoughPeriod p => 0 < p end.

(** The event reports the change, at most [eps] late. *)
Definition found_for (eps : Q) (ev ch : Q * Z) : Prop :=
  snd ev = snd ch /\ fst ch <= fst ev <= fst ch + eps.

(** One peak: strictly rising up to [p] and strictly falling from [p] on. *)
Definition one_peak (f : Q -> Q) (p : Q) : Prop :=
  (forall s t, s < t -> t <= p -> f s < f t) /\ (forall s t, p <= s -> s < t -> f t < f s).
Definition one_valley (f : Q -> Q) (p : Q) : Prop := one_peak (fun t => - f t) p.

(** The sampling distance that the attributes ask for, and the part of it at each
    end of the range in which a peak can be lost. *)
Definition spacing (s : sampling) (num : nat) : Q :=
  match s with StepDays d => d | RoughPeriod p => p / inject_Z (Z.of_nat num) end.
Definition margin (s : sampling) (num : nat) : Q :=
  match s with StepDays d => d / 4 | RoughPeriod p => p / inject_Z (Z.of_nat num) / 2 end.
(** The list reports one maximum within [eps] of [p], whose value is the
    function's value at a time within [eps] of [p]. *)
Definition located (f : Q -> Q) (p eps : Q) (l : list (Q * Q)) : Prop :=
  exists x y, l = [(x, y)] /\ p - eps < x < p + eps /\ exists x', p - eps < x' < p + eps /\ y = f x'.

(** Times in order, each more than [eps] after the one before. *)
Fixpoint separated (eps : Q) (ts : list Q) : Prop :=
  match ts with
  | a :: r => match r with b :: _ => a < b /\ eps < b - a | [] => True end /\ separated eps r
  | [] => True
  end.
(** A local maximum seen at the samples: a point higher than two others around
    it, or the middle of a plateau whose edges are lower. *)
Definition seen_peak (f : Q -> Q) (x y : Q) : Prop :=
  y = f x /\ exists a b, a < x /\ x < b /\ f a < f x /\ f b < f x.
Definition seen_plateau (f : Q -> Q) (x y : Q) : Prop :=
  exists a b c d, a < b /\ b < c /\ c < d /\ x == (a + d) / 2 /\
    y = f b /\ f b == f c /\ f a < f b /\ f d < f c.

(** Rise, culmination and set events: what is possible when the satellite is
    above (true) or below (false) the threshold. *)
Fixpoint pass_ok (above : bool) (evs : list Z) : Prop :=
  match evs with
  | [] => True
  | e :: r => match e with
              | 0 => above = false /\ pass_ok true r
              | 1 => above = true /\ pass_ok true r
              | 2 => above = true /\ pass_ok false r
              | _ => False
              end%Z
  end.

(** A list of timed items in time order. *)
Fixpoint sorted_fst {B} (l : list (Q * B)) : Prop :=
  match l with
  | a :: r => (forall b, In b r -> fst a <= fst b) /\ sorted_fst r
  | [] => True
  end.

(** Between the two times of the pair the function is constant, or changes once,
    at time [c], to the value [v]. *)
Definition at_most_one_change (f : Q -> Z) (p : Q * Q) (o : option (Q * Z)) : Prop :=
  match o with
  | None => forall t, fst p <= t <= snd p -> f t = f (fst p)
  | Some (c, v) =>
      fst p <= c <= snd p /\ f (fst p) <> v /\ f (snd p) = v /\ (f c = f (fst p) \/ f c = v) /\
      (forall t, fst p <= t < c -> f t = f (fst p)) /\ (forall t, c < t <= snd p -> f t = v)
  end.
Definition the_changes (os : list (option (Q * Z))) : list (Q * Z) :=
  flat_map (fun o => match o with Some c => [c] | None => [] end) os.
