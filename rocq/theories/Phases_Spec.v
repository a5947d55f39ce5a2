(** Vocabulary for events of the almanac: angles that advance, levels they pass. *)
From Coq Require Import Reals QArith Qreals ZArith List.
From Verif Require Import Real_Math.
Import ListNotations.
Open Scope R_scope.

(** The angle is [phi] but for whole turns. *)
Definition up_to_turns (angle phi : R -> R) (a b : R) : Prop :=
  forall t, a <= t <= b -> exists j : Z, angle t = phi t + IZR j * tau.
(** A continuous function that always grows, or always falls. *)
Definition advancing (phi : R -> R) (a b : R) : Prop :=
  (forall t, a <= t <= b -> continuity_pt phi t) /\ forall s t, a <= s -> s < t -> t <= b -> phi s < phi t.
Definition receding (phi : R -> R) (a b : R) : Prop :=
  (forall t, a <= t <= b -> continuity_pt phi t) /\ forall s t, a <= s -> s < t -> t <= b -> phi t < phi s.
(** In [days] it moves by at most [amount]. *)
Definition moves_at_most (amount days : R) (phi : R -> R) (a b : R) : Prop :=
  forall s t, a <= s -> s <= t -> t <= b -> t - s <= days -> Rabs (phi t - phi s) <= amount.
(** An event with the label is reported within [late] after the level is passed. *)
Definition reported (late : R) (phi : R -> R) (a b level : R) (label : Z) (ev : Q * Z) : Prop :=
  snd ev = label /\ exists t, a <= t <= b /\ phi t = level /\ t <= Q2R (fst ev) <= t + late.
(** Numbers in steps of one. *)
Fixpoint counting_up (ks : list Z) : Prop :=
  match ks with k :: r => match r with k' :: _ => k' = (k + 1)%Z | [] => True end /\ counting_up r | [] => True end.
(** One event for each multiple of [w] passed from [a] to [b], in order; the event at
    [k * w] has the label [label k]. *)
Definition one_event_each (late w : R) (label : Z -> Z) (phi : R -> R) (a b : R) (evs : list (Q * Z)) : Prop :=
  exists ks, counting_up ks /\ (forall k, In k ks <-> phi a < IZR k * w <= phi b) /\
    Forall2 (fun ev k => reported late phi a b (IZR k * w) (label k) ev) evs ks.
(** The same for a falling angle: the multiples passed downwards. *)
Definition one_event_each_down (late w : R) (label : Z -> Z) (phi : R -> R) (a b : R) (evs : list (Q * Z)) : Prop :=
  exists ks, counting_up ks /\ (forall k, In k (map Z.opp ks) <-> phi b < IZR k * w <= phi a) /\
    Forall2 (fun ev k => reported late phi a b (IZR (- k) * w) (label (- k)%Z) ev) evs ks.
(** The altitudes at which the sky's brightness changes its name, in degrees. *)
Definition twilight_altitude (k : Z) : R :=
  match k with 1%Z => -18 | 2%Z => -12 | 3%Z => -6 | _ => - (8333 / 10000) end.
(** One event for each of these altitudes that is passed upwards, or downwards. *)
Definition dawn (late : R) (altitude : R -> R) (a b : R) (evs : list (Q * Z)) : Prop :=
  exists ks, counting_up ks /\ (forall k, In k ks <-> (1 <= k <= 4)%Z /\ altitude a < twilight_altitude k <= altitude b) /\
    Forall2 (fun ev k => reported late altitude a b (twilight_altitude k) k ev) evs ks.
Definition dusk (late : R) (altitude : R -> R) (a b : R) (evs : list (Q * Z)) : Prop :=
  exists ks, counting_up ks /\ (forall k, In k (map Z.opp ks) <-> (1 <= k <= 4)%Z /\ altitude b < twilight_altitude k <= altitude a) /\
    Forall2 (fun ev k => reported late altitude a b (twilight_altitude (- k)) (- k - 1)%Z ev) evs ks.
(** Between [a] and [b] the function crosses the level at the times [cs] only, which are
    at least [gap] apart; it begins on the side [above]. *)
Fixpoint crosses (h : R -> R) (level gap a : R) (above : bool) (cs : list R) (b : R) : Prop :=
  let side t := if above then level < h t else h t < level in
  match cs with
  | [] => forall t, a < t <= b -> side t
  | c :: r => a < c < b /\ (forall t, a < t < c -> side t) /\ h c = level /\
              match r with c' :: _ => c + gap <= c' | [] => True end /\ crosses h level gap c (negb above) r b
  end.
(** One event for each crossing, labelled 1 upwards and 0 downwards. *)
Fixpoint one_event_per_crossing (late : R) (above : bool) (cs : list R) (evs : list (Q * Z)) : Prop :=
  match cs, evs with
  | [], [] => True
  | c :: cs, (t, v) :: evs => c <= Q2R t <= c + late /\ v = (if above then 0 else 1)%Z /\ one_event_per_crossing late (negb above) cs evs
  | _, _ => False
  end.
(** A millisecond, in days. *)
Definition millisecond : R := / 86400000.
