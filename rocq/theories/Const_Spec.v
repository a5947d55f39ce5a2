(** The rule of the catalogue VI/42 (Roman 1987): a position lies in the constellation of
    the first line, from north to south, whose lower declination is not above it and whose
    right ascensions, the lower included and the upper excluded, surround it. *)
From Coq Require Import ZArith QArith Ascii String List Bool.
From Verif Require Import PyNum Const_Model.
Import ListNotations.
Open Scope Q_scope.

Inductive in_constellation : list boundary -> Q -> Q -> Z -> Prop :=
| found b r ra dec : de_low b <= dec -> ra_low b <= ra -> ra < ra_up b -> in_constellation (b :: r) ra dec (const b)
| further b r ra dec c : (dec < de_low b \/ ra < ra_low b \/ ra_up b <= ra) -> in_constellation r ra dec c ->
    in_constellation (b :: r) ra dec c.
(** From north to south. *)
Fixpoint southward (l : list boundary) : Prop :=
  match l with
  | a :: r => match r with b :: _ => de_low b <= de_low a | [] => True end /\ southward r
  | [] => True
  end.
(** The catalogue spans the sky. *)
Definition spans (l : list boundary) : Prop :=
  (forall b, In b l -> 0 <= ra_low b /\ ra_low b < ra_up b /\ ra_up b <= 24 /\ -90 <= de_low b /\ de_low b <= 88) /\
  (exists b, In b l /\ ra_low b == 0) /\ (exists b, In b l /\ ra_up b == 24) /\
  (exists b, In b l /\ de_low b == -90) /\ (exists b, In b l /\ de_low b == 88).
(** The position lies on a line of the map, other than the equinox. *)
Definition on_line (l : list boundary) (ra : Q) : Prop :=
  exists b, In b l /\ ((ra == ra_low b /\ 0 < ra) \/ ra == ra_up b).
(** No line of the map lies in between. *)
Definition clear (l : list boundary) (low up : Q) : Prop :=
  forall b x, In b l -> x = ra_low b \/ x = ra_up b -> low < x -> x < up -> False.
