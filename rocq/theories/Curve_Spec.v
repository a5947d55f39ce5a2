(** Specifications for the curve and time scale properties. *)
From Coq Require Import Reals ZArith List.
From Verif Require Import Curve_Model.
Import ListNotations.
Open Scope R_scope.

(** Near [x] the function stays within [eps] of its value there, up to any margin.
    With [eps = 0] this is continuity. *)
Definition jump_at_most (eps : R) (f : R -> R) (x : R) : Prop :=
  forall d, 0 < d -> exists h, 0 < h /\ forall y, Rabs (y - x) < h -> Rabs (f y - f x) <= eps + d.

(** Rows in order of their lower ends. *)
Fixpoint ascending (l : list R) : Prop :=
  match l with a :: ((b :: _) as r) => a < b /\ ascending r | _ => True end.
(** Cubic rows, each starting where the one before ends, with a step of at most
    [eps] between the values there. *)
Fixpoint joined (eps : R) (rows : list row) : Prop :=
  match rows with
  | a :: ((b :: _) as r) => hi a = lo b /\ Rabs (row_at a (lo b) - row_at b (lo b)) <= eps /\ joined eps r
  | _ => True
  end.
Definition historic (eps : R) (rows : list row) : Prop :=
  rows <> [] /\ Forall (fun r => lo r < hi r /\ length (co r) = 4%nat) rows /\ joined eps rows.
Definition daily (tt dt : list R) : Prop := tt <> [] /\ length tt = length dt /\ ascending tt.
Definition start_year (rows : list row) : R := match rows with r :: _ => lo r | [] => 0 end.

(** The long-term parabola of Stephenson, Morrison and Hohenkerk 2016. *)
Definition long_term (y : R) : R := -320 + 325 / 10 * ((y - 1825) / 100) ^ 2.

(** [D] changes by at most [l] seconds per day. *)
Definition lipschitz (l : R) (D : R -> R) : Prop := forall x y, Rabs (D x - D y) <= l * Rabs (x - y).

(** TAI - UTC on day [d] when leap seconds take effect at the start of [leaps]. *)
Definition tai_minus_utc (leaps : list Z) (d : Z) : Z := (10 + Z.of_nat (length (filter (fun l => l <=? d)%Z leaps)))%Z.
Fixpoint ascendingZ (l : list Z) : Prop :=
  match l with a :: ((b :: _) as r) => (a < b)%Z /\ ascendingZ r | _ => True end.
(** [n] days from [d] on. *)
Fixpoint days (d : Z) (n : nat) : list Z := match n with O => [] | S n => d :: days (d + 1) n end.
(** Dates one day apart. *)
Fixpoint spaced (l : list R) : Prop :=
  match l with a :: ((b :: _) as r) => b = a + 1 /\ spaced r | _ => True end.
(** Average rate, per year, over the last year or less of a daily table: from the
    366th value from the end, or the first, to the last. *)
Definition average_rate (tt dt : list R) : R :=
  let k := (length dt - Nat.min 366 (length dt))%nat in
  (last dt 0 - nth k dt 0) / (year_of (last tt 0) - year_of (nth k tt 0)).
(** [f] continues [g] to the right of [a] and leaves it with slope [s]. *)
Definition leaves_with_slope (g : R -> R) (a s : R) : Prop :=
  exists f h, 0 < h /\ (forall y, a <= y < a + h -> g y = f y) /\ derivable_pt_lim f a s.
