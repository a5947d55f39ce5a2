(** Vocabulary for the vector function, kernel and light-time properties. *)
From Coq Require Import List ZArith Reals.
From Verif Require Import Vector_Model.
Import ListNotations.
Open Scope R_scope.

(** Position and velocity only. *)
Definition pv (v : vf) (t : R) : option (vec * vec) :=
  match at_ v t with Some (p, u, _, _) => Some (p, u) | None => None end.
(** Sum, negation and difference; no value if an operand has none. *)
Definition plus_pv (a b : option (vec * vec)) : option (vec * vec) :=
  match a, b with Some (p, u), Some (q, w) => Some (vadd p q, vadd u w) | _, _ => None end.
Definition opp_pv (a : option (vec * vec)) : option (vec * vec) :=
  match a with Some (p, u) => Some (vopp p, vopp u) | None => None end.
Definition minus_pv (a b : option (vec * vec)) : option (vec * vec) :=
  match a, b with Some (p, u), Some (q, w) => Some (vsub p q, vsub u w) | _, _ => None end.

(** Expressions a user can write. *)
Inductive expr := ELeaf (c t : Z) (f : R -> result) | EAdd (a b : expr) | ESub (a b : expr) | ENeg (a : expr).
Fixpoint build (e : expr) : option vf :=
  match e with
  | ELeaf c t f => Some (Leaf c t f)
  | EAdd a b => match build a, build b with Some x, Some y => add x y | _, _ => None end
  | ESub a b => match build a, build b with Some x, Some y => sub x y | _, _ => None end
  | ENeg a => option_map neg (build a)
  end.
(** Every body has one place [X] and one velocity [U], and each leaf gives the
    place of its target as seen from its center. *)
Definition follows (X U : Z -> R -> vec) (c t : Z) (f : R -> result) : Prop :=
  forall s p u g m, f s = Some (p, u, g, m) -> p = vsub (X t s) (X c s) /\ u = vsub (U t s) (U c s).
Fixpoint leaves_follow (X U : Z -> R -> vec) (e : expr) : Prop :=
  match e with
  | ELeaf c t f => follows X U c t f
  | EAdd a b | ESub a b => leaves_follow X U a /\ leaves_follow X U b
  | ENeg a => leaves_follow X U a
  end.
Fixpoint leaves_defined (e : expr) (s : R) : Prop :=
  match e with
  | ELeaf c t f => f s <> None
  | EAdd a b | ESub a b => leaves_defined a s /\ leaves_defined b s
  | ENeg a => leaves_defined a s
  end.

(** ** Kernels *)
Definition part_from (segments : list segment) (p : part) : Prop :=
  match p with
  | Lone s => In s segments
  | Stacked l => l <> [] /\ forall s, In s l -> In s segments /\ Some (s_center s) = part_center p /\ Some (s_target s) = part_target p
  end.
(** A connected chain of parts from [c] to [t]. *)
Inductive chain (segments : list segment) : Z -> list part -> Z -> Prop :=
| chain_nil c : chain segments c [] c
| chain_cons c p d l t : part_from segments p -> part_center p = Some c -> part_target p = Some d ->
    chain segments d l t -> chain segments c (p :: l) t.
Definition acyclic (segments : list segment) : Prop :=
  exists rank : Z -> nat, forall s, In s segments -> (rank (s_center s) < rank (s_target s))%nat.
Definition covers (s : segment) (t : R) : Prop := s_start s <= t <= s_end s.
Definition last_covering (l : list segment) (t : R) (s : segment) : Prop :=
  covers s t /\ exists l1 l2, l = l1 ++ s :: l2 /\ forall s', In s' l2 -> ~ covers s' t.

(** ** Light time *)
Definition lipschitz (k : R) (d : R -> R) : Prop := forall a b, Rabs (d a - d b) <= k * Rabs (a - b).
(** Vector functions in a row, from [c] to [d]. *)
Inductive linked : Z -> list vf -> Z -> Prop :=
| linked_nil c : linked c [] c
| linked_cons v l d : linked (target v) l d -> linked (center v) (v :: l) d.
Definition in_row (v : vf) : Prop := match v with Sum c d l => linked c l d | _ => True end.
(** A body that keeps below the speed [k]. *)
Definition slower (k : R) (X : R -> vec) : Prop := forall a b, vlength (vsub (X a) (X b)) <= k * Rabs (a - b).
