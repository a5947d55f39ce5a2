(** Vocabulary for rotations in floats, by what they do to vectors. *)
From Coq Require Import ZArith Reals.
From Flocq Require Import Core BinarySingleNaN.
From Verif Require Import Float64 Float64_Proofs Vector_Model Geo_Model SepF_Model SepF_Spec RotF_Model.
Open Scope R_scope.

(** The exact turn by [a] about an axis. *)
Definition turn (x : axis) (a : R) (v : vec) : vec :=
  match x with
  | X => V3 (vx v) (cos a * vy v - sin a * vz v) (sin a * vy v + cos a * vz v)
  | Y => V3 (cos a * vx v + sin a * vz v) (vy v) (cos a * vz v - sin a * vx v)
  | Z => V3 (cos a * vx v - sin a * vy v) (sin a * vx v + cos a * vy v) (vz v)
  end.
Definition swap (v : vec) : vec := V3 (vz v) (vy v) (vx v).
(** What exact arithmetic makes of a vector, there and ([back]) the other way. *)
Fixpoint carried (t : turns) (back : bool) (v : vec) : vec :=
  match t with
  | Turn x a => turn x (if back then - SF2R radix2 a else SF2R radix2 a) v
  | Times s t => if back then carried t true (carried s true v) else carried s false (carried t false v)
  | Thrice s t u => if back then carried u true (carried t true (carried s true v)) else carried s false (carried t false (carried u false v))
  | Given _ _ s => carried s back v
  | Flip t => if back then carried t true (swap v) else swap (carried t false v)
  | Back t => carried t (negb back) v
  end.
(** The floats of a matrix are finite. *)
Definition fstands (M : fmat) (A : mat) : Prop := stands_for (q1 M) (r1 A) /\ stands_for (q2 M) (r2 A) /\ stands_for (q3 M) (r3 A).
(** Each entry of a matrix that is written out is right to four roundings for each turn that
    it counts for more: what it makes of the axes is what the turns make of them. *)
Definition close (k : nat) (u v : vec) : Prop :=
  let e := 4 * INR k / 2 ^ 53 in Rabs (vx u - vx v) <= e /\ Rabs (vy u - vy v) <= e /\ Rabs (vz u - vz v) <= e.
Definition written (M : fmat) (k : nat) (s : turns) : Prop :=
  exists A, fstands M A /\ close k (mxv A (V3 1 0 0)) (carried s false (V3 1 0 0)) /\ close k (mxv A (V3 0 1 0)) (carried s false (V3 0 1 0)) /\ close k (mxv A (V3 0 0 1)) (carried s false (V3 0 0 1)).
(** The angles are finite floats of about one turn at most. *)
Fixpoint usual_angles (t : turns) : Prop :=
  match t with
  | Turn _ a => exists b : bf, a = B2SF b /\ is_finite b = true /\ Rabs (B2R b) <= 7
  | Times s t => usual_angles s /\ usual_angles t
  | Thrice s t u => usual_angles s /\ usual_angles t /\ usual_angles u
  | Given M k s => written M k s
  | Flip t | Back t => usual_angles t
  end.
(** The number of elementary turns; a product of three matrices counts as three more. *)
Fixpoint number (t : turns) : nat :=
  match t with Turn _ _ => 1 | Times s t => number s + number t | Thrice s t u => number s + number t + number u + 3 | Given _ k s => number s + k | Flip t | Back t => number t end.
(** Three products summed in any order, each operation rounded or fused. *)
Definition good_dot3 (f : fvec -> fvec -> b64) : Prop :=
  forall p q u v, stands_for p u -> stands_for q v -> vlength u <= 2 ^ 201 -> vlength v <= 2 ^ 201 ->
    near (vx u * vx v + vy u * vy v + vz u * vz v) ((Rabs (vx u * vx v) + Rabs (vy u * vy v) + Rabs (vz u * vz v)) / 2 ^ 51 + / 2 ^ 800) (f p q).
(** Nine products of three factors summed in any order. *)
Definition vabs (v : vec) : vec := V3 (Rabs (vx v)) (Rabs (vy v)) (Rabs (vz v)).
Definition mabs (A : mat) : mat := M3 (vabs (r1 A)) (vabs (r2 A)) (vabs (r3 A)).
Definition moderate (v : vec) : Prop := vlength v <= 2.
Definition good_dot9 (f : fvec -> fmat -> fvec -> b64) : Prop :=
  forall p M q u A v, stands_for p u -> fstands M A -> stands_for q v -> moderate u -> moderate v -> moderate (r1 A) -> moderate (r2 A) -> moderate (r3 A) ->
    near (dot u (mxv A v)) (12 * dot (vabs u) (mxv (mabs A) (vabs v)) / 2 ^ 53 + / 2 ^ 700) (f p M q).
