(** Vocabulary for splines in binary64. *)
From Coq Require Import ZArith Reals List.
From Flocq Require Import Core BinarySingleNaN.
From Verif Require Import Float64 Float64_Proofs Curve_Model Curve_Spec SplF_Model.
Import ListNotations.
Open Scope R_scope.

(** A row of floats, as the code has it and as real numbers. *)
Record brow := BRow { blo : bf; bhi : bf; bco : list bf }.
Definition row64_of (r : brow) : row64 := Row64 (B2SF (blo r)) (B2SF (bhi r)) (map (fun c => B2SF c) (bco r)).
Definition real_row (r : brow) : row := Row (B2R (blo r)) (B2R (bhi r)) (map (fun c => B2R c) (bco r)).
(** A float of ordinary size. *)
Definition fair (x : bf) : Prop := is_finite x = true /\ Rabs (B2R x) <= bpow radix2 300.
(** A row of ordinary width with up to [n] coefficients of size up to [A]. *)
Definition fair_row (n : nat) (A : R) (r : brow) : Prop :=
  fair (blo r) /\ fair (bhi r) /\ bpow radix2 (-300) <= B2R (bhi r) - B2R (blo r) /\
  (1 <= length (bco r) <= n)%nat /\ Forall (fun c => is_finite c = true /\ Rabs (B2R c) <= A) (bco r).
(** No row is more than [ratio] times as wide as the next. *)
Fixpoint widths_within (ratio : R) (rows : list row) : Prop :=
  match rows with a :: ((b :: _) as r) => width a <= ratio * width b /\ widths_within ratio r | _ => True end.
(** Coefficients of ordinary size. *)
Definition scale_ok (A : R) : Prop := bpow radix2 (-900) <= A <= bpow radix2 900.
(** A curve of rows [a :: rest], each starting where the one before ends, with steps of
    at most [J] between them. *)
Definition table_ok (n : nat) (A J ratio : R) (a : brow) (rest : list brow) : Prop :=
  (n <= 1000)%nat /\ scale_ok A /\ 0 <= J /\ 1 <= ratio <= 1048576 /\ (Z.of_nat (length rest) < 2 ^ 20)%Z /\ Forall (fair_row n A) (a :: rest) /\ joined J (map real_row (a :: rest)) /\ widths_within ratio (map real_row (a :: rest)).
