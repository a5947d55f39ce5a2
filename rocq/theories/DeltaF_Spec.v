(** Vocabulary for Delta T in binary64. *)
From Coq Require Import ZArith Reals List.
From Flocq Require Import Core BinarySingleNaN.
From Verif Require Import Float64 Float64_Proofs Curve_Model Curve_Spec SplF_Model SplF_Spec.
Import ListNotations.
Open Scope R_scope.

(** A node of the daily table: a date and a value. *)
Definition node := (bf * bf)%type.
Definition dates (l : list node) : list bf := map fst l.
Definition values (l : list node) : list bf := map snd l.
Definition floats (l : list bf) := map (fun x => B2SF x) l.
Definition reals (l : list bf) := map (fun x => B2R x) l.
(** Ordinary dates and values of size up to [Y]. *)
Definition fair_node (Y : R) (p : node) : Prop := fair (fst p) /\ is_finite (snd p) = true /\ Rabs (B2R (snd p)) <= Y.
(** Each date is at least 2^-300 after the one before. *)
Fixpoint apart (l : list node) : Prop :=
  match l with p :: ((q :: _) as r) => bpow radix2 (-300) <= B2R (fst q) - B2R (fst p) /\ apart r | _ => True end.
(** Between neighbours the value changes by at most [l] per day. *)
Fixpoint gentle (l : R) (t : list node) : Prop :=
  match t with p :: ((q :: _) as r) => Rabs (B2R (snd q) - B2R (snd p)) <= l * (B2R (fst q) - B2R (fst p)) /\ gentle l r | _ => True end.
(** A daily table [p :: rest]. *)
Definition daily_ok (Y : R) (p : node) (rest : list node) : Prop :=
  bpow radix2 (-300) <= Y <= bpow radix2 300 /\ Forall (fair_node Y) (p :: rest) /\ apart (p :: rest).
