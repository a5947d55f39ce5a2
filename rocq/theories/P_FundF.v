(** C187: the fundamental arguments of nutation in binary64. *)
From Coq Require Import ZArith Reals List.
From Flocq Require Import Core BinarySingleNaN.
From Verif Require Import Float64 Float64_Proofs Wrap_Spec PrecF_Spec FundF_Model FundF_Spec FundF_Proofs.
Open Scope R_scope.

(** The five arguments are those of Simon and others less whole turns, to 2.4e-11 radians. *)
Theorem C187_fundamental_arguments : forall t : bf, is_finite t = true -> Rabs (B2R t) <= 8 ->
  Forall2 (fun f x => angle_up_to_turns (24 / 10 ^ 12) (f (B2R t)) x) mean_arguments (fundamental_arguments64 (B2SF t)).
Proof. exact fundamental_close. Qed.
Print Assumptions C187_fundamental_arguments.
(** The step that cuts off whole turns loses nothing, whatever the floats. *)
Theorem C187_fmod_exact : forall x m : bf, is_finite x = true -> is_finite m = true -> 0 < B2R m <= bpow radix2 900 ->
  exists (b : bf) (n : Z), ffmod (B2SF x) (B2SF m) = B2SF b /\ is_finite b = true /\ Rabs (B2R b) < B2R m /\ B2R b = B2R x - B2R m * IZR n.
Proof. exact ffmod_correct. Qed.
Print Assumptions C187_fmod_exact.
(** The hypotheses hold in 2025. *)
Example C187_ex : exists t : bf, is_finite t = true /\ B2R t = 1 / 4 /\ Rabs (B2R t) <= 8.
Proof. exact fundamental_example. Qed.
Print Assumptions C187_ex.
