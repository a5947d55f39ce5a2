(** C188: the arguments of the complementary terms of the equation of the equinoxes, in
    binary64. *)
From Coq Require Import ZArith Reals List.
From Flocq Require Import Core BinarySingleNaN.
From Verif Require Import Float64 Float64_Proofs Wrap_Spec PrecF_Spec FundF_Spec FundF_Proofs CompF_Model CompF_Spec CompF_Proofs.
Open Scope R_scope.

(** The fourteen arguments lie between 0 and [tau] and are, less whole turns, those of Simon
    and Souchay to 2e-11 radians. *)
Theorem C188_complementary_arguments : forall t : bf, is_finite t = true -> Rabs (B2R t) <= 8 ->
  Forall2 (fun f x => folded 0 tau_float (2 / 10 ^ 11) (f (B2R t)) x) all_arguments (complementary_arguments64 (B2SF t)).
Proof. exact complementary_close. Qed.
Print Assumptions C188_complementary_arguments.
(** The hypotheses hold in 2025. *)
Example C188_ex : exists t : bf, is_finite t = true /\ B2R t = 1 / 4 /\ Rabs (B2R t) <= 8.
Proof. exact fundamental_example. Qed.
Print Assumptions C188_ex.
