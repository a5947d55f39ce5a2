(** C171 and C172: the correction for light travel time in binary64. *)
From Coq Require Import ZArith Reals List.
From Verif Require Import Float64 Vector_Model LightF_Model LightF_Spec LightF_Proofs2.
Import ListNotations.
Open Scope R_scope.

(** The loop ends within its ten rounds for an array of any length, and every body is
    then where the light left it. *)
Theorem C171_converges : forall obs paths, Forall2 watched obs paths -> exists r, light_times64 obs = Some r /\ Forall2 seen_right paths r.
Proof. exact converges. Qed.
Print Assumptions C171_converges.
Example C171_ex : Forall2 watched [mover; mover] [mover_path; mover_path]. Proof. exact (Forall2_cons _ _ mover_watched (Forall2_cons _ _ mover_watched (Forall2_nil _))). Qed.

(** Whatever the other entries of the array are, an entry of the answer is right. *)
Theorem C172_entry_right_partial : forall obs r i x p, light_times64 obs = Some r -> nth_error obs i = Some x -> watched x p -> exists a, nth_error r i = Some a /\ seen_right p a.
Proof. exact member_right. Qed.
Print Assumptions C172_entry_right_partial.
(** But there is no answer at all if one of the positions is undefined ... *)
Theorem C172_undefined_entry_partial : forall obs x, In x obs -> undefined x -> light_times64 obs = None.
Proof. exact (fun obs x => undefined_fails x obs). Qed.
Print Assumptions C172_undefined_entry_partial.
(** ... so that the entries do not stand on their own. *)
Theorem C172_entries_independent_refuted :
  ~ (forall obs x p, In x obs -> watched x p -> (forall y, In y obs -> undefined y \/ exists q, watched y q) -> light_times64 obs <> None).
Proof. exact spoiled. Qed.
Print Assumptions C172_entries_independent_refuted.
Example C172_ex : watched mover mover_path /\ undefined lost. Proof. exact (conj mover_watched lost_undefined). Qed.
