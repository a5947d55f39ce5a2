(** C167: lengths of vectors and angles between them, in binary64. *)
From Coq Require Import ZArith Reals.
From Coq.Floats Require Import SpecFloat.
From Flocq Require Import Core BinarySingleNaN.
From Verif Require Import Float64 Float64_Proofs Real_Math Vector_Model Geo_Model Wrap_Model SepF_Model SepF_Spec SepF_Proofs3.
Open Scope R_scope.

(** The length is right to three units of [2^-53]. *)
Theorem C167_length : forall p w, stands_for p w -> / 2 ^ 400 <= vlength w <= 2 ^ 400 -> near (vlength w) (3 / 2 ^ 53 * vlength w) (length64 p).
Proof. exact length64_ok. Qed.
Print Assumptions C167_length.
(** The separation is right to half a nanoarcsecond, whether small, near a right angle or
    near half a turn. *)
Theorem C167_separation : forall f p q u v, good_arctan2 f -> stands_for p u -> stands_for q v -> ordinary u -> ordinary v ->
  exists theta, angle_of u v theta /\ near theta (3 / 2 ^ 50) (angle_between64 f p q).
Proof. exact angle64_ok. Qed.
Print Assumptions C167_separation.
(** Both orders give the same bits, for all floats, infinities and NaN included. *)
Theorem C167_symmetric : forall f p q, angle_between64 f p q = angle_between64 f q p.
Proof. exact angle64_sym. Qed.
Print Assumptions C167_symmetric.
(** A position is separated from itself by exactly zero, and from its opposite by
    exactly the float pi. *)
Theorem C167_self : forall f p w, (forall x : bf, is_finite x = true -> 0 < B2R x -> f (S754_zero false) (B2SF x) = S754_zero false) ->
  stands_for p w -> ordinary w -> angle_between64 f p p = S754_zero false.
Proof. exact angle64_self. Qed.
Print Assumptions C167_self.
Theorem C167_opposite : forall f p w, (forall x : bf, is_finite x = true -> 0 < B2R x -> f (B2SF x) (S754_zero false) = fl 7074237752028440 (-52)) ->
  stands_for p w -> ordinary w -> angle_between64 f p (fopp p) = pi64.
Proof. exact angle64_opposite. Qed.
Print Assumptions C167_opposite.
Example C167_nanoarcsecond : 3 / 2 ^ 50 < / 10 ^ 9 / 3600 * (PI / 180). Proof. exact nanoarcsecond. Qed.
Example C167_arctan2_ex : exists f, good_arctan2 f. Proof. exact some_arctan2. Qed.
Example C167_ex : exists p q u v, stands_for p u /\ stands_for q v /\ ordinary u /\ ordinary v /\ vlength (vsub u v) <> 0. Proof. exact unit_vectors. Qed.
(** The length of (3, 4, 12) is 13, and a library function that returns what is asked. *)
Example C167_length_ex : length64 (F3 (of_Z 3) (of_Z 4) (of_Z 12)) = of_Z 13. Proof. reflexivity. Qed.
Example C167_self_ex : exists f : b64 -> b64 -> b64, (forall x : bf, is_finite x = true -> 0 < B2R x -> f (S754_zero false) (B2SF x) = S754_zero false) /\
  (forall x : bf, is_finite x = true -> 0 < B2R x -> f (B2SF x) (S754_zero false) = fl 7074237752028440 (-52)).
Proof.
  exists (fun y x => match y, x with S754_zero false, S754_finite _ _ _ => S754_zero false | _, _ => fl 7074237752028440 (-52) end).
  split; intros x F P; destruct x as [s|s| |s m e B]; try discriminate F; try reflexivity; destruct (Rlt_irrefl 0 P).
Qed.
