(** Model of the first lines of [Star._compute_vectors], which replace a missing
    parallax, in binary64. *)
From Coq Require Import ZArith List Bool.
From Coq Require Import Floats.SpecFloat.
From Verif Require Import Float64.
Import ListNotations.

(** [1.0e-6]. *)
Definition one_millionth : b64 := fl 4722366482869645 (-72).
Definition isnan (x : b64) : bool := match x with S754_nan => true | _ => false end.
(** starlib.py 146-147: a single number. *)
Definition clean_scalar (parallax : b64) : b64 := if fleb parallax (of_Z 0) then one_millionth else parallax.
(** starlib.py 143-145: an array. *)
Definition clean_array (parallax : list b64) : list b64 :=
  let parallax := map (fun p => if isnan p then of_Z 0 else p) parallax in
  map (fun p => if fleb p (of_Z 0) then one_millionth else p) parallax.
