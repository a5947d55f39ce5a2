(** Vocabulary for the binary64 properties of times. *)
From Coq Require Import ZArith List Bool.
From Coq.Floats Require Import SpecFloat.
From Verif Require Import Float64 Float_Time_Model Time_Spec.
Import ListNotations.
Open Scope Z_scope.

(** The float arrays a [Timescale] is given for a leap second history of days
    [ns]: Julian dates ending in .5, and offsets counting up from [base + 1].
    All days are within a billion days of Julian day zero. *)
Definition leap_dates64 (ns : list Z) : list b64 := map (fun n => fl (2 * n - 1) (-1)) ns.
Definition leap_offsets64 (ns : list Z) (base : Z) : list b64 :=
  map (fun i => of_Z (base + 1 + Z.of_nat i)) (seq 0 (length ns)).
Definition timescale64_for (ns : list Z) (base : Z) (cut : option Z) (ts : timescale64) : Prop :=
  increasing ns /\ (forall n, In n ns -> Z.abs n < 10 ^ 9) /\ Z.abs base <= 10 ^ 9 /\
  timescale_init64 (leap_dates64 ns) (leap_offsets64 ns base) cut = Some ts.

(** A binary64 datum: mantissa and exponent in the format. *)
Definition is_float (x : b64) : Prop := valid_binary 53 1024 x = true.
Definition finite64 (x : b64) : Prop := is_float x /\ match x with S754_zero _ | S754_finite _ _ _ => True | _ => False end.
(** A time with finite parts whose fraction is not astronomically large. *)
Definition finite_time (t : time64) : Prop :=
  finite64 (whole64 t) /\ finite64 (fraction64 t) /\ fltb (fabs (fraction64 t)) (fl 1 1000) = true.
