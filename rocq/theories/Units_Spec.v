(** Vocabulary for the angle properties. *)
From Coq Require Import ZArith QArith Qabs List Bool Ascii.
From Verif Require Import Units_Model.
Import ListNotations.
Open Scope Q_scope.

(** The integer [n] is nearest to [x]. *)
Definition nearest (n : Z) (x : Q) : Prop := forall k : Z, Qabs (inject_Z n - x) <= Qabs (inject_Z k - x).

(** Reading a printed angle: the sign, then the numbers in it, each with its
    count of digits; the last number is a decimal fraction of a second. *)
Definition is_digit (c : ascii) : bool := ((48 <=? nat_of_ascii c) && (nat_of_ascii c <=? 57))%nat.
Definition digit_value (c : ascii) : Z := Z.of_nat (nat_of_ascii c - 48).
Fixpoint numbers (s : list ascii) (current : option (Z * nat)) : list (Z * nat) :=
  match s with
  | [] => match current with Some x => [x] | None => [] end
  | c :: r =>
      if is_digit c
      then numbers r (Some (match current with Some (v, n) => (10 * v + digit_value c, S n)%Z | None => (digit_value c, 1%nat) end))
      else match current with Some x => x :: numbers r None | None => numbers r None end
  end.
Definition denotes (s : list ascii) : option (Q * nat) :=
  let sign := match s with "-"%char :: _ => -1 | _ => 1 end in
  match numbers s None with
  | [(h, _); (m, _); (sec, _); (f, k)] =>
      Some (sign * (inject_Z h + inject_Z m / 60 + inject_Z sec / 3600 + inject_Z f / inject_Z (3600 * 10 ^ Z.of_nat k)), k)
  | _ => None
  end.
