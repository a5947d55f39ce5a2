(** Model of [find_discrete] of skyfield/searchlib.py in binary64, as the code runs:
    sample times are floats, and every product, sum and difference of times rounds.
    Search_Model.v is the same search in exact arithmetic.

    A discrete function of time is a total pure function of the TT Julian date held
    in one float, which is what [ts.tt_jd(jd)] carries; its values are integers.
    NumPy arrays are lists. The loop takes fuel; [None] means that the fuel ran out.
    Only the [step_days] attribute is modelled, not the older [rough_period]. *)
From Coq Require Import ZArith List Bool.
From Coq.Floats Require Import SpecFloat.
From Verif Require Import Float64 Search_Model.
Import ListNotations.
Open Scope Z_scope.

(** [numpy.linspace(start, stop, num)] (numpy/core/function_base.py): the multiples of
    [step = delta / div] added to [start], the last entry replaced by [stop]. *)
Definition linspace64 (start stop : b64) (num : nat) : list b64 :=
  match num with
  | O => []
  | S O => [fadd (fmul (of_Z 0) (fsub stop start)) start]
  | S n =>
      let delta := fsub stop start in
      let div := of_Z (Z.of_nat n) in
      let step := fdiv delta div in
      let y (i : Z) := if is_zero step then fmul (fdiv (of_Z i) div) delta else fmul (of_Z i) step in
      map (fun i => fadd (y (Z.of_nat i)) start) (seq 0 n) ++ [stop]
  end.

(** searchlib.py 58-66: [starts] and [ends], as pairs of neighbours with different values. *)
Definition changes64 (f : b64 -> Z) (jd : list b64) : list (b64 * b64) :=
  filter (fun p => negb (f (fst p) =? f (snd p))) (pairs jd).

(** searchlib.py 50-52 and 72: [o(starts, start_mask) + o(ends, end_mask)], one row. *)
Definition block64 (num : nat) (p : b64 * b64) : list b64 :=
  let end_mask := linspace64 (of_Z 0) (of_Z 1) num in
  let start_mask := rev end_mask in
  map (fun m => fadd (fmul (fst p) (fst m)) (fmul (snd p) (snd m))) (combine start_mask end_mask).

(** searchlib.py 48-74, [_find_discrete]. The maximum of the widths is at most
    [epsilon] when every width is. *)
Fixpoint find_loop64 (fuel : nat) (f : b64 -> Z) (epsilon : b64) (num : nat) (jd : list b64)
  : option (list (b64 * Z)) :=
  match fuel with
  | O => None
  | S fuel =>
      match changes64 f jd with
      | [] => Some []
      | ch =>
          if forallb (fun p => fleb (fsub (snd p) (fst p)) epsilon) ch
          then Some (map (fun p => (snd p, f (snd p))) ch)
          else find_loop64 fuel f epsilon num (flat_map (block64 num) ch)
      end
  end.

(** searchlib.py 12-44, [find_discrete] with a [step_days] attribute: lines 23-25 the
    test of the two times, 39-41 the number of samples, 43-44 the search. *)
Definition sample_count64 (jd0 jd1 step_days : b64) : Z := ftruncZ (fdiv (fsub jd1 jd0) step_days) + 2.
Definition find_discrete64 (fuel : nat) (jd0 jd1 : b64) (f : b64 -> Z) (step_days epsilon : b64) (num : nat)
  : outcome (list (b64 * Z)) :=
  if fleb jd1 jd0 then ValueError
  else if sample_count64 jd0 jd1 step_days <? 0 then ValueError
  else of_fuel (find_loop64 fuel f epsilon num
         (linspace64 jd0 jd1 (Z.to_nat (sample_count64 jd0 jd1 step_days)))).

(** searchlib.py 8: [EPSILON = 0.001 / DAY_S], and 12: the default [num]. *)
Definition EPSILON64 : b64 := fdiv (fl 4611686018427388 (-62)) (of_Z 86400).
Definition NUM : nat := 12.
