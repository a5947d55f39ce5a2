(** Model of skyfield/searchlib.py and of the event search for satellites, in
    exact rational arithmetic.

    A function of time is a total pure function of the TT Julian date. NumPy
    arrays are lists. A loop without a bound takes fuel; [None] means that the
    fuel ran out. *)
From Coq Require Import ZArith QArith Qround List Bool.
From Verif Require Import PyNum Time_Model.
Import ListNotations.
Open Scope Q_scope.

(** [numpy.linspace(a, b, num)]. *)
Definition linspace (a b : Q) (num : nat) : list Q :=
  map (linspace_at a b num) (seq 0 num).

(** Neighbours [(x[i], x[i+1])] of an array. *)
Definition pairs {A} (l : list A) : list (A * A) := combine l (tl l).

(** searchlib.py 58-67: [indices = flatnonzero(diff(y))] and the arrays
    [starts = jd[indices]] and [ends = jd[indices + 1]], as pairs. *)
Definition changes (f : Q -> Z) (jd : list Q) : list (Q * Q) :=
  filter (fun p => negb (f (fst p) =? f (snd p))%Z) (pairs jd).

(** searchlib.py 50-52 and 73:
    [o(starts, start_mask).flatten() + o(ends, end_mask).flatten()]. *)
Definition block (num : nat) (p : Q * Q) : list Q :=
  let end_mask := linspace 0 1 num in
  let start_mask := rev end_mask in
  map (fun m => fst p * fst m + snd p * snd m) (combine start_mask end_mask).
Definition refine (num : nat) (brackets : list (Q * Q)) : list Q :=
  flat_map (block num) brackets.

(** searchlib.py 48-74, [_find_discrete]. The result is the list of pairs
    (time, value). *)
Fixpoint find_loop (fuel : nat) (f : Q -> Z) (epsilon : Q) (num : nat) (jd : list Q)
  : option (list (Q * Z)) :=
  match fuel with
  | O => None
  | S fuel =>
      match changes f jd with
      | [] => Some []
      | ch =>
          if forallb (fun p => Qle_bool (snd p - fst p) epsilon) ch
          then Some (map (fun p => (snd p, f (snd p))) ch)
          else find_loop fuel f epsilon num (refine num ch)
      end
  end.

(** The attribute that tells the search how finely to sample. *)
Inductive sampling := StepDays (step : Q) | RoughPeriod (period : Q).

(** searchlib.py 27-42, the initial samples of [find_discrete]. [None]: linspace
    raises for a negative count. *)
Definition discrete_samples (jd0 jd1 : Q) (s : sampling) (num : nat) : option (list Q) :=
  let count :=
    match s with
    | RoughPeriod rough_period =>
        let periods := (jd1 - jd0) / rough_period in
        let periods := if Qltb periods 1 then 1 else periods in
        qtrunc (periods * inject_Z (Z.of_nat num))
    | StepDays step_days => (qtrunc ((jd1 - jd0) / step_days) + 2)%Z
    end in
  if (count <? 0)%Z then None else Some (linspace jd0 jd1 (Z.to_nat count)).

(** searchlib.py 12-44, [find_discrete]. *)
Inductive outcome (A : Type) := ValueError | Running | Found (result : A).
Arguments ValueError {A}. Arguments Running {A}. Arguments Found {A} result.
Definition of_fuel {A} (o : option A) : outcome A :=
  match o with None => Running | Some a => Found a end.
Definition find_discrete (fuel : nat) (jd0 jd1 : Q) (f : Q -> Z) (s : sampling)
  (epsilon : Q) (num : nat) : outcome (list (Q * Z)) :=
  if Qle_bool jd1 jd0 then ValueError
  else match discrete_samples jd0 jd1 s num with
       | None => ValueError
       | Some jd => of_fuel (find_loop fuel f epsilon num jd)
       end.

(** [numpy.sign] and [numpy.diff]. *)
Definition qsign (x : Q) : Z := Z.sgn (Qnum x).
Definition sign_diff (y : list Q) : list Z := map (fun p => qsign (snd p - fst p)) (pairs y).
Definition dsd_of (y : list Q) : list Z := map (fun p => (snd p - fst p)%Z) (pairs (sign_diff y)).

(** [numpy.flatnonzero(mask)]: the indices at which the mask holds, counted from [i]. *)
Fixpoint flatnonzero_from {A} (i : nat) (p : A -> bool) (l : list A) : list nat :=
  match l with
  | [] => []
  | x :: r => if p x then i :: flatnonzero_from (S i) p r else flatnonzero_from (S i) p r
  end.
Definition flatnonzero {A} (p : A -> bool) (l : list A) : list nat := flatnonzero_from 0 p l.

(** Indexing by an array of indices, [x[indices]]. The indices used below are in
    range; the default is never read. *)
Definition at_ (x : list Q) (i : nat) : Q := nth i x 0.
Definition take (x : list Q) (idx : list nat) : list Q := map (at_ x) idx.

(** searchlib.py 213-218, [_remove_adjacent_duplicates]: keeps the last of each
    run of equal entries. *)
Fixpoint dedup {A} (same : A -> A -> bool) (l : list A) : list A :=
  match l with
  | [] => []
  | a :: r => match r with
              | [] => [a]
              | b :: _ => if same a b then dedup same r else a :: dedup same r
              end
  end.

(** searchlib.py 177-184, [_choose_brackets]: the [left] indices; [right] is one more. *)
Definition choose_left (y : list Q) : list nat :=
  let indices := flatnonzero (fun d => (d <? 0)%Z) (dsd_of y) in
  dedup Nat.eqb (flat_map (fun i => [i; S i]) indices).

(** [x[argsort(x)], y[argsort(x)]]. NumPy's default sort does not promise an
    order for equal entries; here it is a stable insertion sort. *)
Fixpoint insert {B} (a : Q * B) (l : list (Q * B)) : list (Q * B) :=
  match l with
  | [] => [a]
  | b :: r => if Qle_bool (fst a) (fst b) then a :: l else b :: insert a r
  end.
Definition argsort {B} (l : list (Q * B)) : list (Q * B) := fold_right insert [] l.

(** searchlib.py 186-211, [_identify_maxima]: pairs (x, y) of peaks and of the
    midpoints of plateaus, sorted by x. *)
Definition plateaus (dsd : list Z) : list (nat * nat) :=
  let indices := flatnonzero (fun d => negb (d =? 0)%Z) dsd in
  let dsd2 := map (fun i => (i, nth i dsd 0%Z)) indices in
  map (fun p => (fst (fst p), (fst (snd p) + 2)%nat))
      (filter (fun p => (snd (fst p) =? -1)%Z && (snd (snd p) =? -1)%Z) (pairs dsd2)).
Definition identify_maxima (x y : list Q) : list (Q * Q) :=
  let dsd := dsd_of y in
  let indices := map S (flatnonzero (fun d => (d =? -2)%Z) dsd) in
  let peaks := map (fun i => (at_ x i, at_ y i)) indices in
  let flat := map (fun p => ((at_ x (fst p) + at_ x (snd p)) / 2, at_ y (S (fst p)))) (plateaus dsd) in
  argsort (peaks ++ flat).

(** searchlib.py 143-156: the filters applied to the identified maxima. *)
Fixpoint keep_spaced (epsilon : Q) (prev : Q) (l : list (Q * Q)) : list (Q * Q) :=
  match l with
  | [] => []
  | a :: r => if Qltb epsilon (fst a - prev) then a :: keep_spaced epsilon (fst a) r
              else keep_spaced epsilon (fst a) r
  end.
Definition filter_maxima (jd0 jd1 epsilon : Q) (l : list (Q * Q)) : list (Q * Q) :=
  match filter (fun p => Qle_bool jd0 (fst p) && Qle_bool (fst p) jd1) l with
  | [] => []
  | a :: r => a :: keep_spaced epsilon (fst a) r
  end.

(** searchlib.py 129-175, the loop of [find_maxima]. [t[1] - t[0]] raises
    IndexError when there are fewer than two samples: [None] inside. *)
Fixpoint maxima_loop (fuel : nat) (f : Q -> Q) (jd0 jd1 epsilon : Q) (num : nat) (jd : list Q)
  : outcome (list (Q * Q)) :=
  match fuel with
  | O => Running
  | S fuel =>
      let y := map f jd in
      match jd with
      | x0 :: x1 :: _ =>
          if Qle_bool (x1 - x0) epsilon
          then Found (filter_maxima jd0 jd1 epsilon (identify_maxima jd y))
          else match choose_left y with
               | [] => Found []
               | lefts =>
                   let brackets := combine (take jd lefts) (take jd (map S lefts)) in
                   maxima_loop fuel f jd0 jd1 epsilon num (dedup Qeq_bool (refine num brackets))
               end
      | _ => ValueError
      end
  end.

(** searchlib.py 113-127, the initial samples of [find_maxima]. *)
Definition maxima_samples (jd0 jd1 : Q) (s : sampling) (num : nat) : list Q :=
  match s with
  | RoughPeriod rough_period =>
      let bump := rough_period / inject_Z (Z.of_nat num) in
      let bumps := (qtrunc ((jd1 - jd0) / bump) + 3)%Z in
      linspace (jd0 - bump) (jd1 + bump) (Z.to_nat bumps)
  | StepDays step_days =>
      let steps := (qtrunc ((jd1 - jd0) / step_days) + 3)%Z in
      let real_step := (jd1 - jd0) / inject_Z steps in
      linspace (jd0 - real_step) (jd1 + real_step) (Z.to_nat (steps + 2))
  end.

(** searchlib.py 89-175, [find_maxima], and 76-87, [find_minima]. *)
Definition find_maxima (fuel : nat) (jd0 jd1 : Q) (f : Q -> Q) (s : sampling)
  (epsilon : Q) (num : nat) : outcome (list (Q * Q)) :=
  if Qle_bool jd1 jd0 then ValueError
  else maxima_loop fuel f jd0 jd1 epsilon num (maxima_samples jd0 jd1 s num).
Definition find_minima (fuel : nat) (jd0 jd1 : Q) (f : Q -> Q) (s : sampling)
  (epsilon : Q) (num : nat) : outcome (list (Q * Q)) :=
  match find_maxima fuel jd0 jd1 (fun t => - f t) s epsilon num with
  | Found l => Found (map (fun p => (fst p, - snd p)) l)
  | ValueError => ValueError
  | Running => Running
  end.

(** sgp4lib.py 215-298, [EarthSatellite.find_events], with the altitude as an
    arbitrary function. [half_second] and [step_days] are parameters.
    Events: 0 rise, 1 culmination, 2 set. *)
Definition midpoints (l : list Q) : list Q := map (fun p => (fst p + snd p) / 2) (pairs l).
Definition doublets (l : list Q) : list Q := flat_map (fun x => [x; x]) l.
Definition find_events (fuel : nat) (altitude : Q -> Q) (jd0 jd1 step_days half_second : Q)
  (altitude_degrees : Q) : outcome (list (Q * Z)) :=
  match find_maxima fuel jd0 jd1 altitude (StepDays step_days) half_second 12 with
  | Found maxima =>
      let jdmax := map fst (filter (fun p => Qle_bool altitude_degrees (snd p)) maxima) in
      let below := fun t => if Qltb (altitude t) altitude_degrees then 1%Z else 0%Z in
      let jdo := midpoints (doublets (jd0 :: jdmax ++ [jd1])) in
      match find_loop fuel below half_second 8 jdo with
      | None => Running
      | Some rs =>
          Found (argsort (map (fun t => (t, 1%Z)) jdmax ++ map (fun p => (fst p, (snd p * 2)%Z)) rs))
      end
  | ValueError => ValueError
  | Running => Running
  end.
