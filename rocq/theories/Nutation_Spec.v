(** Vocabulary for nutation. *)
From Coq Require Import Reals ZArith List.
From Verif Require Import Real_Math Vector_Model Geo_Model Spin_Model Spin_Spec Nutation_Model.
Import ListNotations.
Open Scope R_scope.

(** The mean elements of Sun and Moon of Simon et al. (1994), in arcseconds, as
    polynomials in centuries. *)
Definition simon_1994 : list (list R) :=
  [[485868249036 / 10 ^ 6; 17179159232178 / 10 ^ 4; 318792 / 10 ^ 4; 51635 / 10 ^ 6; - (24470 / 10 ^ 8)];
   [128710479305 / 10 ^ 5; 1295965810481 / 10 ^ 4; - (5532 / 10 ^ 4); 136 / 10 ^ 6; - (1149 / 10 ^ 8)];
   [335779526232 / 10 ^ 6; 17395272628478 / 10 ^ 4; - (127512 / 10 ^ 4); - (1037 / 10 ^ 6); 417 / 10 ^ 8];
   [107226070369 / 10 ^ 5; 16029616012090 / 10 ^ 4; - (63706 / 10 ^ 4); 6593 / 10 ^ 6; - (3169 / 10 ^ 8)];
   [450160398036 / 10 ^ 6; - (69628905431 / 10 ^ 4); 74722 / 10 ^ 4; 7702 / 10 ^ 6; - (5939 / 10 ^ 8)]].
Fixpoint polynomial (c : list R) (t : R) : R := match c with [] => 0 | k :: c => k + t * polynomial c t end.
(** The arguments in radians, from the first [k] coefficients. *)
Definition arguments (k : nat) (t : R) : list R := map (fun c => polynomial (firstn k c) t * (PI / 648000)) simon_1994.
(** The angle of a term, and the sums of terms. *)
Definition angle (n : list Z) (a : list R) : R := fold_right Rplus 0 (map (fun p => IZR (fst p) * snd p) (combine n a)).
Definition total {A} (f : A -> R) (l : list A) : R := fold_right Rplus 0 (map f l).
Definition sine_series (t : R) (a : list R) (rows : list (list Z * (Z * Z * Z))) : R :=
  total (fun r => let '(n, (A, A', B)) := r in (IZR A + IZR A' * t) * sin (angle n a) + IZR B * cos (angle n a)) rows.
Definition cosine_series (t : R) (a : list R) (rows : list (list Z * (Z * Z * Z))) : R :=
  total (fun r => let '(n, (A, A', B)) := r in (IZR A + IZR A' * t) * cos (angle n a) + IZR B * sin (angle n a)) rows.
Definition planet_series (a : list R) (rows : list (list Z * (Z * Z))) : R :=
  total (fun r => let '(n, (A, B)) := r in IZR A * sin (angle n a) + IZR B * cos (angle n a)) rows.
(** Arguments of the planetary terms: Moon and Sun linear in time, the eight planets
    (Souchay et al. 1999), and the general precession. *)
Definition planet_arguments (t : R) : list R :=
  [2.35555598 + 8328.6914269554 * t; 6.24006013 + 628.301955 * t; 1.627905234 + 8433.466158131 * t; 5.198466741 + 7771.3771468121 * t;
   2.18243920 - 33.757045 * t; 4.402608842 + 2608.7903141574 * t; 3.176146697 + 1021.3285546211 * t; 1.753470314 + 628.3075849991 * t;
   6.203480913 + 334.0612426700 * t; 0.599546497 + 52.9690962641 * t; 0.874016757 + 21.3299104960 * t; 5.481293871 + 7.4781598567 * t;
   5.321159000 + 3.8127774000 * t; 0.02438175 * t + 0.00000538691 * t * t].
(** The series with [k] coefficients of each argument, [l] lunisolar and [p] planetary
    terms. *)
Definition published (T : tables) (jd : R) (k l p : nat) : R * R :=
  let t := (jd - 2451545) / 36525 in
  let rows := firstn l (nals_t T) in
  (sine_series t (arguments k t) (combine rows (firstn l (lunisolar_longitude T)))
   + planet_series (planet_arguments t) (combine (firstn p (napl_t T)) (firstn p (planetary_longitude T))),
   cosine_series t (arguments k t) (combine rows (firstn l (lunisolar_obliquity T)))
   + planet_series (planet_arguments t) (combine (firstn p (napl_t T)) (firstn p (planetary_obliquity T)))).
(** Tables whose arrays have as many rows. *)
Definition matching (T : tables) : Prop :=
  length (lunisolar_longitude T) = length (nals_t T) /\ length (lunisolar_obliquity T) = length (nals_t T) /\
  length (planetary_longitude T) = length (napl_t T) /\ length (planetary_obliquity T) = length (napl_t T).
(** The results for several dates as two arrays, or the exception of any. *)
Definition unzip_options (l : list (option (R * R))) : option (list R * list R) :=
  fold_right (fun x acc => match x, acc with Some (a, b), Some (m, n) => Some (a :: m, b :: n) | _, _ => None end) (Some ([], [])) l.
(** The largest values that single terms can reach at [t]. *)
Definition size (t : R) (r : Z * Z * Z) : R := let '(A, A', B) := r in Rabs (IZR A) + Rabs (IZR A') * Rabs t + Rabs (IZR B).
Definition psize (r : Z * Z) : R := Rabs (IZR (fst r)) + Rabs (IZR (snd r)).
(** Elements [i] to [j - 1] of a list. *)
Definition between {A} (i j : nat) (l : list A) : list A := skipn i (firstn j l).
(** One milliarcsecond in tenths of microarcseconds. *)
Definition mas : R := 10000.
(** Julian dates of the beginnings of 1995 and 2020. *)
Definition years_1995_2020 (jd : R) : Prop := 24497185 / 10 <= jd <= 24588495 / 10.
(** The arguments of the complementary terms (IERS Conventions 2010, 5.43-5.44): those of
    Sun and Moon with constants rounded differently, and the planets. *)
Definition iers_arguments (t : R) : list R :=
  map (fun c => polynomial c t * (PI / 648000))
    [[485868249036 / 10 ^ 6; 17179159232178 / 10 ^ 4; 318792 / 10 ^ 4; 51635 / 10 ^ 6; - (24470 / 10 ^ 8)];
     [1287104793048 / 10 ^ 6; 1295965810481 / 10 ^ 4; - (5532 / 10 ^ 4); 136 / 10 ^ 6; - (1149 / 10 ^ 8)];
     [335779526232 / 10 ^ 6; 17395272628478 / 10 ^ 4; - (127512 / 10 ^ 4); - (1037 / 10 ^ 6); 417 / 10 ^ 8];
     [1072260703692 / 10 ^ 6; 16029616012090 / 10 ^ 4; - (63706 / 10 ^ 4); 6593 / 10 ^ 6; - (3169 / 10 ^ 8)];
     [450160398036 / 10 ^ 6; - (69628905431 / 10 ^ 4); 74722 / 10 ^ 4; 7702 / 10 ^ 6; - (5939 / 10 ^ 8)]]
  ++ map (fun c => polynomial c t)
    [[4.402608842; 2608.7903141574]; [3.176146697; 1021.3285546211]; [1.753470314; 628.3075849991]; [6.203480913; 334.0612426700];
     [0.599546497; 52.9690962641]; [0.874016757; 21.3299104960]; [5.481293872; 7.4781598567]; [5.311886287; 3.8133035638];
     [0; 0.024381750; 0.00000538691]].
(** The complementary terms in arcseconds: periodic terms, and one that grows. *)
Definition iers_terms (T : c_tables) (t : R) : R :=
  total (fun r => let '(n, (U, V)) := r in U * sin (angle n (iers_arguments t)) + V * cos (angle n (iers_arguments t)))
    (combine (ke0_t T) (combine (se0_t_0 T) (se0_t_1 T)))
  - 87 / 10 ^ 8 * t * sin (angle (ke1 T) (iers_arguments t)).
(** Complementary tables with as many rows. *)
Definition c_matching (T : c_tables) : Prop := length (se0_t_0 T) = length (ke0_t T) /\ length (se0_t_1 T) = length (ke0_t T).
(** Two times alike but for their nutation. *)
Definition same_but_nutation (t t' : moment) : Prop :=
  whole t = whole t' /\ ut1_fraction t = ut1_fraction t' /\ tdb_fraction t = tdb_fraction t' /\ c_terms t = c_terms t'.
