(** Model of skyfield/nutationlib.py: the nutation series IAU 2000A and 2000B, the
    complementary terms of the equation of the equinoxes, and the deprecated
    [earth_tilt]. Real numbers; [ASEC2RAD] and [tau] are the exact numbers whose
    digits constants.py lists. The tables of data/nutation.npz are parameters here and
    are listed in [Nutation_Data]. *)
From Coq Require Import Reals ZArith List.
From Verif Require Import Real_Math Vector_Model Geo_Model Spin_Model Nutation_Data.
Import ListNotations.
Open Scope R_scope.

(** Python's [l[start:]] and [l[:stop]]. *)
Definition slice_from {A} (start : Z) (l : list A) : list A :=
  let n := Z.of_nat (length l) in
  skipn (Z.to_nat (if (start <? 0)%Z then Z.max 0 (start + n) else Z.min start n)) l.
Definition slice_to {A} (stop : Z) (l : list A) : list A :=
  let n := Z.of_nat (length l) in
  firstn (Z.to_nat (if (stop <? 0)%Z then Z.max 0 (stop + n) else Z.min stop n)) l.
(** [numpy.fmod]: the remainder with the sign of the first argument. *)
Definition fmod (x m : R) : R := if Rle_dec 0 x then rmod x m else - rmod (- x) m.

(** nutationlib.py 314-338: [fa0] to [fa4]; and 339-370, [fundamental_arguments].
    [None] is the exception raised by [next] when no array is left. *)
Definition ASEC360 : R := 1296000.
Definition fa0 : list R := [485868.249036; 1287104.79305; 335779.526232; 1072260.70369; 450160.398036].
Definition fa1 : list R := [1717915923.2178; 129596581.0481; 1739527262.8478; 1602961601.2090; - 6962890.5431].
Definition fa2 : list R := [31.8792; - 0.5532; - 12.7512; - 6.3706; 7.4722].
Definition fa3 : list R := [0.051635; 0.000136; - 0.001037; 0.006593; 0.007702].
Definition fa4 : list R := [- 0.00024470; - 0.00001149; 0.00000417; - 0.00003169; - 0.00005939].
Definition add_cols (a c : list R) : list R := map (fun p => fst p + snd p) (combine a c).
Fixpoint fa_loop (a : list R) (t : R) (fa : list (list R)) : list R :=
  match fa with
  | [] => a
  | fa_i :: fa => fa_loop (map (fun x => x * t) (add_cols a fa_i)) t fa
  end.
Definition fundamental_arguments (t : R) (terms : Z) : option (list R) :=
  match slice_from (- terms + 1) [fa4; fa3; fa2; fa1] with
  | [] => None
  | first :: fa =>
      let a := add_cols (fa_loop (map (fun x => x * t) first) t fa) fa0 in
      Some (map (fun x => fmod x ASEC360 * arcsecond) a)
  end.

(** The arrays of data/nutation.npz, loaded in lines 7-19. *)
Record tables := Tables {
  nals_t : list (list Z); lunisolar_longitude : list (Z * Z * Z); lunisolar_obliquity : list (Z * Z * Z);
  napl_t : list (list Z); planetary_longitude : list (Z * Z); planetary_obliquity : list (Z * Z) }.
(** [dot] of a row of whole numbers with angles, and of numbers with a column of
    coefficients. *)
Fixpoint row_dot (n : list Z) (a : list R) : R :=
  match n, a with k :: n, x :: a => IZR k * x + row_dot n a | _, _ => 0 end.
Fixpoint col_dot (v : list R) (c : list Z) : R :=
  match v, c with x :: v, k :: c => x * IZR k + col_dot v c | _, _ => 0 end.
Definition col1 (l : list (Z * Z * Z)) : list Z := map (fun r => fst (fst r)) l.
Definition col2 (l : list (Z * Z * Z)) : list Z := map (fun r => snd (fst r)) l.
Definition col3 (l : list (Z * Z * Z)) : list Z := map snd l.

(** nutationlib.py 207-232: [anomaly_constant] and [anomaly_coefficient]. *)
Definition anomaly : list (R * R) :=
  [(2.35555598, 8328.6914269554); (6.24006013, 628.301955); (1.627905234, 8433.466158131); (5.198466741, 7771.3771468121);
   (2.18243920, - 33.757045); (4.402608842, 2608.7903141574); (3.176146697, 1021.3285546211); (1.753470314, 628.3075849991);
   (6.203480913, 334.0612426700); (0.599546497, 52.9690962641); (0.874016757, 21.3299104960); (5.481293871, 7.4781598567);
   (5.321159000, 3.8127774000); (0.02438175, 0.00000538691)].
(** [a[-1] *= t], line 283. *)
Fixpoint times_last {A} (f : A -> A) (a : list A) : list A :=
  match a with [] => [] | [x] => [f x] | x :: a => x :: times_last f a end.
Definition planetary_arguments (t : R) : list R :=
  times_last (fun x => x * t) (map (fun p => t * snd p + fst p) anomaly).

(** nutationlib.py 234-297, [iau2000a], for a single date; tenths of
    microarcseconds. *)
Definition iau2000a (T : tables) (jd_tt : R) (fundamental_argument_terms lunisolar_terms planetary_terms : Z) : option (R * R) :=
  let t := (jd_tt - T0) / 36525 in
  match fundamental_arguments t fundamental_argument_terms with
  | None => None
  | Some a =>
      let arg := map (fun n => row_dot n a) (slice_to lunisolar_terms (nals_t T)) in
      let sarg := map sin arg in
      let carg := map cos arg in
      let lon := slice_to lunisolar_terms (lunisolar_longitude T) in
      let obl := slice_to lunisolar_terms (lunisolar_obliquity T) in
      let dpsi := col_dot sarg (col1 lon) + col_dot sarg (col2 lon) * t + col_dot carg (col3 lon) in
      let deps := col_dot carg (col1 obl) + col_dot carg (col2 obl) * t + col_dot sarg (col3 obl) in
      if (planetary_terms =? 0)%Z then Some (dpsi, deps)
      else
        let a := planetary_arguments t in
        let arg := map (fun n => row_dot n a) (slice_to planetary_terms (napl_t T)) in
        let sarg := map sin arg in
        let carg := map cos arg in
        let lon := slice_to planetary_terms (planetary_longitude T) in
        let obl := slice_to planetary_terms (planetary_obliquity T) in
        Some (dpsi + col_dot sarg (map fst lon) + col_dot carg (map snd lon),
              deps + col_dot sarg (map fst obl) + col_dot carg (map snd obl))
  end.
(** nutationlib.py 299-312, [iau2000b]. *)
Definition iau2000b (T : tables) (jd_tt : R) : option (R * R) :=
  match iau2000a T jd_tt 2 77 0 with
  | None => None
  | Some (dpsi, deps) => Some (dpsi + - (0.000135e7), deps + 0.000388e7)
  end.
(** nutationlib.py 27-41, [iau2000a_radians] and [iau2000b_radians]; timelib.py
    792-803, the setter [_nutation_angles]. *)
Definition TENTH_USEC_2_RAD : R := arcsecond / 1e7.
Definition in_radians (angles : R * R) : R * R := (fst angles * TENTH_USEC_2_RAD, snd angles * TENTH_USEC_2_RAD).
Definition set_nutation_angles (angles : R * R) : R * R := (fst angles / 1e7 * arcsecond, snd angles / 1e7 * arcsecond).

(** The same functions for an array of dates: matrices are lists of rows. *)
Definition add_col_m (a : list (list R)) (c : list R) : list (list R) := map (fun p => map (fun x => x + snd p) (fst p)) (combine a c).
Definition mul_row (ts : list R) (row : list R) : list R := map (fun p => fst p * snd p) (combine row ts).
Definition outer (c ts : list R) : list (list R) := map (fun k => map (fun t => k * t) ts) c.
Fixpoint fa_loop_m (a : list (list R)) (ts : list R) (fa : list (list R)) : list (list R) :=
  match fa with
  | [] => a
  | fa_i :: fa => fa_loop_m (map (mul_row ts) (add_col_m a fa_i)) ts fa
  end.
Definition fundamental_arguments_m (ts : list R) (terms : Z) : option (list (list R)) :=
  match slice_from (- terms + 1) [fa4; fa3; fa2; fa1] with
  | [] => None
  | first :: fa =>
      let a := add_col_m (fa_loop_m (outer first ts) ts fa) fa0 in
      Some (map (map (fun x => fmod x ASEC360 * arcsecond)) a)
  end.
(** [n.dot(a)] for one row [n] of a matrix, and [.T] for rows of length [k]. *)
Definition add_rows (r s : list R) : list R := map (fun p => fst p + snd p) (combine r s).
Fixpoint row_dot_m (k : nat) (n : list Z) (a : list (list R)) : list R :=
  match n, a with
  | i :: n, row :: a => add_rows (map (fun x => IZR i * x) row) (row_dot_m k n a)
  | _, _ => repeat 0 k
  end.
Fixpoint transpose (k : nat) (a : list (list R)) : list (list R) :=
  match a with
  | [] => repeat [] k
  | row :: a => map (fun p => fst p :: snd p) (combine row (transpose k a))
  end.
Definition planetary_arguments_m (ts : list R) : list (list R) :=
  let columns := transpose (length ts) (outer (map snd anomaly) ts) in
  let shifted := map (fun col => add_cols col (map fst anomaly)) columns in
  times_last (mul_row ts) (transpose (length anomaly) shifted).
Definition iau2000a_m (T : tables) (jd_tt : list R) (fundamental_argument_terms lunisolar_terms planetary_terms : Z) : option (list R * list R) :=
  let ts := map (fun jd => (jd - T0) / 36525) jd_tt in
  let k := length ts in
  match fundamental_arguments_m ts fundamental_argument_terms with
  | None => None
  | Some a =>
      let arg := transpose k (map (fun n => row_dot_m k n a) (slice_to lunisolar_terms (nals_t T))) in
      let sarg := map (map sin) arg in
      let carg := map (map cos) arg in
      let lon := slice_to lunisolar_terms (lunisolar_longitude T) in
      let obl := slice_to lunisolar_terms (lunisolar_obliquity T) in
      let dotm m c := map (fun row => col_dot row c) m in
      let dpsi := add_rows (add_rows (dotm sarg (col1 lon)) (mul_row ts (dotm sarg (col2 lon)))) (dotm carg (col3 lon)) in
      let deps := add_rows (add_rows (dotm carg (col1 obl)) (mul_row ts (dotm carg (col2 obl)))) (dotm sarg (col3 obl)) in
      if (planetary_terms =? 0)%Z then Some (dpsi, deps)
      else
        let a := planetary_arguments_m ts in
        let arg := transpose k (map (fun n => row_dot_m k n a) (slice_to planetary_terms (napl_t T))) in
        let sarg := map (map sin) arg in
        let carg := map (map cos) arg in
        let lon := slice_to planetary_terms (planetary_longitude T) in
        let obl := slice_to planetary_terms (planetary_obliquity T) in
        Some (add_rows (add_rows dpsi (dotm sarg (map fst lon))) (dotm carg (map snd lon)),
              add_rows (add_rows deps (dotm sarg (map fst obl))) (dotm carg (map snd obl)))
  end.

(** nutationlib.py 100-205,
    [equation_of_the_equinoxes_complimentary_terms], for a single date; the tables
    are [ke0_t], [ke1], [se0_t_0] and [se0_t_1] of data/nutation.npz. *)
Record c_tables := CTables { ke0_t : list (list Z); ke1 : list Z; se0_t_0 : list R; se0_t_1 : list R }.
Definition ct_arguments (t : R) : list R :=
  [(485868.249036 + (715923.2178 + (31.8792 + (0.051635 + - 0.00024470 * t) * t) * t) * t) * arcsecond + rmod (1325 * t) 1 * tau;
   (1287104.793048 + (1292581.0481 + (- 0.5532 + (0.000136 + - 0.00001149 * t) * t) * t) * t) * arcsecond + rmod (99 * t) 1 * tau;
   (335779.526232 + (295262.8478 + (- 12.7512 + (- 0.001037 + 0.00000417 * t) * t) * t) * t) * arcsecond + rmod (1342 * t) 1 * tau;
   (1072260.703692 + (1105601.2090 + (- 6.3706 + (0.006593 + - 0.00003169 * t) * t) * t) * t) * arcsecond + rmod (1236 * t) 1 * tau;
   (450160.398036 + (- 482890.5431 + (7.4722 + (0.007702 + - 0.00005939 * t) * t) * t) * t) * arcsecond + rmod (-5 * t) 1 * tau;
   4.402608842 + 2608.7903141574 * t; 3.176146697 + 1021.3285546211 * t; 1.753470314 + 628.3075849991 * t;
   6.203480913 + 334.0612426700 * t; 0.599546497 + 52.9690962641 * t; 0.874016757 + 21.3299104960 * t;
   5.481293872 + 7.4781598567 * t; 5.311886287 + 3.8133035638 * t; (0.024381750 + 0.00000538691 * t) * t].
Fixpoint rdot (v c : list R) : R := match v, c with x :: v, k :: c => k * x + rdot v c | _, _ => 0 end.
Definition complementary_terms (T : c_tables) (jd_tt : R) : R :=
  let t := (jd_tt - T0) / 36525 in
  let fa := map (fun x => rmod x tau) (ct_arguments t) in
  let a := row_dot (ke1 T) fa in
  let c := (- (0.87e-6) * sin a + 0 * cos a) * t in
  let a := map (fun n => row_dot n fa) (ke0_t T) in
  (c + rdot (map sin a) (se0_t_0 T) + rdot (map cos a) (se0_t_1 T)) * arcsecond.
(** The arrays of data/nutation.npz, nutationlib.py 7-19. *)
Definition skyfield_tables : tables :=
  Tables nals_data lunisolar_longitude_data lunisolar_obliquity_data napl_data planetary_longitude_data planetary_obliquity_data.
Definition skyfield_c_tables : c_tables :=
  CTables ke0_data ke1_data (map (fun z => IZR z / 10 ^ 8) se0_0_data) (map (fun z => IZR z / 10 ^ 8) se0_1_data).
(** nutationlib.py 379-388, [earth_tilt]: degrees, degrees, seconds, arcseconds,
    arcseconds. *)
Definition earth_tilt (t : moment) : R * R * R * R * R :=
  let mean_ob := mean_obliquity_radians t in
  let true_ob := mean_ob + d_eps t in
  let eq_eq := d_psi t * cos mean_ob + c_terms t in
  (mean_ob / degree, true_ob / degree, eq_eq / arcsecond / 15, d_psi t / arcsecond, d_eps t / arcsecond).
