(** Model of constellations: builders/build_constellations.py, which makes the file
    constellations.npz from the catalogue VI/42, and skyfield/constellationlib.py, which
    searches it. Exact arithmetic: [extend] has been applied to the numbers already.
    Names are integers in the order of the names. Arrays of one axis are lists, and
    [searchsorted] of a sorted array is the number of smaller elements. *)
From Coq Require Import ZArith QArith Ascii String List Bool.
From Verif Require Import PyNum.
Import ListNotations.
Open Scope Q_scope.

(** A line of the catalogue: build_constellations.py 27-47. *)
Record boundary := { ra_low : Q; ra_up : Q; de_low : Q; const : Z }.
(** [sorted(set(...))]. *)
Fixpoint insert (x : Q) (l : list Q) : list Q :=
  match l with
  | [] => [x]
  | a :: r => if Qltb x a then x :: l else if Qeq_bool x a then l else a :: insert x r
  end.
Definition sorted_set (l : list Q) : list Q := fold_right insert [] l.
(** numpy's [searchsorted], left and right. *)
Definition search_left (l : list Q) (x : Q) : nat := length (filter (fun a => Qltb a x) l).
Definition search_right (l : list Q) (x : Q) : nat := length (filter (fun a => Qle_bool a x) l).
(** [for j in range(i0, i1): row[j] = c] *)
Fixpoint assign (row : list Z) (j i0 i1 : nat) (c : Z) : list Z :=
  match row with
  | [] => []
  | a :: r => (if (i0 <=? j)%nat && (j <? i1)%nat then c else a) :: assign r (S j) i0 i1 c
  end.
(** 73-91: the loop over the lines in reverse, and the rows it appends to [grid]. *)
Definition draw (sorted_ra : list Q) (sorted_consts : list Q) (row : list Z) (b : boundary) : list Z :=
  assign row 0 (search_right sorted_ra (ra_low b)) (search_right sorted_ra (ra_up b))
         (Z.of_nat (search_left sorted_consts (inject_Z (const b)))).
Fixpoint rows (sorted_ra sorted_consts : list Q) (lines : list boundary) (row : list Z) (de : Q) : list (list Z) :=
  match lines with
  | [] => [row; row; row]
  | b :: r =>
      if Qltb de (de_low b) then row :: rows sorted_ra sorted_consts r (draw sorted_ra sorted_consts row b) (de_low b)
      else rows sorted_ra sorted_consts r (draw sorted_ra sorted_consts row b) de
  end.
(** The arrays of constellations.npz, with the grid not transposed. *)
Record map_file := { f_ra : list Q; f_dec : list Q; f_grid : list (list Z); f_names : list Q }.
(** 17-131, [main], without the assertions about the number of lines; [None] stands for
    an [AssertionError]. *)
Definition build (catalogue : list boundary) : option map_file :=
  let sorted_consts := sorted_set (map (fun b => inject_Z (const b)) catalogue) in
  let ra := sorted_set (flat_map (fun b => [ra_low b; ra_up b]) catalogue) in
  let dec := sorted_set (map de_low catalogue) in
  match ra, dec with
  | r0 :: sorted_ra, d0 :: sorted_dec =>
      if Qeq_bool r0 0 && Qeq_bool (last ra 0) 24 && Qeq_bool d0 (-90) && Qeq_bool (last dec 0) 88 then
        let grid := rows sorted_ra sorted_consts (rev catalogue) (repeat (-128)%Z (length sorted_ra)) (-90) in
        Some {| f_ra := removelast sorted_ra; f_dec := sorted_dec; f_grid := grid; f_names := sorted_consts |}
      else None
  | _, _ => None
  end.
(** Python's indexing, from the end if negative; [None] stands for [IndexError]. *)
Definition item {A} (l : list A) (i : Z) : option A :=
  if (i <? 0)%Z then (if (i + Z.of_nat (length l) <? 0)%Z then None else nth_error l (Z.to_nat (i + Z.of_nat (length l))))
  else nth_error l (Z.to_nat i).
(** constellationlib.py 59-64, [constellation_at], of a right ascension in hours and a
    declination in degrees. *)
Definition constellation_at (m : map_file) (ra dec : Q) : option Q :=
  let i := search_left (f_ra m) ra in
  let j := search_right (f_dec m) dec in
  match nth_error (f_grid m) j with
  | None => None
  | Some row => match nth_error row i with None => None | Some k => item (f_names m) k end
  end.

(** constellationlib.py 68-89, [load_constellation_names], after decompression. *)
Definition text := list ascii.
Fixpoint split_blank (l : text) : list text :=
  match l with
  | [] => [[]]
  | c :: r => if Ascii.eqb c " " then [[]; r]
              else match split_blank r with [] => [] | f :: rest => (c :: f) :: rest end
  end.
Definition newline : ascii := ascii_of_nat 10.
Fixpoint splitlines (l : text) (line : text) : list text :=
  match l with
  | [] => match line with [] => [] | _ => [rev line] end
  | c :: r => if Ascii.eqb c newline then rev line :: splitlines r [] else splitlines r (c :: line)
  end.
Definition constellation_names (data : text) : list (list text) := map split_blank (splitlines data []).
