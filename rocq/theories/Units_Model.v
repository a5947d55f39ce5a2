(** Model of the angle splitting and formatting in skyfield/units.py, in exact
    arithmetic. *)
From Coq Require Import ZArith QArith Qround Qabs List Bool Ascii String.
From Verif Require Import PyNum Float64.
Import ListNotations.
Open Scope Q_scope.

(** units.py 484-505, [_sexagesimalize_to_int]: sign, units, minutes, seconds and
    fraction. *)
Definition sexagesimalize_to_int (value : Q) (places : nat) : Z * Z * Z * Z * Z :=
  let power := (10 ^ Z.of_nat places)%Z in
  let n := Qfloor (inject_Z (power * 3600) * value + (1 # 2)) in
  let sign := Z.sgn n in
  let '(n, fraction) := (Z.abs n / power, Z.abs n mod power)%Z in
  let '(n, seconds) := (n / 60, n mod 60)%Z in
  let '(n, minutes) := (n / 60, n mod 60)%Z in
  (sign, n, minutes, seconds, fraction).

(** units.py 460-482, [_sexagesimalize_to_float]: sign, units, minutes, seconds. *)
Definition qsign (x : Q) : Z := Z.sgn (Qnum x).
Definition sexagesimalize_to_float (value : Q) : Z * Z * Z * Q :=
  let sign := qsign value in
  let n := Qabs value in
  let '(minutes, seconds) := (qdiv (n * 3600) 60, qmod (n * 3600) 60) in
  let '(units, minutes) := (minutes / 60, minutes mod 60)%Z in
  (sign, units, minutes, seconds).

(** A float with its sign bit, so that minus zero is a value: [true] is negative. *)
Record snum := S_ { negative : bool; magnitude : Q }.
Definition value_of (x : snum) : Q := if negative x then - magnitude x else magnitude x.
(** The product of an [np.sign] result (-1.0, 0.0 or 1.0) and a non-negative float. *)
Definition scale (sign : Z) (x : Q) : snum :=
  match sign with
  | Zneg _ => S_ true x
  | Z0 => S_ false 0
  | Zpos _ => S_ false x
  end.
Definition copysign (x y : snum) : snum := S_ (negative y) (magnitude x).
Definition sdiv (x : snum) (k : Q) : snum := S_ (negative x) (magnitude x / k).   (* k > 0 *)
(** Addition; a sum of opposite numbers is plus zero. *)
Definition splus (x y : snum) : snum :=
  if Bool.eqb (negative x) (negative y) then S_ (negative x) (magnitude x + magnitude y)
  else if Qltb (magnitude x) (magnitude y) then S_ (negative y) (magnitude y - magnitude x)
  else if Qltb (magnitude y) (magnitude x) then S_ (negative x) (magnitude x - magnitude y)
  else S_ false 0.

(** units.py 372-390 and 411-420, [hms] and [dms]. *)
Definition dms (value : Q) : list snum :=
  let '(sign, units, minutes, seconds) := sexagesimalize_to_float value in
  [scale sign (inject_Z units); scale sign (inject_Z minutes); scale sign seconds].
(** units.py 521-548, [_unsexagesimalize] of a tuple. *)
Fixpoint unsex_loop (value : snum) (factor : Q) (components : list snum) : snum :=
  match components with
  | [] => value
  | c :: r => let factor := factor * 60 in unsex_loop (splus value (sdiv (copysign c value) factor)) factor r
  end.
Definition unsexagesimalize (t : list snum) : snum :=
  match t with [] => S_ false 0 (* StopIteration *) | v :: r => unsex_loop v 1 r end.
(** units.py 515-519, [wms]. *)
Definition wms (whole minutes seconds : snum) : snum :=
  splus (splus whole (sdiv (copysign minutes whole) 60)) (sdiv (copysign seconds whole) 3600).

(** ** Text *)
Definition digit (d : Z) : ascii := ascii_of_nat (48 + Z.to_nat d).
Fixpoint print_digits (fuel : nat) (n : Z) (acc : list ascii) : list ascii :=
  match fuel with
  | O => acc
  | S fuel => let acc := digit (n mod 10) :: acc in
              if (n / 10 =? 0)%Z then acc else print_digits fuel (n / 10) acc
  end.
(** Decimal digits of a non-negative integer. *)
Definition print (n : Z) : list ascii := print_digits (Z.to_nat (Z.log2 n) + 2) n [].
(** [{:0w}] *)
Definition padded (w : nat) (n : Z) : list ascii :=
  let s := print n in repeat "0"%char (w - List.length s) ++ s.
Definition text (s : string) : list ascii := list_ascii_of_string s.
(** units.py 13-15 and 507-513: the formats [_dfmt], [_dsgn] and [_hfmt], and [_sfmt]. *)
Inductive fmt := DFmt | DSgn | HFmt.
Definition sfmt (f : fmt) (value : Q) (places : nat) : list ascii :=
  let '(sgn, h, m, s, fraction) := sexagesimalize_to_int value places in
  let sign := if (sgn <? 0)%Z then text "-" else [] in
  let sign := match f with DSgn => match sign with [] => text "+" | _ => sign end | _ => sign end in
  let '(u, v, w) := match f with HFmt => (text "h ", text "m ", text "s") | _ => (text "deg ", text "' ", ["034"%char]) end in
  (sign ++ padded 2 h ++ u ++ padded 2 m ++ v ++ padded 2 s ++ text "." ++ padded places fraction ++ w)%list.
