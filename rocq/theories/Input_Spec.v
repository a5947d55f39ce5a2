(** What arguments that stand for angles mean. *)
From Coq Require Import ZArith QArith Qreals Reals Bool String Ascii List.
From Verif Require Import Real_Math Units_Model Download_Model Data_Model Data_Spec Input_Model.
Import ListNotations.

(** Units, minutes, seconds and further sixtieths: sizes add up, and the sign is that
    of the first number. *)
Fixpoint sixtieths (k : R) (l : list snum) : R :=
  match l with [] => 0 | c :: r => Q2R (magnitude c) / k + sixtieths (60 * k) r end.
Definition sexagesimal (u : snum) (l : list snum) : R :=
  (if negative u then - sixtieths 1 (u :: l) else sixtieths 1 (u :: l))%R.
Inductive means : arg -> number -> Prop :=
| m_int : forall z, means (AInt z) (One (IZR z))
| m_float : forall x, means (AFloat x) (One (real x))
| m_tuple : forall u l, means (ATuple (u :: l)) (One (sexagesimal u l))
| m_list : forall l, means (AList l) (Many (map real l))
| m_array : forall l, means (AArray l) (Many (map real l)).
Definition degrees (x : R) : R := (x * (PI / 180))%R.
Definition hours (x : R) : R := (x * (PI / 12))%R.

(** A star's angle: the number if there is one, otherwise the [Angle]. *)
Definition star_says (unit : R -> R) (object given : arg) (r : number) : Prop :=
  (exists x, means given x /\ r = each unit x) \/ (given = ANone /\ object = AAngle r).
(** An angle of [from_altaz]: the [Angle] if there is one, otherwise the number. *)
Definition altaz_says (object given : arg) (r : number) : Prop :=
  object = AAngle r \/ (object = ANone /\ exists x, means given x /\ (forall l, given <> AList l) /\ r = each degrees x).
(** An angle of [Topos], other than text. *)
Definition topos_says (value given : arg) (r : number) : Prop :=
  (exists x, means given x /\ r = each degrees x) \/
  (given = ANone /\ (value = AAngle r \/ exists x, means value (One x) /\ (forall z, value <> AInt z) /\ r = One (degrees x))).

(** Text of a place: a number, a letter for the direction, and blanks. *)
Definition number_text (num : list ascii) (x : Q) : Prop :=
  (exists d z, (1 <= d)%nat /\ num = fixed_text d z /\ (x == inject_Z z / inject_Z (10 ^ Z.of_nat d))%Q) \/
  (exists n, num = decimal n /\ (x == inject_Z (Z.of_nat n))%Q).
Definition place_text (s : list ascii) (x : Q) (c : ascii) : Prop :=
  exists b1 num b2 b3, blanks b1 /\ blanks b2 /\ blanks b3 /\ number_text num x /\ s = b1 ++ num ++ b2 ++ [c] ++ b3.
(** The text ends, up to blanks, in the character [c]. *)
Definition ends_in (s : list ascii) (c : ascii) : Prop := exists a b, s = a ++ c :: b /\ ~ blank c /\ blanks b.
Definition capital (c : ascii) : Prop := (65 <= ord c <= 90)%Z.
(** The letter [c] is [p], in either case. *)
Definition letter (p c : ascii) : Prop := c = p \/ ord c = (ord p + 32)%Z.

(** A line of the Hipparcos catalogue: 78 fields set apart by bars; fields are
    numbered from 0 as in the catalogue's description. *)
Definition no_bar (s : list ascii) : Prop := ~ In "|"%char s.
Fixpoint with_bars (l : list (list ascii)) : list ascii :=
  match l with [] => [] | [s] => s | s :: r => s ++ "|"%char :: with_bars r end.
Definition field_says (l : list (list ascii)) (k : nat) (x : Q) : Prop :=
  exists b num, blanks b /\ nth_error l k = Some (b ++ num) /\ number_text num x.
(** The text says the value [v], positive towards [p] and negative towards [n]. *)
Definition place_says (p n : ascii) (s : list ascii) (v : Q) : Prop :=
  exists c u, place_text s u c /\ ((letter p c /\ (v == u)%Q) \/ (letter n c /\ (v == - u)%Q)).
(** The fields that are read: the star's number, its magnitude, right ascension and
    declination in degrees, parallax, and proper motions. *)
Definition row_of (l : list (list ascii)) (hip mag ra dec plx pmra pmdec : Q) : Prop :=
  field_says l 1 hip /\ field_says l 5 mag /\ field_says l 8 ra /\ field_says l 9 dec /\ field_says l 11 plx /\
  field_says l 12 pmra /\ field_says l 13 pmdec.
(** A single number, [x]. *)
Definition floats (a : arg) (x : Q) : Prop := exists y, a = AFloat y /\ (value_of y == x)%Q.
