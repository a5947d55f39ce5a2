(** Model of names, membership, printing and date ranges of kernels in
    skyfield/jpllib.py. Texts are lists of characters, dates exact rationals. *)
From Coq Require Import ZArith QArith Qround Bool String Ascii List.
From Verif Require Import PyNum Cal_Model Time_Model.
Import ListNotations.
Open Scope Z_scope.

Definition kname := list ascii.
Definition name_eqb (a b : kname) : bool := if list_eq_dec ascii_dec a b then true else false.

(** [str.upper] on ASCII text. *)
Definition upper_char (c : ascii) : ascii :=
  let n := nat_of_ascii c in if (Nat.leb 97 n && Nat.leb n 122)%bool then ascii_of_nat (n - 32) else c.
Definition upper (s : kname) : kname := map upper_char s.

(** jpllib.py 190-205, a segment: center, target, [start_jd], [end_jd], [data_type]
    and the file it came from. *)
Record kseg := { k_center : Z; k_target : Z; k_start : Q; k_end : Q; k_type : Z; k_file : nat }.

(** jplephem's [target_name_pairs] is a parameter: codes with names. *)
Definition pairs := list (Z * kname).

(** jpllib.py 16-18, [_jpl_name_code_dict]: a later pair replaces an earlier one. *)
Fixpoint name_code (ps : pairs) (n : kname) : option Z :=
  match ps with
  | [] => None
  | (code, name) :: r =>
      match name_code r n with
      | Some c => Some c
      | None => if name_eqb name n then Some code else None
      end
  end.

(** jpllib.py 113-119, [codes], as a membership test. *)
Definition in_codes (segs : list kseg) (code : Z) : bool :=
  existsb (fun s => k_center s =? code) segs || existsb (fun s => k_target s =? code) segs.

(** A dictionary of lists, in order of insertion: [d[code].append(name)]. *)
Definition names_dict := list (Z * list kname).
Fixpoint append_name (d : names_dict) (code : Z) (n : kname) : names_dict :=
  match d with
  | [] => [(code, [n])]
  | (c, l) :: r => if c =? code then (c, l ++ [n]) :: r else (c, l) :: append_name r code n
  end.
Fixpoint dict_get (d : names_dict) (code : Z) : option (list kname) :=
  match d with [] => None | (c, l) :: r => if c =? code then Some l else dict_get r code end.
(** jpllib.py 121-144, [names]. *)
Definition names (ps : pairs) (segs : list kseg) : names_dict :=
  fold_left (fun d p => if in_codes segs (fst p) then append_name d (fst p) (snd p) else d) ps [].

(** An argument of [decode], [__contains__] and [__getitem__]. *)
Inductive target_arg := Code (c : Z) | Name (n : kname).
Inductive decoded := Found (c : Z) | UnknownName | MissingTarget.
(** jpllib.py 146-167, [decode]: [UnknownName] is the ValueError and
    [MissingTarget] the KeyError. *)
Definition decode (ps : pairs) (segs : list kseg) (a : target_arg) : decoded :=
  match (match a with Code c => Some c | Name n => name_code ps (upper n) end) with
  | None => UnknownName
  | Some c => if in_codes segs c then Found c else MissingTarget
  end.
(** jpllib.py 195-200, [__contains__]; [None in codes] is false. *)
Definition contains (ps : pairs) (segs : list kseg) (a : target_arg) : bool :=
  match a with
  | Code c => in_codes segs c
  | Name n => match name_code ps (upper n) with Some c => in_codes segs c | None => false end
  end.

(** jpllib.py 106-109, [close]: [del self.segments[:]]. *)
Definition close (segs : list kseg) : list kseg := [].

(** jpllib.py 82-104, [__str__], as lines before they are joined. A range line
    carries the two dates given to [format_date]; [!=] compares numbers. *)
Inductive line :=
| FileLine (first : bool) (file : nat)
| RangeLine (start stop : Q) (starts ends : Z * Z * Z)
| SegLine (center target : Z).
Definition qneq (o : option Q) (x : Q) : bool :=
  match o with None => true | Some y => negb (Qeq_bool y x) end.
Fixpoint report (segs : list kseg) (ephemeris : option nat) (start stop : option Q) : list line :=
  match segs with
  | [] => []
  | s :: r =>
      let newfile := match ephemeris with None => true | Some e => negb (Nat.eqb e (k_file s)) end in
      let fl := if newfile then [FileLine (match ephemeris with None => true | Some _ => false end) (k_file s)] else [] in
      let newrange := qneq start (k_start s) || qneq stop (k_end s) in
      let rl := if newrange
                then [RangeLine (k_start s) (k_end s)
                        (compute_calendar_date (qtrunc (k_start s)) None)
                        (compute_calendar_date (qtrunc (k_end s)) None)]
                else [] in
      fl ++ rl ++ [SegLine (k_center s) (k_target s)] ++
      report r (if newfile then Some (k_file s) else ephemeris)
        (if newrange then Some (k_start s) else start) (if newrange then Some (k_end s) else stop)
  end.
Definition kernel_str (segs : list kseg) : list line := report segs None None None.

(** jpllib.py 202-209, [SPICESegment.__new__]; [None] is the ValueError. *)
Inductive seg_class := Position | PositionVelocity.
Definition seg_new (data_type : Z) : option seg_class :=
  if data_type =? 2 then Some Position else if data_type =? 3 then Some PositionVelocity else None.

(** jpllib.py 223-247, [_at] of the two classes. jplephem's computation is a
    parameter that gives a result or raises OutOfRangeError. *)
Inductive computed (A : Type) := Value (a : A) | OutOfRange.
Arguments Value {A}. Arguments OutOfRange {A}.
Inductive at_result (A : Type) :=
| Result (a : A)
| EphemerisRangeError (s e : Z * Z * Z) (start_time end_time : Q)   (* dates in the text, and times *)
| RawOutOfRangeError.
Arguments Result {A}. Arguments EphemerisRangeError {A}. Arguments RawOutOfRangeError {A}.
(** The first three fields of [tdb_calendar()] of [ts.tdb_jd(jd)]. The timescale
    may have a reform date, the report above never does. *)
Definition tdb_date (cut : option Z) (jd : Q) : Z * Z * Z :=
  let '(y, m, d, _, _, _) := calendar_tuple jd 0 cut in (y, m, d).
Definition seg_at {A} (cut : option Z) (s : kseg) (r : computed A) : option (at_result A) :=
  match seg_new (k_type s) with
  | None => None
  | Some Position =>
      Some (match r with
            | Value a => Result a
            | OutOfRange => EphemerisRangeError (tdb_date cut (k_start s)) (tdb_date cut (k_end s)) (k_start s) (k_end s)
            end)
  | Some PositionVelocity =>
      Some (match r with Value a => Result a | OutOfRange => RawOutOfRangeError end)
  end.

(** jpllib.py 284-289 and naifcodes.py 10-31: names for display, in pieces. *)
Inductive shown := JustCode (c : Z) | CodeAndName (c : Z) (n : kname) | Quoted (n : kname).
(** vectorlib.py 13, the dictionary from codes to names: a later pair wins. *)
Fixpoint code_name (ps : pairs) (c : Z) : option kname :=
  match ps with
  | [] => None
  | (code, name) :: r => match code_name r c with Some n => Some n | None => if code =? c then Some name else None end
  end.
Definition format_code_and_name (ps : pairs) (c : Z) : shown :=
  match code_name ps c with None => JustCode c | Some n => CodeAndName c n end.
