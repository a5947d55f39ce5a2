(** Model of readers of data files: skyfield/data/mpc.py, data/stellarium.py,
    data/iers.py, io_timescale.py and names of satellites in iokit.py. Text is a
    list of characters, numbers are exact. [None] is an exception. *)
From Coq Require Import ZArith QArith Qround Bool String Ascii List.
From Verif Require Import PyNum Cal_Model Time_Model Download_Model.
Import ListNotations.
Open Scope Z_scope.

Definition txt := list ascii.
Definition ord (c : ascii) : Z := Z.of_nat (nat_of_ascii c).
(** [str.isdigit] on an ASCII character. *)
Definition isdigit (c : ascii) : bool := (48 <=? ord c) && (ord c <=? 57).
(** [int(s)] of a text of digits. Python's [int] also allows spaces around the
    digits, a sign and underscores between digits; no file has them. *)
Fixpoint digits_value (s : txt) (acc : Z) : option Z :=
  match s with
  | [] => Some acc
  | c :: r => if isdigit c then digits_value r (10 * acc + (ord c - 48)) else None
  end.
Definition py_int (s : txt) : option Z := match s with [] => None | _ => digits_value s 0 end.
(** [str(n)]. *)
Definition py_str (z : Z) : txt :=
  if z <? 0 then "-"%char :: decimal (Z.to_nat (- z)) else decimal (Z.to_nat z).

(** data/mpc.py 84-85 and 263-264, [n(c)]. *)
Definition mpc_n (c : ascii) : Z := ord c - (if isdigit c then 48 else 55).
(** data/mpc.py 87-94, the packed epoch of [mpcorb_orbit] as a Julian date; the
    day is the fifth character. *)
Definition mpc_epoch (s : txt) : option Q :=
  match s with
  | c0 :: c1 :: c2 :: c3 :: c4 :: _ =>
      match py_int [c1; c2] with
      | Some yy => Some (inject_Z (julian_day (100 * mpc_n c0 + yy) (mpc_n c3) (mpc_n c4) None) - (1 # 2))%Q
      | None => None
      end
  | _ => None
  end.
(** data/mpc.py 262-270, [unpack]. *)
Definition mpc_unpack (s : txt) : option txt :=
  match s with
  | _ :: s1 :: _ =>
      if Ascii.eqb s1 "/" then Some s
      else match s with
           | c0 :: c1 :: c2 :: c3 :: c4 :: c5 :: c6 :: c7 :: _ =>
               match py_int [c5; c6] with
               | Some k => Some ([c0; "/"%char] ++ py_str (mpc_n c1) ++ [c2; c3; " "%char; c4] ++ py_str k ++
                                 (if Ascii.eqb c7 "0" then [] else [c7]))
               | None => None
               end
           | _ => None
           end
  | _ => None
  end.

(** timelib.py 1000-1009, [julian_date] for whole numbers. *)
Definition julian_date (year month day hour minute second : Z) : Q :=
  (inject_Z (julian_day year month day None) - (1 # 2) + inject_Z (second + minute * 60 + hour * 3600) / 86400)%Q.
(** timelib.py 1011-1012. *)
Definition julian_date_of_besselian_epoch (b : Q) : Q :=
  ((241502031352 # 100000) + (b - 1900) * (365242198781 # 1000000000))%Q.

(** io_timescale.py 51-60, [parse_deltat_preds]: the date of a row from its decimal
    year. *)
Definition preds_date (year_float : Q) : Q :=
  let year := qtrunc year_float in
  let month := 1 + qtrunc (year_float * 12) mod 12 in
  julian_date year month 1 0 0 0.
(** io_timescale.py 22-34, [parse_deltat_data]. *)
Definition data_row (year month day : Z) (delta_t : Q) : Q * Q := (julian_date year month day 0 0 0, delta_t).

(** io_timescale.py 10-15, the joined table of [_build_legacy_data]: pairs of date
    and Delta T. [searchsorted] counts the dates not after the last one of the data. *)
Definition legacy_delta_t (data preds : list (Q * Q)) : option (list (Q * Q)) :=
  match rev data with
  | [] => None
  | last :: _ =>
      let i := length (filter (fun p => Qle_bool (fst p) (fst last)) preds) in
      Some (data ++ skipn i preds)
  end.

(** data/iers.py 29-35, [install_polar_motion_table], for whole days: the column of
    TT dates and the two columns of angles. *)
Definition install_polar_motion (ts : timescale) (finals : list (Z * Q * Q)) : list (Q * Q * Q) :=
  map (fun r => let '(mjd, x, y) := r in (tt (utc ts 1858 11 (17 + mjd) 0 0 0), x, y)) finals.

(** [bytes.split()]: maximal runs of characters that are not white space. *)
Definition isspace (c : ascii) : bool :=
  existsb (Z.eqb (ord c)) [32; 9; 10; 11; 12; 13].
Fixpoint split_from (word : txt) (s : txt) : list txt :=
  match s with
  | [] => match word with [] => [] | _ => [rev word] end
  | c :: r =>
      if isspace c then match word with [] => split_from [] r | _ => rev word :: split_from [] r end
      else split_from (c :: word) r
  end.
Definition split_ws (s : txt) : list txt := split_from [] s.
Fixpoint lstrip (s : txt) : txt := match s with c :: r => if isspace c then lstrip r else s | [] => [] end.

(** data/stellarium.py 32-34: [[(int(fields[i]), int(fields[i+1])) for i in range(2, len(fields), 2)]]. *)
Fixpoint edges (fields : list txt) : option (list (Z * Z)) :=
  match fields with
  | [] => Some []
  | [_] => None                                    (* IndexError (or ValueError) *)
  | a :: b :: r =>
      match py_int a, py_int b, edges r with
      | Some x, Some y, Some l => Some ((x, y) :: l)
      | _, _, _ => None
      end
  end.
(** [line.startswith(b'#')]. *)
Definition starts_hash (s : txt) : bool := match s with c :: _ => Ascii.eqb c "#" | [] => false end.
(** data/stellarium.py 7-36, [parse_constellations]. *)
Fixpoint parse_constellations (lines : list txt) : option (list (txt * list (Z * Z))) :=
  match lines with
  | [] => Some []
  | line :: rest =>
      let l := lstrip line in
      if starts_hash l then parse_constellations rest
      else match split_ws l with
           | [] => parse_constellations rest
           | name :: fields =>
               match edges (tl fields), parse_constellations rest with
               | Some e, Some r => Some ((name, e) :: r)
               | _, _ => None
               end
           end
  end.

(** [s.split(b'|')]. *)
Fixpoint split_bar (word : txt) (s : txt) : list txt :=
  match s with
  | [] => [rev word]
  | c :: r => if Ascii.eqb c "|" then rev word :: split_bar [] r else split_bar (c :: word) r
  end.
(** Stripping underscores, brackets and double quotes from both ends (line 56). *)
Definition is_quote (c : ascii) : bool := existsb (Ascii.eqb c) ["_"; "("; """"; ")"]%char.
Fixpoint lstrip_quotes (s : txt) : txt := match s with c :: r => if is_quote c then lstrip_quotes r else s | [] => [] end.
Definition strip_quotes (s : txt) : txt := rev (lstrip_quotes (rev (lstrip_quotes s))).
Definition strip (s : txt) : txt := rev (lstrip (rev (lstrip s))).
(** data/stellarium.py 38-58, [parse_star_names]. *)
Fixpoint parse_star_names (lines : list txt) : option (list (Z * txt)) :=
  match lines with
  | [] => Some []
  | line :: rest =>
      let l := strip line in
      if match l with [] => true | _ => false end || starts_hash l then parse_star_names rest
      else match split_ws l with
           | [] => None
           | f :: _ =>
               match split_bar [] f with
               | [hip; name] =>
                   match py_int hip, parse_star_names rest with
                   | Some h, Some r => Some ((h, strip_quotes name) :: r)
                   | _, _ => None
                   end
               | _ => None
               end
           end
  end.

(** [s.split(' (')], from left to right. *)
Fixpoint split_paren (word : txt) (s : txt) : list txt :=
  match s with
  | [] => [rev word]
  | c :: r =>
      match r with
      | d :: r' => if Ascii.eqb c " " && Ascii.eqb d "(" then rev word :: split_paren [] r' else split_paren (c :: word) r
      | [] => [rev (c :: word)]
      end
  end.
Fixpoint rstrip_paren_rev (s : txt) : txt :=
  match s with c :: r => if Ascii.eqb c ")" then rstrip_paren_rev r else s | [] => [] end.
Definition rstrip_paren (s : txt) : txt := rev (rstrip_paren_rev (rev s)).
(** iokit.py 415-426, the names [parse_tle] yields for a satellite's name. *)
Definition tle_names (name : option txt) : option (list txt) :=
  match name with
  | None | Some [] => Some []
  | Some n =>
      match split_paren [] n with
      | [_] => Some [n]                            (* no ' (' in the name *)
      | [short; secondary] => Some [n; short; rstrip_paren secondary]
      | _ => None                                  (* too many values to unpack *)
      end
  end.
(** iokit.py 249-255, [Loader.tle]: a dictionary with numbers and names as keys. *)
Inductive tle_key := Number (n : Z) | NameKey (s : txt).
Fixpoint tle_get {A} (d : list (tle_key * A)) (k : tle_key) : option A :=
  match d with
  | [] => None
  | (k', a) :: r =>
      match k, k' with
      | Number x, Number y => if x =? y then Some a else tle_get r k
      | NameKey x, NameKey y => if list_eq_dec ascii_dec x y then Some a else tle_get r k
      | _, _ => tle_get r k
      end
  end.
Fixpoint tle_dict {A} (sats : list (Z * option txt * A)) (d : list (tle_key * A)) : option (list (tle_key * A)) :=
  match sats with
  | [] => Some d
  | (num, name, a) :: r =>
      match tle_names name with
      | None => None
      | Some ns => tle_dict r (rev (map (fun n => (NameKey n, a)) ns) ++ (Number num, a) :: d)
      end
  end.

(** [float(s)] of a text with an optional sign, digits, a point and digits, with
    white space around it. Exponents, "inf" and "nan" are left out. *)
Fixpoint cut_dot (word s : txt) : option (txt * txt) :=
  match s with
  | [] => None
  | c :: r => if Ascii.eqb c "." then Some (rev word, r) else cut_dot (c :: word) r
  end.
Definition unsigned_float (s : txt) : option Q :=
  match cut_dot [] s with
  | None => option_map inject_Z (py_int s)
  | Some ([], []) => None
  | Some (i, f) =>
      match digits_value (i ++ f) 0 with
      | Some v => Some (inject_Z v / inject_Z (10 ^ Z.of_nat (length f)))%Q
      | None => None
      end
  end.
Definition py_float (s : txt) : option Q :=
  match strip s with
  | [] => None
  | c :: r =>
      if Ascii.eqb c "-" then option_map Qopp (unsigned_float r)
      else if Ascii.eqb c "+" then unsigned_float r else unsigned_float (c :: r)
  end.

(** data/iers.py 14-20, the pattern [_R]: pieces, each with the mark of a group.
    A point stands for any character except a line feed. *)
Inductive piece := Dot | Space | Digit.
Definition R_pieces : list (bool * list piece) :=
  [(false, repeat Dot 6); (true, repeat Dot 9); (false, [Space; Dot; Space]);
   (true, Dot :: Digit :: repeat Dot 7); (false, repeat Dot 9 ++ [Space]);
   (true, Dot :: Digit :: repeat Dot 7); (false, repeat Dot 9 ++ [Space; Space]);
   (false, [Dot]); (true, Dot :: Digit :: repeat Dot 8)].
Definition piece_ok (p : piece) (c : ascii) : bool :=
  match p with Dot => negb (ord c =? 10) | Space => Ascii.eqb c " " | Digit => isdigit c end.
(** Matching pieces at the beginning of a text: what was matched and the rest. *)
Fixpoint match_pieces (ps : list piece) (s : txt) : option (txt * txt) :=
  match ps, s with
  | [], _ => Some ([], s)
  | p :: ps', c :: r =>
      if piece_ok p c then
        match match_pieces ps' r with Some (w, rest) => Some (c :: w, rest) | None => None end
      else None
  | _ :: _, [] => None
  end.
Fixpoint match_groups (gs : list (bool * list piece)) (s : txt) : option (list txt) :=
  match gs with
  | [] => Some []
  | (g, ps) :: gs' =>
      match match_pieces ps s with
      | Some (w, rest) =>
          match match_groups gs' rest with
          | Some l => Some (if g then w :: l else l)
          | None => None
          end
      | None => None
      end
  end.
(** data/iers.py 22-28, [parse_x_y_dut1_from_finals_all], on the lines of the file:
    the pattern is anchored at the beginning of a line and holds no line feed. *)
Fixpoint parse_finals (lines : list txt) : option (list (Q * Q * Q * Q)) :=
  match lines with
  | [] => Some []
  | line :: rest =>
      match match_groups R_pieces line with
      | Some [a; b; c; d] =>
          match py_float a, py_float b, py_float c, py_float d, parse_finals rest with
          | Some m, Some x, Some y, Some u, Some l => Some ((m, x, y, u) :: l)
          | _, _, _, _, _ => None
          end
      | _ => parse_finals rest
      end
  end.
