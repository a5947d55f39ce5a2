(** Model of reading text kernels: skyfield/data/text_pck.py 54-82 and
    [PlanetaryConstants.read_text] in skyfield/planetarylib.py 46-67. The tokens of a
    line and the assignments are in Files_Model. *)
From Coq Require Import List Ascii String ZArith QArith Bool.
From Coq Require Import List.
From Verif Require Import Download_Model Files_Model.
Import ListNotations.
Open Scope bool_scope.
Open Scope list_scope.

(** [bytes.strip()]. *)
Definition is_blank (c : ascii) : bool := is_in c [" "; "009"; "010"; "011"; "012"; "013"]%char.
Fixpoint lstrip (s : name) : name :=
  match s with [] => [] | c :: r => if is_blank c then lstrip r else s end.
Definition strip (s : name) : name := rev (lstrip (rev (lstrip s))).

(** text_pck.py 68-82, [_parse_tokens]; [inside] is true in the inner loop. *)
Definition begindata : name := chars "\begindata".
Definition begintext : name := chars "\begintext".
Fixpoint parse_tokens (inside : bool) (lines : list name) : list name :=
  match lines with
  | [] => []
  | line :: lines =>
      if inside
      then let line := strip line in
           if name_eqb line begintext then parse_tokens false lines
           else tokens_of line ++ parse_tokens true lines
      else if negb (contains begindata line) then parse_tokens false lines
      else if negb (name_eqb (strip line) begindata) then parse_tokens false lines
      else parse_tokens true lines
  end.

(** [bytes.isdigit()]. *)
Definition isdigit (s : name) : bool := match s with [] => false | _ => forallb is_digit s end.
(** [int(s)] of digits. *)
Definition digit (c : ascii) : Z := Z.of_nat (code c) - 48.
Definition int_of (s : name) : Z := fold_left (fun n c => 10 * n + digit c)%Z s 0%Z.
(** [float(s)] as the number that is written, before it is rounded: a sign, digits with
    a point among them, and a power of ten. Spaces around it are allowed by Python, and
    underscores between digits, "inf" and "nan", all of which the model refuses; a token
    has no spaces. *)
Definition signed (s : name) : bool * name :=
  match s with
  | c :: r => if Ascii.eqb c "-" then (true, r) else if Ascii.eqb c "+" then (false, r) else (false, s)
  | [] => (false, [])
  end.
Definition power_of_ten (z : Z) : Q := Qpower 10 z.
Definition exponent_of (s : name) : option Z :=
  match s with
  | [] => Some 0%Z
  | _ :: r => let '(negative, r) := signed r in
              if isdigit r then Some (if negative then (- int_of r)%Z else int_of r) else None
  end.
Definition float_of (s : name) : option Q :=
  let '(negative, s) := signed s in
  let '(mantissa, e) := break (fun c => Ascii.eqb c "e" || Ascii.eqb c "E") s in
  let '(whole, fraction) := break (Ascii.eqb ".") mantissa in
  let fraction := match fraction with [] => [] | _ :: f => f end in
  if isdigit (whole ++ fraction)
  then match exponent_of e with
       | Some z => let x := (inject_Z (int_of (whole ++ fraction)) * power_of_ten (z - Z.of_nat (List.length fraction)))%Q in
                   Some (if negative then (- x)%Q else x)
       | None => None
       end
  else None.

(** text_pck.py 54-64, [_evaluate]. [None]: an exception. *)
Inductive literal := Text (s : name) | Int (z : Z) | Float (q : Q).
Definition replace_D (s : name) : name := map (fun c => if Ascii.eqb c "D" then "E"%char else c) s.
Definition evaluate (token : name) : option literal :=
  if starts_with (chars "'") token then Some (Text (removelast (tl token)))
  else if isdigit token then Some (Int (int_of token))
  else if starts_with (chars "@") token then None
  else option_map Float (float_of (replace_D token)).

(** Files_Model.parse_assignments with values that may raise. [load] consumes a
    generator: assignments before the one that raises have taken effect, which the
    model leaves out. *)
Fixpoint all_some {A} (l : list (option A)) : option (list A) :=
  match l with
  | [] => Some []
  | Some x :: l => option_map (cons x) (all_some l)
  | None :: _ => None
  end.
Definition evaluated (a : name * equals * list (option literal)) : option (name * equals * list literal) :=
  option_map (fun vs => (fst a, vs)) (all_some (snd a)).
Definition load_lines (lines : list name) (vars : variables literal) : option (variables literal) :=
  let tokens := parse_tokens false lines in
  match parse_assignments evaluate (List.length tokens) tokens with
  | None => None
  | Some l => option_map (load vars) (all_some (map evaluated l))
  end.

(** A file iterated over line by line; each line keeps its line feed. *)
Fixpoint lines_from (line : name) (s : name) : list name :=
  match s with
  | [] => match line with [] => [] | _ => [rev line] end
  | c :: r => if Ascii.eqb c "010" then rev (c :: line) :: lines_from [] r else lines_from (c :: line) r
  end.
(** planetarylib.py 46-67, [read_text]: the lines are read from byte 7 on. *)
Definition magic : list name := [chars "KPL/FK"; chars "KPL/PCK"].
Definition read_text (file : name) (vars : variables literal) : option (variables literal) :=
  if existsb (fun m => starts_with m (firstn 7 file)) magic
  then load_lines (lines_from [] (skipn 7 file)) vars
  else None.
