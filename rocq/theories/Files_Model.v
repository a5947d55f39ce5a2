(** Model of the loader's decisions and of the small text parsers in
    skyfield/iokit.py and skyfield/data/text_pck.py. Byte strings and text are
    lists of characters. *)
From Coq Require Import List Ascii String Arith Bool.
From Verif Require Import Download_Model.
Import ListNotations.
Open Scope bool_scope.
Open Scope list_scope.

Definition is_in (c : ascii) (l : list ascii) : bool := existsb (Ascii.eqb c) l.
(** The part of a string before the first character that satisfies [p], and the
    part from that character on. *)
Fixpoint break (p : ascii -> bool) (s : name) : name * name :=
  match s with
  | [] => ([], [])
  | c :: r => if p c then ([], s) else let '(a, b) := break p r in (c :: a, b)
  end.
(** The part after the last character that satisfies [p], or all of it. *)
Fixpoint after_last (p : ascii -> bool) (s : name) : name :=
  match s with
  | [] => []
  | c :: r => if existsb p r then after_last p r else if p c then r else s
  end.
Fixpoint starts_with (p s : name) : bool :=
  match p, s with
  | [], _ => true
  | a :: p, b :: s => Ascii.eqb a b && starts_with p s
  | _ :: _, [] => false
  end.
Fixpoint contains (p s : name) : bool :=
  starts_with p s || match s with [] => false | _ :: r => contains p r end.
Fixpoint drop_to (p s : name) : name :=   (* what follows the first occurrence of [p] *)
  if starts_with p s then skipn (List.length p) s else match s with [] => [] | _ :: r => drop_to p r end.

(** ** Names and URLs *)

(** [os.path.splitext(filename)[1]] (POSIX): from the last dot on, unless that dot
    is before the last slash or has only dots between the slash and it. *)
Definition slash : ascii := "/"%char.
Definition splitext (filename : name) : name :=
  match rsplit filename with
  | None => []
  | Some (prefix, suffix) =>
      if is_in slash suffix then []
      else if forallb (Ascii.eqb ".") (after_last (Ascii.eqb slash) prefix) then []
      else "."%char :: suffix
  end.

(** [urlparse(url).path.split('/')[-1]] for a URL with a scheme and "://":
    the path starts where the host ends and stops at '#' or '?'; parameters
    after ';' in the last component are removed. *)
Definition url_filename (url : name) : name :=
  let rest := drop_to (chars "://") url in
  let '(_, rest) := break (fun c => is_in c (chars "/?#")) rest in
  let '(rest, _) := break (Ascii.eqb "#") rest in
  let '(path, _) := break (Ascii.eqb "?") rest in
  let last := after_last (Ascii.eqb slash) path in
  fst (break (Ascii.eqb ";") last).

(** [fnmatch(filename, pattern)] for patterns whose only special character is
    the star, as in the loader's tables. *)
Fixpoint glob (pattern : name) : name -> bool :=
  match pattern with
  | [] => fun s => match s with [] => true | _ => false end
  | p :: pat =>
      if Ascii.eqb p "*"
      then fix star (s : name) : bool := glob pat s || match s with [] => false | _ :: r => star r end
      else fun s => match s with c :: r => Ascii.eqb p c && glob pat r | [] => false end
  end.

(** iokit.py 386-397, [_search]. A table maps a name to a value, or to a list of
    (pattern, value). A direct hit returns whatever is stored, even a list. *)
Inductive entry (A : Type) := Direct (v : A) | Patterns (l : list (name * A)).
Arguments Direct {A} v. Arguments Patterns {A} l.
Definition table (A : Type) := list (name * entry A).
Definition get {A} (m : table A) (k : name) : option (entry A) :=
  option_map snd (find (fun kv => name_eqb (fst kv) k) m).
Definition search {A} (m : table A) (filename : name) : option (entry A) :=
  match get m filename with
  | Some e => Some e
  | None =>
      match get m (splitext filename) with
      | Some (Patterns l) => option_map (fun pv => Direct (snd pv)) (find (fun pv => glob (fst pv) filename) l)
      | _ => None   (* iterating over a plain string would raise; the tables have none *)
      end
  end.

(** ** The loader *)
Record loader (P O : Type) := { directory : name; urls : table name; parsers : table P; openers : table O }.
Arguments directory {P O} l. Arguments urls {P O} l. Arguments parsers {P O} l. Arguments openers {P O} l.

(** iokit.py 149-153, [path_to] ([os.path.join] of a directory without a final slash). *)
Definition path_to {P O} (L : loader P O) (filename : name) : name :=
  if name_eqb (directory L) (chars ".") then filename
  else if starts_with [slash] filename then filename
  else directory L ++ slash :: filename.

(** How a call ends. [Raised] covers every exception. *)
Inductive ended (P O : Type) :=
| Raised
| Opened (path : name)                     (* an open file *)
| ParsedWith (p : P) (path : name)
| BuiltWith (o : O) (path : name)
| ParsedBuiltin (p : P).
Arguments Raised {P O}. Arguments Opened {P O} path. Arguments ParsedWith {P O} p path.
Arguments BuiltWith {P O} o path. Arguments ParsedBuiltin {P O} p.

(** The network requests made, as pairs (URL, path), and how the call ended. A URL
    that is a list is [None]: [urlopen] raises on it. *)
Definition effects (P O : Type) := (list (option name * name) * ended P O)%type.

(** iokit.py 203-215, [_assure]; [exists_path] is [os.path.exists]. The download
    itself is Download_Model.v; here it is taken to succeed. *)
Definition assure {P O} (L : loader P O) (exists_path : name -> bool) (url : option (option name))
  (filename : name) (reload : bool) : list (option name * name) * option name :=
  let path := path_to L filename in
  if negb (exists_path path) || reload
  then match url with
       | None => ([], None)
       | Some None => ([(None, path)], None)
       | Some (Some u) => ([(Some u, path)], Some path)
       end
  else ([], Some path).

(** iokit.py 164-201, [Loader.__call__]. *)
Definition call_loader {P O} (L : loader P O) (exists_path : name -> bool) (filename : name)
  (reload builtin : bool) : effects P O :=
  let '(url, filename) :=
    if contains (chars "://") filename
    then (Some (Some filename), url_filename filename)
    else (match search (urls L) filename with
          | Some (Direct []) => Some (Some [])    (* an empty string is not extended *)
          | Some (Direct u) => Some (Some (u ++ filename))
          | Some (Patterns _) => Some None
          | None => None
          end, filename) in
  match search (parsers L) filename, search (openers L) filename with
  | None, None => ([], Raised)
  | parser, opener =>
      if builtin
      then match parser with Some (Direct p) => ([], ParsedBuiltin p) | _ => ([], Raised) end
      else
        match assure L exists_path url filename reload with
        | (net, None) => (net, Raised)
        | (net, Some path) =>
            match parser, opener with
            | Some (Direct p), _ => (net, ParsedWith p path)
            | Some (Patterns _), _ => (net, Raised)
            | None, Some (Direct o) => (net, BuiltWith o path)
            | None, _ => (net, Raised)
            end
        end
  end.

(** iokit.py 302-330, [Loader.open]. *)
Definition open_loader {P O} (L : loader P O) (exists_path : name -> bool) (url : name)
  (filename : option name) (reload : bool) : effects P O :=
  if contains (chars "://") url
  then
    let filename := match filename with Some f => f | None => url_filename url end in
    match assure L exists_path (Some (Some url)) filename reload with
    | (net, Some path) => (net, Opened path)
    | (net, None) => (net, Raised)
    end
  else
    let path := if starts_with [slash] url then url else directory L ++ slash :: url in
    if exists_path path then ([], Opened path) else ([], Raised).

(** ** TLE files *)

(** iokit.py 428-470, [parse_tle_file]. Decoding is the identity: the lines are
    taken to be ASCII. A satellite is its name and its two lines. *)
Definition rstrip (drop : list ascii) (s : name) : name :=
  (fix go (s : name) : name := match s with
   | [] => []
   | c :: r => match go r with [] => if is_in c drop then [] else [c] | r' => c :: r' end
   end) s.
Definition newline_chars : list ascii := [" "%char; "010"%char; "013"%char].
Definition line1 (b : name) : bool := starts_with (chars "1 ") b && (69 <=? List.length b).
Definition line2 (b : name) : bool := starts_with (chars "2 ") b && (69 <=? List.length b).
Definition clean_name (b0 : name) : name :=
  let b0 := rstrip newline_chars b0 in
  if starts_with (chars "0 ") b0 then skipn 2 b0 else b0.
Definition tle_name (skip_names : bool) (b0 : name) : option name :=
  if negb skip_names && negb (match b0 with [] => true | _ => false end) then Some (clean_name b0) else None.
Definition satellite := (option name * name * name)%type.
Fixpoint tle_loop (skip_names : bool) (b0 b1 : name) (lines : list name) : list satellite :=
  match lines with
  | [] => []
  | b2 :: rest =>
      if line2 b2 && line1 b1
      then (tle_name skip_names b0, b1, b2) :: tle_loop skip_names [] [] rest
      else tle_loop skip_names b1 b2 rest
  end.
Definition parse_tle_file (lines : list name) (skip_names : bool) : list satellite := tle_loop skip_names [] [] lines.

(** ** Text kernels *)

(** text_pck.py 28-52, [parse], on tokens. Values are abstract: [evaluate] is
    [_evaluate]. [None]: an exception ([ValueError] for a missing equals sign, or
    the end of the tokens in the middle of an assignment). *)
Section TextKernel.
Variable V : Type.
Variable evaluate : name -> V.
Fixpoint take_values (tokens : list name) : list V * list name :=
  match tokens with
  | [] => ([], [])
  | t :: r => if name_eqb t (chars ")") then ([], r)
              else let '(vs, rest) := take_values r in (evaluate t :: vs, rest)
  end.
Inductive equals := Assign | Append.
Definition read_equals (t : name) : option equals :=
  if name_eqb t (chars "=") then Some Assign else if name_eqb t (chars "+=") then Some Append else None.
Fixpoint parse_assignments (fuel : nat) (tokens : list name) : option (list (name * equals * list V)) :=
  match fuel, tokens with
  | _, [] => Some []
  | S fuel, n :: eq :: t :: r =>
      match read_equals eq with
      | None => None
      | Some e =>
          let '(vs, rest) := if name_eqb t (chars "(") then take_values r else ([evaluate t], r) in
          option_map (cons (n, e, vs)) (parse_assignments fuel rest)
      end
  | _, _ => None
  end.

(** text_pck.py 12-26, [load]. A variable holds one value or a list. The code
    mutates Python lists in place; the model assumes that no two variables share
    a list. *)
Inductive value := Scalar (v : V) | Values (l : list V).
Definition variables := name -> option value.
Definition put (vars : variables) (n : name) (v : value) : variables :=
  fun m => if name_eqb m n then Some v else vars m.
Definition load_one (vars : variables) (a : name * equals * list V) : variables :=
  let '(n, e, vs) := a in
  match e with
  | Assign => match vs with
              | [v] => put vars n (Scalar v)
              | _ => put vars n (Values vs)
              end
  | Append => match vars n with
              | None => put vars n (Values vs)
              | Some (Values old) => put vars n (Values (old ++ vs))
              | Some (Scalar _) => vars       (* [old = [old]] is a new list that is then dropped *)
              end
  end.
Definition load (vars : variables) (l : list (name * equals * list V)) : variables := fold_left load_one l vars.
End TextKernel.
Arguments Scalar {V} v. Arguments Values {V} l. Arguments load {V}. Arguments load_one {V}. Arguments put {V}.
Arguments parse_assignments {V}. Arguments take_values {V}.

(** text_pck.py 66-82, the token expression [A-Za-z]\w+|=|\+=|\(|\)|'[^']*'|[^), ]+
    tried at one position, in order. *)
Definition code (c : ascii) : nat := nat_of_ascii c.
Definition is_alpha (c : ascii) : bool :=
  ((65 <=? code c) && (code c <=? 90)) || ((97 <=? code c) && (code c <=? 122)).
Definition is_digit (c : ascii) : bool := (48 <=? code c) && (code c <=? 57).
Definition is_word (c : ascii) : bool := is_alpha c || is_digit c || Ascii.eqb c "_".
Definition span (p : ascii -> bool) (s : name) : name * name := break (fun c => negb (p c)) s.
Definition token_here (s : name) : option (name * name) :=
  match s with
  | [] => None
  | c :: r =>
      let word := if is_alpha c then match span is_word r with ([], _) => None | (w, rest) => Some (c :: w, rest) end else None in
      match word with
      | Some x => Some x
      | None =>
          if Ascii.eqb c "=" then Some ([c], r)
          else if Ascii.eqb c "+" && starts_with (chars "=") r then Some (firstn 2 s, skipn 2 s)
          else if Ascii.eqb c "(" || Ascii.eqb c ")" then Some ([c], r)
          else
            let quoted := if Ascii.eqb c "'"
              then match span (fun x => negb (Ascii.eqb x "'")) r with (q, _ :: rest) => Some (c :: q ++ [c], rest) | _ => None end
              else None in
            match quoted with
            | Some x => Some x
            | None => match span (fun x => negb (is_in x (chars "), "))) s with ([], _) => None | (w, rest) => Some (w, rest) end
            end
      end
  end.
(** [_token_re.findall(line)]. *)
Fixpoint findall (fuel : nat) (s : name) : list name :=
  match fuel, s with
  | S fuel, c :: r => match token_here s with
                      | Some (t, rest) => t :: findall fuel rest
                      | None => findall fuel r
                      end
  | _, _ => []
  end.
Definition tokens_of (line : name) : list name := findall (List.length line) line.
