(** Vocabulary for text kernels: how tokens are written on lines, lines in a file, and
    what the tokens of values mean. *)
From Coq Require Import List Ascii String ZArith QArith Bool.
From Coq Require Import List.
From Verif Require Import Download_Model Files_Model Files_Spec Pool_Model.
Import ListNotations.
Open Scope list_scope.

Definition blanks : name := [" "; "009"; "010"; "011"; "012"; "013"]%char.
Definition line_feed : ascii := "010"%char.
Definition only (allowed s : name) : Prop := forall c, In c s -> In c allowed.
Definition none_of (forbidden s : name) : Prop := forall c, In c s -> ~ In c forbidden.
(** * Tokens on a line *)
Inductive kind := Word | Mark | Quoted | Number.
Inductive token : kind -> name -> Prop :=
| token_word c d w : In c letters -> only (letters ++ digits ++ chars "_") (d :: w) -> token Word (c :: d :: w)
| token_mark t : In t [chars "="; chars "+="; chars "("; chars ")"] -> token Mark t
| token_quoted w : none_of (chars "'") w -> token Quoted (chars "'" ++ w ++ chars "'")
| token_number c w : In c (digits ++ chars "-+.@") -> none_of (chars ")," ++ blanks) w -> (c = "+"%char -> hd " "%char w <> "="%char) -> token Number (c :: w).
(** What may come right after a token: anything after a mark or a quoted text; no
    character that would continue a word or a number. *)
Definition ends_before (k : kind) (rest : name) : Prop :=
  match rest with
  | [] => True
  | c :: _ => match k with
              | Word => ~ In c (letters ++ digits ++ chars "_")
              | Number => In c (chars "), ")
              | Mark | Quoted => True
              end
  end.
Inductive written : list name -> name -> Prop :=
| written_nothing s : only (chars " ,") s -> written [] s
| written_token s k t ts rest : only (chars " ,") s -> token k t -> ends_before k rest -> written ts rest -> written (t :: ts) (s ++ t ++ rest).
(** * Lines of a file *)
Definition tight (m : name) : Prop := ~ In (hd "x"%char m) blanks /\ ~ In (last m "x"%char) blanks.
Definition around (m line : name) : Prop := exists a b, only blanks a /\ only blanks b /\ line = a ++ m ++ b.
Definition data_line (ts : list name) (line : name) : Prop := exists m, tight m /\ written ts m /\ around m line.
Definition comment (line : name) : Prop := ~ around (chars "\begindata") line.
Inductive document : list name -> list name -> Prop :=
| comments_only cs : Forall comment cs -> document [] cs
| unfinished cs start ds tss : Forall comment cs -> around (chars "\begindata") start -> Forall2 data_line tss ds ->
    document (List.concat tss) (cs ++ start :: ds)
| block cs start ds tss stop ts lines : Forall comment cs -> around (chars "\begindata") start -> Forall2 data_line tss ds ->
    around (chars "\begintext") stop -> document ts lines -> document (List.concat tss ++ ts) (cs ++ start :: ds ++ stop :: lines).
(** Lines with a line feed at the end and nowhere else. *)
Definition whole_line (line : name) : Prop := exists l, none_of [line_feed] l /\ line = l ++ [line_feed].
(** * Values *)
Definition digit_value (c : ascii) : Z := Z.of_nat (nat_of_ascii c - 48).
Fixpoint number_of (rev_digits : name) : Z :=
  match rev_digits with [] => 0 | c :: r => digit_value c + 10 * number_of r end.
Definition numeral (s : name) : Prop := s <> [] /\ only digits s.
Inductive sign := NoSign | Plus | Minus.
Definition sign_text (s : sign) : name := match s with NoSign => [] | Plus => chars "+" | Minus => chars "-" end.
Definition sign_value (s : sign) : Z := match s with Minus => -1 | _ => 1 end.
(** A decimal number: sign, digits, digits after a point if there is one, and a power of
    ten after E, e or D if there is one. *)
Record decimal := Decimal { d_sign : sign; d_whole : name; d_fraction : option name; d_power : option (ascii * sign * name) }.
Definition fraction_digits (d : decimal) : name := match d_fraction d with Some f => f | None => [] end.
Definition decimal_ok (d : decimal) : Prop :=
  numeral (d_whole d ++ fraction_digits d) /\
  match d_power d with Some (c, _, n) => In c (chars "EeD") /\ numeral n | None => True end.
Definition decimal_text (d : decimal) : name :=
  sign_text (d_sign d) ++ d_whole d ++ (match d_fraction d with Some f => chars "." ++ f | None => [] end) ++
  match d_power d with Some (c, s, n) => c :: sign_text s ++ n | None => [] end.
Definition decimal_value (d : decimal) : Q :=
  inject_Z (sign_value (d_sign d) * number_of (rev (d_whole d ++ fraction_digits d))) *
  Qpower 10 ((match d_power d with Some (_, s, n) => sign_value s * number_of (rev n) | None => 0 end) - Z.of_nat (List.length (fraction_digits d))).
Definition plain (d : decimal) : Prop := d_sign d = NoSign /\ d_fraction d = None /\ d_power d = None.
Inductive means : name -> literal -> Prop :=
| means_text w : none_of (chars "'") w -> means (chars "'" ++ w ++ chars "'") (Text w)
| means_int d : decimal_ok d -> plain d -> means (decimal_text d) (Int (number_of (rev (d_whole d))))
| means_float d q : decimal_ok d -> ~ plain d -> (q == decimal_value d)%Q -> means (decimal_text d) (Float q).
(** Equal literals, where real numbers are equal as numbers. *)
Definition same_literal (a b : literal) : Prop :=
  match a, b with
  | Text s, Text t => s = t
  | Int x, Int y => x = y
  | Float p, Float q => (p == q)%Q
  | _, _ => False
  end.
Definition stands_for (t : name) (v : literal) : Prop := exists u, means t u /\ same_literal u v.
(** What the variables are after the assignments [l]: those that are not mentioned have
    not changed; a variable holds what its last assignment gave it and everything added
    to it since, unless that was one value; and one value is held as such, several as a
    list. *)
Definition pool_after (l : list (name * equals * list name)) (before after : variables literal) : Prop :=
  (forall n, ~ In n (map names l) -> after n = before n) /\
  (forall pre n vs post, l = pre ++ (n, Assign, vs) :: post -> no_assign n post -> (List.length vs <> 1%nat \/ ~ In n (map names post)) ->
     Forall2 stands_for (vs ++ appended n post) (as_list (after n))) /\
  (forall pre n vs post, l = pre ++ (n, Assign, vs) :: post -> ~ In n (map names post) ->
     (List.length vs = 1%nat -> exists v, after n = Some (Scalar v)) /\ (List.length vs <> 1%nat -> exists ws, after n = Some (Values ws))).
