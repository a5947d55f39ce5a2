(** Vocabulary for the loader and parser properties. *)
From Coq Require Import List Ascii String Arith Bool.
From Verif Require Import Download_Model Files_Model.
Import ListNotations.
Open Scope list_scope.

(** ** TLE files: the element sets, by position in the file. *)
Definition at_line (lines : list name) (i : nat) : name := nth i lines [].
Definition set_at (lines : list name) (i : nat) : bool :=
  line1 (at_line lines i) && line2 (at_line lines (S i)).
(** The name of the set that starts at line [i]: the line before it, unless there
    is none, or it is empty, or it is the second line of another set. *)
Definition name_at (skip_names : bool) (lines : list name) (i : nat) : option name :=
  match i with
  | 0 => None
  | S j =>
      let taken := match j with 0 => false | S k => set_at lines k end in
      if skip_names || taken then None
      else match at_line lines j with [] => None | b => Some (clean_name b) end
  end.
Definition element_sets (skip_names : bool) (lines : list name) : list satellite :=
  map (fun i => (name_at skip_names lines i, at_line lines i, at_line lines (S i)))
      (filter (set_at lines) (seq 0 (List.length lines))).

(** ** Text kernels *)
Definition as_list {V} (v : option (value V)) : list V :=
  match v with None => [] | Some (Scalar x) => [x] | Some (Values l) => l end.
Definition names {V} (a : name * equals * list V) : name := fst (fst a).
(** Everything appended to [n]. *)
Definition appended {V} (n : name) (l : list (name * equals * list V)) : list V :=
  flat_map (fun a => match a with (m, Append, vs) => if name_eqb m n then vs else [] | _ => [] end) l.
Definition no_assign {V} (n : name) (l : list (name * equals * list V)) : Prop :=
  forall m vs, In (m, Assign, vs) l -> m <> n.
Definition is_scalar {V} (v : option (value V)) : Prop := exists x, v = Some (Scalar x).

(** Assignments written as tokens. *)
Definition eq_token (e : equals) : name := match e with Assign => chars "=" | Append => chars "+=" end.
Definition show (a : name * equals * list name) : list name :=
  let '(n, e, vs) := a in
  match vs with
  | [v] => [n; eq_token e; v]
  | _ => [n; eq_token e; chars "("] ++ vs ++ [chars ")"]
  end.
Definition plain_value (v : name) : Prop := v <> chars "(" /\ v <> chars ")".
(** A line of tokens with a space after each. *)
Definition spaced_line (ts : list name) : name := flat_map (fun t => t ++ [" "%char]) ts.
(** The characters of names and numbers. *)
Definition letters : name := chars "ABCDEFGHIJKLMNOPQRSTUVWXYZabcdefghijklmnopqrstuvwxyz".
Definition digits : name := chars "0123456789".
(** A word of two or more characters, a number-like token or a quoted string. *)
Inductive clean_token : name -> Prop :=
| clean_name_token c d w : In c letters -> (forall x, In x (d :: w) -> In x (letters ++ digits ++ chars "_")) -> clean_token (c :: d :: w)
| clean_equals e : clean_token (eq_token e)
| clean_open : clean_token (chars "(")
| clean_close : clean_token (chars ")")
| clean_number c w : In c (digits ++ chars "-.@") -> (forall x, In x w -> ~ In x (chars "), ")) -> clean_token (c :: w)
| clean_quoted w : ~ In "'"%char w -> clean_token ("'"%char :: w ++ ["'"%char]).

(** ** URLs *)
Definition plain_part (forbidden : string) (s : name) : Prop := forall c, In c s -> ~ In c (chars forbidden).
