(** What data files say, as their formats are documented. *)
From Coq Require Import ZArith QArith Qround Bool String Ascii List Sorting.Sorted.
From Verif Require Import Cal_Spec Time_Model Time_Spec Download_Model.
Import ListNotations.
Open Scope Z_scope.

(** Minor Planet Center: digits 0-9, then letters A-Z for 10 to 35. *)
Definition code (n : Z) : ascii := ascii_of_nat (Z.to_nat (if n <? 10 then 48 + n else 55 + n)).
Definition two_digits (n : Z) : list ascii := [code (n / 10); code (n mod 10)].
(** A date in packed form: century, year, month, day. *)
Definition packed_date (y m d : Z) : list ascii := code (y / 100) :: two_digits (y mod 100) ++ [code m; code d].
(** A comet's provisional designation: kind, year, half-month, number, fragment. *)
Record designation := { kind : ascii; d_year : Z; half_month : ascii; order : Z; fragment : option ascii }.
Definition designation_ok (d : designation) : Prop :=
  1000 <= d_year d < 3600 /\ 0 <= order d < 360 /\ fragment d <> Some "0"%char.
(** Packed: tens of the number may be coded as a letter. *)
Definition packed (d : designation) : list ascii :=
  [kind d; code (d_year d / 100)] ++ two_digits (d_year d mod 100) ++ [half_month d] ++ two_digits (order d) ++
  [match fragment d with Some c => c | None => "0"%char end].
(** As people write it. *)
Definition written (d : designation) : list ascii :=
  [kind d; "/"%char] ++ decimal (Z.to_nat (d_year d)) ++ [" "%char; half_month d] ++ decimal (Z.to_nat (order d)) ++
  match fragment d with Some c => [c] | None => [] end.

(** White space and words. *)
Definition blank (c : ascii) : Prop := In c [" "; "009"; "010"; "011"; "012"; "013"]%char.
Definition blanks (s : list ascii) : Prop := Forall blank s.
Definition word (s : list ascii) : Prop := s <> [] /\ Forall (fun c => ~ blank c) s.
(** [spaced ws s]: the text [s] consists of the words [ws] set apart by white space. *)
Inductive spaced : list (list ascii) -> list ascii -> Prop :=
| sp_none : forall b, blanks b -> spaced [] b
| sp_last : forall b w, blanks b -> word w -> spaced [w] (b ++ w)
| sp_cons : forall b w c ws s, blanks b -> word w -> blank c -> spaced ws s -> spaced (w :: ws) (b ++ w ++ c :: s).

(** A line of Stellarium's constellation file and what it says. *)
Definition star_words (l : list (nat * nat)) : list (list ascii) :=
  flat_map (fun p => [decimal (fst p); decimal (snd p)]) l.
Inductive outline_line : list (list ascii * list (Z * Z)) -> list ascii -> Prop :=
| ol_comment : forall b s, blanks b -> outline_line [] (b ++ "#"%char :: s)
| ol_blank : forall b, blanks b -> outline_line [] b
| ol_outline : forall name count l s, word name -> hd "x"%char name <> "#"%char ->
    spaced (name :: count :: star_words l) s ->
    outline_line [(name, map (fun p => (Z.of_nat (fst p), Z.of_nat (snd p))) l)] s.

(** A line of Stellarium's file of star names: number, a bar, the name in a
    translation mark, then references. *)
Definition quoted (name : list ascii) : list ascii := ["_"; "("; """"]%char ++ name ++ [""""; ")"]%char.
Definition plain_char (c : ascii) : Prop := ~ In c ["_"; "("; """"; ")"; "|"; "010"; "013"]%char.
Inductive name_line : list (Z * list ascii) -> list ascii -> Prop :=
| nl_comment : forall b s, blanks b -> name_line [] (b ++ "#"%char :: s)
| nl_blank : forall b, blanks b -> name_line [] b
| nl_name : forall b n name refs, blanks b -> Forall plain_char name -> name <> [] ->
    (refs = [] \/ exists c r, refs = c :: r /\ blank c) ->
    name_line [(Z.of_nat n, name)] (b ++ decimal n ++ "|"%char :: quoted name ++ refs).

(** A satellite's name with an alias in brackets: [None] if there is no alias. *)
Definition no_paren (s : list ascii) : Prop := ~ exists a b, s = a ++ " "%char :: "("%char :: b.

(** Dates of a table go up. *)
Definition ascending (l : list (Q * Q)) : Prop := StronglySorted (fun p q => fst p < fst q)%Q l.

(** Columns of IERS finals files: Fortran's Fw.d of a whole number of units in the
    last place. *)
Fixpoint fixed_digits (d : nat) (n : Z) : list ascii :=
  match d with O => [] | S d' => fixed_digits d' (n / 10) ++ [code (n mod 10)] end.
Definition fixed_text (d : nat) (z : Z) : list ascii :=
  (if z <? 0 then ["-"%char] else []) ++ decimal (Z.to_nat (Z.abs z / 10 ^ Z.of_nat d)) ++
  "."%char :: fixed_digits d (Z.abs z mod 10 ^ Z.of_nat d).
Definition fixed (w d : nat) (z : Z) : list ascii :=
  repeat " "%char (w - length (fixed_text d z)) ++ fixed_text d z.
Record finals_row := { f_date : list ascii; f_mjd : Z; f_flag : ascii; f_x : Z; f_sx : Z; f_y : Z; f_sy : Z;
                       f_flag2 : ascii; f_dut1 : Z; f_rest : list ascii }.
Definition not_lf (c : ascii) : Prop := c <> "010"%char.
Definition finals_ok (r : finals_row) : Prop :=
  length (f_date r) = 6%nat /\ Forall not_lf (f_date r) /\ not_lf (f_flag r) /\ not_lf (f_flag2 r) /\
  0 <= f_mjd r < 10000000 /\ -10000000 < f_x r < 10000000 /\ 0 <= f_sx r < 10000000 /\
  -10000000 < f_y r < 10000000 /\ 0 <= f_sy r < 10000000 /\ -100000000 < f_dut1 r < 100000000.
Definition finals_line (r : finals_row) : list ascii :=
  f_date r ++ [" "%char] ++ fixed 8 2 (f_mjd r) ++ [" "%char; f_flag r; " "%char] ++ fixed 9 6 (f_x r) ++ fixed 9 6 (f_sx r) ++
  [" "%char] ++ fixed 9 6 (f_y r) ++ fixed 9 6 (f_sy r) ++ [" "%char; " "%char] ++ [f_flag2 r] ++ fixed 10 7 (f_dut1 r) ++ f_rest r.
(** A line without values: it ends early or has a blank where a digit would be. *)
Definition valueless (s : list ascii) : Prop :=
  (length s < 68)%nat \/ exists k, In k [19%nat; 38%nat; 59%nat] /\ nth k s " "%char = " "%char.
Inductive finals_says : list (Q * Q * Q * Q) -> list (list ascii) -> Prop :=
| fs_nil : finals_says [] []
| fs_row : forall r l ls, finals_ok r -> finals_says l ls ->
    finals_says ((inject_Z (f_mjd r) / 100, inject_Z (f_x r) / 1000000, inject_Z (f_y r) / 1000000,
                  inject_Z (f_dut1 r) / 10000000)%Q :: l) (finals_line r :: ls)
| fs_skip : forall s l ls, valueless s -> finals_says l ls -> finals_says l (s :: ls).
