(** Model of the readers of files in columns: skyfield/data/mpc.py 15-39, 59-78, 114-213.
    [pandas.read_fwf] takes slices of a line and strips them, [pandas.read_csv] splits a
    line at the separator; empty texts, which both turn into NaN, stay texts here. Numbers
    are left as texts. *)
From Coq Require Import Ascii String List Bool Arith.
Import ListNotations.
Local Open Scope string_scope.
Local Open Scope list_scope.

Definition text := list ascii.
Definition column := (string * (nat * nat))%type.
(** 15-39, [_MPCORB_COLUMNS]. *)
Definition MPCORB_COLUMNS : list column := [
  ("designation_packed", (0, 7)); ("magnitude_H", (8, 13)); ("magnitude_G", (14, 19)); ("epoch_packed", (20, 25));
  ("mean_anomaly_degrees", (26, 35)); ("argument_of_perihelion_degrees", (37, 46));
  ("longitude_of_ascending_node_degrees", (48, 57)); ("inclination_degrees", (59, 68)); ("eccentricity", (70, 79));
  ("mean_daily_motion_degrees", (80, 91)); ("semimajor_axis_au", (92, 103)); ("uncertainty", (105, 106));
  ("reference", (107, 116)); ("observations", (117, 122)); ("oppositions", (123, 126)); ("observation_period", (127, 136));
  ("rms_residual_arcseconds", (137, 141)); ("coarse_perturbers", (142, 145)); ("precise_perturbers", (146, 149));
  ("computer_name", (150, 160)); ("hex_flags", (161, 165)); ("designation", (166, 194)); ("last_observation_date", (194, 202))].
(** 114-133, [_COMET_COLUMNS], and 134-140, [_COMET_FAST_COLUMNS]. *)
Definition COMET_COLUMNS : list column := [
  ("number", (0, 4)); ("orbit_type", (4, 5)); ("designation_packed", (5, 12)); ("perihelion_year", (14, 18));
  ("perihelion_month", (19, 21)); ("perihelion_day", (22, 29)); ("perihelion_distance_au", (30, 39)); ("eccentricity", (41, 49));
  ("argument_of_perihelion_degrees", (51, 59)); ("longitude_of_ascending_node_degrees", (61, 69)); ("inclination_degrees", (71, 79));
  ("perturbed_epoch_year", (81, 85)); ("perturbed_epoch_month", (85, 87)); ("perturbed_epoch_day", (87, 89));
  ("magnitude_g", (91, 95)); ("magnitude_k", (96, 100)); ("designation", (102, 158)); ("reference", (159, 168))].
Definition COMET_FAST_COLUMNS : list string := [
  "perihelion_year"; "perihelion_month"; "perihelion_day"; "perihelion_distance_au"; "eccentricity";
  "argument_of_perihelion_degrees"; "longitude_of_ascending_node_degrees"; "inclination_degrees"; "magnitude_g"; "magnitude_k";
  "designation"; "reference"].
(** 145. *)
Definition COMET_SEP : ascii := ascii_of_nat 30.
Definition newline : ascii := ascii_of_nat 10.
Definition isblank (c : ascii) : bool :=
  Ascii.eqb c " " || Ascii.eqb c (ascii_of_nat 9) || Ascii.eqb c newline || Ascii.eqb c (ascii_of_nat 13).
Fixpoint lstrip (s : text) : text := match s with c :: r => if isblank c then lstrip r else s | [] => [] end.
Definition strip (s : text) : text := rev (lstrip (rev (lstrip s))).
(** Lines of a file. *)
Fixpoint lines (l : text) (line : text) : list text :=
  match l with
  | [] => match line with [] => [] | _ => [rev line] end
  | c :: r => if Ascii.eqb c newline then rev line :: lines r [] else lines r (c :: line)
  end.
Definition empty (l : text) : bool := match strip l with [] => true | _ => false end.

(** [read_fwf]: 59-78 and 199-213, [load_mpcorb_dataframe] and [load_comets_dataframe_slow].
    A row is a list of names with their texts. *)
Definition slice (l : text) (start stop : nat) : text := firstn (stop - start) (skipn start l).
Definition read_line (columns : list column) (l : text) : list (string * text) :=
  map (fun c => (fst c, strip (slice l (fst (snd c)) (snd (snd c))))) columns.
Definition read_fwf (columns : list column) (file : text) : list (list (string * text)) :=
  map (read_line columns) (filter (fun l => negb (empty l)) (lines file [])).
Definition load_mpcorb (file : text) := read_fwf MPCORB_COLUMNS file.
Definition load_comets_slow (file : text) := read_fwf COMET_COLUMNS file.

(** 165-192: the regular expression, as a list of pieces: blanks, a number of dots
    within or without parentheses, and at its end the two groups with blanks between. *)
Inductive piece := Blanks (n : nat) | Dots (n : nat) (keep : bool) | Groups.
Fixpoint pattern (keepers : list string) (columns : list column) (previous_end : option nat) : list piece :=
  match columns with
  | [] => []
  | (name, (start, stop)) :: r =>
      (match previous_end with None => [] | Some p => [Blanks (start - p)] end) ++
      (if String.eqb name "designation" then [Groups]
       else Dots (stop - start) (existsb (String.eqb name) keepers) :: pattern keepers r (Some stop))
  end.
(** The first two blanks in a row, and what follows all the blanks there. *)
Fixpoint skip_blanks (l : text) : text := match l with c :: r => if Ascii.eqb c " " then skip_blanks r else l | [] => [] end.
Fixpoint two_blanks (l : text) : option (text * text) :=
  match l with
  | a :: (b :: r) as t =>
      if Ascii.eqb a " " && Ascii.eqb b " " then Some ([], skip_blanks r)
      else match two_blanks t with None => None | Some (x, y) => Some (a :: x, y) end
  | _ => None
  end.
(** The groups of a match that begins with the line, and the rest of the line. *)
Fixpoint match_line (ps : list piece) (l : text) : option (list text * text) :=
  match ps with
  | [] => Some ([], l)
  | Blanks n :: r =>
      if (n <=? List.length l)%nat && forallb (Ascii.eqb " ") (firstn n l) then match_line r (skipn n l) else None
  | Dots n keep :: r =>
      if (n <=? List.length l)%nat then
        match match_line r (skipn n l) with
        | None => None
        | Some (gs, rest) => Some ((if keep then [firstn n l] else []) ++ gs, rest)
        end
      else None
  | Groups :: r =>
      match two_blanks l with
      | None => None
      | Some (x, y) => match match_line r [] with None => None | Some (gs, rest) => Some (x :: y :: gs, rest) end
      end
  end.
(** 194, [sub], on one line. *)
Fixpoint join (sep : ascii) (ts : list text) : text :=
  match ts with [] => [] | [t] => t | t :: r => t ++ sep :: join sep r end.
Definition sub_line (ps : list piece) (l : text) : text :=
  match match_line ps l with None => l | Some (gs, rest) => join COMET_SEP gs ++ rest end.
(** 195-197, [read_csv] on one line. *)
Fixpoint split (sep : ascii) (l : text) : list text :=
  match l with
  | [] => [[]]
  | c :: r => if Ascii.eqb c sep then [] :: split sep r
              else match split sep r with [] => [[c]] | f :: fs => (c :: f) :: fs end
  end.
(** 150-197, [load_comets_dataframe]; missing fields are empty. *)
Fixpoint named (names : list string) (fs : list text) : list (string * text) :=
  match names with [] => [] | n :: r => (n, match fs with [] => [] | f :: _ => f end) :: named r (match fs with [] => [] | _ :: k => k end) end.
Definition comet_pattern : list piece := pattern COMET_FAST_COLUMNS COMET_COLUMNS None.
Definition load_comet (l : text) : list (string * text) :=
  named COMET_FAST_COLUMNS (split COMET_SEP (sub_line comet_pattern l)).
Definition load_comets (file : text) : list (list (string * text)) :=
  map load_comet (filter (fun l => negb (empty l)) (lines file [])).
