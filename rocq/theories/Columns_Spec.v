(** Lines of the files of the Minor Planet Center, after its own documentation: fields
    stand in numbered columns, counted from 1, last column included. *)
From Coq Require Import Ascii String List Bool Arith.
Import ListNotations.
Local Open Scope string_scope.
Local Open Scope list_scope.

(** https://minorplanetcenter.net/iau/info/MPOrbitFormat.html *)
Definition minor_planet_columns : list (string * (nat * nat)) := [
  ("designation_packed", (1, 7)); ("magnitude_H", (9, 13)); ("magnitude_G", (15, 19)); ("epoch_packed", (21, 25));
  ("mean_anomaly_degrees", (27, 35)); ("argument_of_perihelion_degrees", (38, 46));
  ("longitude_of_ascending_node_degrees", (49, 57)); ("inclination_degrees", (60, 68)); ("eccentricity", (71, 79));
  ("mean_daily_motion_degrees", (81, 91)); ("semimajor_axis_au", (93, 103)); ("uncertainty", (106, 106));
  ("reference", (108, 116)); ("observations", (118, 122)); ("oppositions", (124, 126)); ("observation_period", (128, 136));
  ("rms_residual_arcseconds", (138, 141)); ("coarse_perturbers", (143, 145)); ("precise_perturbers", (147, 149));
  ("computer_name", (151, 160)); ("hex_flags", (162, 165)); ("designation", (167, 194)); ("last_observation_date", (195, 202))].
(** https://www.minorplanetcenter.net/iau/info/CometOrbitFormat.html *)
Definition comet_columns : list (string * (nat * nat)) := [
  ("number", (1, 4)); ("orbit_type", (5, 5)); ("designation_packed", (6, 12)); ("perihelion_year", (15, 18));
  ("perihelion_month", (20, 21)); ("perihelion_day", (23, 29)); ("perihelion_distance_au", (31, 39)); ("eccentricity", (42, 49));
  ("argument_of_perihelion_degrees", (52, 59)); ("longitude_of_ascending_node_degrees", (62, 69)); ("inclination_degrees", (72, 79));
  ("perturbed_epoch_year", (82, 85)); ("perturbed_epoch_month", (86, 87)); ("perturbed_epoch_day", (88, 89));
  ("magnitude_g", (92, 95)); ("magnitude_k", (97, 100)); ("designation", (103, 158)); ("reference", (160, 168))].
(** What an orbit needs, with the name of the comet. *)
Definition orbit_columns : list string := [
  "perihelion_year"; "perihelion_month"; "perihelion_day"; "perihelion_distance_au"; "eccentricity";
  "argument_of_perihelion_degrees"; "longitude_of_ascending_node_degrees"; "inclination_degrees"; "magnitude_g"; "magnitude_k";
  "designation"; "reference"].

Definition blank : ascii := " ".
Definition char_at (line : list ascii) (column : nat) : ascii := nth (column - 1) line blank.
Definition between (line : list ascii) (first last : nat) : list ascii := map (char_at line) (seq first (last - first + 1)).
(** The field, which may have blanks on either side in its columns. *)
Definition shows (line : list ascii) (first last : nat) (field : list ascii) : Prop :=
  exists a b, between line first last = repeat blank a ++ field ++ repeat blank b.
Definition space (c : ascii) : Prop := In (nat_of_ascii c) [32; 9; 10; 13].
Definition neat (field : list ascii) : Prop :=
  field = [] \/ exists m, ~ space (hd blank field) /\ field = m ++ [last field blank] /\ ~ space (last field blank).
Definition laid_out (columns : list (string * (nat * nat))) (field : string -> list ascii) (line : list ascii) : Prop :=
  forall name first last, In (name, (first, last)) columns -> shows line first last (field name) /\ neat (field name).
(** Columns that belong to no field are blank. *)
Definition nothing_between (columns : list (string * (nat * nat))) (line : list ascii) : Prop :=
  forall k, (1 <= k)%nat -> (forall name first last, In (name, (first, last)) columns -> ~ (first <= k <= last)%nat) -> char_at line k = blank.
Definition no_two_blanks (s : list ascii) : Prop := forall x y, s <> x ++ blank :: blank :: y.
(** Characters with a meaning for files and tables. *)
Definition plain (line : list ascii) : Prop := forall c, In c line -> ~ In (nat_of_ascii c) [10; 13; 30; 34].
