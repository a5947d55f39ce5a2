(** Properties of the readers of files in columns. *)
From Coq Require Import Ascii String List Bool Arith Lia.
From Verif Require Import Columns_Model Columns_Spec Columns_Proofs Columns_Examples.
Import ListNotations.
Local Open Scope string_scope.
Local Open Scope list_scope.

(** * C138 *)
Theorem C138_minor_planets_are_read_by_columns : forall records,
  (forall field l, In (field, l) records -> laid_out minor_planet_columns field l /\ ~ In newline l /\ exists c, In c l /\ ~ space c) ->
  load_mpcorb (concat (map (fun r => snd r ++ [newline]) records)) =
  map (fun r => map (fun c => (fst c, fst r (fst c))) minor_planet_columns) records.
Proof. exact mpcorb_rows. Qed.
Print Assumptions C138_minor_planets_are_read_by_columns.
Theorem C138_comets_are_read_by_columns : forall records,
  (forall field l, In (field, l) records -> laid_out comet_columns field l /\ ~ In newline l /\ exists c, In c l /\ ~ space c) ->
  load_comets_slow (concat (map (fun r => snd r ++ [newline]) records)) =
  map (fun r => map (fun c => (fst c, fst r (fst c))) comet_columns) records.
Proof. exact slow_rows. Qed.
Print Assumptions C138_comets_are_read_by_columns.
Example C138_premises : laid_out comet_columns halley_field halley /\ ~ In newline halley /\ (exists c, In c halley /\ ~ space c).
Proof. exact halley_slow. Qed.

(** * C139 *)
Theorem C139_the_fast_reader_keeps_the_orbit_partial : forall records,
  (forall field l, In (field, l) records ->
     laid_out comet_columns field l /\ nothing_between comet_columns l /\ char_at l 103 <> blank /\
     no_two_blanks (field "designation") /\ (List.length (field "designation") <= 55)%nat /\
     field "reference" <> [] /\ last l blank <> blank /\ plain l) ->
  Forall2 (fun row r => exists written, row = map (fun n => (n, written n)) orbit_columns /\
     forall n, In n orbit_columns -> (exists a b, written n = repeat blank a ++ fst r n ++ repeat blank b) /\
       (n = "designation" \/ n = "reference" -> written n = fst r n))
    (load_comets (concat (map (fun r => snd r ++ [newline]) records))) records.
Proof. exact fast_rows. Qed.
Print Assumptions C139_the_fast_reader_keeps_the_orbit_partial.
Theorem C139_long_designations_refuted : exists field l row,
  laid_out comet_columns field l /\ nothing_between comet_columns l /\ char_at l 103 <> blank /\
  no_two_blanks (field "designation") /\ field "reference" <> [] /\ last l blank <> blank /\ plain l /\
  load_comets (l ++ [newline]) = [row] /\ (forall t, In ("perihelion_year", t) row -> t = l).
Proof. exact long_designation. Qed.
Print Assumptions C139_long_designations_refuted.
Theorem C139_missing_references_refuted : exists field l row,
  laid_out comet_columns field l /\ nothing_between comet_columns l /\ char_at l 103 <> blank /\
  no_two_blanks (field "designation") /\ (List.length (field "designation") <= 55)%nat /\ last l blank <> blank /\ plain l /\
  load_comets (l ++ [newline]) = [row] /\ (forall t, In ("perihelion_year", t) row -> t = l).
Proof. exact missing_reference. Qed.
Print Assumptions C139_missing_references_refuted.
Example C139_premises : laid_out comet_columns halley_field halley /\ nothing_between comet_columns halley /\ char_at halley 103 <> blank /\
  no_two_blanks (halley_field "designation") /\ (List.length (halley_field "designation") <= 55)%nat /\
  halley_field "reference" <> [] /\ last halley blank <> blank /\ plain halley.
Proof. exact halley_fast. Qed.
