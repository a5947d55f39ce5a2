(** Properties of the map of constellations. *)
From Coq Require Import ZArith QArith Ascii String List Bool Lia Lqa.
From Verif Require Import PyNum Const_Model Const_Spec Const_Proofs2.
Import ListNotations.
Open Scope Q_scope.

(** * C136 *)
Theorem C136_the_map_can_be_built : forall catalogue, spans catalogue -> exists m, build catalogue = Some m.
Proof. exact spans_builds. Qed.
Print Assumptions C136_the_map_can_be_built.
Theorem C136_the_map_follows_the_catalogue_partial : forall catalogue m ra dec c,
  southward catalogue -> spans catalogue -> (forall b, In b catalogue -> (0 <= const b < 127)%Z) -> build catalogue = Some m ->
  0 <= ra -> ra < 24 -> -90 <= dec -> ~ on_line catalogue ra ->
  (constellation_at m ra dec = Some (inject_Z c) <-> in_constellation catalogue ra dec c).
Proof. exact off_lines. Qed.
Print Assumptions C136_the_map_follows_the_catalogue_partial.
Theorem C136_lines_belong_to_their_west : forall catalogue m ra ra' dec c,
  southward catalogue -> spans catalogue -> build catalogue = Some m ->
  0 <= ra' -> ra' < ra -> ra < 24 -> -90 <= dec -> ~ on_line catalogue ra' -> clear catalogue ra' ra ->
  in_constellation catalogue ra' dec c -> constellation_at m ra dec = Some (inject_Z c).
Proof. exact west_of_lines. Qed.
Print Assumptions C136_lines_belong_to_their_west.
Theorem C136_the_rule_names_one_constellation : forall catalogue ra dec c d,
  in_constellation catalogue ra dec c -> in_constellation catalogue ra dec d -> c = d.
Proof. exact rule_functional. Qed.
Print Assumptions C136_the_rule_names_one_constellation.
Theorem C136_on_a_line_refuted : exists catalogue m ra dec c,
  southward catalogue /\ spans catalogue /\ build catalogue = Some m /\ 0 <= ra /\ ra < 24 /\ -90 <= dec /\
  in_constellation catalogue ra dec c /\ constellation_at m ra dec <> Some (inject_Z c).
Proof. exact line_west. Qed.
Print Assumptions C136_on_a_line_refuted.
Example C136_premises : southward cat3 /\ spans cat3 /\ (forall b, In b cat3 -> (0 <= const b < 127)%Z) /\
  ~ on_line cat3 13 /\ in_constellation cat3 13 88 83 /\ in_constellation cat3 13 (-90) 3 /\ clear cat3 11 12 /\ ~ on_line cat3 11.
Proof.
  destruct cat3_ok as (A & B & C). split; [exact A|]. split; [exact B|]. split; [exact C|].
  assert (L : forall q, ~ q == 12 -> ~ q == 0 -> ~ q == 24 -> ~ on_line cat3 q).
  { intros q H1 H2 H3 (b & [<-|[<-|[<-|[]]]] & H); cbn in H; destruct H as [[E H]|E]; try tauto; lra. }
  split; [apply L; discriminate|]. split; [apply (found (bd 0 24 88 83)); discriminate || reflexivity|]. split.
  { apply further; [left; reflexivity|]. apply further; [right; right; discriminate|]. apply (found (bd 12 24 (-90) 3)); discriminate || reflexivity. }
  split; [|apply L; discriminate]. intros b x [<-|[<-|[<-|[]]]] [-> | ->] H1 H2; vm_compute in H1, H2; discriminate.
Qed.

(** * C137 *)
Theorem C137_names_are_read_as_written : forall pairs,
  (forall a n, In (a, n) pairs -> ~ In " "%char a /\ ~ In newline a /\ ~ In newline n) ->
  constellation_names (concat (map (fun p => fst p ++ " "%char :: snd p ++ [newline]) pairs)) = map (fun p => [fst p; snd p]) pairs.
Proof. exact names_read. Qed.
Print Assumptions C137_names_are_read_as_written.
Example C137_premises : constellation_names (list_ascii_of_string "Aql Aquila" ++ newline :: list_ascii_of_string "UMa Ursa Major" ++ [newline])
  = [[list_ascii_of_string "Aql"; list_ascii_of_string "Aquila"]; [list_ascii_of_string "UMa"; list_ascii_of_string "Ursa Major"]].
Proof. reflexivity. Qed.
