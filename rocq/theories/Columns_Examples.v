(** Lines of comets, and rows of files of them. *)
From Coq Require Import Ascii String List Bool Arith Lia.
From Verif Require Import Columns_Model Columns_Spec Columns_Proofs.
Import ListNotations.
Local Open Scope string_scope.
Local Open Scope list_scope.

Lemma mpcorb_rows records :
  (forall field l, In (field, l) records -> laid_out minor_planet_columns field l /\ ~ In newline l /\ exists c, In c l /\ ~ space c) ->
  load_mpcorb (file_of records) = map (fun r => map (fun c => (fst c, fst r (fst c))) minor_planet_columns) records.
Proof. apply fwf_rows. exact mpcorb_line. Qed.
Lemma slow_rows records :
  (forall field l, In (field, l) records -> laid_out comet_columns field l /\ ~ In newline l /\ exists c, In c l /\ ~ space c) ->
  load_comets_slow (file_of records) = map (fun r => map (fun c => (fst c, fst r (fst c))) comet_columns) records.
Proof. apply fwf_rows. exact slow_line. Qed.

Definition table (fs : list (string * string)) (n : string) : list ascii :=
  match find (fun f => String.eqb (fst f) n) fs with None => [] | Some f => list_ascii_of_string (snd f) end.
Definition halley : list ascii := list_ascii_of_string "0001P         1986 02  9.4589  0.587104  0.967277  111.8657   58.8601  162.2422  19860218   4.0  6.0  1P/Halley                                                98, 1083".
Definition halley_fields := [("number", "0001"); ("orbit_type", "P"); ("designation_packed", ""); ("perihelion_year", "1986"); ("perihelion_month", "02"); ("perihelion_day", "9.4589"); ("perihelion_distance_au", "0.587104"); ("eccentricity", "0.967277"); ("argument_of_perihelion_degrees", "111.8657"); ("longitude_of_ascending_node_degrees", "58.8601"); ("inclination_degrees", "162.2422"); ("perturbed_epoch_year", "1986"); ("perturbed_epoch_month", "02"); ("perturbed_epoch_day", "18"); ("magnitude_g", "4.0"); ("magnitude_k", "6.0"); ("designation", "1P/Halley"); ("reference", "98, 1083")].
Definition halley_field := table halley_fields.
(** A designation of 56 letters. *)
Definition longname : list ascii := list_ascii_of_string "0001P         1986 02  9.4589  0.587104  0.967277  111.8657   58.8601  162.2422  19860218   4.0  6.0  C/2000 A1-longname-longname-longname-longname-longnameXY 98, 1083".
Definition longname_fields := [("number", "0001"); ("orbit_type", "P"); ("designation_packed", ""); ("perihelion_year", "1986"); ("perihelion_month", "02"); ("perihelion_day", "9.4589"); ("perihelion_distance_au", "0.587104"); ("eccentricity", "0.967277"); ("argument_of_perihelion_degrees", "111.8657"); ("longitude_of_ascending_node_degrees", "58.8601"); ("inclination_degrees", "162.2422"); ("perturbed_epoch_year", "1986"); ("perturbed_epoch_month", "02"); ("perturbed_epoch_day", "18"); ("magnitude_g", "4.0"); ("magnitude_k", "6.0"); ("designation", "C/2000 A1-longname-longname-longname-longname-longnameXY"); ("reference", "98, 1083")].
(** No reference. *)
Definition noref : list ascii := list_ascii_of_string "0001P         1986 02  9.4589  0.587104  0.967277  111.8657   58.8601  162.2422  19860218   4.0  6.0  1P/Halley".
Definition noref_fields := [("number", "0001"); ("orbit_type", "P"); ("designation_packed", ""); ("perihelion_year", "1986"); ("perihelion_month", "02"); ("perihelion_day", "9.4589"); ("perihelion_distance_au", "0.587104"); ("eccentricity", "0.967277"); ("argument_of_perihelion_degrees", "111.8657"); ("longitude_of_ascending_node_degrees", "58.8601"); ("inclination_degrees", "162.2422"); ("perturbed_epoch_year", "1986"); ("perturbed_epoch_month", "02"); ("perturbed_epoch_day", "18"); ("magnitude_g", "4.0"); ("magnitude_k", "6.0"); ("designation", "1P/Halley"); ("reference", "")].

Definition text_eqb (x y : list ascii) : bool := if list_eq_dec ascii_dec x y then true else false.
Fixpoint lead (s : list ascii) : nat := match s with c :: r => if Ascii.eqb c blank then S (lead r) else 0 | [] => 0 end.
Definition shows_b (l : list ascii) (f t : nat) (fd : list ascii) : bool :=
  let a := match fd with [] => t - f + 1 | _ => lead (between l f t) end in
  text_eqb (between l f t) (repeat blank a ++ fd ++ repeat blank (t - f + 1 - a - List.length fd)).
Definition neat_b (fd : list ascii) : bool := text_eqb (strip fd) fd.
Lemma text_eqb_eq x y : text_eqb x y = true -> x = y.
Proof. unfold text_eqb. destruct (list_eq_dec ascii_dec x y); [tauto|discriminate]. Qed.
Lemma lstrip_len s : (List.length (lstrip s) <= List.length s)%nat.
Proof. induction s as [|c s IH]; [apply Nat.le_refl|]. cbn [lstrip]. destruct (isblank c); cbn [List.length]; lia. Qed.
Lemma lstrip_same s : List.length (lstrip s) = List.length s -> s = [] \/ isblank (hd blank s) = false.
Proof.
  destruct s as [|c s]; [left; reflexivity|]. cbn [lstrip hd]. destruct (isblank c) eqn:E; [|right; reflexivity].
  intros H. pose proof (lstrip_len s). cbn [List.length] in H. lia.
Qed.
Lemma not_blank_space c : isblank c = false -> ~ space c.
Proof. intros H X. apply isblank_space in X. congruence. Qed.
Lemma neat_b_ok fd : neat_b fd = true -> neat fd.
Proof.
  intros H. apply text_eqb_eq in H. unfold strip in H. pose proof (f_equal (@List.length ascii) H) as L. rewrite rev_length in L.
  pose proof (lstrip_len (rev (lstrip fd))) as L1. rewrite rev_length in L1. pose proof (lstrip_len fd) as L2.
  destruct (lstrip_same fd) as [->|H1]; [lia|left; reflexivity|]. right.
  assert (E : lstrip fd = fd) by (apply lstrip_head; right; exact H1). rewrite E in *. clear E.
  destruct (lstrip_same (rev fd)) as [X|H2]; [rewrite rev_length; lia| |].
  - apply (f_equal (@rev ascii)) in X. rewrite rev_involutive in X. subst fd. exfalso. discriminate H1.
  - destruct fd as [|c m _] using rev_ind; [discriminate H1|]. exists m. rewrite rev_app_distr in H2. cbn in H2. rewrite last_last.
    split; [apply not_blank_space, H1|]. split; [reflexivity|apply not_blank_space, H2].
Qed.
Lemma laid_out_b field l : forallb (fun c => shows_b l (fst (snd c)) (snd (snd c)) (field (fst c)) && neat_b (field (fst c))) comet_columns = true ->
  laid_out comet_columns field l.
Proof.
  intros H n f t Hc. rewrite forallb_forall in H. specialize (H _ Hc). cbn [fst snd] in H. apply andb_true_iff in H as [H1 H2].
  split; [|apply neat_b_ok, H2]. apply text_eqb_eq in H1. eexists. eexists. exact H1.
Qed.
Lemma nothing_between_b l : (List.length l <= 168)%nat ->
  forallb (fun k => existsb (fun c => (fst (snd c) <=? k)%nat && (k <=? snd (snd c))%nat) comet_columns || Ascii.eqb (char_at l k) blank) (seq 1 168) = true ->
  nothing_between comet_columns l.
Proof.
  intros L H k K N. destruct (le_lt_dec k 168) as [X|X]; [|unfold char_at; apply nth_overflow; lia].
  rewrite forallb_forall in H. specialize (H k). rewrite in_seq in H. specialize (H ltac:(lia)). apply orb_true_iff in H as [H|H]; [|apply Ascii.eqb_eq, H].
  exfalso. apply existsb_exists in H as ([n [f t]] & Hc & E). cbn [fst snd] in E. apply andb_true_iff in E as [E1 E2]. apply Nat.leb_le in E1, E2. apply (N n f t Hc). lia.
Qed.
Fixpoint two_b (s : list ascii) : bool :=
  match s with a :: ((b :: _) as t) => (Ascii.eqb a blank && Ascii.eqb b blank) || two_b t | _ => false end.
Lemma two_b_ok s : two_b s = false -> no_two_blanks s.
Proof.
  intros H x. revert s H. induction x as [|a x IH]; intros s H y E; subst s.
  - discriminate H.
  - apply (IH (x ++ blank :: blank :: y)) with (y := y); [|reflexivity]. cbn [app] in H. cbn [two_b] in H.
    destruct (x ++ blank :: blank :: y) as [|b r]; [reflexivity|]. apply orb_false_iff in H as [_ H]. exact H.
Qed.
Lemma plain_b l : forallb (fun c => negb (existsb (Nat.eqb (nat_of_ascii c)) [10; 13; 30; 34])) l = true -> plain l.
Proof.
  intros H c Hc Hin. rewrite forallb_forall in H. specialize (H _ Hc). apply negb_true_iff in H. rewrite <- not_true_iff_false in H. apply H.
  apply existsb_exists. eexists. split; [exact Hin|apply Nat.eqb_refl].
Qed.
Lemma no_newline l : plain l -> ~ In newline l.
Proof. intros H X. apply (H _ X). left. reflexivity. Qed.

Lemma halley_fast : laid_out comet_columns halley_field halley /\ nothing_between comet_columns halley /\ char_at halley 103 <> blank /\
  no_two_blanks (halley_field "designation") /\ (List.length (halley_field "designation") <= 55)%nat /\
  halley_field "reference" <> [] /\ last halley blank <> blank /\ plain halley.
Proof.
  split; [apply laid_out_b; vm_compute; reflexivity|]. split; [apply nothing_between_b; [vm_compute; lia|vm_compute; reflexivity]|].
  split; [discriminate|]. split; [apply two_b_ok; reflexivity|]. split; [vm_compute; lia|]. split; [discriminate|]. split; [discriminate|].
  apply plain_b. vm_compute. reflexivity.
Qed.
Lemma halley_slow : laid_out comet_columns halley_field halley /\ ~ In newline halley /\ (exists c, In c halley /\ ~ space c).
Proof.
  split; [apply laid_out_b; vm_compute; reflexivity|]. split; [apply no_newline, plain_b; vm_compute; reflexivity|].
  exists "P"%char. split; [do 4 right; left; reflexivity|apply not_blank_space; reflexivity].
Qed.
Lemma long_designation : exists field l row,
  laid_out comet_columns field l /\ nothing_between comet_columns l /\ char_at l 103 <> blank /\
  no_two_blanks (field "designation") /\ field "reference" <> [] /\ last l blank <> blank /\ plain l /\
  load_comets (l ++ [newline]) = [row] /\ (forall t, In ("perihelion_year", t) row -> t = l).
Proof.
  exists (table longname_fields), longname. eexists.
  split; [apply laid_out_b; vm_compute; reflexivity|]. split; [apply nothing_between_b; [vm_compute; lia|vm_compute; reflexivity]|].
  split; [discriminate|]. split; [apply two_b_ok; reflexivity|]. split; [discriminate|]. split; [discriminate|].
  split; [apply plain_b; vm_compute; reflexivity|]. split; [vm_compute; reflexivity|].
  intros t H. repeat (destruct H as [H|H]; [try discriminate H|]); [|destruct H]. apply (f_equal snd) in H. cbn [snd] in H. rewrite <- H. reflexivity.
Qed.
Lemma missing_reference : exists field l row,
  laid_out comet_columns field l /\ nothing_between comet_columns l /\ char_at l 103 <> blank /\
  no_two_blanks (field "designation") /\ (List.length (field "designation") <= 55)%nat /\ last l blank <> blank /\ plain l /\
  load_comets (l ++ [newline]) = [row] /\ (forall t, In ("perihelion_year", t) row -> t = l).
Proof.
  exists (table noref_fields), noref. eexists.
  split; [apply laid_out_b; vm_compute; reflexivity|]. split; [apply nothing_between_b; [vm_compute; lia|vm_compute; reflexivity]|].
  split; [discriminate|]. split; [apply two_b_ok; reflexivity|]. split; [vm_compute; lia|]. split; [discriminate|].
  split; [apply plain_b; vm_compute; reflexivity|]. split; [vm_compute; reflexivity|].
  intros t H. repeat (destruct H as [H|H]; [try discriminate H|]); [|destruct H]. apply (f_equal snd) in H. cbn [snd] in H. rewrite <- H. reflexivity.
Qed.
