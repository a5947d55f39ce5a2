(** Angles: what they show, copies, and incomplete ones. *)
From Coq Require Import ZArith Bool List.
From Coq Require Import Floats.SpecFloat.
From Verif Require Import Float64 Measure_Model Measure_Spec Measure_Proofs.
Import ListNotations.

Opaque fmul fdiv of_Z tau64 AU_KM64 AU_M64 DAY_S64.
Lemma angle_shape a r d h p s o : angle a r d h p s = Value o -> ~ (a = None /\ r = None /\ d = None /\ h = None) ->
  exists x, cls o = Angle /\ dict o radians = Some x /\ signed o = Some s /\
    preference o = Some match p with Some p => p | None => match h with Some _ => InHours | None => InDegrees end end.
Proof.
  unfold angle. destruct a as [a|].
  - destruct (cls a); try discriminate. destruct (dict a radians) as [x|]; [|discriminate]. intros H _. injection H as <-. exists x. repeat split.
  - destruct r as [r|]; [intros H _; injection H as <-; eexists; repeat split|].
    destruct d as [d|]; [intros H _; injection H as <-; eexists; repeat split|].
    destruct h as [h|]; [intros H _; injection H as <-; eexists; repeat split|]. intros _ N. exfalso. apply N. repeat split.
Qed.
Lemma degrees_there o x : cls o = Angle -> dict o radians = Some x -> exists v, fst (read o degrees) = Value v.
Proof. destruct o as [c f p s]. cbn. intros -> H. unfold read, read_plain, get_angle. cbn. destruct (f degrees); [eexists; reflexivity|]. rewrite H. eexists. reflexivity. Qed.
Lemma hours_there o x : cls o = Angle -> dict o radians = Some x -> exists v, fst (read o hours) = Value v.
Proof. destruct o as [c f p s]. cbn. intros -> H. unfold read, read_plain, get_angle. cbn. destruct (f hours); [eexists; reflexivity|]. rewrite H. eexists. reflexivity. Qed.
Lemma read_keeps o n : cls (snd (read o n)) = cls o /\ preference (snd (read o n)) = preference o /\ signed (snd (read o n)) = signed o.
Proof. destruct (read_alike o n) as (A & B & C & _). auto. Qed.
Lemma pair_is {A B} (p : A * B) : p = (fst p, snd p). Proof. destruct p. reflexivity. Qed.
Lemma shows o x s p : cls o = Angle -> dict o radians = Some x -> signed o = Some s -> preference o = Some p ->
  exists d h, fst (perform o (Read degrees)) = Value (Number d) /\ fst (perform o (Read hours)) = Value (Number h) /\
    fst (perform o (Hms false)) = Value (SplitHours h) /\ fst (perform o (Dms false)) = Value (SplitDegrees d) /\
    fst (perform o (Hstr false)) = Value (ShownHours h) /\ fst (perform o (Dstr false)) = Value (ShownDegrees s d) /\
    match p with
    | InDegrees => fst (perform o Str) = Value (ShownDegrees s d) /\ fst (perform o (Dms true)) = Value (SplitDegrees d) /\ fst (perform o (Dstr true)) = Value (ShownDegrees s d) /\
        fst (perform o (Hms true)) = WrongUnitError /\ fst (perform o (Hstr true)) = WrongUnitError
    | InHours => fst (perform o Str) = Value (ShownHours h) /\ fst (perform o (Hms true)) = Value (SplitHours h) /\ fst (perform o (Hstr true)) = Value (ShownHours h) /\
        fst (perform o (Dms true)) = WrongUnitError /\ fst (perform o (Dstr true)) = WrongUnitError
    end.
Proof.
  intros C X S P. destruct (degrees_there o x C X) as [d D]. destruct (hours_there o x C X) as [h H]. exists d, h.
  pose proof (read_keeps o degrees) as (_ & _ & KD). pose proof (read_keeps o hours) as (_ & _ & KH).
  assert (XR : read o radians = (Value x, o)) by (unfold read, read_plain; rewrite X; reflexivity).
  rewrite (pair_is (read o degrees)) in D. rewrite (pair_is (read o hours)) in H. cbn [fst] in D, H.
  destruct (read o degrees) as [rd od] eqn:RD. destruct (read o hours) as [rh oh] eqn:RH. cbn [fst snd] in *. subst rd rh.
  destruct p; cbn [perform]; rewrite C; unfold check; cbn [then_ attribute];
  repeat (rewrite ?RD, ?RH, ?XR, ?P; cbn [then_ attribute fst]; rewrite ?KD, ?S; cbn [fst]); repeat split.
Qed.
Lemma angle_shows a r d h p s o : angle a r d h p s = Value o -> ~ (a = None /\ r = None /\ d = None /\ h = None) ->
  exists x y, fst (perform o (Read degrees)) = Value (Number x) /\ fst (perform o (Read hours)) = Value (Number y) /\
    fst (perform o (Hms false)) = Value (SplitHours y) /\ fst (perform o (Dms false)) = Value (SplitDegrees x) /\
    fst (perform o (Hstr false)) = Value (ShownHours y) /\ fst (perform o (Dstr false)) = Value (ShownDegrees s x) /\
    match match p with Some p => p | None => match h with Some _ => InHours | None => InDegrees end end with
    | InDegrees => fst (perform o Str) = Value (ShownDegrees s x) /\ fst (perform o (Dms true)) = Value (SplitDegrees x) /\ fst (perform o (Dstr true)) = Value (ShownDegrees s x) /\
        fst (perform o (Hms true)) = WrongUnitError /\ fst (perform o (Hstr true)) = WrongUnitError
    | InHours => fst (perform o Str) = Value (ShownHours y) /\ fst (perform o (Hms true)) = Value (SplitHours y) /\ fst (perform o (Hstr true)) = Value (ShownHours y) /\
        fst (perform o (Dms true)) = WrongUnitError /\ fst (perform o (Dstr true)) = WrongUnitError
    end.
Proof. intros H N. destruct (angle_shape _ _ _ _ _ _ _ H N) as (x & C & X & S & P). exact (shows o x s _ C X S P). Qed.
Lemma empty_angle : exists o, angle None None None None None false = Value o /\
  (forall n, unit_of_class Angle n -> fst (perform o (Read n)) = TypeError) /\ fst (perform o Str) = TypeError.
Proof. eexists. split; [reflexivity|]. split; [|reflexivity]. intros n. destruct n; intros []; reflexivity. Qed.
Lemma bare_angle x : exists o, class_constructor Angle radians x = Value o /\
  fst (perform o (Read radians)) = Value (Number x) /\ fst (perform o Str) = AttributeError /\ fst (perform o (Dms true)) = AttributeError /\ fst (perform o (Hms true)) = AttributeError.
Proof. eexists. split; [reflexivity|]. repeat split; reflexivity. Qed.
(** A copy has the same radians. *)
Lemma copy_radians a r d h p s o : angle (Some a) r d h p s = Value o -> fst (perform o (Read radians)) = fst (perform a (Read radians)).
Proof.
  cbn. destruct (cls a) eqn:C; try discriminate. destruct (dict a radians) as [x|] eqn:X; [|discriminate]. intros H. injection H as <-.
  unfold read, read_plain. rewrite X. reflexivity.
Qed.
Transparent fmul fdiv of_Z tau64 AU_KM64 AU_M64 DAY_S64.
(** But not the same degrees, and not the same style. *)
Lemma copy_differs : exists a b, angle None None (Some (of_Z 187)) None None false = Value a /\ angle (Some a) None None None None false = Value b /\
  exists x, fst (perform a (Read degrees)) = Value (Number (of_Z 187)) /\ fst (perform b (Read degrees)) = Value (Number x) /\ feqb x (of_Z 187) = false.
Proof. eexists. eexists. split; [reflexivity|]. split; [reflexivity|]. eexists. split; [reflexivity|]. split; [reflexivity|]. vm_compute. reflexivity. Qed.
Lemma copy_style x : exists a b, angle None None None (Some x) None false = Value a /\ angle (Some a) None None None None false = Value b /\
  fst (perform a (Hms true)) = Value (SplitHours x) /\ fst (perform b (Hms true)) = WrongUnitError.
Proof. eexists. eexists. split; [reflexivity|]. split; [reflexivity|]. split; reflexivity. Qed.
Lemma whole_hour : exists o x, angle None None None (Some (of_Z 1)) None false = Value o /\ fst (perform o (Read degrees)) = Value (Number x) /\ fltb x (of_Z 15) = true.
Proof. eexists. eexists. split; [reflexivity|]. split; [reflexivity|]. vm_compute. reflexivity. Qed.
