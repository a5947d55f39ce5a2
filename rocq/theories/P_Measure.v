(** Properties C89-C92. *)
From Coq Require Import Reals ZArith Bool List.
From Coq Require Import Floats.SpecFloat.
From Flocq Require Import Core BinarySingleNaN.
From Verif Require Import Float64 Float64_Proofs Measure_Model Measure_Spec Measure_Proofs Measure_Proofs2 Measure_Proofs3 Measure_Proofs4.
Import ListNotations.

(** * C89 *)
Theorem C89_given_back : forall c u x o us, made_from c u x o -> fst (perform (after o us) (Read u)) = Value (Number x).
Proof. exact given_back_after. Qed.
Print Assumptions C89_given_back.
Theorem C89_uses_change_nothing : forall o us u, fst (perform (after o us) u) = fst (perform o u).
Proof. exact uses_change_nothing. Qed.
Print Assumptions C89_uses_change_nothing.
Example C89_ex : forall x, exists o, made_from Velocity m_per_s x o.
Proof. intros x. eexists. apply made_by_name. reflexivity. Qed.

(** * C90 *)
Theorem C90_conversions : forall c u (x : bf) o w, made_from c u (B2SF x) o -> unit_of_class c w -> is_finite x = true ->
  (bpow radix2 (-900) <= Rabs (B2R x) <= bpow radix2 900)%R ->
  exists y, fst (perform o (Read w)) = Value (Number y) /\ nearly 7 y (B2R x * unit_size u / unit_size w).
Proof. exact conversions. Qed.
Print Assumptions C90_conversions.
Theorem C90_rates : forall (x : bf) u p, is_finite x = true -> (bpow radix2 (-900) <= Rabs (B2R x) <= bpow radix2 900)%R ->
  nearly 7 (per_period (per_day_in (B2SF x) u) p) (B2R x / (2 * PI) * in_a_turn u / in_a_day p).
Proof. exact rates. Qed.
Print Assumptions C90_rates.
(** The rounding is real: an hour is less than fifteen degrees. *)
Theorem C90_one_hour : exists o x, angle None None None (Some (of_Z 1)) None false = Value o /\ fst (perform o (Read degrees)) = Value (Number x) /\ fltb x (of_Z 15) = true.
Proof. exact whole_hour. Qed.
Print Assumptions C90_one_hour.
Example C90_ex : exists x : bf, is_finite x = true /\ (bpow radix2 (-900) <= Rabs (B2R x) <= bpow radix2 900)%R /\ exists o, made_from Distance km (B2SF x) o.
Proof. exact conversions_ex. Qed.

(** * C91. The full claim includes the value in every unit and the preferred unit. *)
Theorem C91_copy_partial : forall a r d h p s o, angle (Some a) r d h p s = Value o -> fst (perform o (Read radians)) = fst (perform a (Read radians)).
Proof. exact copy_radians. Qed.
Print Assumptions C91_copy_partial.
Theorem C91_copy_differs_refuted : exists a b, angle None None (Some (of_Z 187)) None None false = Value a /\ angle (Some a) None None None None false = Value b /\
  exists x, fst (perform a (Read degrees)) = Value (Number (of_Z 187)) /\ fst (perform b (Read degrees)) = Value (Number x) /\ feqb x (of_Z 187) = false.
Proof. exact copy_differs. Qed.
Print Assumptions C91_copy_differs_refuted.
Theorem C91_copy_style_refuted : forall x, exists a b, angle None None None (Some x) None false = Value a /\ angle (Some a) None None None None false = Value b /\
  fst (perform a (Hms true)) = Value (SplitHours x) /\ fst (perform b (Hms true)) = WrongUnitError.
Proof. exact copy_style. Qed.
Print Assumptions C91_copy_style_refuted.
Example C91_ex : exists a b, angle None (Some (of_Z 1)) None None None false = Value a /\ angle (Some a) None None None (Some InHours) true = Value b.
Proof. eexists. eexists. split; reflexivity. Qed.

(** * C92. The full claim is for every object of the class. *)
Theorem C92_shows_partial : forall a r d h p s o, angle a r d h p s = Value o -> ~ (a = None /\ r = None /\ d = None /\ h = None) ->
  exists x y, fst (perform o (Read degrees)) = Value (Number x) /\ fst (perform o (Read hours)) = Value (Number y) /\
    fst (perform o (Hms false)) = Value (SplitHours y) /\ fst (perform o (Dms false)) = Value (SplitDegrees x) /\
    fst (perform o (Hstr false)) = Value (ShownHours y) /\ fst (perform o (Dstr false)) = Value (ShownDegrees s x) /\
    match match p with Some p => p | None => match h with Some _ => InHours | None => InDegrees end end with
    | InDegrees => fst (perform o Str) = Value (ShownDegrees s x) /\ fst (perform o (Dms true)) = Value (SplitDegrees x) /\ fst (perform o (Dstr true)) = Value (ShownDegrees s x) /\
        fst (perform o (Hms true)) = WrongUnitError /\ fst (perform o (Hstr true)) = WrongUnitError
    | InHours => fst (perform o Str) = Value (ShownHours y) /\ fst (perform o (Hms true)) = Value (SplitHours y) /\ fst (perform o (Hstr true)) = Value (ShownHours y) /\
        fst (perform o (Dms true)) = WrongUnitError /\ fst (perform o (Dstr true)) = WrongUnitError
    end.
Proof. exact angle_shows. Qed.
Print Assumptions C92_shows_partial.
Theorem C92_no_argument_refuted : exists o, angle None None None None None false = Value o /\
  (forall n, unit_of_class Angle n -> fst (perform o (Read n)) = TypeError) /\ fst (perform o Str) = TypeError.
Proof. exact empty_angle. Qed.
Print Assumptions C92_no_argument_refuted.
Theorem C92_radians_constructor_refuted : forall x, exists o, class_constructor Angle radians x = Value o /\
  fst (perform o (Read radians)) = Value (Number x) /\ fst (perform o Str) = AttributeError /\ fst (perform o (Dms true)) = AttributeError /\ fst (perform o (Hms true)) = AttributeError.
Proof. exact bare_angle. Qed.
Print Assumptions C92_radians_constructor_refuted.
Example C92_ex : exists o, angle None None None (Some (of_Z 7)) None false = Value o.
Proof. eexists. reflexivity. Qed.
