(** Reading the units of a measurement object changes nothing that can be seen. *)
From Coq Require Import ZArith Bool List.
From Verif Require Import Float64 Measure_Model.
Import ListNotations.

(** Two objects that answer alike. *)
Definition alike (a b : measure) : Prop :=
  cls a = cls b /\ preference a = preference b /\ signed a = signed b /\ forall n, fst (read a n) = fst (read b n).
Lemma alike_refl a : alike a a. Proof. repeat split. Qed.
Lemma alike_trans a b c : alike a b -> alike b c -> alike a c.
Proof. intros (A1 & A2 & A3 & A4) (B1 & B2 & B3 & B4). repeat split; [congruence|congruence|congruence|]. intros n. rewrite A4. apply B4. Qed.
Opaque fmul fdiv of_Z tau64 AU_KM64 AU_M64 DAY_S64.
Lemma read_alike o n : alike (snd (read o n)) o.
Proof.
  destruct o as [c d p s]. repeat split; try (destruct c, n; unfold read, read_plain, get_factor, get_angle; cbn; repeat (match goal with |- context [match d ?x with _ => _ end] => destruct (d x) eqn:? end; cbn); reflexivity).
  intros k. destruct c; destruct n; unfold read at 2, read_plain, get_factor, get_angle; cbn;
  repeat (match goal with |- context [match d ?x with _ => _ end] => destruct (d x) eqn:? end; cbn); try reflexivity;
  destruct k; unfold read, read_plain, get_factor, get_angle; cbn;
  repeat (match goal with H : d ?x = _ |- context [d ?x] => rewrite H end; cbn); try reflexivity;
  repeat (match goal with |- context [match d ?x with _ => _ end] => destruct (d x) eqn:? end; cbn; repeat (match goal with H : d ?x = _ |- context [d ?x] => rewrite H end; cbn)); try reflexivity.
Qed.
Lemma alike_sym a b : alike a b -> alike b a.
Proof. intros (A1 & A2 & A3 & A4). repeat split; [congruence|congruence|congruence|]. intros n. symmetry. apply A4. Qed.
Definition steady {A} (f : measure -> outcome A * measure) : Prop := (forall a, alike (snd (f a)) a) /\ forall a b, alike a b -> fst (f a) = fst (f b).
Lemma steady_read n : steady (fun o => read o n).
Proof. split; [intros a; apply read_alike|]. intros a b (_ & _ & _ & H). apply H. Qed.
Lemma steady_then {A B} (f : measure -> outcome A * measure) (g : A -> measure -> outcome B * measure) :
  steady f -> (forall v, steady (g v)) -> steady (fun o => then_ (f o) g).
Proof.
  intros [F1 F2] G. split.
  - intros a. specialize (F1 a). destruct (f a) as [[v| | | |] o]; cbn in *; try exact F1. exact (alike_trans _ _ _ (proj1 (G v) o) F1).
  - intros a b H. pose proof (F2 a b H) as E. pose proof (F1 a) as Xa. pose proof (F1 b) as Xb.
    destruct (f a) as [[v| | | |] o], (f b) as [[v'| | | |] o']; cbn in *; try discriminate; try reflexivity. injection E as <-.
    apply (proj2 (G v)). exact (alike_trans _ _ _ Xa (alike_trans _ _ _ H (alike_sym _ _ Xb))).
Qed.
Lemma steady_value {A} (r : outcome A) : steady (fun o => (r, o)).
Proof. split; [intros; apply alike_refl|reflexivity]. Qed.
Lemma steady_preference : steady (fun o => attribute o (preference o)).
Proof. split; [intros; apply alike_refl|]. intros a b (_ & H & _). unfold attribute. cbn. rewrite H. reflexivity. Qed.
Lemma steady_signed : steady (fun o => attribute o (signed o)).
Proof. split; [intros; apply alike_refl|]. intros a b (_ & _ & H & _). unfold attribute. cbn. rewrite H. reflexivity. Qed.
Lemma steady_check warn p : steady (fun o => check o warn p).
Proof. destruct warn; [|apply steady_value]. unfold check. apply steady_then; [apply steady_preference|]. intros v. destruct v, p; apply steady_value. Qed.
Lemma steady_cls {A} (f g h : measure -> outcome A * measure) : steady f -> steady g -> steady h ->
  steady (fun o => match cls o with Distance => f o | Velocity => g o | Angle => h o end).
Proof.
  intros [F1 F2] [G1 G2] [H1 H2]. split; [intros a; destruct (cls a); auto|].
  intros a b E. pose proof E as (C & _). rewrite C. destruct (cls b); auto.
Qed.
Lemma steady_perform u : steady (fun o => perform o u).
Proof.
  destruct u; cbn [perform];
  repeat (first [apply steady_value | apply steady_read | apply steady_preference | apply steady_signed | apply steady_check
    | apply steady_cls | apply steady_then; [|intros] | match goal with |- steady (match ?p with InDegrees => _ | InHours => _ end) => destruct p end
    | match goal with v : preferred |- _ => destruct v end ]).
Qed.
Lemma after_alike us : forall o, alike (after o us) o.
Proof.
  induction us as [|u us IH]; intros o; [apply alike_refl|]. cbn. refine (alike_trans _ _ _ (IH _) _). apply (proj1 (steady_perform u)).
Qed.
Lemma uses_change_nothing o us u : fst (perform (after o us) u) = fst (perform o u).
Proof. apply (proj2 (steady_perform u)). apply after_alike. Qed.
