(** Comparing times in binary64: structure of addition and subtraction. *)
From Coq Require Import ZArith Lia Bool.
From Coq.Floats Require Import SpecFloat.
From Verif Require Import Float64 Float_Time_Model.
Open Scope Z_scope.

(** * Addition commutes; exchanging the arguments of a difference negates it *)
Lemma fadd_comm x y : fadd x y = fadd y x.
Proof.
  unfold fadd. destruct x as [sx|sx| |sx mx ex], y as [sy|sy| |sy my ey]; try reflexivity; cbn [SFadd].
  - destruct sx, sy; reflexivity.
  - destruct sx, sy; reflexivity.
  - rewrite (Z.min_comm ey ex). f_equal. apply Z.add_comm.
Qed.
(** Opposite numbers; zeros of any sign are opposite. *)
Definition opposite (x y : b64) : Prop := y = SFopp x \/ (is_zero x = true /\ is_zero y = true).
Lemma binary_round_opp s m e : SFopp (SpecFloat.binary_round 53 1024 s m e) = SpecFloat.binary_round 53 1024 (negb s) m e.
Proof.
  unfold SpecFloat.binary_round. destruct (shl_align _ _ _) as [mz ez]. unfold SpecFloat.binary_round_aux. destruct (SpecFloat.shr_fexp _ _ _ _ _) as [mrs e']. destruct (SpecFloat.shr_fexp _ _ _ _ _) as [mrs2 e2].
  destruct (SpecFloat.shr_m mrs2); try reflexivity. destruct (_ <=? _); reflexivity.
Qed.
Lemma normalize_opp m e s s' : opposite (SpecFloat.binary_normalize 53 1024 m e s) (SpecFloat.binary_normalize 53 1024 (- m) e s').
Proof. destruct m as [|p|p]; cbn [Z.opp SpecFloat.binary_normalize]; [right; split; reflexivity| |]; left; rewrite binary_round_opp; reflexivity. Qed.
Lemma fsub_swap x y : opposite (fsub x y) (fsub y x).
Proof.
  unfold fsub. destruct x as [sx|sx| |sx mx ex], y as [sy|sy| |sy my ey]; cbn [SFsub]; try (left; reflexivity).
  all: try (left; destruct sx; reflexivity); try (left; destruct sy; reflexivity); try (left; destruct sx, sy; reflexivity).
  - destruct sx, sy; right; split; reflexivity.
  - rewrite (Z.min_comm ey ex). match goal with |- opposite (SpecFloat.binary_normalize _ _ ?a _ _) (SpecFloat.binary_normalize _ _ ?b _ _) => replace b with (- a) by lia end. apply normalize_opp.
Qed.
Lemma fadd_opposite a b a' b' : opposite a a' -> opposite b b' -> opposite (fadd a b) (fadd a' b').
Proof.
  unfold fadd. intros [->|[Ha Ha']] [->|[Hb Hb']].
  - destruct a as [sx|sx| |sx mx ex], b as [sy|sy| |sy my ey]; cbn [SFadd SFopp]; try (left; reflexivity).
    + right. destruct sx, sy; split; reflexivity.
    + left. destruct sx, sy; reflexivity.
    + assert (N : forall s p k, cond_Zopp (negb s) p * k = - (cond_Zopp s p * k)) by (intros [] p k; cbn; lia). 
      match goal with |- opposite (SpecFloat.binary_normalize _ _ ?a _ _) (SpecFloat.binary_normalize _ _ ?b _ _) => replace b with (- a) end; [apply normalize_opp|]. destruct sx, sy; cbn [cond_Zopp negb]; lia.
  - destruct b; try discriminate Hb. destruct b'; try discriminate Hb'. destruct a; cbn [SFadd SFopp]; try (left; reflexivity). right. destruct s, s0, s1; split; reflexivity.
  - destruct a; try discriminate Ha. destruct a'; try discriminate Ha'. destruct b; cbn [SFadd SFopp]; try (left; reflexivity). right. destruct s, s0, s1; split; reflexivity.
  - destruct a, a', b, b'; try discriminate. right. destruct s, s0, s1, s2; split; reflexivity.
Qed.

(** * Comparison of times *)
Lemma lt64_sub a b : lt64 a b = fltb (sub64 a b) (of_Z 0).
Proof. unfold lt64, sub64. rewrite fadd_comm. reflexivity. Qed.
Lemma sub64_swap a b : opposite (sub64 a b) (sub64 b a).
Proof. apply fadd_opposite; apply fsub_swap. Qed.
Definition isnan (x : b64) : bool := match x with S754_nan => true | _ => false end.
Lemma eq64_symmetric a b : eq64 a b = eq64 b a.
Proof.
  unfold eq64. destruct (sub64_swap a b) as [->|[H H']].
  - destruct (sub64 a b) as [s|s| |s p e]; try reflexivity; destruct s; reflexivity.
  - destruct (sub64 a b), (sub64 b a); try discriminate. reflexivity.
Qed.
Lemma trichotomy_not_nan a b : isnan (sub64 a b) = false ->
  (lt64 a b = true /\ eq64 a b = false /\ lt64 b a = false) \/
  (lt64 a b = false /\ eq64 a b = true /\ lt64 b a = false) \/
  (lt64 a b = false /\ eq64 a b = false /\ lt64 b a = true).
Proof.
  intros N. rewrite !lt64_sub. unfold eq64. destruct (sub64_swap a b) as [->|[H H']].
  - destruct (sub64 a b) as [s|s| |s p e]; try discriminate N; cbn; [auto| |]; destruct s; cbn; tauto.
  - destruct (sub64 a b), (sub64 b a); try discriminate. cbn. auto.
Qed.

