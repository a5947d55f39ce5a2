(** Bounds for shortened nutation series, and the data of the package. *)
From Coq Require Import Reals ZArith List Lra Lia Psatz.
From Verif Require Import Real_Math Real_Math_Proofs Vector_Model Geo_Model Spin_Model Spin_Spec Spin_Proofs Kepler_Proofs4 Pi_Bounds
  Nutation_Model Nutation_Spec Nutation_Data Nutation_Proofs.
Import ListNotations.
Open Scope R_scope.

Lemma sin_1 x : Rabs (sin x) <= 1. Proof. apply Rabs_le. pose proof (SIN_bound x). lra. Qed.
Lemma cos_1 x : Rabs (cos x) <= 1. Proof. apply Rabs_le. pose proof (COS_bound x). lra. Qed.
Lemma mul_le_1 x y : Rabs y <= 1 -> Rabs (x * y) <= Rabs x.
Proof. intros H. rewrite Rabs_mult. pose proof (Rabs_pos x). nra. Qed.
Lemma term_size t A A' B u v : Rabs u <= 1 -> Rabs v <= 1 -> Rabs ((IZR A + IZR A' * t) * u + IZR B * v) <= size t (A, A', B).
Proof.
  intros Hu Hv. unfold size. pose proof (Rabs_triang ((IZR A + IZR A' * t) * u) (IZR B * v)).
  pose proof (mul_le_1 (IZR A + IZR A' * t) u Hu). pose proof (mul_le_1 (IZR B) v Hv). pose proof (Rabs_triang (IZR A) (IZR A' * t)) as H3.
  rewrite Rabs_mult in H3. lra.
Qed.
Lemma total_combine A B (f : B -> R) (l : list A) (m : list B) : length m = length l -> total (fun r => f (snd r)) (combine l m) = total f m.
Proof.
  revert m. induction l as [|x l IH]; intros [|y m]; try discriminate; intros H; [reflexivity|]. injection H as H.
  cbn [combine]. rewrite !total_cons, IH by exact H. reflexivity.
Qed.
Lemma between_split A (i j : nat) (l : list A) : (i <= j)%nat -> firstn j l = firstn i l ++ between i j l.
Proof.
  intros H. unfold between. rewrite <- (firstn_skipn i (firstn j l)) at 1. rewrite firstn_firstn, Nat.min_l by exact H. reflexivity.
Qed.
Lemma between_combine A B i j (l : list A) (m : list B) : between i j (combine l m) = combine (between i j l) (between i j m).
Proof.
  unfold between. rewrite combine_firstn. generalize (firstn j l) (firstn j m). clear. induction i as [|i IH]; intros l m; [reflexivity|].
  destruct l as [|x l]; [reflexivity|]. destruct m as [|y m]; cbn; [|apply IH]. destruct (skipn i l); reflexivity.
Qed.
Lemma between_length A B i j (l : list A) (m : list B) : length l = length m -> length (between i j l) = length (between i j m).
Proof. intros H. unfold between. rewrite !skipn_length, !firstn_length, H. reflexivity. Qed.
Lemma tail_bound A B (g : A * B -> R) (f : B -> R) (i j : nat) (l : list A) (m : list B) : (i <= j)%nat -> length m = length l ->
  (forall r, Rabs (g r) <= f (snd r)) ->
  Rabs (total g (combine (firstn j l) (firstn j m)) - total g (combine (firstn i l) (firstn i m))) <= total f (between i j m).
Proof.
  intros Hij L H. rewrite <- !combine_firstn, (between_split _ i j (combine l m) Hij), total_app.
  match goal with |- Rabs ?x <= _ => replace x with (total g (between i j (combine l m))) by ring end.
  eapply Rle_trans; [apply total_abs|]. eapply Rle_trans; [apply (total_le _ _ (fun r => f (snd r))); intros r _; apply H|].
  rewrite between_combine, total_combine; [lra|]. now apply between_length.
Qed.
Lemma shortened T jd k l l' p p' : matching T -> (l <= l')%nat -> (p <= p')%nat ->
  let t := (jd - 2451545) / 36525 in
  Rabs (fst (published T jd k l' p') - fst (published T jd k l p))
    <= total (size t) (between l l' (lunisolar_longitude T)) + total psize (between p p' (planetary_longitude T)) /\
  Rabs (snd (published T jd k l' p') - snd (published T jd k l p))
    <= total (size t) (between l l' (lunisolar_obliquity T)) + total psize (between p p' (planetary_obliquity T)).
Proof.
  intros (M1 & M2 & M3 & M4) Hl Hp t. unfold published. fold t. cbn [fst snd]. unfold sine_series, cosine_series, planet_series.
  set (F := fun r : list Z * (Z * Z * Z) => _). set (P := fun r : list Z * (Z * Z) => _).
  match goal with |- _ /\ Rabs (total ?f _ + _ - _) <= _ => set (G := f) end.
  assert (BF : forall r, Rabs (F r) <= size t (snd r)).
  { intros (n, ((A, A'), B)). unfold F. cbn [snd]. apply term_size; [apply sin_1|apply cos_1]. }
  assert (BG : forall r, Rabs (G r) <= size t (snd r)).
  { intros (n, ((A, A'), B)). unfold G. cbn [snd]. apply term_size; [apply cos_1|apply sin_1]. }
  assert (BP : forall r, Rabs (P r) <= psize (snd r)).
  { intros (n, (A, B)). unfold P, psize. cbn [fst snd]. eapply Rle_trans; [apply Rabs_triang|].
    apply Rplus_le_compat; apply mul_le_1; [apply sin_1|apply cos_1]. }
  pose proof (tail_bound _ _ F (size t) l l' (nals_t T) (lunisolar_longitude T) Hl M1 BF) as H1.
  pose proof (tail_bound _ _ G (size t) l l' (nals_t T) (lunisolar_obliquity T) Hl M2 BG) as H2.
  pose proof (tail_bound _ _ P psize p p' (napl_t T) (planetary_longitude T) Hp M3 BP) as H3.
  pose proof (tail_bound _ _ P psize p p' (napl_t T) (planetary_obliquity T) Hp M4 BP) as H4.
  clear BF BG BP. clearbody F G P. split.
  - eapply Rle_trans; [|apply Rplus_le_compat; [exact H1|exact H3]]. eapply Rle_trans; [|apply Rabs_triang]. right. f_equal. ring.
  - eapply Rle_trans; [|apply Rplus_le_compat; [exact H2|exact H4]]. eapply Rle_trans; [|apply Rabs_triang]. right. f_equal. ring.
Qed.

(** The effect of changed arguments. *)
Definition bend (n : list Z) (d : list R) : R := total (fun p => Rabs (IZR (fst p)) * snd p) (combine n d).
Lemma bend_cons k n x d : bend (k :: n) (x :: d) = Rabs (IZR k) * x + bend n d. Proof. reflexivity. Qed.
Lemma angle_bend n a b d : Forall2 (fun p x => Rabs (fst p - snd p) <= x) (combine a b) d -> length a = length b ->
  Rabs (angle n a - angle n b) <= bend n d.
Proof.
  revert a b d. induction n as [|k n IH]; intros a b d H L.
  { unfold angle, bend, total. cbn. rewrite Rminus_0_r, Rabs_R0. lra. }
  destruct a as [|x a], b as [|y b]; try discriminate.
  - inversion H. subst. unfold angle, bend, total. cbn. rewrite Rminus_0_r, Rabs_R0. lra.
  - cbn [combine] in H. inversion H as [|? z ? d' Hz Hd]; subst. cbn [fst snd] in Hz. injection L as L.
    rewrite !angle_cons, bend_cons. specialize (IH a b d' Hd L).
    replace (IZR k * x + angle n a - (IZR k * y + angle n b)) with (IZR k * (x - y) + (angle n a - angle n b)) by ring.
    eapply Rle_trans; [apply Rabs_triang|]. rewrite Rabs_mult. pose proof (Rabs_pos (IZR k)). nra.
Qed.
Lemma sin_lip2 x y : Rabs (sin x - sin y) <= Rabs (x - y). Proof. apply sin_lip'. Qed.
Lemma cos_lip2 x y : Rabs (cos x - cos y) <= Rabs (x - y).
Proof. rewrite !cos_sin. eapply Rle_trans; [apply sin_lip'|]. right. f_equal. ring. Qed.
Lemma term_bend t A A' B u v u' v' e : Rabs (u - u') <= e -> Rabs (v - v') <= e ->
  Rabs ((IZR A + IZR A' * t) * u + IZR B * v - ((IZR A + IZR A' * t) * u' + IZR B * v')) <= size t (A, A', B) * e.
Proof.
  intros Hu Hv. replace (_ - _) with ((IZR A + IZR A' * t) * (u - u') + IZR B * (v - v')) by ring.
  eapply Rle_trans; [apply Rabs_triang|]. rewrite !Rabs_mult. unfold size.
  pose proof (Rabs_triang (IZR A) (IZR A' * t)) as H3. rewrite Rabs_mult in H3.
  pose proof (Rabs_pos (IZR A + IZR A' * t)). pose proof (Rabs_pos (IZR B)). pose proof (Rabs_pos (u - u')). nra.
Qed.
Lemma series_bend t a b d rows : Forall2 (fun p x => Rabs (fst p - snd p) <= x) (combine a b) d -> length a = length b ->
  Rabs (sine_series t a rows - sine_series t b rows) <= total (fun r => size t (snd r) * bend (fst r) d) rows /\
  Rabs (cosine_series t a rows - cosine_series t b rows) <= total (fun r => size t (snd r) * bend (fst r) d) rows.
Proof.
  intros H L. unfold sine_series, cosine_series. rewrite !total_minus. split; (eapply Rle_trans; [apply total_abs|]); apply total_le;
    intros (n, ((A, A'), B)) _; cbn [fst snd]; apply term_bend;
    (eapply Rle_trans; [first [apply sin_lip2|apply cos_lip2]|]); apply angle_bend; assumption.
Qed.

(** Whole sums. *)
Definition ztotal {A} (f : A -> Z) (l : list A) : Z := fold_right (fun x s => (f x + s)%Z) 0%Z l.
Lemma ztotal_IZR A (f : A -> Z) l : total (fun x => IZR (f x)) l = IZR (ztotal f l).
Proof. induction l as [|x l IH]; [reflexivity|]. rewrite total_cons, IH. cbn. now rewrite plus_IZR. Qed.
Lemma skyfield_matching : matching skyfield_tables.
Proof. repeat split; vm_compute; reflexivity. Qed.
Definition zsize (r : Z * Z * Z) : Z := let '(A, A', B) := r in (5 * Z.abs A + Z.abs A' + 5 * Z.abs B)%Z.
Definition zpsize (r : Z * Z) : Z := (Z.abs (fst r) + Z.abs (snd r))%Z.
Lemma size_z t r : Rabs t <= 1 / 5 -> size t r <= / 5 * IZR (zsize r).
Proof.
  intros H. destruct r as ((A, A'), B). unfold size, zsize. rewrite !plus_IZR, !mult_IZR, !abs_IZR.
  pose proof (Rabs_pos (IZR A')). nra.
Qed.
Lemma total_size t l : Rabs t <= 1 / 5 -> total (size t) l <= IZR (ztotal zsize l) / 5.
Proof.
  intros H. eapply Rle_trans; [apply (total_le _ _ (fun r => / 5 * IZR (zsize r))); intros; now apply size_z|].
  rewrite total_scale, ztotal_IZR. lra.
Qed.
Lemma total_psize l : total psize l = IZR (ztotal zpsize l).
Proof. rewrite <- ztotal_IZR. apply total_ext. intros (A, B) _. unfold psize, zpsize. cbn [fst snd]. now rewrite plus_IZR, !abs_IZR. Qed.
