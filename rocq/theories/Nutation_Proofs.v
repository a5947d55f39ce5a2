(** The nutation series: reduced arguments do not matter, arrays are treated date by
    date, and bounds for shortened series. *)
From Coq Require Import Reals ZArith List Lra Lia Psatz.
From Verif Require Import Real_Math Real_Math_Proofs Vector_Model Geo_Model Spin_Model Spin_Spec Spin_Proofs Kepler_Proofs4
  Nutation_Model Nutation_Spec.
Import ListNotations.
Open Scope R_scope.

Lemma fmod_same x m : same_mod m (fmod x m) x.
Proof.
  unfold fmod. destruct (Rle_dec 0 x); [apply sm_rmod|]. destruct (rmod_shift (- x) m) as [k ->]. exists (- k)%Z. rewrite opp_IZR. ring.
Qed.
Lemma fmod_range x m : 0 < m -> - m < fmod x m < m.
Proof. intros H. unfold fmod. destruct (Rle_dec 0 x); [pose proof (rmod_bounds x m H)|pose proof (rmod_bounds (- x) m H)]; lra. Qed.

(** Slices. *)
Lemma slice_to_firstn A (l : list A) n : slice_to (Z.of_nat n) l = firstn n l.
Proof.
  unfold slice_to. destruct (Z.ltb_spec (Z.of_nat n) 0) as [H|_]; [lia|].
  destruct (Nat.le_gt_cases n (length l)) as [H|H].
  - rewrite Z.min_l by lia. now rewrite Nat2Z.id.
  - rewrite Z.min_r by lia. rewrite Nat2Z.id, firstn_all. symmetry. apply firstn_all2. lia.
Qed.

(** The fundamental arguments. *)
Definition fa_exact (k : nat) (t : R) : list R := map (fun c => polynomial (firstn k c) t) simon_1994.
Ltac five := unfold fa_exact, arguments, simon_1994, fa_loop, add_cols, fa0, fa1, fa2, fa3, fa4; cbn [map combine firstn polynomial fst snd].
Ltac arg_goal := let E := fresh in
  eapply sm_trans; [apply (sm_scale arcsecond), fmod_same|]; apply sm_eq.
Lemma tau_asec : ASEC360 * arcsecond = tau.
Proof. unfold ASEC360, arcsecond, tau. lra. Qed.
Lemma fa_one x y : x = y -> same_mod tau (fmod x ASEC360 * arcsecond) (y * (PI / 648000)).
Proof.
  intros ->. rewrite <- tau_asec. eapply sm_trans; [apply (sm_scale arcsecond), fmod_same|]. apply sm_eq. unfold arcsecond. lra.
Qed.
Lemma arguments_ok t k : (2 <= k <= 5)%nat ->
  exists a, fundamental_arguments t (Z.of_nat k) = Some a /\ Forall2 (same_mod tau) a (arguments k t).
Proof.
  intros [H1 H2]. destruct k as [|[|[|[|[|[|k]]]]]]; try lia; clear H1 H2;
    (eexists; split; [unfold fundamental_arguments; cbn; reflexivity|]);
    five; repeat constructor; apply fa_one; cbn [polynomial]; lra.
Qed.
Lemma arguments_one t : exists a, fundamental_arguments t 1 = Some a /\ Forall2 (same_mod tau) a (arguments 5 t).
Proof.
  eexists; split; [unfold fundamental_arguments; cbn; reflexivity|].
  five; repeat constructor; apply fa_one; cbn [polynomial]; lra.
Qed.
Lemma arguments_reduced t k a : fundamental_arguments t k = Some a -> Forall (fun x => - tau < x < tau) a /\ length a = 5%nat.
Proof.
  unfold fundamental_arguments. destruct (slice_from _ _) as [|f l] eqn:E; [discriminate|]. intros H. injection H as <-. split.
  - apply Forall_forall. intros x Hx. apply in_map_iff in Hx. destruct Hx as (y & <- & _).
    pose proof (fmod_range y ASEC360 ltac:(unfold ASEC360; lra)). rewrite <- tau_asec.
    assert (0 < arcsecond) by (unfold arcsecond; pose proof PI_RGT_0; lra). nra.
  - rewrite map_length. unfold add_cols. rewrite map_length, combine_length.
    assert (L : forall fa a, Forall (fun c => length c = 5%nat) fa -> length a = 5%nat -> length (fa_loop a t fa) = 5%nat).
    { clear. induction fa as [|c fa IH]; intros a H Ha; [exact Ha|]. inversion H as [|? ? Hc Hf]; subst. cbn. apply IH; [exact Hf|].
      unfold add_cols. rewrite !map_length, combine_length, Ha, Hc. reflexivity. }
    assert (S : Forall (fun c => length c = 5%nat) (f :: l)).
    { rewrite <- E. unfold slice_from. set (j := Z.to_nat _). clearbody j.
      assert (A : Forall (fun c : list R => length c = 5%nat) [fa4; fa3; fa2; fa1]) by (repeat constructor).
      destruct j as [|[|[|[|j]]]]; cbn; try exact A; repeat constructor. destruct j; constructor. }
    inversion S as [|? ? Hf Hl]; subst. rewrite L; [reflexivity|exact Hl|]. now rewrite map_length.
Qed.

(** Whole multiples of angles known modulo a turn. *)
Lemma angle_cons k n x a : angle (k :: n) (x :: a) = IZR k * x + angle n a. Proof. reflexivity. Qed.
Lemma row_dot_angle n a : row_dot n a = angle n a.
Proof. revert a. induction n as [|k n IH]; intros [|x a]; try reflexivity. rewrite angle_cons, <- IH. reflexivity. Qed.
Lemma sm_izr k m a b : same_mod m a b -> same_mod m (IZR k * a) (IZR k * b).
Proof. intros [j ->]. exists (k * j)%Z. rewrite mult_IZR. ring. Qed.
Lemma angle_mod m n a b : Forall2 (same_mod m) a b -> same_mod m (angle n a) (angle n b).
Proof.
  intros H. revert n. induction H as [|x y a b Hxy H IH]; intros [|k n]; try apply sm_refl.
  rewrite !angle_cons. apply sm_plus; [now apply sm_izr|apply IH].
Qed.
(** Sums. *)
Lemma total_cons A f (x : A) l : total f (x :: l) = f x + total f l. Proof. reflexivity. Qed.
Lemma total_ext A (f g : A -> R) l : (forall x, In x l -> f x = g x) -> total f l = total g l.
Proof. induction l as [|x l IH]; intros H; [reflexivity|]. rewrite !total_cons, IH, (H x); [reflexivity|now left|intros; apply H; now right]. Qed.
Lemma total_app A (f : A -> R) l l' : total f (l ++ l') = total f l + total f l'.
Proof. induction l as [|x l IH]; cbn [app]; [unfold total; cbn; ring|]. rewrite !total_cons, IH. ring. Qed.
Lemma total_abs A (f : A -> R) l : Rabs (total f l) <= total (fun x => Rabs (f x)) l.
Proof. induction l as [|x l IH]; [unfold total; cbn; rewrite Rabs_R0; lra|]. rewrite !total_cons. pose proof (Rabs_triang (f x) (total f l)). lra. Qed.
Lemma total_le A (f g : A -> R) l : (forall x, In x l -> f x <= g x) -> total f l <= total g l.
Proof. induction l as [|x l IH]; intros H; [unfold total; cbn; lra|]. rewrite !total_cons. pose proof (H x (or_introl eq_refl)). specialize (IH (fun y h => H y (or_intror h))). lra. Qed.
Lemma total_minus A (f g : A -> R) l : total f l - total g l = total (fun x => f x - g x) l.
Proof. induction l as [|x l IH]; [unfold total; cbn; ring|]. rewrite !total_cons, <- IH. ring. Qed.
Lemma total_scale A k (f : A -> R) l : total (fun x => k * f x) l = k * total f l.
Proof. induction l as [|x l IH]; [unfold total; cbn; ring|]. rewrite !total_cons, IH. ring. Qed.
Lemma total_plus A (f g : A -> R) l : total (fun x => f x + g x) l = total f l + total g l.
Proof. induction l as [|x l IH]; [unfold total; cbn; ring|]. rewrite !total_cons, IH. ring. Qed.

Lemma sine_dots t a rows cs : length cs = length rows ->
  col_dot (map sin (map (fun n => row_dot n a) rows)) (col1 cs) + col_dot (map sin (map (fun n => row_dot n a) rows)) (col2 cs) * t
  + col_dot (map cos (map (fun n => row_dot n a) rows)) (col3 cs) = sine_series t a (combine rows cs).
Proof.
  revert cs. induction rows as [|n rows IH]; intros [|((A, A'), B) cs]; try discriminate; intros L.
  - unfold sine_series, total. cbn. ring.
  - injection L as L. unfold sine_series in *. cbn [combine]. rewrite total_cons, <- IH by exact L.
    unfold col1, col2, col3. cbn [map fst snd col_dot]. rewrite row_dot_angle. ring.
Qed.
Lemma cosine_dots t a rows cs : length cs = length rows ->
  col_dot (map cos (map (fun n => row_dot n a) rows)) (col1 cs) + col_dot (map cos (map (fun n => row_dot n a) rows)) (col2 cs) * t
  + col_dot (map sin (map (fun n => row_dot n a) rows)) (col3 cs) = cosine_series t a (combine rows cs).
Proof.
  revert cs. induction rows as [|n rows IH]; intros [|((A, A'), B) cs]; try discriminate; intros L.
  - unfold cosine_series, total. cbn. ring.
  - injection L as L. unfold cosine_series in *. cbn [combine]. rewrite total_cons, <- IH by exact L.
    unfold col1, col2, col3. cbn [map fst snd col_dot]. rewrite row_dot_angle. ring.
Qed.
Lemma planet_dots a rows cs : length cs = length rows -> forall base,
  base + col_dot (map sin (map (fun n => row_dot n a) rows)) (map fst cs) + col_dot (map cos (map (fun n => row_dot n a) rows)) (map snd cs)
  = base + planet_series a (combine rows cs).
Proof.
  intros L base. rewrite Rplus_assoc. f_equal. revert cs L. induction rows as [|n rows IH]; intros [|(A, B) cs]; try discriminate; intros L.
  - unfold planet_series, total. cbn. ring.
  - injection L as L. unfold planet_series in *. cbn [combine]. rewrite total_cons, <- IH by exact L.
    cbn [map fst snd col_dot]. rewrite row_dot_angle. ring.
Qed.
Lemma series_mod t a b rows : Forall2 (same_mod tau) a b ->
  sine_series t a rows = sine_series t b rows /\ cosine_series t a rows = cosine_series t b rows.
Proof.
  intros H. split; apply total_ext; intros (n, ((A, A'), B)) _; destruct (sm_cos _ _ (angle_mod tau n a b H)) as [-> ->]; reflexivity.
Qed.

Lemma planetary_args t : planetary_arguments t = planet_arguments t.
Proof. unfold planetary_arguments, planet_arguments, anomaly. cbn [map times_last fst snd]. repeat (apply f_equal2; [lra|]). reflexivity. Qed.

Lemma firstn_same A B (l : list A) (m : list B) n : length l = length m -> length (firstn n l) = length (firstn n m).
Proof. intros H. rewrite !firstn_length, H. reflexivity. Qed.
Lemma iau2000a_ok T jd k k' l p : matching T -> (2 <= k <= 5)%nat -> k' = Z.of_nat k \/ (k' = 1%Z /\ k = 5%nat) ->
  iau2000a T jd k' (Z.of_nat l) (Z.of_nat p) = Some (published T jd k l p).
Proof.
  intros (M1 & M2 & M3 & M4) Hk Hk'. unfold iau2000a, published. change T0 with 2451545. set (t := (jd - 2451545) / 36525).
  assert (HA : exists a, fundamental_arguments t k' = Some a /\ Forall2 (same_mod tau) a (arguments k t)).
  { destruct Hk' as [-> | (-> & ->)]; [now apply arguments_ok|apply arguments_one]. }
  destruct HA as (a & -> & Ha). rewrite !slice_to_firstn. cbv zeta.
  rewrite (sine_dots t a) by (apply firstn_same; exact M1). rewrite (cosine_dots t a) by (apply firstn_same; exact M2).
  destruct (series_mod t a (arguments k t) (combine (firstn l (nals_t T)) (firstn l (lunisolar_longitude T))) Ha) as [-> _].
  destruct (series_mod t a (arguments k t) (combine (firstn l (nals_t T)) (firstn l (lunisolar_obliquity T))) Ha) as [_ ->].
  destruct p as [|p].
  - change (Z.of_nat 0 =? 0)%Z with true. cbn [firstn combine]. unfold planet_series, total. cbn. now rewrite !Rplus_0_r.
  - destruct (Z.eqb_spec (Z.of_nat (S p)) 0) as [H|_]; [lia|].
    rewrite !planet_dots by (apply firstn_same; assumption). now rewrite planetary_args.
Qed.
