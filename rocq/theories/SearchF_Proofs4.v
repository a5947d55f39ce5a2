(** The properties of the float search. *)
From Coq Require Import ZArith Reals Lia Lra List Bool.
From Coq.Floats Require Import SpecFloat.
From Flocq Require Import Core BinarySingleNaN.
From Verif Require Import Float64 Float64_Proofs Float_Time_Proofs Float_Time_Proofs4 CalF_Proofs CalF_Proofs2 SexaF_Proofs2 Wrap_Proofs Wrap_Proofs2 Search_Model Search_Proofs SearchF_Model SearchF_Spec SearchF_Proofs SearchF_Proofs2 SearchF_Proofs3.
Import ListNotations.
Open Scope R_scope.

(** ** Every event, with any arguments at all *)
Lemma loop_real f eps num : forall fuel jd evs, find_loop64 fuel f eps num jd = Some evs ->
  forall t v, In (t, v) evs -> f t = v /\ exists s, f s <> v /\ fleb (fsub t s) eps = true.
Proof.
  induction fuel as [|fuel IH]; intros jd evs H t v Hi; [discriminate|]. cbn [find_loop64] in H. destruct (changes64 f jd) as [|p ch] eqn:E; [injection H as <-; destruct Hi|].
  destruct (forallb _ _) eqn:B; [|eapply IH; eassumption]. injection H as <-.
  assert (G : exists q, In q (p :: ch) /\ (t, v) = (snd q, f (snd q))). { apply (proj1 (in_map_iff (fun p0 => (snd p0, f (snd p0))) (p :: ch) (t, v))) in Hi. destruct Hi as (q & Q1 & Q2). exists q. split; [exact Q2|symmetry; exact Q1]. }
  destruct G as (q & Q & Eq). injection Eq as -> ->. split; [reflexivity|]. rewrite <- E in Q, B. rewrite forallb_forall in B. exists (fst q). split; [apply changes64_pairs in Q; apply Q|]. apply B. exact Q.
Qed.
Lemma events64_real fuel jd0 jd1 f step eps num evs : find_discrete64 fuel jd0 jd1 f step eps num = Found evs ->
  forall t v, In (t, v) evs -> f t = v /\ exists s, f s <> v /\ fleb (fsub t s) eps = true.
Proof.
  unfold find_discrete64. destruct (fleb jd1 jd0); [discriminate|]. destruct (_ <? _)%Z; [discriminate|]. destruct (find_loop64 _ _ _ _ _) as [l|] eqn:E; [|discriminate]. cbn. intros H. injection H as <-. eapply loop_real. exact E.
Qed.

(** ** The default search *)
Lemma pow11 : 65538 <= 19.8 * U * 11 ^ 14.
Proof. unfold U. lra. Qed.
Lemma ms_ok : 24.85515 * U <= millisecond. Proof. unfold U, millisecond. lra. Qed.
Lemma search_brackets jd0 jd1 f step : time_function64 f -> day_number jd0 -> day_number jd1 -> usual_step step -> val jd0 < val jd1 ->
  exists brs a l, find_discrete64 15 jd0 jd1 f step EPSILON64 NUM = Found (map (fun p => (snd p, f (snd p))) brs) /\
    val a = val jd0 /\ last l a = jd1 /\ Forall day_number (a :: l) /\ asc (val jd0) (a :: l) (val jd1) /\ (forall p, In p (pairs (a :: l)) -> val (snd p) - val (fst p) <= val step + 7 * U) /\
    good_end f jd0 (val jd0) (val jd1) (f jd1) brs /\ forall cs, Forall2 (switchR f) (changes64 f (a :: l)) cs -> Forall2 (switchR f) brs cs.
Proof.
  intros Hf D0 D1 Hs L. destruct (first_samples jd0 jd1 step D0 D1 Hs L) as (E1 & E2 & a & l & W & E3 & Hd & Ha & Va & Hl & HW & Hp).
  destruct (loop64 f Hf 14 W a l (val jd0) (val jd1) Hd Ha) as (brs & H1 & H2 & H3).
  - intros p P. apply changes64_pairs in P as [P _]. apply Hp. exact P.
  - pose proof pow11. lra.
  - lra.
  - exists brs, a, l. assert (Fa : f a = f jd0) by (apply Hf; [inversion Hd; assumption|exact D0|exact Va]). split; [|split; [exact Va|split; [exact Hl|split; [exact Hd|split; [exact Ha|split; [intros p P; apply Hp; exact P|split; [|exact H3]]]]]]].
    + unfold find_discrete64. rewrite E1. rewrite (proj2 (Z.ltb_ge _ _)) by exact E2. rewrite E3. unfold NUM. rewrite H1. reflexivity.
    + unfold good_end in *. rewrite Fa, Hl in H2. exact H2.
Qed.
Lemma search64_ends jd0 jd1 f step : time_function64 f -> day_number jd0 -> day_number jd1 -> usual_step step -> val jd0 < val jd1 ->
  exists evs, find_discrete64 15 jd0 jd1 f step EPSILON64 NUM = Found evs /\
    in_order (val jd0) (map (fun ev => val (fst ev)) evs) (val jd1) /\ leads (f jd0) (map snd evs) (f jd1) /\ Forall (change_seen f jd0) evs.
Proof.
  intros Hf D0 D1 Hs L. destruct (search_brackets jd0 jd1 f step Hf D0 D1 Hs L) as (brs & a & l & E & _ & _ & _ & _ & _ & (G1 & G2 & G3) & _). exists (map (fun p => (snd p, f (snd p))) brs). split; [exact E|]. rewrite !map_map. cbn [fst snd]. split; [|split].
  - clear - G2. revert G2. generalize (val jd0). induction brs as [|[s e] r IH]; cbn; intros lo H; [exact H|]. destruct H as (H1 & H2 & H3). split; [lra|]. apply IH. exact H3.
  - clear - G1. revert G1. generalize (f jd0). induction brs as [|[s e] r IH]; cbn; intros v H; [exact H|]. destruct H as (H1 & H2 & H3). split; [exact H2|]. apply IH. exact H3.
  - apply Forall_forall. intros ev Hev. apply in_map_iff in Hev as (p & <- & Hp). unfold change_seen. cbn [fst snd]. split; [reflexivity|]. exists (fst p). destruct (G3 p Hp) as (P1 & P2 & P3). pose proof (spreadR_in _ _ _ _ G2 Hp) as P4. pose proof ms_ok. split; [exact P1|]. split; [lra|]. split; [lra|].
    clear - G1 Hp. revert G1. generalize (f jd0). induction brs as [|[s e] r IH]; intros v H; [destruct Hp|]. cbn in H. destruct H as (H1 & H2 & H3). destruct Hp as [<-|Hp]; [cbn; congruence|]. eapply IH; eassumption.
Qed.

(** ** Nothing missed *)
Fixpoint with_oldR (v0 : Z) (cs : list (R * Z)) : list (R * Z * Z) := match cs with [] => [] | (c, v) :: r => (c, v0, v) :: with_oldR v r end.
Lemma value_early v r t : (forall d, In d r -> t < fst d) -> value_at v r t = v.
Proof. destruct r as [|[c w] r]; intros H; [reflexivity|]. cbn. destruct (Rle_dec c t) as [G|G]; [|reflexivity]. specialize (H (c, w) (or_introl eq_refl)). cbn in H. lra. Qed.
Lemma history_switchR f gap hi v1 : 0 < gap -> forall l a cs, Forall day_number (a :: l) -> asc (val a) (a :: l) hi -> val (last l a) = hi -> (forall p, In p (pairs (a :: l)) -> val (snd p) - val (fst p) < gap) ->
  leads (f a) (map snd cs) v1 -> apart gap cs -> (forall d, In d cs -> val a < fst d <= hi) -> (forall t, day_number t -> val a <= val t <= hi -> f t = value_at (f a) cs (val t)) ->
  Forall2 (switchR f) (changes64 f (a :: l)) (with_oldR (f a) cs).
Proof.
  intros Hg. induction l as [|b l IH]; intros a cs Hd Ha Hl Hp Hc Hs Hr Hv.
  - cbn in Hl. destruct cs as [|[c v] r]; [constructor|]. specialize (Hr _ (or_introl eq_refl)). cbn in Hr. lra.
  - rewrite changes64_cons. cbn [asc] in Ha. destruct Ha as (A1 & A2 & A3). pose proof (asc_le _ _ _ A3) as A4. apply Forall_cons_iff in Hd as [Da Hd]. pose proof Hd as Hd'. apply Forall_cons_iff in Hd' as [Db _]. rewrite last_cons_any in Hl.
    assert (Ab : asc (val b) (b :: l) hi) by (split; [lra|exact A3]). assert (Hp' : forall p, In p (pairs (b :: l)) -> val (snd p) - val (fst p) < gap) by (intros p P; apply Hp; right; exact P).
    assert (Hab : val b - val a < gap) by (apply (Hp (a, b)); left; reflexivity). pose proof (Hv b Db ltac:(lra)) as Fb.
    destruct cs as [|[c v] r].
    + cbn in Fb. rewrite Fb, Z.eqb_refl. rewrite <- Fb. apply IH; try assumption.
      * rewrite Fb. exact Hc.
      * intros d [].
      * intros t Dt Ht. rewrite (Hv t Dt) by lra. cbn. congruence.
    + cbn [apart map snd leads] in Hs, Hc. destruct Hs as [Hs1 Hs2]. destruct Hc as [Hc1 Hc2]. pose proof (Hr _ (or_introl eq_refl)) as Hrc. cbn [fst] in Hrc. destruct (Rlt_le_dec (val b) c) as [Lb|Lb].
      * cbn in Fb. destruct (Rle_dec c (val b)); [lra|]. rewrite Fb, Z.eqb_refl. rewrite <- Fb. apply IH; try assumption.
        -- cbn. rewrite Fb. split; assumption.
        -- split; assumption.
        -- intros d Hd2. pose proof (Hr d Hd2) as Q. destruct Hd2 as [<-|Hd2]; cbn in *; [lra|]. specialize (Hs1 d Hd2). lra.
        -- intros t Dt Ht. rewrite (Hv t Dt) by lra. rewrite Fb. reflexivity.
      * assert (Hlate : forall d, In d r -> val b < fst d) by (intros d Hd2; specialize (Hs1 d Hd2); lra).
        assert (Fb' : f b = v). { rewrite Fb. cbn. destruct (Rle_dec c (val b)); [|lra]. apply value_early. exact Hlate. }
        rewrite Fb'. assert (E : (f a =? v)%Z = false) by (apply Z.eqb_neq; congruence). rewrite E. cbn [with_oldR]. constructor.
        -- unfold switchR. cbn [fst snd]. split; [lra|]. split; [congruence|]. intros t Dt Ht. pose proof (Hv t Dt ltac:(lra)) as Ft. cbn in Ft. split; intros Q.
           ++ destruct (Rle_dec c (val t)); [lra|exact Ft].
           ++ destruct (Rle_dec c (val t)); [|lra]. rewrite Ft. apply value_early. intros d Hd2. specialize (Hlate d Hd2). lra.
        -- rewrite <- Fb'. apply IH; try assumption.
           ++ rewrite Fb'. exact Hc2.
           ++ intros d Hd2. split; [apply Hlate; exact Hd2|]. apply (Hr d). right. exact Hd2.
           ++ intros t Dt Ht. rewrite (Hv t Dt) by lra. cbn. destruct (Rle_dec c (val t)); [|lra]. rewrite Fb'. reflexivity.
Qed.
Lemma chart_function f gap a b cs : goes_through f gap a b cs -> forall x y, day_number x -> day_number y -> val a <= val x <= val b -> val x = val y -> f x = f y.
Proof. intros (_ & _ & _ & H) x y Dx Dy Hx E. rewrite (H x Dx) by lra. rewrite (H y Dy) by lra. rewrite E. reflexivity. Qed.
Lemma nothing_missed64 jd0 jd1 f step cs : time_function64 f -> day_number jd0 -> day_number jd1 -> usual_step step -> val jd0 < val jd1 ->
  goes_through f (val step + / 2 ^ 28) jd0 jd1 cs ->
  exists evs, find_discrete64 15 jd0 jd1 f step EPSILON64 NUM = Found evs /\ Forall2 reports evs cs.
Proof.
  intros Hf D0 D1 Hs L (H1 & H2 & H3 & H4). destruct (search_brackets jd0 jd1 f step Hf D0 D1 Hs L) as (brs & a & l & E & Va & Hl & Hd & Ha & Hp & (G1 & G2 & G3) & G4). eexists. split; [exact E|].
  assert (Fa : f a = f jd0) by (apply Hf; [inversion Hd; assumption|exact D0|exact Va]).
  assert (E28 : / 2 ^ 28 = 8 * U) by (unfold U; lra). assert (UP : 0 < U) by (unfold U; lra). assert (SP : 0 < val step). { destruct Hs as (s & -> & _ & Hs). rewrite val_b. assert (0 < / 2 ^ 20) by lra. lra. } rewrite E28 in H2.
  assert (F2 : Forall2 (switchR f) brs (with_oldR (f jd0) cs)).
  { apply G4. rewrite <- Fa. apply history_switchR with (gap := val step + 8 * U) (hi := val jd1) (v1 := f jd1); try assumption.
    - lra.
    - rewrite Va. exact Ha.
    - rewrite Hl. reflexivity.
    - intros p P. specialize (Hp p P). lra.
    - rewrite Fa. exact H1.
    - rewrite Va. exact H3.
    - rewrite Va, Fa. exact H4. }
  assert (G5 : forall p, In p brs -> day_number (snd p) /\ val (snd p) - val (fst p) <= 24.85515 * U) by (intros p P; destruct (G3 p P) as (Q1 & Q2 & Q3); split; assumption).
  clear - F2 G5. pose proof ms_ok as M. revert F2 G5. generalize (f jd0). revert cs. induction brs as [|p brs IH]; intros cs v F2 G5; destruct cs as [|[c w] cs]; cbn [with_oldR] in F2; inversion F2 as [|? ? ? ? S F2']; subst; [constructor|].
  cbn [map]. constructor; [|apply (IH cs w F2'); intros q Q; apply G5; right; exact Q]. destruct (G5 p (or_introl eq_refl)) as [P1 P2]. destruct S as (S1 & S2 & S3). cbn [fst snd] in *. split; cbn [fst snd].
  - apply S3; [exact P1|lra|lra].
  - lra.
Qed.

(** ** What goes wrong elsewhere *)
Definition from (T : b64) (t : b64) : Z := if fleb T t then 1%Z else 0%Z.
Lemma from_val (T : bf) t : is_finite T = true -> day_number t -> from (B2SF T) t = if Rle_dec (B2R T) (val t) then 1%Z else 0%Z.
Proof.
  intros F (b & -> & Fb & _). rewrite val_b. unfold from, fleb. change (SFleb (B2SF T) (B2SF b)) with (Bleb T b). rewrite Bleb_correct by assumption. destruct (Rle_bool_spec (B2R T) (B2R b)), (Rle_dec (B2R T) (B2R b)); (reflexivity || lra).
Qed.
Lemma from_fun (T : bf) : is_finite T = true -> time_function64 (from (B2SF T)).
Proof. intros F x y Dx Dy E. rewrite !from_val by assumption. rewrite E. reflexivity. Qed.
Lemma from_history (T : bf) gap a b : is_finite T = true -> day_number a -> day_number b -> val a < B2R T <= val b -> goes_through (from (B2SF T)) gap a b [(B2R T, 1%Z)].
Proof.
  intros F Da Db H. assert (Ea : from (B2SF T) a = 0%Z) by (rewrite from_val by assumption; destruct (Rle_dec _ _); [lra|reflexivity]). assert (Eb : from (B2SF T) b = 1%Z) by (rewrite from_val by assumption; destruct (Rle_dec _ _); [reflexivity|lra]).
  unfold goes_through. rewrite Ea, Eb. cbn. repeat split; try lra; try tauto; try discriminate.
  - destruct H0 as [<-|[]]. cbn. lra.
  - destruct H0 as [<-|[]]. cbn. lra.
  - intros t Dt Ht. rewrite from_val by assumption. reflexivity.
Qed.
Definition J2000 : b64 := of_Z 2451545.
Lemma day_fl m e : small m e -> Rabs (F2R (Float radix2 m e)) <= 2883000 -> day_number (fl m e) /\ val (fl m e) = F2R (Float radix2 m e).
Proof. intros S H. destruct (fl_bf m e S) as (b & -> & F & V). rewrite val_b, V. split; [|reflexivity]. exists b. rewrite V. repeat split; assumption. Qed.
Lemma step_ok m e : small m e -> / 2 ^ 20 <= F2R (Float radix2 m e) <= 2 ^ 16 -> usual_step (fl m e).
Proof. intros S H. destruct (fl_bf m e S) as (b & -> & F & V). exists b. rewrite V. repeat split; (assumption || apply H). Qed.

(** The three times of a list are not in order. *)
Lemma out_of_order a t1 t2 t3 b : t2 <= t1 -> ~ in_order a [t1; t2; t3] b.
Proof. intros H (_ & G & _). lra. Qed.
