From Coq Require Import ZArith QArith Qround Qabs List Bool Lia Lqa Morphisms Setoid.
From Verif Require Import PyNum Time_Model Search_Model Search_Spec Search_Proofs Maxima_Proofs.
Import ListNotations.
Open Scope Q_scope.

Section Split.
Variable f : Q -> Z.
Hypothesis Hf : time_function f.

Definition part (v : Z) (lo : Q) (U : list Q) (hi : Q) (v' : Z) : Prop :=
  ascending lo U hi /\ match U with [] => v = v' | a :: l => f a = v /\ f (last l a) = v' end.
Lemma part_changes v lo U hi v' : part v lo U hi v' -> linked f v (changes f U) v' /\ spread lo (changes f U) hi.
Proof.
  intros [A P]. destruct U as [|a l]; [split; [exact P|exact A]|]. destruct P as [<- <-].
  apply changes_spec; assumption.
Qed.
Lemma part_refine n v lo brs hi v' : linked f v brs v' -> spread lo brs hi -> part v lo (refine (S (S n)) brs) hi v'.
Proof.
  intros L S. split; [apply refine_ascending; assumption|]. destruct brs as [|b brs]; [exact L|].
  destruct (refine_ends f Hf n (b :: brs) v v' L) as (a & l & -> & E1 & E2); [discriminate|]. split; assumption.
Qed.
Lemma changes_share x V : forall U, changes f (U ++ x :: V) = changes f (U ++ [x]) ++ changes f (x :: V).
Proof.
  induction U as [|a U IH]; [reflexivity|]. destruct U as [|b U].
  - cbn [app]. rewrite !(changes_cons f a). destruct (f a =? f x)%Z; reflexivity.
  - cbn [app] in *. rewrite !(changes_cons f a), IH. destruct (f a =? f b)%Z; reflexivity.
Qed.
Lemma refine_app n a b : refine n (a ++ b) = refine n a ++ refine n b.
Proof. unfold refine. apply flat_map_app. Qed.
Lemma changes_join v lo U x v' V hi v'' : part v lo U x v' -> part v' x V hi v'' -> changes f (U ++ V) = changes f U ++ changes f V.
Proof.
  intros [_ P] [_ P']. destruct U as [|a l]; [reflexivity|]. destruct V as [|b m]; [rewrite !app_nil_r; reflexivity|].
  rewrite changes_app by discriminate. rewrite last_cons_any. destruct P as [_ ->], P' as [-> _].
  rewrite Z.eqb_refl. reflexivity.
Qed.
Definition ev (p : Q * Q) := (snd p, f (snd p)).
Lemma loop_split n eps : forall fuel jd U V v0 lo x vx hi v1 evs,
  changes f jd = changes f U ++ changes f V -> part v0 lo U x vx -> part vx x V hi v1 ->
  find_loop fuel f eps (S (S n)) jd = Some evs ->
  exists L R, evs = map ev L ++ map ev R /\ linked f v0 L vx /\ spread lo L x /\ linked f vx R v1 /\ spread x R hi.
Proof.
  induction fuel as [|fuel IH]; intros jd U V v0 lo x vx hi v1 evs E PU PV H; [discriminate|].
  destruct (part_changes _ _ _ _ _ PU) as [LU SU]. destruct (part_changes _ _ _ _ _ PV) as [LV SV].
  cbn [find_loop] in H. rewrite E in H.
  destruct (changes f U ++ changes f V) as [|c ch] eqn:C.
  - injection H as <-. exists [], []. apply app_eq_nil in C as [C1 C2]. rewrite C1 in LU, SU. rewrite C2 in LV, SV.
    repeat split; assumption.
  - destruct (forallb _ _).
    + injection H as <-. exists (changes f U), (changes f V). rewrite <- map_app, C. repeat split; assumption.
    + eapply (IH _ (refine (S (S n)) (changes f U)) (refine (S (S n)) (changes f V)));
        [|apply part_refine; eassumption|apply part_refine; eassumption|exact H].
      rewrite <- C, refine_app. eapply changes_join; apply part_refine; eassumption.
Qed.
End Split.

(** * Merging culminations with rises and sets *)
Lemma filter_insert {B} (q : Q * B -> bool) a l : sorted_fst l ->
  filter q (insert a l) = if q a then insert a (filter q l) else filter q l.
Proof.
  induction l as [|b r IH]; intros H; [cbn; destruct (q a); reflexivity|].
  destruct H as [H1 H2]. cbn [insert]. destruct (Qle_bool (fst a) (fst b)) eqn:E.
  - cbn [filter]. destruct (q a) eqn:Qa; [|reflexivity]. destruct (q b) eqn:Qb.
    + cbn [insert]. rewrite E. reflexivity.
    + assert (G : forall l, (forall c, In c l -> fst a <= fst c) -> insert a l = a :: l).
      { intros [|c l'] G; [reflexivity|]. cbn. rewrite (proj2 (Qleb_t _ _)); [reflexivity|]. apply G. left; reflexivity. }
      symmetry. apply G. intros c Hc. apply filter_In in Hc as [Hc _]. apply H1 in Hc. apply Qleb_t in E. lra.
  - cbn [filter]. rewrite IH by assumption. destruct (q a) eqn:Qa; [|reflexivity]. destruct (q b) eqn:Qb; [|reflexivity].
    cbn [insert]. rewrite E. reflexivity.
Qed.
Lemma filter_argsort {B} (q : Q * B -> bool) l : filter q (argsort l) = argsort (filter q l).
Proof.
  induction l as [|a l IH]; [reflexivity|]. cbn [argsort fold_right]. fold (argsort l).
  rewrite filter_insert by apply argsort_sorted. cbn [filter]. destruct (q a); cbn [argsort fold_right]; fold (argsort (filter q l)); rewrite IH; reflexivity.
Qed.
Lemma argsort_id {B} (l : list (Q * B)) : sorted_fst l -> argsort l = l.
Proof.
  induction l as [|a l IH]; intros H; [reflexivity|]. destruct H as [H1 H2]. cbn [argsort fold_right]. fold (argsort l).
  rewrite IH by assumption. destruct l as [|b l]; [reflexivity|]. cbn [insert].
  rewrite (proj2 (Qleb_t _ _)); [reflexivity|]. apply H1. left; reflexivity.
Qed.

(** state of the satellite after the rises and sets up to time [m] *)
Definition not_culm (e : Q * Z) := negb (snd e =? 1)%Z.
Fixpoint state_at (above : bool) (E : list (Q * Z)) (m : Q) : bool :=
  match E with
  | [] => above
  | (t, c) :: r => if Qle_bool t m then state_at (c =? 0)%Z r m else above
  end.
Fixpoint alternates (above : bool) (E : list (Q * Z)) : Prop :=
  match E with
  | [] => True
  | (_, c) :: r => c = (if above then 2 else 0)%Z /\ alternates (negb above) r
  end.
Lemma merge_ok : forall S above, sorted_fst S -> (forall e, In e S -> snd e = 0 \/ snd e = 1 \/ snd e = 2)%Z ->
  alternates above (filter not_culm S) ->
  (forall m t c, In (m, 1%Z) S -> In (t, c) (filter not_culm S) -> ~ t == m) ->
  (forall m, In (m, 1%Z) S -> state_at above (filter not_culm S) m = true) ->
  pass_ok above (map snd S).
Proof.
  induction S as [|[t c] S IH]; intros above Hs Hc Ha Ht Hm; [exact I|].
  destruct Hs as [S1 S2]. cbn [map snd pass_ok].
  assert (Hc' : forall e, In e S -> (snd e = 0 \/ snd e = 1 \/ snd e = 2)%Z) by (intros e He; apply Hc; right; assumption).
  destruct (Hc (t, c) (or_introl eq_refl)) as [E|[E|E]]; cbn [snd] in E; subst c.
  - cbn [filter not_culm snd Z.eqb negb] in *. cbn [alternates] in Ha. destruct above; [destruct Ha; discriminate|].
    destruct Ha as [_ Ha]. split; [reflexivity|]. apply IH; try assumption.
    + intros m t' c' I1 I2. apply (Ht m t' c'); right; assumption.
    + intros m I1. specialize (Hm m (or_intror I1)). cbn [state_at Z.eqb] in Hm.
      rewrite (proj2 (Qleb_t t m)) in Hm; [exact Hm|]. apply (S1 (m, 1%Z)). assumption.
  - cbn [filter not_culm snd Z.eqb negb Pos.eqb] in *.
    assert (A : above = true).
    { specialize (Hm t (or_introl eq_refl)). destruct (filter not_culm S) as [|[t' c'] r] eqn:F; [exact Hm|].
      cbn [state_at] in Hm. assert (In (t', c') S). { assert (I : In (t', c') (filter not_culm S)) by (rewrite F; left; reflexivity). apply filter_In in I. apply I. }
      assert (t <= t') by (apply (S1 (t', c')); assumption).
      assert (~ t' == t) by (apply (Ht t t' c'); left; reflexivity).
      destruct (Qle_bool t' t) eqn:L; [apply Qleb_t in L; exfalso; lra|exact Hm]. }
    subst above. split; [reflexivity|]. apply IH; try assumption.
    + intros m t' c' I1 I2. apply (Ht m t' c'); [right; assumption|assumption].
    + intros m I1. apply Hm. right; assumption.
  - cbn [filter not_culm snd Z.eqb negb Pos.eqb] in *. cbn [alternates] in Ha. destruct above; [|destruct Ha; discriminate].
    destruct Ha as [_ Ha]. split; [reflexivity|]. apply IH; try assumption.
    + intros m t' c' I1 I2. apply (Ht m t' c'); right; assumption.
    + intros m I1. specialize (Hm m (or_intror I1)). cbn [state_at Z.eqb] in Hm.
      rewrite (proj2 (Qleb_t t m)) in Hm; [exact Hm|]. apply (S1 (m, 1%Z)). assumption.
Qed.

(** * The sample times of the rise and set search *)
Lemma mid_cons a b l : midpoints (doublets (a :: b :: l)) = (a + a) / 2 :: (a + b) / 2 :: midpoints (doublets (b :: l)).
Proof. reflexivity. Qed.
Lemma half a : (a + a) / 2 == a. Proof. field. Qed.
Lemma mid_asc l : forall a lo hi, lo <= a -> ascending a l hi -> ascending lo (midpoints (doublets (a :: l))) hi.
Proof.
  induction l as [|b l IH]; intros a lo hi H1 H2.
  - cbn in *. rewrite half. lra.
  - rewrite mid_cons. cbn [ascending] in *. destruct H2 as [H2 H3]. rewrite half.
    split; [lra|]. assert (E : (a + b) / 2 * 2 == a + b) by field. split; [lra|]. apply IH; [lra|assumption].
Qed.
Lemma mid_last l : forall a d, last (midpoints (doublets (a :: l))) d == last l a.
Proof.
  induction l as [|b l IH]; intros a d; [cbn; apply half|]. rewrite mid_cons, !last_cons_any. rewrite (IH b). reflexivity.
Qed.
Lemma mid_split pre : forall x post, pre <> [] -> exists U, midpoints (doublets (pre ++ x :: post)) = U ++ midpoints (doublets (x :: post)) /\
  U <> [] /\ midpoints (doublets (pre ++ [x])) = U ++ [(x + x) / 2] /\ hd 0 U == hd 0 pre.
Proof.
  induction pre as [|a pre IH]; intros x post Hne; [congruence|]. destruct pre as [|b pre].
  - exists [(a + a) / 2; (a + x) / 2]. cbn [app]. rewrite mid_cons. repeat split; [discriminate|apply half].
  - destruct (IH x post) as (U & E & _ & E2 & _); [discriminate|]. exists ((a + a) / 2 :: (a + b) / 2 :: U).
    change ((a :: b :: pre) ++ x :: post) with (a :: b :: (pre ++ x :: post)). rewrite mid_cons.
    change (b :: (pre ++ x :: post)) with ((b :: pre) ++ x :: post). rewrite E.
    change ((a :: b :: pre) ++ [x]) with (a :: b :: (pre ++ [x])). rewrite mid_cons.
    change (b :: (pre ++ [x])) with ((b :: pre) ++ [x]). rewrite E2.
    repeat split; [discriminate|apply half].
Qed.

(** * The theorem *)
Definition below (altitude : Q -> Q) (thr : Q) (t : Q) : Z := if Qltb (altitude t) thr then 1%Z else 0%Z.
Lemma below_fun altitude thr : real_function altitude -> time_function (below altitude thr).
Proof.
  intros H a b E. unfold below. assert (Ea := H a b E). destruct (Qltb (altitude a) thr) eqn:A, (Qltb (altitude b) thr) eqn:B; try reflexivity;
  try apply Qltb_t in A; try apply Qltb_f in A; try apply Qltb_t in B; try apply Qltb_f in B; lra.
Qed.
Lemma chain_alternates f : (forall t, f t = 0 \/ f t = 1)%Z -> forall brs v0 v1, (v0 = 0 \/ v0 = 1)%Z -> linked f v0 brs v1 ->
  alternates (v0 =? 0)%Z (map (fun p => (fst p, (snd p * 2)%Z)) (map (ev f) brs)).
Proof.
  intros Hv. induction brs as [|[s e] r IH]; intros v0 v1 H0 L; [exact I|]. cbn in L. destruct L as (L1 & L2 & L3).
  cbn [map ev fst snd alternates]. split.
  - destruct (Hv e) as [E|E], H0 as [-> | ->]; rewrite E in *; try reflexivity; congruence.
  - replace (negb (v0 =? 0)%Z) with (f e =? 0)%Z; [eapply IH; [apply Hv|exact L3]|].
    destruct (Hv e) as [E|E], H0 as [-> | ->]; rewrite E in *; try reflexivity; congruence.
Qed.
Lemma state_split f : (forall t, f t = 0 \/ f t = 1)%Z -> forall L R v0 vx v1 lo hi x,
  linked f v0 L vx -> spread lo L x -> linked f vx R v1 -> spread x R hi ->
  state_at (v0 =? 0)%Z (map (fun p => (fst p, (snd p * 2)%Z)) (map (ev f) L ++ map (ev f) R)) x = (vx =? 0)%Z.
Proof.
  intros Hv. induction L as [|[s e] r IH]; intros R v0 vx v1 lo hi x LL SL LR SR.
  - cbn in LL. subst. destruct R as [|[s e] R]; [reflexivity|]. cbn in SR. destruct SR as (R1 & R2 & _).
    cbn [map app ev fst snd state_at]. rewrite (proj2 (Qleb_f e x)) by lra. reflexivity.
  - cbn in LL, SL. destruct LL as (L1 & L2 & L3). destruct SL as (S1 & S2 & S3).
    cbn [map app ev fst snd state_at]. rewrite (proj2 (Qleb_t e x)) by (apply spread_le in S3; assumption).
    replace (f e * 2 =? 0)%Z with (f e =? 0)%Z by (destruct (Hv e) as [E|E]; rewrite E; reflexivity).
    eapply IH; eassumption.
Qed.
Lemma separated_asc eps l : 0 <= eps -> separated eps l -> forall lo hi, (forall x, In x l -> lo <= x <= hi) -> lo <= hi -> ascending lo l hi.
Proof.
  intros He. induction l as [|a l IH]; intros H lo hi Hb Hl; [exact Hl|]. cbn [separated ascending] in *. destruct H as [H1 H2].
  split; [apply Hb; left; reflexivity|]. apply IH; [assumption| |apply Hb; left; reflexivity].
  intros x Hx. split; [|apply Hb; right; assumption].
  clear IH Hb. revert a H1 H2 x Hx. induction l as [|b l IH]; intros a H1 H2 x Hx; [destruct Hx|].
  cbn in H2. destruct H2 as [H2 H3]. destruct Hx as [<-|Hx]; [lra|]. assert (b <= x) by (eapply IH; eassumption). lra.
Qed.
Lemma separated_filter eps q (l : list (Q * Q)) : 0 <= eps -> separated eps (map fst l) -> separated eps (map fst (filter q l)).
Proof.
  intros He.
  assert (B : forall (l : list (Q * Q)) a, separated eps (map fst (a :: l)) -> forall x, In x l -> fst a < fst x /\ eps < fst x - fst a).
  { clear l. induction l as [|b l IH]; intros a H x Hx; [destruct Hx|]. cbn in H. destruct H as [H1 H2].
    destruct Hx as [<-|Hx]; [assumption|]. destruct (IH b H2 x Hx). lra. }
  induction l as [|a l IH]; intros H; [exact I|]. cbn [filter]. assert (H2 : separated eps (map fst l)) by (cbn in H; apply H).
  destruct (q a); [|auto]. cbn [map separated]. split; [|auto].
  destruct (filter q l) as [|b r] eqn:F; [exact I|]. cbn [map]. apply (B l a H).
  assert (In b (filter q l)) by (rewrite F; left; reflexivity). apply filter_In in H0. apply H0.
Qed.

Lemma events_ok fuel altitude jd0 jd1 step eps thr maxima evs : real_function altitude -> 0 < step -> 0 <= eps ->
  find_maxima fuel jd0 jd1 altitude (StepDays step) eps 12 = Found maxima ->
  find_events fuel altitude jd0 jd1 step eps thr = Found evs ->
  sorted_fst evs /\
  ((forall x y, In (x, y) maxima -> thr <= y -> thr <= altitude x) ->
   (forall m t c, In (m, 1%Z) evs -> In (t, c) evs -> t == m -> c = 1%Z) ->
   pass_ok (negb (Qltb (altitude jd0) thr)) (map snd evs)).
Proof.
  intros Hf Hs He HM H. unfold find_events in H. rewrite HM in H.
  set (jdmax := map fst (filter (fun p => Qle_bool thr (snd p)) maxima)) in *.
  fold (below altitude thr) in H. set (f := below altitude thr) in *.
  assert (Ff : time_function f) by (apply below_fun; assumption).
  assert (Fv : forall t, (f t = 0 \/ f t = 1)%Z) by (intros t; unfold f, below; destruct (Qltb _ _); auto).
  set (jdo := midpoints (doublets (jd0 :: jdmax ++ [jd1]))) in *.
  destruct (find_loop fuel f eps 8 jdo) as [rs|] eqn:R; [|discriminate]. injection H as <-.
  split; [apply argsort_sorted|]. intros Hpl Htie.
  assert (J : jd0 < jd1). { unfold find_maxima in HM. destruct (Qle_bool jd1 jd0) eqn:E; [discriminate|]. apply Qleb_f in E. assumption. }
  assert (Hn1 : (1 <= 12)%nat) by lia.
  destruct (find_maxima_ok _ _ _ _ _ _ _ _ He (Hs : positive_sampling (StepDays step)) Hn1 HM) as [Sep In_].
  assert (Sep' : separated eps jdmax) by (apply separated_filter; assumption).
  assert (Rng : forall x, In x jdmax -> jd0 <= x <= jd1 /\ f x = 0%Z).
  { intros x Hx. apply in_map_iff in Hx as [[x' y] [<- Hx]]. apply filter_In in Hx as [Hx Hy]. cbn [fst snd] in *.
    apply Qleb_t in Hy. split; [apply (In_ x' y Hx)|]. unfold f, below.
    rewrite (proj2 (Qltb_f _ _)); [reflexivity|]. eapply Hpl; eassumption. }
  assert (Asc : ascending jd0 jdmax jd1) by (eapply separated_asc; [exact He|exact Sep'|intros x Hx; apply Rng; assumption|lra]).
  assert (Asc' : ascending jd0 (jdmax ++ [jd1]) jd1) by (eapply ascending_app; [exact Asc|cbn; split; apply Qle_refl]).
  assert (AscJ : ascending jd0 jdo jd1) by (apply mid_asc; [apply Qle_refl|exact Asc']).
  (* the rises and sets form a chain *)
  assert (Hd : exists a l, jdo = a :: l /\ a == jd0).
  { unfold jdo. destruct (jdmax ++ [jd1]) as [|b l] eqn:E; [apply app_eq_nil in E as [_ E]; discriminate|].
    rewrite mid_cons. eexists. eexists. split; [reflexivity|apply half]. }
  destruct Hd as (a & l & Ejdo & Ea).
  pose proof R as R0. rewrite Ejdo in R0, AscJ.
  destruct (find_loop_spec f Ff 6 eps fuel a l jd0 jd1 rs AscJ R0) as (brs & Ers & Lk & Sp & _).
  assert (Fa : f a = f jd0) by (apply Ff; assumption). rewrite Fa in Lk.
  set (RS := map (fun p => (fst p, (snd p * 2)%Z)) rs) in *.
  assert (RSin : forall e, In e RS -> snd e = 0%Z \/ snd e = 2%Z).
  { intros e Hi. unfold RS in Hi. rewrite Ers in Hi. apply in_map_iff in Hi as [q [<- Hi]]. apply in_map_iff in Hi as [b [<- _]].
    cbn [fst snd]. destruct (Fv (snd b)) as [-> | ->]; auto. }
  assert (Filt : filter not_culm (argsort (map (fun t => (t, 1%Z)) jdmax ++ RS)) = RS).
  { rewrite filter_argsort, filter_app.
    assert (F1 : filter not_culm (map (fun t => (t, 1%Z)) jdmax) = []) by (clear; induction jdmax; [reflexivity|assumption]).
    assert (F2 : filter not_culm RS = RS).
    { clear - RSin. induction RS as [|e r IH]; [reflexivity|]. cbn [filter]. unfold not_culm at 1.
      destruct (RSin e (or_introl eq_refl)) as [-> | ->]; cbn; f_equal; apply IH; intros; apply RSin; right; assumption. }
    rewrite F1, F2. cbn [app]. apply argsort_id. unfold RS. rewrite Ers. clear - Sp. revert Sp. generalize jd0.
    induction brs as [|[s e] r IH]; intros lo Sp; [exact I|]. cbn in Sp. destruct Sp as (P1 & P2 & P3).
    cbn [map fst snd sorted_fst]. split; [|eapply IH; exact P3].
    intros b Hb. apply in_map_iff in Hb as [q [<- Hb]]. apply in_map_iff in Hb as [[s' e'] [<- Hb]]. cbn [fst snd].
    clear - P3 Hb. revert e P3. induction r as [|[s2 e2] r IH]; intros e P3; [destruct Hb|].
    cbn in P3. destruct P3 as (Q1 & Q2 & Q3). destruct Hb as [Eq|Hb]; [injection Eq as -> ->; lra|].
    assert (e2 <= e') by (apply IH; assumption). lra. }
  assert (Ab : negb (Qltb (altitude jd0) thr) = (f jd0 =? 0)%Z) by (unfold f, below; destruct (Qltb _ _); reflexivity).
  rewrite Ab. apply merge_ok.
  - apply argsort_sorted.
  - intros e Hi. apply argsort_in, in_app_or in Hi as [Hi|Hi].
    + apply in_map_iff in Hi as [t [<- _]]. auto.
    + destruct (RSin e Hi); auto.
  - rewrite Filt. unfold RS. rewrite Ers. eapply (chain_alternates f Fv); [apply Fv|exact Lk].
  - rewrite Filt. intros m t c I1 I2 E. assert (c = 1%Z).
    { eapply Htie; [exact I1| |exact E]. apply argsort_in, in_or_app. right. assumption. }
    subst c. destruct (RSin _ I2) as [G|G]; cbn in G; discriminate.
  - rewrite Filt. intros m I1. apply argsort_in, in_app_or in I1 as [I1|I1].
    2:{ destruct (RSin _ I1) as [G|G]; cbn in G; discriminate. }
    apply in_map_iff in I1 as [m' [Em I1]]. injection Em as ->.
    destruct (Rng m I1) as [_ Fm]. apply in_split in I1 as (pre & post & Esp).
    destruct (mid_split (jd0 :: pre) m (post ++ [jd1])) as (U & E1 & Une & E2 & Ehd); [discriminate|].
    assert (Ej : jdo = U ++ midpoints (doublets (m :: post ++ [jd1]))).
    { rewrite <- E1. unfold jdo. rewrite Esp, <- app_assoc. reflexivity. }
    set (V := midpoints (doublets (m :: post ++ [jd1]))) in *.
    assert (Vc : exists V', V = (m + m) / 2 :: V').
    { unfold V. destruct (post ++ [jd1]) as [|b q] eqn:E; [apply app_eq_nil in E as [_ E]; discriminate|]. rewrite mid_cons. eexists; reflexivity. }
    destruct Vc as [V' EV].
    assert (Am : ascending jd0 pre m /\ ascending m post jd1).
    { clear - Asc Esp. rewrite Esp in Asc. clear Esp. revert Asc. generalize jd0. induction pre as [|b pre IH]; intros lo A; cbn in A |- *.
      - exact A.
      - destruct A as [A1 A2]. destruct (IH b A2) as [B1 B2]. repeat split; assumption. }
    destruct Am as [Am1 Am2].
    assert (PU : part f (f jd0) jd0 (U ++ [(m + m) / 2]) m (f m)).
    { split.
      - rewrite <- E2. cbn [app]. apply mid_asc; [apply Qle_refl|]. eapply ascending_app; [exact Am1|cbn; split; apply Qle_refl].
      - destruct U as [|u U']; [congruence|]. cbn [app hd] in *. split; [apply Ff; exact Ehd|].
        rewrite last_last. apply Ff. apply half. }
    assert (PV : part f (f m) m V jd1 (f jd1)).
    { split.
      - apply mid_asc; [apply Qle_refl|]. eapply ascending_app; [exact Am2|cbn; split; apply Qle_refl].
      - rewrite EV. split; [apply Ff; apply half|]. apply Ff.
        rewrite <- (last_cons_any ((m + m) / 2) V' 0), <- EV. unfold V. rewrite mid_last. rewrite last_last. reflexivity. }
    assert (EC : changes f jdo = changes f (U ++ [(m + m) / 2]) ++ changes f V) by (rewrite Ej, EV; apply changes_share).
    destruct (loop_split f Ff 6 eps fuel jdo _ _ _ _ _ _ _ _ rs EC PU PV R) as (L & Rr & Er & L1 & L2 & L3 & L4).
    unfold RS. rewrite Er. rewrite (state_split f Fv L Rr _ (f m) _ _ _ m L1 L2 L3 L4). rewrite Fm. reflexivity.
Qed.
