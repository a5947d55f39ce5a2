(** The loop of the float search. *)
From Coq Require Import ZArith Reals Lia Lra List Bool.
From Coq.Floats Require Import SpecFloat.
From Flocq Require Import Core BinarySingleNaN.
From Verif Require Import Float64 Float64_Proofs Float_Time_Proofs Float_Time_Proofs4 CalF_Proofs CalF_Proofs2 SexaF_Proofs2 Wrap_Proofs Wrap_Proofs2 Search_Model Search_Proofs SearchF_Model SearchF_Spec SearchF_Proofs.
Import ListNotations.
Open Scope R_scope.

Fixpoint asc (a : R) (ts : list b64) (b : R) : Prop := match ts with [] => a <= b | t :: r => a <= val t /\ asc (val t) r b end.
Lemma asc_le l : forall a b, asc a l b -> a <= b.
Proof. induction l as [|t r IH]; cbn; intros a b H; [exact H|]. destruct H as [H1 H2]. apply IH in H2. lra. Qed.
Lemma asc_weak l a a' b b' : a' <= a -> b <= b' -> asc a l b -> asc a' l b'.
Proof. revert a a'. induction l as [|t r IH]; cbn; intros a a' H1 H2 H; [lra|]. destruct H as [H3 H4]. split; [lra|]. apply IH with (val t); (assumption || lra). Qed.
Lemma asc_app l1 : forall l2 a m b, asc a l1 m -> asc m l2 b -> asc a (l1 ++ l2) b.
Proof. induction l1 as [|t r IH]; cbn; intros l2 a m b H1 H2; [apply asc_weak with m b; (assumption || lra)|]. destruct H1. split; [assumption|]. eapply IH; eassumption. Qed.
Lemma asc_in l : forall a b x, asc a l b -> In x l -> a <= val x <= b.
Proof. induction l as [|t r IH]; cbn; intros a b x H Hi; [contradiction|]. destruct H as [H1 H2]. destruct Hi as [->|Hi]; [apply asc_le in H2; lra|]. apply (IH _ _ _ H2) in Hi. lra. Qed.

Fixpoint spreadR (lo : R) (brs : list (b64 * b64)) (hi : R) : Prop :=
  match brs with [] => lo <= hi | (s, e) :: r => lo <= val s /\ val s < val e /\ spreadR (val e) r hi end.
Lemma spreadR_weak brs a a' b : a' <= a -> spreadR a brs b -> spreadR a' brs b.
Proof. destruct brs as [|[s e] r]; cbn; intros H1 H2; [lra|]. destruct H2. split; [lra|assumption]. Qed.
Lemma spreadR_in brs : forall lo hi p, spreadR lo brs hi -> In p brs -> lo <= val (fst p) /\ val (fst p) < val (snd p) /\ val (snd p) <= hi.
Proof.
  induction brs as [|[s e] r IH]; cbn; intros lo hi p H Hi; [contradiction|]. destruct H as (H1 & H2 & H3). destruct Hi as [<-|Hi].
  - cbn. split; [lra|]. split; [lra|]. clear - H3. revert H3. generalize (val e). induction r as [|[s' e'] r IH]; cbn; intros a H; [exact H|]. destruct H as (G1 & G2 & G3). apply IH in G3. lra.
  - apply (IH _ _ _ H3) in Hi. lra.
Qed.
Fixpoint linkedR (f : b64 -> Z) (v0 : Z) (brs : list (b64 * b64)) (v1 : Z) : Prop :=
  match brs with [] => v0 = v1 | (s, e) :: r => f s = v0 /\ f e <> v0 /\ linkedR f (f e) r v1 end.

(** ** A block *)
Lemma day_b (b : bf) : is_finite b = true -> Rabs (B2R b) <= D -> day_number (B2SF b).
Proof. intros F H. exists b. repeat split; assumption. Qed.
Lemma day_val x : day_number x -> -D <= val x <= D.
Proof. intros (b & -> & F & H). rewrite val_b. unfold D. apply Rabs_le_inv in H. exact H. Qed.
Definition even_steps (w dev : R) (p : b64 * b64) : Prop := w - dev <= val (snd p) - val (fst p) <= w + dev.
Lemma run_asc w l : forall x, run w x l -> asc (B2R x) (map (fun b : bf => B2SF b) l) (B2R (last l x)).
Proof.
  induction l as [|y r IH]; intros x H; [cbn; lra|]. destruct H as [[H1 H2] H3]. rewrite last_cons_any. cbn [map asc]. rewrite val_b. split; [exact H1|]. apply IH. exact H3.
Qed.
Lemma run_pairs w l : forall x p, run w x l -> In p (pairs (map (fun b : bf => B2SF b) (x :: l))) -> even_steps (w / 11) (2.3 * U) p.
Proof.
  induction l as [|y r IH]; intros x p H Hp; [destruct Hp|]. destruct H as [[H1 H2] H3].
  change (pairs (map (fun b : bf => B2SF b) (x :: y :: r))) with ((B2SF x, B2SF y) :: pairs (map (fun b : bf => B2SF b) (y :: r))) in Hp. destruct Hp as [<-|Hp].
  - unfold even_steps. cbn [fst snd]. rewrite !val_b. exact H2.
  - apply (IH y p H3 Hp).
Qed.
Lemma last_map {A B} (g : A -> B) l x : last (map g l) (g x) = g (last l x).
Proof. revert x. induction l as [|y r IH]; intros x; [reflexivity|]. cbn [map]. rewrite !last_cons_any. apply IH. Qed.
Lemma block_vals s e : day_number s -> day_number e -> 14.5 * U <= val e - val s <= 131072 ->
  exists x l, block64 12 (s, e) = x :: l /\ Forall day_number (x :: l) /\ val x = val s /\ val (last l x) = val e /\ asc (val s) (x :: l) (val e) /\
    forall p, In p (pairs (x :: l)) -> even_steps ((val e - val s) / 11) (2.3 * U) p.
Proof.
  intros (a & -> & Fa & Ha) (b & -> & Fb & Hb). rewrite !val_b. intros Hw. destruct (block_floats a b Fa Fb Ha Hb Hw) as (x & l & E & F & Vx & Vl & R). exists (B2SF x), (map (fun b : bf => B2SF b) l).
  pose proof (run_asc _ _ _ R) as Ac. split; [exact E|]. split; [|split; [rewrite val_b; exact Vx|split; [rewrite (last_map (fun b : bf => B2SF b)), val_b; exact Vl|split]]].
  - assert (Al : asc (B2R x) (map (fun b : bf => B2SF b) (x :: l)) (B2R (last l x))) by (cbn [map asc]; rewrite val_b; split; [lra|exact Ac]).
    apply Forall_forall. intros y Hy. change (In y (map (fun b : bf => B2SF b) (x :: l))) in Hy. pose proof (asc_in _ _ _ _ Al Hy) as B. apply in_map_iff in Hy as (z & <- & Hz). rewrite val_b in B. rewrite Vx, Vl in B. rewrite Forall_forall in F.
    apply day_b; [apply F; exact Hz|]. apply Rabs_le_inv in Ha, Hb. unfold D. apply Rabs_le. lra.
  - cbn [asc]. rewrite val_b, Vx. split; [lra|]. rewrite Vx, Vl in Ac. exact Ac.
  - intros p Hp. exact (run_pairs _ _ _ _ R Hp).
Qed.

(** ** The widths and epsilon *)
Lemma epsilon_bf : exists b : bf, EPSILON64 = B2SF b /\ is_finite b = true /\ 24.85 * U <= B2R b <= 24.855135 * U.
Proof.
  destruct (fl_bf 6996098493140215 (-79)) as (b & E & F & V); [split; lia|]. exists b. split; [rewrite <- E; vm_compute; reflexivity|]. split; [exact F|].
  rewrite V, F2R_neg. change (IZR (Z.pow_pos 2 79)) with 604462909807314587353088. unfold U. lra.
Qed.
Lemma width_test s e : day_number s -> day_number e -> val s <= val e ->
  (val e - val s <= 24.84 * U -> fleb (fsub e s) EPSILON64 = true) /\ (fleb (fsub e s) EPSILON64 = true -> val e - val s <= 24.85515 * U).
Proof.
  intros (a & -> & Fa & Ha) (b & -> & Fb & Hb). rewrite !val_b. intros Hle. destruct epsilon_bf as (ep & -> & Fe & Ve). apply Rabs_le_inv in Ha, Hb.
  assert (bpow radix2 30 <= bpow radix2 1007) by (apply bpow_le; lia). assert (E30 : bpow radix2 30 = 1073741824) by reflexivity.
  destruct (fsub_val b a Fb Fa) as (z & -> & Fz & Vz); [apply Rabs_lt; lra|].
  unfold fleb. change (SFleb (B2SF z) (B2SF ep)) with (Bleb z ep). rewrite Bleb_correct by assumption.
  assert (P : 0 <= B2R z) by (rewrite Vz; apply rnd_nonneg; lra).
  assert (bu : bpow radix2 (-26) = 32 * U) by (cbn; unfold U; lra). assert (bt : bpow radix2 (-26 - 54) <= 0.0001 * U) by (cbn; unfold U; lra).
  split.
  - intros Hw. apply Rle_bool_true. rewrite Vz. pose proof (rnd_err (B2R b - B2R a) (-26) ltac:(lia)) as R. rewrite bu in R. assert (0 < U) by (unfold U; lra). specialize (R ltac:(lra)). lra.
  - intros Hb'. assert (Hz : B2R z <= B2R ep) by (destruct (Rle_bool_spec (B2R z) (B2R ep)); [assumption|discriminate]).
    pose proof (SexaF_Proofs2.rnd_err (B2R b - B2R a)) as R. rewrite (Rabs_right (B2R b - B2R a)) in R by lra. rewrite <- Vz in R. apply Rabs_le_inv in R. 
    assert (eta <= 0.00001 * U). { unfold eta. assert (bpow radix2 (-1075) <= bpow radix2 (-60)) by (apply bpow_le; lia). assert (bpow radix2 (-60) <= 0.00001 * U) by (cbn; unfold U; lra). lra. }
    unfold eps in R. assert (Hd : B2R b - B2R a <= 1). { apply Rnot_lt_le. intros L. unfold U in *. lra. } unfold U in *. lra.
Qed.

(** ** The changes among the samples *)
Section F.
Variable f : b64 -> Z.
Hypothesis Hf : time_function64 f.

Lemma changes64_cons a b l : changes64 f (a :: b :: l) = if (f a =? f b)%Z then changes64 f (b :: l) else (a, b) :: changes64 f (b :: l).
Proof. unfold changes64, pairs. cbn. destruct (f a =? f b)%Z; reflexivity. Qed.
Lemma changes64_app l1 b l2 : l1 <> [] ->
  changes64 f (l1 ++ b :: l2) = changes64 f l1 ++ (if (f (last l1 b) =? f b)%Z then [] else [(last l1 b, b)]) ++ changes64 f (b :: l2).
Proof.
  intros H. destruct (exists_last H) as (l & a & ->). unfold changes64. rewrite pairs_app, filter_app. rewrite last_last. cbn [filter fst snd]. destruct (f a =? f b)%Z; reflexivity.
Qed.
Lemma changes64_pairs l p : In p (changes64 f l) -> In p (pairs l) /\ f (fst p) <> f (snd p).
Proof. unfold changes64. intros H. apply filter_In in H as [H1 H2]. split; [exact H1|]. apply negb_true_iff, Z.eqb_neq in H2. exact H2. Qed.
Lemma pairs_in {A} (l : list A) p : In p (pairs l) -> In (fst p) l /\ In (snd p) l.
Proof. unfold pairs. destruct p as [x y]. intros H. split; [eapply in_combine_l; exact H|]. apply in_combine_r in H. destruct l; [destruct H|right; exact H]. Qed.
Lemma changes64_spec l : forall a lo hi, Forall day_number (a :: l) -> asc lo (a :: l) hi ->
  linkedR f (f a) (changes64 f (a :: l)) (f (last l a)) /\ spreadR lo (changes64 f (a :: l)) hi.
Proof.
  induction l as [|b l IH]; intros a lo hi Hd H.
  - cbn in *. split; [reflexivity|lra].
  - rewrite changes64_cons. cbn [asc] in H. destruct H as (H1 & H2 & H3). apply Forall_cons_iff in Hd as [Da Hd].
    destruct (IH b (val a) hi Hd) as [L S]; [split; assumption|]. destruct (Z.eqb_spec (f a) (f b)) as [E|E].
    + rewrite E. split; [rewrite last_cons_any; exact L|]. eapply spreadR_weak; [|exact S]; assumption.
    + cbn [linkedR spreadR]. repeat split; try assumption.
      * congruence.
      * rewrite last_cons_any. exact L.
      * apply Forall_cons_iff in Hd as [Db _]. destruct (Rlt_le_dec (val a) (val b)); [assumption|]. exfalso. apply E. apply Hf; try assumption. lra.
      * destruct (IH b (val b) hi Hd) as [_ S']; [split; [lra|assumption]|]. exact S'.
Qed.

(** ** Brackets that can be refined *)
Definition fine (p : b64 * b64) : Prop := day_number (fst p) /\ day_number (snd p) /\ 14.5 * U <= val (snd p) - val (fst p) <= 131072.
Lemma refine64_ends brs : forall v0 v1, Forall fine brs -> linkedR f v0 brs v1 -> brs <> [] ->
  exists a l, flat_map (block64 12) brs = a :: l /\ f a = v0 /\ f (last l a) = v1.
Proof.
  induction brs as [|[s e] r IH]; intros v0 v1 Hfine H Hne; [congruence|]. cbn [linkedR] in H. destruct H as (H1 & H2 & H3). apply Forall_cons_iff in Hfine as [(Ds & De & Hw) Hr]. cbn [fst snd] in *.
  cbn [flat_map]. destruct (block_vals s e Ds De Hw) as (a & l & -> & Hd & Ea & El & _). rewrite Forall_forall in Hd.
  assert (Fa : f a = f s) by (apply Hf; [apply Hd; left; reflexivity|exact Ds|exact Ea]).
  assert (Fl : f (last l a) = f e). { apply Hf; [|exact De|exact El]. apply Hd. clear. revert a. induction l as [|y r IH]; intros a; [left; reflexivity|]. rewrite last_cons_any. right. apply IH. }
  cbn [app]. exists a, (l ++ flat_map (block64 12) r). split; [reflexivity|]. split; [congruence|]. rewrite last_app. destruct r as [|p r].
  - cbn. cbn in H3. congruence.
  - destruct (IH (f e) v1 Hr H3) as (a' & l' & E & Ha & Hl); [discriminate|]. rewrite E. rewrite last_cons_any. assumption.
Qed.
Lemma refine64_asc brs : forall lo hi, Forall fine brs -> spreadR lo brs hi -> asc lo (flat_map (block64 12) brs) hi /\ Forall day_number (flat_map (block64 12) brs).
Proof.
  induction brs as [|[s e] r IH]; intros lo hi Hfine H; [split; [exact H|constructor]|]. cbn [spreadR] in H. destruct H as (H1 & H2 & H3). apply Forall_cons_iff in Hfine as [(Ds & De & Hw) Hr]. cbn [fst snd] in *.
  cbn [flat_map]. destruct (block_vals s e Ds De Hw) as (a & l & -> & Hd & Ea & El & Ac & _). destruct (IH _ _ Hr H3) as [G1 G2]. split.
  - eapply asc_app; [|exact G1]. eapply asc_weak; [| |exact Ac]; lra.
  - apply Forall_app. split; assumption.
Qed.
Lemma changes64_refine brs : forall v0 v1, Forall fine brs -> linkedR f v0 brs v1 ->
  changes64 f (flat_map (block64 12) brs) = flat_map (fun p => changes64 f (block64 12 p)) brs.
Proof.
  induction brs as [|[s e] r IH]; intros v0 v1 Hfine H; [reflexivity|]. pose proof Hfine as Hall. cbn [linkedR] in H. destruct H as (H1 & H2 & H3). apply Forall_cons_iff in Hfine as [(Ds & De & Hw) Hr]. cbn [fst snd] in *.
  cbn [flat_map]. rewrite <- (IH _ _ Hr H3). destruct r as [|p r].
  - cbn [flat_map]. rewrite !app_nil_r. reflexivity.
  - destruct (refine64_ends (p :: r) _ _ Hr H3) as (a' & l' & E & Ea & _); [discriminate|]. rewrite E.
    destruct (refine64_ends [(s, e)] (f s) (f e)) as (a & l & B & Ea' & El); [constructor; [repeat split; (assumption || apply Hw)|constructor]|cbn; repeat split; congruence|discriminate|].
    cbn [flat_map] in B. rewrite app_nil_r in B. rewrite B. rewrite changes64_app by discriminate. rewrite last_cons_any. rewrite El, Ea, Z.eqb_refl. reflexivity.
Qed.

(** ** One change in a bracket *)
Definition switchR (p : b64 * b64) (ch : R * Z * Z) : Prop :=
  val (fst p) < fst (fst ch) <= val (snd p) /\ snd (fst ch) <> snd ch /\
  forall t, day_number t -> val (fst p) <= val t <= val (snd p) -> (val t < fst (fst ch) -> f t = snd (fst ch)) /\ (fst (fst ch) <= val t -> f t = snd ch).
Lemma switch_after p ch : switchR p ch -> forall l a, Forall day_number (a :: l) -> asc (val (fst p)) (a :: l) (val (snd p)) -> fst (fst ch) <= val a -> changes64 f (a :: l) = [].
Proof.
  intros S. induction l as [|b l IH]; intros a Hd Ha Hc; [reflexivity|]. rewrite changes64_cons. cbn [asc] in Ha. destruct Ha as (A1 & A2 & A3). pose proof (asc_le _ _ _ A3). apply Forall_cons_iff in Hd as [Da Hd]. pose proof Hd as Hd'. apply Forall_cons_iff in Hd' as [Db _].
  destruct S as (S1 & S2 & S3). rewrite (proj2 (S3 a Da ltac:(lra))) by lra. rewrite (proj2 (S3 b Db ltac:(lra))) by lra. rewrite Z.eqb_refl. apply IH; [exact Hd| |lra]. split; [lra|assumption].
Qed.
Lemma switch_block p ch : switchR p ch -> forall l a, Forall day_number (a :: l) -> asc (val (fst p)) (a :: l) (val (snd p)) -> val a < fst (fst ch) -> fst (fst ch) <= val (last l a) ->
  exists q, changes64 f (a :: l) = [q] /\ switchR q ch.
Proof.
  intros S. induction l as [|b l IH]; intros a Hd Ha Hu Hv; [cbn in Hv; lra|]. rewrite changes64_cons. rewrite last_cons_any in Hv. pose proof Ha as Ha'. cbn [asc] in Ha. destruct Ha as (A1 & A2 & A3). pose proof (asc_le _ _ _ A3). apply Forall_cons_iff in Hd as [Da Hd]. pose proof Hd as Hd'. apply Forall_cons_iff in Hd' as [Db _].
  destruct S as (S1 & S2 & S3). rewrite (proj1 (S3 a Da ltac:(lra))) by lra. destruct (Rlt_le_dec (val b) (fst (fst ch))) as [L|L].
  - rewrite (proj1 (S3 b Db ltac:(lra))) by lra. rewrite Z.eqb_refl. apply IH; try assumption. split; [lra|assumption].
  - rewrite (proj2 (S3 b Db ltac:(lra))) by lra. apply Z.eqb_neq in S2 as S2'. rewrite S2'. exists (a, b). split.
    + f_equal. eapply switch_after with (p := p) (ch := ch); [repeat split; try assumption; try lra; apply S3; try assumption; lra|assumption| |lra]. split; [lra|assumption].
    + unfold switchR. cbn [fst snd]. split; [lra|]. split; [exact S2|]. intros t Dt Ht. apply S3; [exact Dt|lra].
Qed.
Lemma switch_refine brs cs : Forall fine brs -> Forall2 switchR brs cs -> Forall2 switchR (flat_map (fun p => changes64 f (block64 12 p)) brs) cs.
Proof.
  intros Hfine H. induction H as [|[s e] ch brs cs S H IH]; [constructor|]. apply Forall_cons_iff in Hfine as [(Ds & De & Hw) Hr]. cbn [fst snd] in *. cbn [flat_map].
  destruct (block_vals s e Ds De Hw) as (a & l & -> & Hd & Ea & El & Ac & _). destruct (switch_block (s, e) ch S l a Hd Ac) as (q & -> & Q).
  - rewrite Ea. apply S.
  - rewrite El. apply S.
  - cbn [app]. constructor; [exact Q|]. apply IH. exact Hr.
Qed.

(** ** The loop *)
Definition good_end (a : b64) (lo hi : R) (v1 : Z) (brs : list (b64 * b64)) : Prop :=
  linkedR f (f a) brs v1 /\ spreadR lo brs hi /\
  forall p, In p brs -> day_number (fst p) /\ day_number (snd p) /\ val (snd p) - val (fst p) <= 24.85515 * U.
Lemma loop64 : forall k W a l lo hi, Forall day_number (a :: l) -> asc lo (a :: l) hi ->
  (forall p, In p (changes64 f (a :: l)) -> even_steps W (5 * U) p) -> W <= 19.8 * U * 11 ^ k -> W <= 131070 ->
  exists brs, find_loop64 (S k) f EPSILON64 12 (a :: l) = Some (map (fun p => (snd p, f (snd p))) brs) /\ good_end a lo hi (f (last l a)) brs /\
    forall cs, Forall2 switchR (changes64 f (a :: l)) cs -> Forall2 switchR brs cs.
Proof.
  assert (HU : 0 < U < 0.001) by (unfold U; lra).
  induction k as [|k IH]; intros W a l lo hi Hd Ha Hw Hk Hm; destruct (changes64_spec l a lo hi Hd Ha) as [L S]; cbn [find_loop64].
  - assert (Hp : forall p, In p (changes64 f (a :: l)) -> day_number (fst p) /\ day_number (snd p) /\ fleb (fsub (snd p) (fst p)) EPSILON64 = true /\ val (snd p) - val (fst p) <= 24.85515 * U).
    { intros p Hp. pose proof (Hw p Hp) as E. unfold even_steps in E. pose proof (spreadR_in _ _ _ _ S Hp). apply changes64_pairs in Hp as [Hp _]. apply pairs_in in Hp as [P1 P2]. rewrite Forall_forall in Hd. apply Hd in P1, P2.
      destruct (width_test (fst p) (snd p) P1 P2) as [T1 _]; [lra|]. repeat split; try assumption; [apply T1|]; cbn in Hk; lra. }
    exists (changes64 f (a :: l)). split; [|split; [|intros cs Hcs; exact Hcs]].
    + destruct (changes64 f (a :: l)) as [|p ch] eqn:E; [reflexivity|]. rewrite (proj2 (forallb_forall _ _)); [reflexivity|]. intros q Hq. apply Hp. exact Hq.
    + split; [exact L|]. split; [exact S|]. intros p Q. destruct (Hp p Q) as (Q1 & Q2 & _ & Q3). repeat split; assumption.
  - destruct (changes64 f (a :: l)) as [|p ch] eqn:E.
    { exists []. split; [reflexivity|]. split; [|intros cs Hcs; exact Hcs]. split; [exact L|]. split; [exact S|]. intros p []. }
    rewrite <- E in *. assert (Hday : forall p, In p (changes64 f (a :: l)) -> day_number (fst p) /\ day_number (snd p) /\ val (fst p) < val (snd p)).
    { intros q Hq. pose proof (spreadR_in _ _ _ _ S Hq). apply changes64_pairs in Hq as [Hq _]. apply pairs_in in Hq as [P1 P2]. rewrite Forall_forall in Hd. apply Hd in P1, P2. repeat split; try assumption. lra. }
    replace (match changes64 f (a :: l) with [] => Some [] | _ => _ end) with (if forallb (fun p0 => fleb (fsub (snd p0) (fst p0)) EPSILON64) (changes64 f (a :: l)) then Some (map (fun p0 => (snd p0, f (snd p0))) (changes64 f (a :: l))) else find_loop64 (Datatypes.S k) f EPSILON64 12 (flat_map (block64 12) (changes64 f (a :: l)))) by (rewrite E; reflexivity).
    destruct (forallb _ _) eqn:B.
    { exists (changes64 f (a :: l)). split; [reflexivity|]. split; [|intros cs Hcs; exact Hcs]. split; [exact L|]. split; [exact S|]. intros q Q. destruct (Hday q Q) as (Q1 & Q2 & Q3). repeat split; try assumption.
      rewrite forallb_forall in B. apply (width_test (fst q) (snd q) Q1 Q2); [lra|]. apply B. exact Q. }
    assert (Hbig : W > 19.8 * U).
    { apply Rnot_le_gt. intros Hs. rewrite (proj2 (forallb_forall _ _)) in B; [discriminate|]. intros q Q. destruct (Hday q Q) as (Q1 & Q2 & Q3). apply (width_test (fst q) (snd q) Q1 Q2); [lra|]. pose proof (Hw q Q) as G. unfold even_steps in G. lra. }
    assert (Hfine : Forall fine (changes64 f (a :: l))).
    { apply Forall_forall. intros q Q. destruct (Hday q Q) as (Q1 & Q2 & Q3). pose proof (Hw q Q) as G. unfold even_steps in G. repeat split; try assumption; lra. }
    destruct (refine64_ends _ _ _ Hfine L) as (a' & l' & E' & Ea & El); [rewrite E; discriminate|]. destruct (refine64_asc _ _ _ Hfine S) as [A' D']. pose proof (changes64_refine _ _ _ Hfine L) as CR. rewrite E' in *.
    destruct (IH (W / 11) a' l' lo hi D' A') as (brs & H1 & H2 & H3).
    + intros q Q. rewrite CR in Q. apply in_flat_map in Q as ((s & e) & Hse & Q). rewrite Forall_forall in Hfine. destruct (Hfine _ Hse) as (Ds & De & G). cbn [fst snd] in *.
      destruct (block_vals s e Ds De G) as (x & m & Bk & _ & _ & _ & _ & P). rewrite Bk in Q. apply changes64_pairs in Q as [Q _]. apply P in Q. pose proof (Hw _ Hse) as G'. unfold even_steps in *. cbn [fst snd] in *. lra.
    + cbn [pow] in Hk. lra.
    + lra.
    + exists brs. split; [exact H1|]. unfold good_end in *. rewrite Ea, El in H2. split; [exact H2|]. intros cs Hcs. apply H3. rewrite CR. apply switch_refine; assumption.
Qed.
End F.
