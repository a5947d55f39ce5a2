From Coq Require Import ZArith QArith Qround Qreals Reals List Bool Lia Lra Morphisms.
From Verif Require Import PyNum Time_Model Real_Math Real_Math_Proofs Geo_Proofs Almanac_Model Almanac_Proofs Search_Model Search_Spec Search_Proofs Search_Proofs2 Phases_Model Phases_Spec Phases_Proofs Phases_Proofs2 Phases_Proofs3.
Import ListNotations.
Open Scope R_scope.

(** crossings passed at time [t], where the function's value is [v] *)
Definition after (above : bool) : Z := if above then 0%Z else 1%Z.
Fixpoint G (above : bool) (cs : list R) (t : R) (v : Z) : Z :=
  match cs with
  | [] => 0%Z
  | c :: r => if Rlt_dec c t then (1 + G (negb above) r t v)%Z
              else if Req_EM_T t c then (if (v =? after above)%Z then 1%Z else 0%Z) else 0%Z
  end.
Definition lab (above : bool) (k : Z) : Z := if xorb above (Z.odd k) then 1%Z else 0%Z.
Lemma lab_0 above : lab above 0 = after (negb above).
Proof. destruct above; reflexivity. Qed.
Lemma lab_S above k : lab above (1 + k) = lab (negb above) k.
Proof. unfold lab. rewrite Z.odd_add. cbn. destruct above, (Z.odd k); reflexivity. Qed.
Lemma G_nonneg cs : forall above t v, (0 <= G above cs t v)%Z.
Proof. induction cs as [|c r IH]; intros above t v; cbn [G]; [lia|]. destruct (Rlt_dec c t); [pose proof (IH (negb above) t v); lia|]. destruct (Req_EM_T t c); [destruct (_ =? _)%Z; lia|lia]. Qed.
Definition fits (h : R -> R) (level t : R) (v : Z) : Prop :=
  (level < h t -> v = 1%Z) /\ (h t < level -> v = 0%Z) /\ (v = 0%Z \/ v = 1%Z).
Lemma fits_side h level t v (above : bool) : fits h level t v -> (if above then level < h t else h t < level) -> v = after (negb above).
Proof. intros (A & B & _) S. destruct above; cbn; auto. Qed.

Lemma crosses_lt h level gap b cs : forall above a c, crosses h level gap a above (c :: cs) b -> a < c < b.
Proof. intros above a c H. apply H. Qed.
(** a time up to the first crossing has passed at most that one, and only when on it *)
Lemma G_upto h level gap b cs : forall above a t v, crosses h level gap a above cs b -> t <= a -> G above cs t v = 0%Z.
Proof.
  intros above a t v C Ht. destruct cs as [|c r]; [reflexivity|]. cbn [G]. apply crosses_lt in C.
  destruct (Rlt_dec c t); [lra|]. destruct (Req_EM_T t c); [lra|reflexivity].
Qed.
Lemma G_value h level gap b cs : forall above a t v, crosses h level gap a above cs b -> a < t <= b -> fits h level t v -> v = lab above (G above cs t v).
Proof.
  induction cs as [|c r IH]; intros above a t v C Ht F.
  - cbn [G]. rewrite lab_0. apply (fits_side h level t); [exact F|]. cbn in C. apply C. exact Ht.
  - cbn [crosses] in C. destruct C as (C1 & C2 & C3 & C4 & C5). cbn [G]. destruct (Rlt_dec c t) as [L|L].
    + rewrite lab_S. apply (IH _ c); [exact C5|lra|exact F].
    + destruct (Req_EM_T t c) as [->|N].
      * destruct F as (_ & _ & F). destruct (Z.eqb_spec v (after above)) as [E|E].
        -- subst v. replace 1%Z with (1 + 0)%Z by lia. rewrite lab_S, lab_0, negb_involutive. reflexivity.
        -- rewrite lab_0. destruct above; cbn in *; destruct F; congruence.
      * rewrite lab_0. apply (fits_side h level t); [exact F|]. apply C2. lra.
Qed.
Lemma G_mono h level gap b cs : forall above a s t vs vt, crosses h level gap a above cs b -> s < t -> (G above cs s vs <= G above cs t vt)%Z.
Proof.
  induction cs as [|c r IH]; intros above a s t vs vt C H; cbn [G]; [lia|]. cbn [crosses] in C. destruct C as (C1 & C2 & C3 & C4 & C5).
  destruct (Rlt_dec c t) as [L|L].
  - destruct (Rlt_dec c s); [pose proof (IH (negb above) c s t vs vt C5 H); lia|]. pose proof (G_nonneg r (negb above) t vt). destruct (Req_EM_T s c); [destruct (_ =? _)%Z; lia|lia].
  - destruct (Rlt_dec c s); [lra|]. destruct (Req_EM_T s c); [lra|]. destruct (Req_EM_T t c); [destruct (_ =? _)%Z; lia|lia].
Qed.
Lemma G_gap h level gap b cs : forall above a s t vs vt, 0 < gap -> crosses h level gap a above cs b -> s < t -> t - s < gap -> (G above cs t vt <= G above cs s vs + 1)%Z.
Proof.
  induction cs as [|c r IH]; intros above a s t vs vt Hg C H W; cbn [G]; [lia|]. cbn [crosses] in C. destruct C as (C1 & C2 & C3 & C4 & C5).
  destruct (Rlt_dec c s) as [Ls|Ls].
  - destruct (Rlt_dec c t); [|lra]. pose proof (IH (negb above) c s t vs vt Hg C5 H W). lia.
  - assert (Z0 : (0 <= (if Req_EM_T s c then if (vs =? after above)%Z then 1 else 0 else 0))%Z) by (destruct (Req_EM_T s c); [destruct (_ =? _)%Z; lia|lia]).
    destruct (Rlt_dec c t) as [L|L].
    + assert (G (negb above) r t vt = 0%Z); [|lia]. destruct r as [|c' r]; [reflexivity|]. cbn [G]. destruct (Rlt_dec c' t); [lra|]. destruct (Req_EM_T t c'); [lra|reflexivity].
    + destruct (Req_EM_T t c); [destruct (vt =? _)%Z; lia|lia].
Qed.
Lemma G_end h level gap b cs : forall above a v, crosses h level gap a above cs b -> G above cs b v = Z.of_nat (length cs).
Proof.
  induction cs as [|c r IH]; intros above a v C; [reflexivity|]. cbn [G length]. cbn [crosses] in C. destruct C as (C1 & C2 & C3 & C4 & C5).
  destruct (Rlt_dec c b); [|lra]. rewrite (IH _ c v C5). lia.
Qed.
Lemma G_place h level gap b cs : forall above a s t vs vt k, crosses h level gap a above cs b -> (k < length cs)%nat ->
  (G above cs s vs <= Z.of_nat k)%Z -> (Z.of_nat k < G above cs t vt)%Z -> s <= nth k cs 0 <= t.
Proof.
  induction cs as [|c r IH]; intros above a s t vs vt k C Hk Hs Ht; [cbn in Hk; lia|]. cbn [G] in Hs, Ht. cbn [crosses] in C. destruct C as (C1 & C2 & C3 & C4 & C5).
  destruct k as [|k]; cbn [nth].
  - split.
    + destruct (Rlt_dec c s); [|lra]. pose proof (G_nonneg r (negb above) s vs). lia.
    + destruct (Rlt_dec c t); [lra|]. destruct (Req_EM_T t c); [lra|lia].
  - assert (T : c < t /\ (Z.of_nat k < G (negb above) r t vt)%Z).
    { destruct (Rlt_dec c t); [split; [assumption|lia]|]. destruct (Req_EM_T t c); [destruct (vt =? _)%Z; lia|lia]. }
    assert (Sx : exists vs', (G (negb above) r s vs' <= Z.of_nat k)%Z).
    { destruct (Rlt_dec c s) as [L|L]; [exists vs; lia|]. exists 0%Z. rewrite (G_upto h level gap b r (negb above) c s 0 C5) by lra. lia. }
    destruct Sx as (vs' & Sx). cbn in Hk. apply (IH (negb above) c s t vs' vt k C5); [lia|exact Sx|apply T].
Qed.

Lemma to_crossings late evs : forall (cs : list R) above j (P : Q * Z -> Z -> Prop), Forall2 P evs (levels j (j + Z.of_nat (length cs))) ->
  (forall e k, (k < length cs)%nat -> P e (j + 1 + Z.of_nat k)%Z -> nth k cs 0 <= Q2R (fst e) <= nth k cs 0 + late /\ snd e = lab above (1 + Z.of_nat k)) ->
  one_event_per_crossing late above cs evs.
Proof.
  induction evs as [|[t v] evs IH]; intros cs above j P H K.
  - destruct cs as [|c cs]; [exact I|]. cbn [length] in H. rewrite levels_cons in H by lia. inversion H.
  - destruct cs as [|c cs]; [cbn [length] in H; rewrite Z.add_0_r, levels_nil in H; inversion H|].
    cbn [length] in H. rewrite levels_cons in H by lia. inversion H as [|? ? ? ? H1 H2]; subst.
    destruct (K (t, v) 0%nat) as [B V]; [cbn; lia|replace (j + 1 + Z.of_nat 0)%Z with (j + 1)%Z by lia; exact H1|]. cbn [nth fst snd] in B, V.
    cbn [one_event_per_crossing]. split; [exact B|]. split; [rewrite V; change (1 + Z.of_nat 0)%Z with (1 + 0)%Z; rewrite lab_S, lab_0, negb_involutive; reflexivity|].
    apply (IH cs (negb above) (j + 1)%Z P).
    + replace (j + 1 + Z.of_nat (length cs))%Z with (j + Z.of_nat (S (length cs)))%Z by lia. exact H2.
    + intros e k Hk He. destruct (K e (S k)) as [B' V']; [cbn; lia|replace (j + 1 + Z.of_nat (S k))%Z with (j + 1 + 1 + Z.of_nat k)%Z by lia; exact He|].
      cbn [nth] in B'. split; [exact B'|]. rewrite V'. replace (Z.of_nat (S k)) with (1 + Z.of_nat k)%Z by lia. rewrite (lab_S above). reflexivity.
Qed.

Section Cross.
Variables (f : Q -> Z) (step jd0 jd1 : Q) (h : R -> R) (level : R) (above : bool) (cs : list R).
Hypothesis Hf : time_function f.
Hypothesis Hs : (0 < step)%Q.
Hypothesis He : (EPSILON < step)%Q.
Hypothesis Hfit : forall t, (jd0 <= t)%Q -> (t <= jd1)%Q -> fits h level (Q2R t) (f t).
Hypothesis Hstart : if above then level < h (Q2R jd0) else h (Q2R jd0) < level.
Hypothesis Hcs : crosses h level (Q2R step) (Q2R jd0) above cs (Q2R jd1).
Let g (t : Q) : Z := G above cs (Q2R t) (f t).
Lemma cross_events fuel num evs : (2 <= num)%nat -> find_discrete fuel jd0 jd1 f (StepDays step) EPSILON num = Found evs ->
  one_event_per_crossing millisecond above cs evs.
Proof.
  intros Hn H.
  assert (Hg : time_function g). { intros x y E. unfold g. rewrite (Qeq_eqR _ _ E), (Hf _ _ E). reflexivity. }
  assert (J : (jd0 < jd1)%Q).
  { unfold find_discrete in H. destruct (Qle_bool jd1 jd0) eqn:E; [discriminate|]. apply Qleb_f in E. exact E. }
  assert (V : forall t, (jd0 <= t)%Q -> (t <= jd1)%Q -> f t = lab above (g t)).
  { intros t H1 H2. destruct (Q2R_in _ _ _ H1 H2) as [R1 R2]. destruct (Rle_lt_or_eq_dec _ _ R1) as [L|E].
    - apply (G_value h level (Q2R step) (Q2R jd1) cs above (Q2R jd0)); [exact Hcs|lra|apply Hfit; assumption].
    - unfold g. rewrite (G_upto h level (Q2R step) (Q2R jd1) cs above (Q2R jd0)) by (try exact Hcs; lra). rewrite lab_0. apply (fits_side h level (Q2R t)); [apply Hfit; assumption|rewrite <- E; exact Hstart]. }
  assert (M : forall s t, (jd0 <= s)%Q -> (s <= t)%Q -> (t <= jd1)%Q -> (g s <= g t)%Z).
  { intros s t H1 H2 H3. destruct (Qle_lt_or_eq _ _ H2) as [L|E]; [|rewrite (Hg _ _ E); lia].
    apply (G_mono h level (Q2R step) (Q2R jd1) cs above (Q2R jd0)); [exact Hcs|apply Qlt_Rlt; exact L]. }
  assert (W : forall s t, (jd0 <= s)%Q -> (s <= t)%Q -> (t <= jd1)%Q -> (t - s < step)%Q -> (g t <= g s + 1)%Z).
  { intros s t H1 H2 H3 H4. destruct (Qle_lt_or_eq _ _ H2) as [L|E]; [|rewrite (Hg _ _ E); lia].
    apply (G_gap h level (Q2R step) (Q2R jd1) cs above (Q2R jd0)); [|exact Hcs|apply Qlt_Rlt; exact L|rewrite <- Q2R_minus; apply Qlt_Rlt; exact H4].
    replace 0 with (Q2R 0) by (unfold Q2R; cbn; lra). apply Qlt_Rlt. exact Hs. }
  assert (S : Forall2 (seen_event f g jd0 jd1 EPSILON) evs (levels (g jd0) (g jd1))).
  { apply (search_counts f g jd0 jd1 step) with (fuel := fuel) (num := num); try assumption.
    - intros s t H1 H2 H3 E. rewrite !V, E by (try assumption; eapply Qle_trans; eassumption). reflexivity.
    - intros s t H1 H2 H3 H4 E. rewrite !V in E by (try assumption; eapply Qle_trans; eassumption).
      pose proof (M s t H1 H2 H3). pose proof (W s t H1 H2 H3 H4). assert (D : g t = g s \/ g t = (1 + g s)%Z) by lia. destruct D as [D|D]; [auto|].
      rewrite D, lab_S in E. unfold lab in E. destruct above, (Z.odd (g s)); discriminate.
    - intros s t H1 H2 H3 H4. apply W; try assumption. eapply Qle_lt_trans; eassumption. }
  assert (G0 : g jd0 = 0%Z) by (apply (G_upto h level (Q2R step) (Q2R jd1) cs above (Q2R jd0)); [exact Hcs|lra]).
  assert (G1 : g jd1 = Z.of_nat (length cs)) by (apply (G_end h level (Q2R step) (Q2R jd1) cs above (Q2R jd0)); exact Hcs).
  rewrite G0, G1 in S. apply (to_crossings millisecond evs cs above 0 (seen_event f g jd0 jd1 EPSILON)); [exact S|].
  intros [t v] k Hk (E1 & E2 & s & S1 & S2 & S3 & S4 & S5). cbn [fst snd] in *.
  destruct (G_place h level (Q2R step) (Q2R jd1) cs above (Q2R jd0) (Q2R s) (Q2R t) (f s) (f t) k Hcs Hk) as [P1 P2]; [unfold g in S5; lia|unfold g in E2; lia|].
  apply Qle_Rle in S4. rewrite Q2R_minus, Q2R_eps in S4. split; [lra|].
  rewrite E1, V, E2; [f_equal; lia| |exact S3]. eapply Qle_trans; [exact S1|apply Qlt_le_weak; exact S2].
Qed.
Lemma cross_found r : (jd0 < jd1)%Q -> (jd1 - jd0 <= EPSILON * inject_Z (11 ^ Z.of_nat r))%Q ->
  exists evs, find_discrete (S r) jd0 jd1 f (StepDays step) EPSILON 12 = Found evs /\ one_event_per_crossing millisecond above cs evs.
Proof.
  intros L R. destruct (search_ends f jd0 jd1 (StepDays step) EPSILON 12 r Hf) as [evs E]; [exact Hs|lia|exact L|exact R|].
  exists evs. split; [exact E|]. eapply cross_events; [|exact E]. lia.
Qed.
End Cross.
