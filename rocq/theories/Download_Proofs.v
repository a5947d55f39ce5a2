From Coq Require Import List Ascii String Decimal DecimalString DecimalNat Arith Lia Bool.
From Verif Require Import Download_Model Download_Spec.
Import ListNotations.
Open Scope bool_scope.
Open Scope list_scope.

(** * Names *)
Definition dot : ascii := "."%char.
Lemma rsplit_spec p : match rsplit p with
  | Some (a, b) => p = a ++ dot :: b /\ ~ In dot b
  | None => ~ In dot p end.
Proof.
  induction p as [|c r IH]; cbn; [auto|]. destruct (rsplit r) as [[a b]|].
  - destruct IH as [-> H]. split; [reflexivity|assumption].
  - destruct (Ascii.eqb c ".") eqn:E.
    + apply Ascii.eqb_eq in E. subst. split; [reflexivity|assumption].
    + apply Ascii.eqb_neq in E. intros [H|H]; [unfold dot in H; congruence|auto].
Qed.
Lemma uint_no_dot d : ~ In dot (chars (NilEmpty.string_of_uint d)).
Proof. induction d; cbn; [tauto|..]; intros [H|H]; try discriminate H; apply IHd; exact H. Qed.
Lemma decimal_no_dot n : ~ In dot (decimal n).
Proof.
  unfold decimal, NilZero.string_of_uint. destruct (Nat.to_uint n) eqn:E; try (rewrite <- E; apply uint_no_dot).
  cbn. intros [H|H]; [discriminate|destruct H].
Qed.
Lemma first_dot : forall a b c d : name, ~ In dot a -> ~ In dot c -> a ++ dot :: b = c ++ dot :: d -> a = c /\ b = d.
Proof.
  induction a as [|x a IH]; intros b [|y c] d Ha Hc E; cbn in E.
  - injection E as ->. split; reflexivity.
  - injection E as E1 E. exfalso. apply Hc. left; symmetry; exact E1.
  - injection E as E1 E. exfalso. apply Ha. left; exact E1.
  - injection E as -> E. destruct (IH b c d) as [-> ->]; [intros X; apply Ha; right; exact X|intros X; apply Hc; right; exact X|exact E|]. split; reflexivity.
Qed.
Lemma temp_not_path p i : temp_name p i <> p.
Proof.
  intros E. apply (f_equal (@List.length ascii)) in E. unfold temp_name in E. destruct (Nat.eqb i 1); rewrite !app_length in E; cbn in E; lia.
Qed.
Lemma backup_longer p n b : backup_name p n = Some b -> List.length p < List.length b.
Proof.
  unfold backup_name. pose proof (rsplit_spec p) as R. destruct (rsplit p) as [[a s]|]; [|discriminate]. destruct R as [R _].
  intros E. injection E as <-. rewrite R. unfold old_name. rewrite !app_length. cbn. lia.
Qed.
Lemma backup_not_path p n b : backup_name p n = Some b -> b <> p.
Proof. intros H E. apply backup_longer in H. subst. lia. Qed.
Lemma backup_not_temp p n b i : backup_name p n = Some b -> b <> temp_name p i.
Proof.
  unfold backup_name. pose proof (rsplit_spec p) as R. destruct (rsplit p) as [[a s]|]; [|discriminate]. destruct R as [-> Hs].
  intros E. injection E as <-. unfold old_name, temp_name.
  assert (G : forall t, a ++ chars ".old" ++ decimal n ++ chars "." ++ s <> (a ++ dot :: s) ++ chars ".download" ++ t).
  { intros t E. rewrite <- !app_assoc in E. apply app_inv_head in E. cbn in E. injection E as E.
    assert (E' : (chars "old" ++ decimal n) ++ dot :: s = s ++ dot :: (chars "download" ++ t)) by (exact E).
    apply first_dot in E'; [|rewrite in_app_iff; intros [H|H]; [cbn in H; firstorder discriminate|exact (decimal_no_dot n H)]|exact Hs].
    destruct E' as [E1 E2]. rewrite <- E1 in E2. cbn in E2. discriminate. }
  destruct (Nat.eqb i 1).
  - rewrite <- (app_nil_r (chars ".download")). apply G.
  - rewrite <- app_assoc. apply G.
Qed.
Lemma decimal_inj a b : decimal a = decimal b -> a = b.
Proof.
  unfold decimal, chars. intros E.
  assert (F : NilZero.string_of_uint (Nat.to_uint a) = NilZero.string_of_uint (Nat.to_uint b)).
  { rewrite <- (string_of_list_ascii_of_string (NilZero.string_of_uint (Nat.to_uint a))), E. apply string_of_list_ascii_of_string. }
  apply (f_equal NilZero.uint_of_string) in F.
  assert (N : forall n, Nat.to_uint n <> Nil).
  { intros n C. pose proof (DecimalNat.Unsigned.of_to n) as O. rewrite C in O. cbn in O. subst n. discriminate. }
  rewrite !NilZero.usu in F by apply N. injection F as F. apply DecimalNat.Unsigned.to_uint_inj. exact F.
Qed.
Lemma temp_inj p i j : 1 <= i -> 1 <= j -> temp_name p i = temp_name p j -> i = j.
Proof.
  unfold temp_name. intros Hi Hj.
  assert (L : forall n, 1 <= List.length (decimal n)).
  { intros n. unfold decimal, NilZero.string_of_uint. destruct (Nat.to_uint n); cbn; lia. }
  destruct (Nat.eqb i 1) eqn:E1, (Nat.eqb j 1) eqn:E2; intros E.
  - apply Nat.eqb_eq in E1, E2. congruence.
  - apply (f_equal (@List.length ascii)) in E. rewrite !app_length in E. specialize (L j). lia.
  - apply (f_equal (@List.length ascii)) in E. rewrite !app_length in E. specialize (L i). lia.
  - apply app_inv_head in E. apply decimal_inj. exact E.
Qed.

(** * File system lemmas *)
Lemma name_eqb_eq a b : name_eqb a b = true <-> a = b.
Proof. unfold name_eqb. destruct (list_eq_dec ascii_dec a b); split; congruence. Qed.
Lemma name_eqb_refl a : name_eqb a a = true. Proof. apply name_eqb_eq; reflexivity. Qed.
Lemma name_eqb_neq a b : a <> b -> name_eqb a b = false.
Proof. unfold name_eqb. destruct (list_eq_dec ascii_dec a b); congruence. Qed.
Lemma set_name_same d n v : set_name d n v n = v.
Proof. unfold set_name. rewrite name_eqb_refl. reflexivity. Qed.
Lemma set_name_other d n v m : m <> n -> set_name d n v m = d m.
Proof. intros H. unfold set_name. rewrite name_eqb_neq by assumption. reflexivity. Qed.
Lemma set_data_same d n v : set_data d n v n = v.
Proof. unfold set_data. rewrite Nat.eqb_refl. reflexivity. Qed.
Lemma set_data_other d n v m : m <> n -> set_data d n v m = d m.
Proof. intros H. unfold set_data. destruct (Nat.eqb m n) eqn:E; [apply Nat.eqb_eq in E; congruence|reflexivity]. Qed.
Lemma set_pc_same s i v : set_pc s i v i = v.
Proof. unfold set_pc. rewrite Nat.eqb_refl. reflexivity. Qed.
Lemma set_pc_other s i v j : j <> i -> set_pc s i v j = s j.
Proof. intros H. unfold set_pc. destruct (Nat.eqb j i) eqn:E; [apply Nat.eqb_eq in E; congruence|reflexivity]. Qed.
Lemma exists_true fs n : exists_ fs n = true -> exists i, dir fs n = Some i.
Proof. unfold exists_. destruct (dir fs n); [eauto|discriminate]. Qed.
Lemma exists_false fs n : exists_ fs n = false -> dir fs n = None.
Proof. unfold exists_. destruct (dir fs n); [discriminate|auto]. Qed.

Lemma sane_create fs n : sane fs -> dir fs n = None -> sane (create fs n).
Proof.
  intros [H1 H2] Hn. split; cbn; intros a; unfold set_name.
  - intros b i. destruct (name_eqb a n) eqn:A, (name_eqb b n) eqn:B; intros X Y.
    + apply name_eqb_eq in A, B. congruence.
    + injection X as <-. apply H2 in Y. lia.
    + injection Y as <-. apply H2 in X. lia.
    + eapply H1; eassumption.
  - intros i. destruct (name_eqb a n); intros X; [injection X as <-; lia|]. apply H2 in X. lia.
Qed.
Lemma sane_append fs i b : sane fs -> sane (append fs i b).
Proof. intros [H1 H2]. split; cbn; assumption. Qed.
Lemma sane_rename fs a b : sane fs -> sane (rename fs a b).
Proof.
  intros [H1 H2]. split; cbn; intros x; unfold set_name.
  - intros y i. destruct (name_eqb x a) eqn:A; [discriminate|]. destruct (name_eqb y a) eqn:B; [discriminate|].
    intros X Y. destruct (name_eqb x b) eqn:C, (name_eqb y b) eqn:D.
    + apply name_eqb_eq in C, D. congruence.
    + assert (y = a) by (eapply H1; eassumption). subst. rewrite name_eqb_refl in B. discriminate.
    + assert (x = a) by (eapply H1; eassumption). subst. rewrite name_eqb_refl in A. discriminate.
    + eapply H1; eassumption.
  - intros i. destruct (name_eqb x a); [discriminate|]. destruct (name_eqb x b); apply H2.
Qed.

(** * The invariant *)
Definition own_file (c : call) (fs : files) (s : pc) (ino : nat) : Prop :=
  match s with
  | Reading _ i rest buf => i = ino /\ data fs ino ++ buf ++ rest = body c
  | _ => data fs ino = body c
  end.
Record inv (path : name) (calls : nat -> call) (d0 : option bytes) (fs : files) (s : nat -> pc) : Prop := {
  i_sane : sane fs;
  i_held : forall i t, held (s i) = Some t -> (exists k, t = temp_name path k) /\ exists ino, dir fs t = Some ino /\ own_file (calls i) fs (s i) ino;
  i_apart : forall i j t u, i <> j -> held (s i) = Some t -> held (s j) = Some u -> t <> u;
  i_dest : content_of fs path = d0 \/ (exists i, s i = Done /\ content_of fs path = Some (body (calls i))) \/
           (content_of fs path = None /\ exists i, backup (calls i) = true);
  i_move : forall i t b, s i = Moving t b -> backup (calls i) = true /\ exists n, backup_name path n = Some b;
  i_search : forall i t n, s i = Searching t n -> backup (calls i) = true;
  i_done : forall i, s i = Done -> (exists j, s j = Done /\ content_of fs path = Some (body (calls j))) \/
           (exists j, backup (calls j) = true)
}.

Lemma content_create fs n m : sane fs -> m <> n -> content_of (create fs n) m = content_of fs m.
Proof.
  intros [_ H] N. unfold content_of. cbn. rewrite set_name_other by assumption. destruct (dir fs m) eqn:E; [|reflexivity].
  apply H in E. rewrite set_data_other by lia. reflexivity.
Qed.
Lemma content_append fs i b n m : sane fs -> dir fs n = Some i -> m <> n -> content_of (append fs i b) m = content_of fs m.
Proof.
  intros [H _] E N. unfold content_of. cbn. destruct (dir fs m) eqn:F; [|reflexivity].
  rewrite set_data_other; [reflexivity|]. intros ->. apply N. eapply H; eassumption.
Qed.

Lemma inv_start path calls fs : sane fs -> inv path calls (content_of fs path) fs idle.
Proof. intros H. constructor; try discriminate; auto. Qed.

(* a process changes its own state, the file system is untouched *)
Lemma inv_local path calls d0 fs s i v : inv path calls d0 fs s ->
  s i <> Done -> v <> Done ->
  (forall t, held v = Some t -> held (s i) = Some t /\ forall ino, own_file (calls i) fs (s i) ino -> own_file (calls i) fs v ino) ->
  (forall t b, v = Moving t b -> backup (calls i) = true /\ exists n, backup_name path n = Some b) ->
  (forall t n, v = Searching t n -> backup (calls i) = true) ->
  inv path calls d0 fs (set_pc s i v).
Proof.
  intros I Nd Nv Hv Hm Hs. destruct I as [I1 I2 I3 I4 I5 I6 I7].
  assert (H' : forall j t, held (set_pc s i v j) = Some t -> held (s j) = Some t).
  { intros j t. unfold set_pc. destruct (Nat.eqb j i) eqn:E; [|auto]. apply Nat.eqb_eq in E. subst. intros H. apply Hv. assumption. }
  assert (D' : forall j, set_pc s i v j = Done <-> s j = Done).
  { intros j. unfold set_pc. destruct (Nat.eqb j i) eqn:E; [|tauto]. apply Nat.eqb_eq in E. subst. tauto. }
  constructor.
  - assumption.
  - intros j t Hj. destruct (I2 j t (H' _ _ Hj)) as [K (ino & E & O)]. split; [assumption|]. exists ino. split; [assumption|].
    unfold set_pc in *. destruct (Nat.eqb j i) eqn:Ej; [|assumption]. apply Nat.eqb_eq in Ej. subst. apply (Hv t); assumption.
  - intros j k t u N Hj Hk. eapply I3; [exact N| |]; apply H'; assumption.
  - destruct I4 as [I4|[(j & E & C)|I4]]; [tauto| |tauto]. right; left. exists j. split; [apply D'; assumption|assumption].
  - intros j t b. unfold set_pc. destruct (Nat.eqb j i) eqn:E; [|apply I5]. apply Nat.eqb_eq in E. subst. apply Hm.
  - intros j t b. unfold set_pc. destruct (Nat.eqb j i) eqn:E; [|apply I6]. apply Nat.eqb_eq in E. subst. apply Hs.
  - intros j Hj. apply D' in Hj. destruct (I7 j Hj) as [(k & E & C)|I8]; [|tauto]. left. exists k. split; [apply D'; assumption|assumption].
Qed.

Ltac pc1 s i v j :=
  let E := fresh "E" in destruct (Nat.eq_dec j i) as [E|E];
  [subst j; rewrite ?set_pc_same in * | rewrite ?(set_pc_other s i v j E) in *].
Ltac pcs := repeat match goal with
  | H : context [set_pc ?s ?i ?v ?j] |- _ => pc1 s i v j
  | |- context [set_pc ?s ?i ?v ?j] => pc1 s i v j end.

Lemma inv_append path calls d0 fs s i t ino rest b1 v : inv path calls d0 fs s ->
  (exists buf, s i = Reading t ino rest buf) -> v <> Done -> held v = Some t -> (forall t b, v <> Moving t b) -> (forall t n, v <> Searching t n) ->
  own_file (calls i) (append fs ino b1) v ino ->
  inv path calls d0 (append fs ino b1) (set_pc s i v).
Proof.
  intros I [buf Es] Nv Hv Nm Ns Ho. destruct I as [I1 I2 I3 I4 I5 I6 I7].
  destruct (I2 i t) as [[k Ek] (ino' & Et & O)]; [rewrite Es; reflexivity|]. rewrite Es in O. cbn in O. destruct O as [<- _].
  assert (Np : path <> t) by (rewrite Ek; intros E; symmetry in E; apply temp_not_path in E; assumption).
  assert (C : content_of (append fs ino b1) path = content_of fs path) by (eapply content_append; eassumption).
  assert (D : forall j, set_pc s i v j = Done <-> s j = Done).
  { intros j. pcs; [|tauto]. rewrite Es. split; intros; [congruence|discriminate]. }
  constructor.
  - apply sane_append; assumption.
  - intros j u Hj. pcs.
    + rewrite Hv in Hj. injection Hj as <-. split; [eauto|]. exists ino. split; assumption.
    + destruct (I2 j u Hj) as [K (ino' & E' & O)]. split; [assumption|]. exists ino'. split; [assumption|].
      assert (Nu : t <> u) by (eapply (I3 i j); [congruence|rewrite Es; reflexivity|assumption]).
      assert (ino' <> ino) by (intros ->; apply Nu; eapply I1; eassumption).
      unfold own_file in *. cbn [data append]. rewrite set_data_other by assumption. assumption.
  - intros j k' x u N Hj Hk. pcs; try congruence.
    + rewrite Hv in Hk. injection Hk as <-. eapply (I3 j i); [congruence|assumption|rewrite Es; reflexivity].
    + rewrite Hv in Hj. injection Hj as <-. eapply (I3 i k'); [congruence|rewrite Es; reflexivity|assumption].
    + eapply (I3 j k'); eassumption.
  - rewrite C. destruct I4 as [I4|[(j & E & X)|I4]]; [tauto| |tauto]. right; left. exists j. split; [apply D; assumption|assumption].
  - intros j x b Hj. pcs; [exfalso; eapply Nm; eassumption|eapply I5; eassumption].
  - intros j x b Hj. pcs; [exfalso; eapply Ns; eassumption|eapply I6; eassumption].
  - intros j Hj. apply D in Hj. rewrite C. destruct (I7 j Hj) as [(k' & E & X)|I8]; [|tauto]. left. exists k'. split; [apply D; assumption|assumption].
Qed.

Lemma inv_step path calls d0 fs s i fs' v : inv path calls d0 fs s -> step true path (calls i) (fs, s i) (fs', v) ->
  inv path calls d0 fs' (set_pc s i v).
Proof.
  intros I H. remember (s i) as x eqn:Ex. symmetry in Ex.
  inversion H; subst; clear H;
  match goal with E : _ = s i |- _ => symmetry in E | _ => idtac end;
  match goal with E : s i = _ |- _ => rename E into Es end;
  try (apply inv_local; [assumption|rewrite Es; discriminate|discriminate|rewrite Es; cbn; intros; try discriminate|intros; discriminate|intros; discriminate]; fail).
  - (* create *)
    match goal with H : exists_ _ _ = false |- _ => apply exists_false in H; rename H into Hf end.
    destruct I as [I1 I2 I3 I4 I5 I6 I7]. rename i0 into k. set (t := temp_name path k) in *.
    assert (Np : path <> t) by (intros E; symmetry in E; apply temp_not_path in E; assumption).
    assert (C : content_of (create fs t) path = content_of fs path) by (apply content_create; assumption).
    assert (D : forall j v, v <> Done -> set_pc s i v j = Done <-> s j = Done).
    { intros j v Nv. pcs; [|tauto]. rewrite Es. split; intros; [congruence|discriminate]. }
    constructor.
    + apply sane_create; assumption.
    + intros j u Hj. pcs.
      * cbn in Hj. injection Hj as <-. split; [exists k; reflexivity|]. exists (fresh fs). cbn. rewrite set_name_same, set_data_same. auto.
      * destruct (I2 j u Hj) as [K (ino & E' & O)]. split; [assumption|]. exists ino.
        assert (u <> t) by (intros ->; congruence). cbn [dir create]. rewrite set_name_other by assumption. split; [assumption|].
        apply I1 in E'. unfold own_file in *. cbn [data create]. rewrite set_data_other by lia. assumption.
    + intros j k' x u N Hj Hk. pcs; try congruence.
      * cbn in Hk. injection Hk as <-. intros ->. destruct (I2 j t Hj) as [_ (ino & E' & _)]. congruence.
      * cbn in Hj. injection Hj as <-. intros <-. destruct (I2 k' t Hk) as [_ (ino & E' & _)]. congruence.
      * eapply (I3 j k'); eassumption.
    + rewrite C. destruct I4 as [I4|[(j & E & X)|I4]]; [tauto| |tauto]. right; left. exists j. split; [apply D; [discriminate|assumption]|assumption].
    + intros j x b Hj. pcs; [discriminate|eapply I5; eassumption].
    + intros j x b Hj. pcs; [discriminate|eapply I6; eassumption].
    + intros j Hj. apply D in Hj; [|discriminate]. rewrite C. destruct (I7 j Hj) as [(k' & E & X)|I8]; [|tauto]. left. exists k'. split; [apply D; [discriminate|assumption]|assumption].
  - (* read *)
    apply inv_local; try assumption; try (rewrite Es; discriminate); try discriminate.
    rewrite Es. cbn. intros t E. split; [assumption|]. intros ino0 [-> O]. split; [reflexivity|]. rewrite <- O, <- !app_assoc. reflexivity.
  - (* write *)
    eapply inv_append; try eassumption; [eauto|discriminate|reflexivity|discriminate|discriminate|].
    destruct I as [_ I2 _ _ _ _ _]. destruct (I2 i tmp) as [_ (ino' & E & O)]; [rewrite Es; reflexivity|]. rewrite Es in O. destruct O as [<- O].
    split; [reflexivity|]. cbn. rewrite set_data_same, <- O, <- !app_assoc. reflexivity.
  - (* eof *)
    match goal with H : true = true -> rest = [] |- _ => rewrite (H eq_refl) in * end.
    eapply inv_append; try eassumption; [eauto|discriminate|reflexivity|discriminate|discriminate|].
    destruct I as [_ I2 _ _ _ _ _]. destruct (I2 i tmp) as [_ (ino' & E & O)]; [rewrite Es; reflexivity|]. rewrite Es in O. destruct O as [<- O].
    cbn. rewrite set_data_same, <- O, app_nil_r. reflexivity.
  - apply inv_local; try assumption; try (rewrite Es; discriminate); try discriminate. rewrite Es. cbn. auto.
  - apply inv_local; try assumption; try (rewrite Es; discriminate); try discriminate.
    + rewrite Es. cbn. auto.
    + intros t n _. match goal with H : _ && _ = true |- _ => apply andb_prop in H; tauto end.
  - apply inv_local; try assumption; try (rewrite Es; discriminate); try discriminate.
    + rewrite Es. cbn. auto.
    + intros. eapply i_search; eassumption.
  - apply inv_local; try assumption; try (rewrite Es; discriminate); try discriminate.
    + rewrite Es. cbn. auto.
    + intros t b' E. injection E as <- <-. split; [eapply i_search; eassumption|eauto].
  - (* move *)
    match goal with H : exists_ _ path = true |- _ => apply exists_true in H as [di Hd] end. destruct I as [I1 I2 I3 I4 I5 I6 I7].
    destruct (I5 i tmp b Es) as [Hb [n Hn]].
    assert (Nb : b <> path) by (eapply backup_not_path; eassumption).
    assert (C : content_of (rename fs path b) path = None) by (unfold content_of; cbn; rewrite set_name_same; reflexivity).
    assert (Dt : forall j t, held (s j) = Some t -> dir (rename fs path b) t = dir fs t).
    { intros j t Hj. destruct (I2 j t Hj) as [[k ->] _]. cbn. rewrite set_name_other by apply temp_not_path.
      rewrite set_name_other; [reflexivity|]. intros E. symmetry in E. revert E. eapply backup_not_temp; eassumption. }
    assert (H' : forall j t, held (set_pc s i (Replacing tmp) j) = Some t -> held (s j) = Some t).
    { intros j t Hj. pcs; [|assumption]. rewrite Es. exact Hj. }
    constructor.
    + apply sane_rename; assumption.
    + intros j t Hj. destruct (I2 j t (H' _ _ Hj)) as [K (ino & E & O)]. split; [assumption|]. exists ino.
      rewrite (Dt j) by (apply H'; assumption). split; [assumption|]. pcs; [|exact O]. rewrite Es in O. exact O.
    + intros j k t u N Hj Hk. eapply (I3 j k); [assumption| |]; apply H'; assumption.
    + right; right. split; [assumption|eauto].
    + intros j t c Hj. pcs; [discriminate|eapply I5; eassumption].
    + intros j t c Hj. pcs; [discriminate|eapply I6; eassumption].
    + intros j Hj. right. eauto.
  - (* replace *)
    destruct I as [I1 I2 I3 I4 I5 I6 I7].
    destruct (I2 i tmp) as [[k Ek] (ino & E & O)]; [rewrite Es; reflexivity|]. rewrite Es in O. cbn in O.
    assert (Nt : tmp <> path) by (rewrite Ek; apply temp_not_path).
    assert (C : content_of (rename fs tmp path) path = Some (body (calls i))).
    { unfold content_of. cbn. rewrite set_name_other by congruence. rewrite set_name_same, E, O. reflexivity. }
    constructor.
    + apply sane_rename; assumption.
    + intros j t Hj. pcs; [discriminate|]. destruct (I2 j t Hj) as [[k' Ek'] (ino' & E' & O')]. split; [eauto|]. exists ino'. split; [|exact O'].
      cbn. rewrite set_name_other by (eapply (I3 j i); [assumption|assumption|rewrite Es; reflexivity]).
      rewrite set_name_other; [assumption|]. rewrite Ek'. apply temp_not_path.
    + intros j k' t u N Hj Hk. pcs; try discriminate. eapply (I3 j k'); eassumption.
    + right; left. exists i. rewrite set_pc_same. auto.
    + intros j t c Hj. pcs; [discriminate|eapply I5; eassumption].
    + intros j t c Hj. pcs; [discriminate|eapply I6; eassumption].
    + intros j Hj. left. exists i. rewrite set_pc_same. auto.
Qed.

Lemma inv_run path calls fs0 w : sane fs0 -> run true path calls (fs0, idle) w -> inv path calls (content_of fs0 path) (fst w) (snd w).
Proof.
  intros Hs H. remember (fs0, idle) as w0 eqn:E0. induction H as [w|w fs s i fs' v H IH S]; subst.
  - apply inv_start; assumption.
  - cbn. eapply inv_step; [apply (IH eq_refl)|exact S].
Qed.

(** * The results *)
Lemma many_downloads path calls fs0 fs s : sane fs0 -> run true path calls (fs0, idle) (fs, s) ->
  (content_of fs path = content_of fs0 path \/ (exists i, s i = Done /\ content_of fs path = Some (body (calls i))) \/
   (content_of fs path = None /\ exists i, backup (calls i) = true)) /\
  (forall i j t u, i <> j -> held (s i) = Some t -> held (s j) = Some u -> t <> u) /\
  (forall i t, held (s i) = Some t -> t <> path /\ exists done left, content_of fs t = Some done /\ done ++ left = body (calls i)) /\
  ((forall i, backup (calls i) = false) -> forall i, s i = Done -> exists j, s j = Done /\ content_of fs path = Some (body (calls j))).
Proof.
  intros Hs H. destruct (inv_run _ _ _ _ Hs H) as [I1 I2 I3 I4 I5 I6 I7]. cbn [fst snd] in *.
  split; [exact I4|]. split; [exact I3|]. split.
  - intros i t Ht. destruct (I2 i t Ht) as [[k ->] (ino & E & O)]. split; [apply temp_not_path|].
    unfold content_of. rewrite E. unfold own_file in O. destruct (s i); try discriminate;
    try (exists (data fs ino), []; split; [reflexivity|rewrite app_nil_r; exact O]).
    exists (data fs ino). destruct O as [_ O]. eexists. split; [reflexivity|exact O].
  - intros Nb i Hi. destruct (I7 i Hi) as [E|[j E]]; [exact E|]. rewrite Nb in E. discriminate.
Qed.
Lemma many_downloads_no_backup path calls fs0 fs s : sane fs0 -> (forall i, backup (calls i) = false) ->
  run true path calls (fs0, idle) (fs, s) ->
  content_of fs path = content_of fs0 path \/ exists i, s i = Done /\ content_of fs path = Some (body (calls i)).
Proof.
  intros Hs Nb H. destruct (many_downloads _ _ _ _ _ Hs H) as [[E|[E|[_ [i E]]]] _]; [auto|auto|].
  rewrite Nb in E. discriminate.
Qed.

Lemma alone_run honest path c fs0 x : alone honest path c (fs0, Start) x ->
  exists s, run honest path (fun _ => c) (fs0, idle) (fst x, s) /\ s 0 = snd x /\ forall i, i <> 0 -> s i = Start.
Proof.
  intros H. remember (fs0, Start) as w eqn:E. induction H as [x|x y z H IH St]; subst.
  - exists idle. cbn. repeat split. constructor.
  - destruct (IH eq_refl) as (s & R & E & O). destruct y as [fy py], z as [fz pz]. cbn [fst snd] in *.
    exists (set_pc s 0 pz). split; [|split].
    + eapply run_step; [exact R|]. rewrite E. exact St.
    + apply set_pc_same.
    + intros i Hi. rewrite set_pc_other by assumption. apply O. assumption.
Qed.
Lemma one_download path c fs0 fs s : sane fs0 -> backup c = false -> alone true path c (fs0, Start) (fs, s) ->
  (content_of fs path = content_of fs0 path \/ content_of fs path = Some (body c)) /\
  (s = Done -> content_of fs path = Some (body c)).
Proof.
  intros Hs Nb H. destruct (alone_run _ _ _ _ _ H) as (st & R & E & O). cbn [fst snd] in *.
  destruct (many_downloads _ _ _ _ _ Hs R) as [A (_ & _ & B)]. split.
  - destruct A as [A|[(i & _ & A)|[_ [i A]]]]; [auto|auto|]. congruence.
  - intros ->. destruct (B (fun _ => Nb) 0 E) as (j & _ & C). exact C.
Qed.

(** One process with backup, on its own. *)
Record kept (path : name) (fs0 fs : files) (s : pc) : Prop := {
  k_sane : sane fs;
  k_other : forall m v, m <> path -> content_of fs0 m = Some v -> content_of fs m = Some v;
  k_avail : forall v, content_of fs0 path = Some v -> available fs path v;
  k_held : forall t, held s = Some t -> content_of fs0 t = None /\ (exists k, t = temp_name path k) /\ exists ino, dir fs t = Some ino /\
     match s with Reading _ i _ _ => i = ino | _ => True end;
  k_move : forall t b, s = Moving t b -> exists_ fs b = false /\ exists n, backup_name path n = Some b;
  k_before : match s with Replacing _ | Done | Failed => True | _ => content_of fs path = content_of fs0 path end;
  k_after : match s with Replacing _ | Done => forall v, content_of fs0 path = Some v ->
     exists n b, backup_name path n = Some b /\ content_of fs b = Some v | _ => True end
}.
Lemma available_same fs fs' path v : (forall m, content_of fs m = Some v -> (forall k, m <> temp_name path k) -> content_of fs' m = Some v) ->
  available fs path v -> available fs' path v.
Proof.
  intros H [E|(n & b & En & E)].
  - left. apply H; [assumption|]. intros k C. symmetry in C. apply temp_not_path in C. assumption.
  - right. exists n, b. split; [assumption|]. apply H; [assumption|]. intros k. eapply backup_not_temp. eassumption.
Qed.
Lemma content_rename fs a b m : m <> a -> m <> b -> content_of (rename fs a b) m = content_of fs m.
Proof. intros H1 H2. unfold content_of. cbn. rewrite !set_name_other by assumption. reflexivity. Qed.
Lemma kept_step honest path c fs0 fs s fs' s' : backup c = true -> kept path fs0 fs s ->
  step honest path c (fs, s) (fs', s') -> kept path fs0 fs' s'.
Proof.
  intros Hb K H. destruct K as [K1 K2 K3 K4 K5 K6 K7].
  inversion H; subst; clear H; cbn [held] in *;
  try (constructor; cbn [held]; try assumption; try discriminate; try exact I; try (exact (fun t E => K4 t E)); fail).
  - (* claim *)
    match goal with H : exists_ _ _ = false |- _ => apply exists_false in H; rename H into Hf end.
    assert (Np : path <> temp_name path i) by (intros E; symmetry in E; apply temp_not_path in E; assumption).
    assert (Cc : forall m, m <> temp_name path i -> content_of (create fs (temp_name path i)) m = content_of fs m) by (intros; apply content_create; assumption).
    assert (N0 : content_of fs0 (temp_name path i) = None).
    { destruct (content_of fs0 (temp_name path i)) eqn:E; [|reflexivity]. apply K2 in E; [|congruence].
      unfold content_of in E. rewrite Hf in E. discriminate. }
    constructor; cbn [held]; try discriminate; try exact I.
    + apply sane_create; assumption.
    + intros m v Nm E. rewrite Cc; [apply K2; assumption|]. intros ->. congruence.
    + intros v E. apply (available_same fs); [|apply K3; assumption]. intros m Em Nt. rewrite Cc by apply Nt. assumption.
    + intros t E. injection E as <-. split; [assumption|]. split; [eauto|]. exists (fresh fs). cbn. rewrite set_name_same. auto.
    + rewrite Cc by assumption. assumption.
  - (* write *)
    destruct (K4 _ eq_refl) as (N0 & [k ->] & ino' & E & <-).
    assert (Cc : forall m, m <> temp_name path k -> content_of (append fs ino b1) m = content_of fs m) by (intros; eapply content_append; eassumption).
    constructor; cbn [held]; try discriminate; try exact I.
    + apply sane_append; assumption.
    + intros m v Nm E'. rewrite Cc; [apply K2; assumption|]. intros ->. congruence.
    + intros v E'. apply (available_same fs); [|apply K3; assumption]. intros m Em Nt. rewrite Cc by apply Nt. assumption.
    + intros t E'. injection E' as <-. split; [assumption|]. split; [eauto|]. exists ino. auto.
    + rewrite Cc; [assumption|]. intros X. symmetry in X. apply temp_not_path in X. assumption.
  - (* eof *)
    destruct (K4 _ eq_refl) as (N0 & [k ->] & ino' & E & <-).
    assert (Cc : forall m, m <> temp_name path k -> content_of (append fs ino buf) m = content_of fs m) by (intros; eapply content_append; eassumption).
    constructor; cbn [held]; try discriminate; try exact I.
    + apply sane_append; assumption.
    + intros m v Nm E'. rewrite Cc; [apply K2; assumption|]. intros ->. congruence.
    + intros v E'. apply (available_same fs); [|apply K3; assumption]. intros m Em Nt. rewrite Cc by apply Nt. assumption.
    + intros t E'. injection E' as <-. split; [assumption|]. split; [eauto|]. exists ino. auto.
    + rewrite Cc; [assumption|]. intros X. symmetry in X. apply temp_not_path in X. assumption.
  - (* nothing to back up *)
    match goal with H : _ && _ = false |- _ => rewrite Hb, andb_true_r in H; apply exists_false in H; rename H into Hn end.
    constructor; cbn [held]; try assumption; try discriminate; try exact I.
    intros v E. rewrite <- K6 in E. unfold content_of in E. rewrite Hn in E. discriminate.
  - (* backup name free *)
    constructor; cbn [held]; try assumption; try discriminate; try exact I.
    intros t b' E. injection E as <- <-. split; [assumption|eauto].
  - (* move *)
    destruct (K5 _ _ eq_refl) as [Hf [n Hn]]. apply exists_false in Hf.
    assert (Nb : b <> path) by (eapply backup_not_path; eassumption).
    assert (Cb : content_of (rename fs path b) b = content_of fs path).
    { unfold content_of. cbn. rewrite set_name_other by assumption. rewrite set_name_same. reflexivity. }
    constructor; cbn [held]; try discriminate; try exact I.
    + apply sane_rename; assumption.
    + intros m v Nm E. assert (E' := K2 m v Nm E). rewrite content_rename; [assumption|assumption|].
      intros ->. unfold content_of in E'. rewrite Hf in E'. discriminate.
    + intros v E. right. exists n, b. split; [assumption|]. rewrite Cb, K6. assumption.
    + intros t E. destruct (K4 t E) as (N0 & [k ->] & ino & Et & _). split; [assumption|]. split; [eauto|]. exists ino. split; [|exact I].
      cbn. rewrite set_name_other by apply temp_not_path. rewrite set_name_other; [assumption|]. intros X. symmetry in X. revert X. eapply backup_not_temp. eassumption.
    + intros v E. exists n, b. split; [assumption|]. rewrite Cb, K6. assumption.
  - (* replace *)
    destruct (K4 _ eq_refl) as (N0 & [k ->] & ino' & E & _).
    assert (A : forall v, content_of fs0 path = Some v -> exists n b, backup_name path n = Some b /\ content_of (rename fs (temp_name path k) path) b = Some v).
    { intros v E'. destruct (K7 v E') as (n & b & En & Eb). exists n, b. split; [assumption|]. rewrite content_rename; [assumption| |].
      - eapply backup_not_temp; eassumption.
      - eapply backup_not_path; eassumption. }
    constructor; cbn [held]; try discriminate; try exact I.
    + apply sane_rename; assumption.
    + intros m v Nm E'. rewrite content_rename; [apply K2; assumption| |assumption]. intros ->. congruence.
    + intros v E'. right. apply A. assumption.
    + exact A.
Qed.
Lemma kept_alone honest path c fs0 fs s : sane fs0 -> backup c = true -> alone honest path c (fs0, Start) (fs, s) -> kept path fs0 fs s.
Proof.
  intros Hs Hb H. remember (fs0, Start) as w eqn:E. remember (fs, s) as x eqn:Ex. revert fs s Ex.
  induction H as [x|x y z H IH St]; intros fs s Ex; subst.
  - injection Ex as <- <-. constructor; cbn; try discriminate; auto. intros v E. left. assumption.
  - destruct y as [fy py]. eapply kept_step; [exact Hb| |exact St]. apply (IH eq_refl). reflexivity.
Qed.
Lemma backup_alone honest path c fs0 fs s : sane fs0 -> backup c = true -> alone honest path c (fs0, Start) (fs, s) ->
  (forall v, content_of fs0 path = Some v -> available fs path v) /\
  (forall m v, m <> path -> content_of fs0 m = Some v -> content_of fs m = Some v) /\
  (s = Done -> forall v, content_of fs0 path = Some v -> exists n b, backup_name path n = Some b /\ content_of fs b = Some v).
Proof.
  intros Hs Hb H. destruct (kept_alone _ _ _ _ _ _ Hs Hb H) as [K1 K2 K3 K4 K5 K6 K7].
  split; [exact K3|]. split; [exact K2|]. intros ->. exact K7.
Qed.
Lemma backup_in_turn honest path fs0 cs fs : sane fs0 -> (forall c, In c cs -> backup c = true) -> in_turn honest path fs0 cs fs ->
  sane fs /\ (forall v, available fs0 path v -> available fs path v).
Proof.
  intros Hs Hb H. induction H as [fs|fs c s fs1 cs fs2 A _ IH]; [auto|].
  destruct (kept_alone _ _ _ _ _ _ Hs (Hb c (or_introl eq_refl)) A) as [K1 K2 K3 _ _ _ _].
  destruct IH as [S G]; [assumption|intros c' Hc; apply Hb; right; assumption|]. split; [assumption|].
  intros v Av. apply G. destruct Av as [E|(n & b & En & E)]; [apply K3; assumption|].
  right. exists n, b. split; [assumption|]. apply K2; [eapply backup_not_path; eassumption|assumption].
Qed.

(** The search for a free temporary name ends in a finite directory. *)
Lemma some_temp_free fs path (names : list name) : (forall n, dir fs n <> None -> In n names) ->
  exists i, 1 <= i <= S (List.length names) /\ exists_ fs (temp_name path i) = false.
Proof.
  intros H.
  destruct (existsb (fun i => negb (exists_ fs (temp_name path i))) (seq 1 (S (List.length names)))) eqn:E.
  - apply existsb_exists in E as (i & Hi & E). apply in_seq in Hi. exists i. split; [lia|]. destruct (exists_ fs _); [discriminate|reflexivity].
  - exfalso. assert (A : forall i, In i (seq 1 (S (List.length names))) -> In (temp_name path i) names).
    { intros i Hi. apply H. intros C. assert (X : existsb (fun i => negb (exists_ fs (temp_name path i))) (seq 1 (S (List.length names))) = true).
      { apply existsb_exists. exists i. split; [assumption|]. unfold exists_. rewrite C. reflexivity. } congruence. }
    assert (L : List.length (map (temp_name path) (seq 1 (S (List.length names)))) <= List.length names).
    { apply NoDup_incl_length.
      - clear. assert (G : forall n k, 1 <= k -> NoDup (map (temp_name path) (seq k n))).
        { induction n as [|n IH]; intros k Hk; [constructor|]. cbn. constructor; [|apply IH; lia].
          intros X. apply in_map_iff in X as (j & E & X). apply in_seq in X. apply temp_inj in E; lia. }
        apply G. lia.
      - intros x Hx. apply in_map_iff in Hx as (i & <- & Hi). apply A. assumption. }
    rewrite map_length, seq_length in L. lia.
Qed.

(** * Witnesses *)
Definition demo_path : name := chars "a.b".
Definition demo_fs : files := {| dir := set_name (fun _ => None) demo_path (Some 0); data := set_data (fun _ => []) 0 (chars "old"); fresh := 1 |}.
Lemma demo_sane : sane demo_fs.
Proof.
  split; intros a; cbn [dir demo_fs fresh]; unfold set_name.
  - intros b i. destruct (name_eqb a demo_path) eqn:A, (name_eqb b demo_path) eqn:B; try discriminate. apply name_eqb_eq in A, B. congruence.
  - intros i. destruct (name_eqb a demo_path); [|discriminate]. intros E. injection E as <-. lia.
Qed.
Lemma alone_cons honest path c x y z : step honest path c x y -> alone honest path c y z -> alone honest path c x z.
Proof. intros S A. induction A; [eapply alone_step; [constructor|exact S]|eapply alone_step; eauto]. Qed.
Lemma truncated : exists path c fs0 fs, sane fs0 /\ backup c = false /\
  alone false path c (fs0, Start) (fs, Done) /\ content_of fs path <> content_of fs0 path /\ content_of fs path <> Some (body c).
Proof.
  exists demo_path, {| body := chars "new"; backup := false |}, demo_fs. eexists. split; [exact demo_sane|]. split; [reflexivity|]. split.
  - eapply alone_cons; [apply s_connect|]. eapply alone_cons; [apply s_claim; reflexivity|].
    eapply alone_cons; [apply (s_read false _ _ _ _ _ (chars "n") (chars "ew")); discriminate|].
    eapply alone_cons; [apply s_eof; discriminate|]. eapply alone_cons; [apply s_no_backup; reflexivity|].
    eapply alone_cons; [apply s_replace; reflexivity|]. constructor.
  - split; intros E; vm_compute in E; discriminate.
Qed.
Lemma run_cons honest path calls fs s i fs' v w :
  step honest path (calls i) (fs, s i) (fs', v) -> run honest path calls (fs', set_pc s i v) w -> run honest path calls (fs, s) w.
Proof.
  intros S R. remember (fs', set_pc s i v) as w0 eqn:E. induction R as [w|w f1 s1 j f2 v2 R IH S2]; subst.
  - eapply run_step; [constructor|exact S].
  - eapply run_step; [apply IH; reflexivity|exact S2].
Qed.
Definition race_calls (i : nat) : call := {| body := if Nat.eqb i 0 then chars "x" else chars "y"; backup := true |}.
Lemma race : exists path calls fs0 fs s v, sane fs0 /\ (forall i, backup (calls i) = true) /\ content_of fs0 path = Some v /\
  run true path calls (fs0, idle) (fs, s) /\ s 0 = Done /\ s 1 = Done /\ forall n, content_of fs n <> Some v.
Proof.
  exists demo_path, race_calls, demo_fs. eexists. eexists. exists (chars "old"). split; [exact demo_sane|]. split; [reflexivity|]. split; [reflexivity|].
  split; [|split; [|split]].
  - eapply (run_cons _ _ _ _ _ 0); [apply s_connect|].
    eapply (run_cons _ _ _ _ _ 0); [apply s_claim; reflexivity|].
    eapply (run_cons _ _ _ _ _ 0); [apply (s_read true _ _ _ _ _ (chars "x") []); discriminate|].
    eapply (run_cons _ _ _ _ _ 0); [apply s_eof; reflexivity|].
    eapply (run_cons _ _ _ _ _ 0); [apply s_backup; reflexivity|].
    eapply (run_cons _ _ _ _ _ 0); [eapply s_backup_free; reflexivity|].
    eapply (run_cons _ _ _ _ _ 1); [apply s_connect|].
    eapply (run_cons _ _ _ _ _ 1); [apply s_claim_taken; reflexivity|].
    eapply (run_cons _ _ _ _ _ 1); [apply s_claim; reflexivity|].
    eapply (run_cons _ _ _ _ _ 1); [apply (s_read true _ _ _ _ _ (chars "y") []); discriminate|].
    eapply (run_cons _ _ _ _ _ 1); [apply s_eof; reflexivity|].
    eapply (run_cons _ _ _ _ _ 1); [apply s_backup; reflexivity|].
    eapply (run_cons _ _ _ _ _ 1); [eapply s_backup_free; reflexivity|].
    eapply (run_cons _ _ _ _ _ 0); [apply s_move; reflexivity|].
    eapply (run_cons _ _ _ _ _ 0); [apply s_replace; reflexivity|].
    eapply (run_cons _ _ _ _ _ 1); [apply s_move; reflexivity|].
    eapply (run_cons _ _ _ _ _ 1); [apply s_replace; reflexivity|].
    apply run_refl.
  - reflexivity.
  - reflexivity.
  - intros n. unfold content_of. cbn [dir data rename append create demo_fs]. unfold set_name.
    repeat match goal with |- context [name_eqb n ?m] => destruct (name_eqb n m) eqn:? end;
    try discriminate; vm_compute; try discriminate.
Qed.
(** The window in which a killed process leaves no file at the path. *)
Lemma window : exists path c fs0 fs s, sane fs0 /\ backup c = true /\ content_of fs0 path <> None /\
  alone true path c (fs0, Start) (fs, s) /\ content_of fs path = None.
Proof.
  exists demo_path, {| body := chars "n"; backup := true |}, demo_fs. eexists. eexists. split; [exact demo_sane|]. split; [reflexivity|].
  split; [vm_compute; discriminate|]. split.
  - eapply alone_cons; [apply s_connect|]. eapply alone_cons; [apply s_claim; reflexivity|].
    eapply alone_cons; [apply (s_read true _ _ _ _ _ (chars "n") []); discriminate|].
    eapply alone_cons; [apply s_eof; reflexivity|]. eapply alone_cons; [apply s_backup; reflexivity|].
    eapply alone_cons; [eapply s_backup_free; reflexivity|]. eapply alone_cons; [apply s_move; reflexivity|]. constructor.
  - reflexivity.
Qed.
