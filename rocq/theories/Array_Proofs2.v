From Coq Require Import ZArith QArith Qround List Bool Lia.
From Verif Require Import PyNum Time_Model Array_Model Array_Spec Array_Proofs.
Import ListNotations.

Lemma parts_sum h jd f n h' w fr h'' v : part h jd n h' w -> part h f n h' fr -> arith Qplus h' w fr = Ok (h'', v) ->
  length (shape_of h'' v) = n /\ forall idx, within idx (shape_of h'' v) -> read h'' v idx == said h jd idx + said h f idx.
Proof.
  intros (L1 & R1 & _) (L2 & R2 & _) A. destruct (arith_value _ _ _ _ _ _ A) as (B & R & _). pose proof (broadcast_length _ _ _ B) as L. rewrite L1, L2, Nat.max_id in L.
  split; [exact L|]. intros idx W. pose proof (within_length _ _ W) as Li. rewrite (R idx W), R1, R2 by lia. reflexivity.
Qed.
Lemma tt_value h jd f h' t h'' v : exists_in h jd -> exists_in h f -> no_loss h jd f -> tt_jd h jd (Some f) = (h', t) -> tt_of h' t = Ok (h'', v) ->
  length (shape_of h'' v) = Nat.max (dims h jd) (dims h f) /\ forall idx, within idx (shape_of h'' v) -> read h'' v idx == said h jd idx + said h f idx.
Proof.
  intros Xj Xf NL H T. unfold tt_jd in H. destruct (normalize h jd (Some f)) as [[h1 w] fr] eqn:E. injection H as <- <-. destruct (reconcile_parts h jd f h1 w fr Xj Xf NL E) as [P1 P2].
  exact (parts_sum _ _ _ _ _ _ _ _ _ P1 P2 T).
Qed.
Lemma tt_value_split h jd h' t : exists_in h jd -> tt_jd h jd None = (h', t) -> exists h'' v, tt_of h' t = Ok (h'', v) /\
  length (shape_of h'' v) = dims h jd /\ forall idx, within idx (shape_of h'' v) -> read h'' v idx == said h jd idx.
Proof.
  intros X H. unfold tt_jd in H. destruct (normalize h jd None) as [[h1 w] fr] eqn:E. injection H as <- <-. destruct (split_parts h jd h1 w fr X E) as (S & L & R & _ & V). unfold tt_of. cbn [t_whole t_fraction].
  assert (O : exists h'' v, arith Qplus h1 w fr = Ok (h'', v)).
  { unfold arith. destruct w, fr; try contradiction; [eauto|]. rewrite S, broadcast_same. unfold alloc. eauto. }
  destruct O as (h'' & v & O). exists h'', v. split; [exact O|]. destruct (arith_value _ _ _ _ _ _ O) as (B & Rv & _). rewrite S, broadcast_same in B. injection B as B. rewrite <- B, <- S. split; [exact L|].
  intros idx W. rewrite Rv by (rewrite <- B, <- S; exact W). apply R. rewrite (within_length _ _ W). exact L.
Qed.
Lemma read_untouched h h' v idx : untouched h h' -> match v with Ref k => (k < length h)%nat | Num _ => True end -> read h' v idx = read h v idx /\ shape_of h' v = shape_of h v.
Proof. intros U B. destruct v as [x|k]; cbn; [split; reflexivity|]. rewrite (U k B). split; reflexivity. Qed.
Lemma part_untouched h g n h1 h2 v : untouched h1 h2 -> (length h1 <= length h2)%nat -> part h g n h1 v -> part h g n h2 v.
Proof.
  intros U N (L & R & B). split; [|split].
  - rewrite (proj2 (read_untouched h1 h2 v [] U B)). exact L.
  - intros idx Li. rewrite (proj1 (read_untouched h1 h2 v idx U B)). apply R, Li.
  - destruct v; [exact I|lia].
Qed.
Lemma tai_value h jd f h' t h'' v : exists_in h jd -> exists_in h f -> no_loss h jd f -> tai_jd h jd (Some f) = Ok (h', t) ->
  (part_of h' t (t_tai t) = Ok (h'', v) ->
   length (shape_of h'' v) = Nat.max (dims h jd) (dims h f) /\ forall idx, within idx (shape_of h'' v) -> read h'' v idx == said h jd idx + said h f idx) /\
  (tt_of h' t = Ok (h'', v) ->
   length (shape_of h'' v) = Nat.max (dims h jd) (dims h f) /\ forall idx, within idx (shape_of h'' v) -> read h'' v idx == said h jd idx + said h f idx + tt_minus_tai).
Proof.
  intros Xj Xf NL H. unfold tai_jd in H. destruct (normalize h jd (Some f)) as [[h1 w] fr] eqn:E. destruct (reconcile_parts h jd f h1 w fr Xj Xf NL E) as [P1 P2].
  destruct (arith Qplus h1 fr (Num tt_minus_tai)) as [[h2 x]| | |] eqn:A; try discriminate. cbn [bind] in H. injection H as <- <-. destruct (arith_value _ _ _ _ _ _ A) as (B & R & U & N & V).
  pose proof (part_untouched _ _ _ _ _ _ U N P1) as Q1. pose proof (part_untouched _ _ _ _ _ _ U N P2) as Q2. split.
  - intros T. exact (parts_sum _ _ _ _ _ _ _ _ _ Q1 Q2 T).
  - intros T. unfold tt_of in T. cbn [t_whole t_fraction] in T. destruct (arith_value _ _ _ _ _ _ T) as (B' & R' & _). pose proof (broadcast_length _ _ _ B') as L.
    cbn [shape_of] in B. pose proof (broadcast_length _ _ _ B) as L2. cbn [length] in L2. rewrite Nat.max_0_r in L2. destruct Q1 as (L1 & R1 & _). destruct P2 as (Lf & Rf & Bf). rewrite L1, L2, Lf, Nat.max_id in L. split; [exact L|].
    intros idx W. pose proof (within_length _ _ W) as Li. rewrite (R' idx W), R1 by lia.
    destruct x as [y|k].
    + assert (Z0 : length (shape_of h1 fr) = 0%nat) by (rewrite <- L2; reflexivity). destruct idx; [|cbn in Li; lia]. rewrite (R [] ltac:(constructor)), Rf by (cbn; lia). cbn [read]. ring.
    + cbn [read shape_of] in *. destruct V as [V _].
      assert (WW : read h2 (Ref k) idx == said h f idx + tt_minus_tai).
      { rewrite broadcast_left in B. injection B as B. unfold arith in A. destruct fr as [y|l]; [discriminate A|]. cbn [shape_of] in A. rewrite broadcast_left in A. cbn [alloc] in A. injection A as <- <-. cbn [read]. rewrite fetch_new. cbn [item shape].
        cbn [shape_of] in Lf. rewrite (stretched_same (shape (fetch h1 l)) idx) by lia. cbn [read].
        rewrite stretched_same by (rewrite clip_length; lia).
        assert (CC : forall s i, clip s (clip s i) = clip s i) by (induction s as [|d s IH]; intros [|i0 i]; cbn; try reflexivity; rewrite IH; destruct (Nat.eqb d 1); reflexivity).
        rewrite CC. pose proof (Rf idx ltac:(lia)) as RR. cbn [read] in RR. rewrite stretched_same in RR by lia. rewrite RR. reflexivity. }
      cbn [read] in WW. rewrite WW. ring.
Qed.
(** * The finding about integers *)
Lemma tt_int_loss h a x h' t h'' v : dt a = Int64 -> shape a <> [] -> tt_jd h (GList a) (Some (GNum x)) = (h', t) -> tt_of h' t = Ok (h'', v) ->
  forall idx, within idx (shape a) -> shape_of h'' v = shape a /\ read h'' v idx == item a idx + inject_Z (qtrunc x).
Proof.
  intros D S H T idx W. cbn in H. injection H as <- <-. unfold tt_of in T. cbn [t_whole t_fraction] in T. rewrite fetch_new in T.
  set (h2 := (h ++ [a]) ++ [full_like a x]) in *. assert (E1 : fetch h2 (length h) = a) by (unfold h2; rewrite fetch_old by (rewrite app_one_length; lia); apply fetch_new).
  assert (E2 : fetch h2 (length (h ++ [a])) = full_like a x) by apply fetch_new. destruct (arith_value _ _ _ _ _ _ T) as (B & R & _).
  cbn [shape_of] in B. rewrite E1, E2 in B. cbn [full_like shape] in B. rewrite broadcast_same in B. injection B as B.
  rewrite (R idx) by (rewrite <- B; exact W). cbn [read]. rewrite E1, E2. cbn [full_like shape item]. rewrite D.
  rewrite stretched_same by apply within_length, W. rewrite clip_within by exact W. split; [symmetry; exact B|reflexivity].
Qed.

(** * Constant Delta T *)
Lemma ut1_constant h jd c : exists_in h jd -> exists h' t, ut1_jd (constant_delta_t Float64 c) h jd = Ok (h', t) /\
  untouched h h' /\
  (exists h1 v, tt_of h' t = Ok (h1, v) /\ length (shape_of h1 v) = dims h jd /\ forall idx, within idx (shape_of h1 v) -> read h1 v idx == said h jd idx + c / 86400) /\
  (exists h1 v, part_of h' t (t_ut1 t) = Ok (h1, v) /\ length (shape_of h1 v) = dims h jd /\ forall idx, within idx (shape_of h1 v) -> read h1 v idx == said h jd idx).
Proof.
  intros X. unfold ut1_jd. destruct (to_array h jd) as [h0 ut1] eqn:E. destruct (to_array_ref h jd h0 ut1 X E) as (U & N & R). unfold dims.
  destruct (given_arr h jd) as [a|] eqn:G.
  - destruct R as [(k & -> & B & F) _]. cbn [constant_delta_t alloc arith shape_of].
    set (a1 := {| dt := Float64; shape := shape (fetch h0 k); item := fun _ => c |}). set (h1 := h0 ++ [a1]).
    assert (B1 : (k < length h1)%nat) by (unfold h1; rewrite app_one_length; lia).
    assert (F1 : fetch h1 (length h0) = a1) by apply fetch_new. assert (K1 : fetch h1 k = a) by (unfold h1; rewrite fetch_old by exact B; exact F).
    rewrite F1, broadcast_left. cbn [bind alloc].
    match goal with |- context[h1 ++ [?y]] => set (a2 := y) end. set (h2 := h1 ++ [a2]).
    assert (B2 : (k < length h2)%nat) by (unfold h2; rewrite app_one_length; lia). assert (F2 : fetch h2 (length h1) = a2) by apply fetch_new. assert (K2 : fetch h2 k = a) by (unfold h2; rewrite fetch_old by exact B1; exact K1).
    assert (S2 : shape a2 = shape a) by (unfold a2; cbn [shape]; unfold a1; cbn [shape]; rewrite F; reflexivity).
    cbn [shape_of]. rewrite K2, F2, S2, broadcast_same. cbn [bind alloc].
    match goal with |- context[h2 ++ [?y]] => set (a3 := y) end. set (h3 := h2 ++ [a3]).
    assert (B3 : (k < length h3)%nat) by (unfold h3; rewrite app_one_length; lia). assert (F3 : fetch h3 (length h2) = a3) by apply fetch_new. assert (K3 : fetch h3 k = a) by (unfold h3; rewrite fetch_old by exact B2; exact K2).
    cbn [constant_delta_t alloc]. rewrite F3. assert (S3 : shape a3 = shape a) by reflexivity. rewrite S3.
    set (a4 := {| dt := Float64; shape := shape a; item := fun _ => c |}). set (h4 := h3 ++ [a4]).
    assert (B4 : (k < length h4)%nat) by (unfold h4; rewrite app_one_length; lia). assert (F4 : fetch h4 (length h3) = a4) by apply fetch_new. assert (K4 : fetch h4 k = a) by (unfold h4; rewrite fetch_old by exact B3; exact K3).
    cbn [divide_in_place]. rewrite F4. cbn [dt a4 bind].
    match goal with |- context[update h4 (length h3) ?y] => set (a5 := y) end. set (h5 := update h4 (length h3) a5).
    assert (L5 : length h5 = length h4) by apply update_length. assert (L4 : length h4 = S (length h3)) by apply app_one_length.
    assert (F5 : fetch h5 (length h3) = a5) by (apply fetch_update; lia). assert (K5 : fetch h5 k = a) by (unfold h5; rewrite fetch_other by lia; exact K4).
    cbn [shape_of]. rewrite K5, broadcast_right. cbn [bind alloc].
    match goal with |- context[h5 ++ [?y]] => set (a6 := y) end. set (h6 := h5 ++ [a6]).
    assert (L6 : length h6 = S (length h5)) by apply app_one_length.
    assert (F6 : fetch h6 (length h5) = a6) by apply fetch_new. assert (K6 : fetch h6 k = a) by (unfold h6; rewrite fetch_old by lia; exact K5). assert (D6 : fetch h6 (length h3) = a5) by (unfold h6; rewrite fetch_old by lia; exact F5).
    do 2 eexists. split; [reflexivity|]. split; [|split].
    + intros j Lj. assert (J0 : (j < length h0)%nat) by lia. assert (O1 : fetch h1 j = fetch h0 j) by (unfold h1; apply fetch_old, J0).
      assert (J1 : (j < length h1)%nat) by (unfold h1; rewrite app_one_length; lia). assert (O2 : fetch h2 j = fetch h1 j) by (unfold h2; apply fetch_old, J1).
      assert (J2 : (j < length h2)%nat) by (unfold h2; rewrite app_one_length; lia). assert (O3 : fetch h3 j = fetch h2 j) by (unfold h3; apply fetch_old, J2).
      assert (J3 : (j < length h3)%nat) by (unfold h3; rewrite app_one_length; lia). assert (O4 : fetch h4 j = fetch h3 j) by (unfold h4; apply fetch_old, J3).
      assert (O5 : fetch h5 j = fetch h4 j) by (unfold h5; apply fetch_other; lia). assert (O6 : fetch h6 j = fetch h5 j) by (unfold h6; apply fetch_old; lia).
      rewrite O6, O5, O4, O3, O2, O1. apply U, Lj.
    + unfold tt_of. cbn [t_whole t_fraction arith shape_of]. rewrite K6, D6. unfold a5 at 1. cbn [shape]. unfold a4 at 1. cbn [shape]. rewrite broadcast_same. cbn [alloc]. do 2 eexists. split; [reflexivity|]. cbn [shape_of]. rewrite fetch_new. cbn [shape]. split; [reflexivity|].
      intros idx W. pose proof (within_length _ _ W) as Li. cbn [read]. rewrite fetch_new. cbn [item shape]. rewrite K6, D6. unfold a5. cbn [item shape]. unfold a4. cbn [item shape]. rewrite (said_some h jd a) by exact G. unfold said_arr. rewrite (stretched_same (shape a) idx Li), (clip_within idx (shape a) W), (stretched_same (shape a) idx Li), <- Li, firstn_all, (clip_within idx (shape a) W). reflexivity.
    + unfold part_of. cbn [t_whole t_ut1 arith shape_of]. rewrite K6, F6. unfold a6 at 1. cbn [shape]. rewrite broadcast_same. cbn [alloc]. do 2 eexists. split; [reflexivity|]. cbn [shape_of]. rewrite fetch_new. cbn [shape]. split; [reflexivity|].
      intros idx W. pose proof (within_length _ _ W) as Li. cbn [read]. rewrite fetch_new. cbn [item shape]. rewrite K6, F6. unfold a6. cbn [item shape read]. rewrite K5. rewrite (said_some h jd a) by exact G. unfold said_arr. rewrite (stretched_same (shape a) idx Li), (clip_within idx (shape a) W), (stretched_same (shape a) idx Li), (clip_within idx (shape a) W), (stretched_same (shape a) idx Li), <- Li, firstn_all, (clip_within idx (shape a) W). ring.
  - destruct R as (x & -> & ->). cbn in E. injection E as <-. cbn. do 2 eexists. split; [reflexivity|]. split; [intros j _; reflexivity|]. split.
    + do 2 eexists. split; [reflexivity|]. split; [reflexivity|]. intros idx _. reflexivity.
    + do 2 eexists. split; [reflexivity|]. split; [reflexivity|]. intros idx _. cbn. ring.
Qed.
Lemma ut1_integer h jd c : exists_in h jd -> given_arr h jd <> None -> ut1_jd (constant_delta_t Int64 c) h jd = TypeError.
Proof.
  intros X G. unfold ut1_jd. destruct (to_array h jd) as [h0 ut1] eqn:E. destruct (to_array_ref h jd h0 ut1 X E) as (U & N & R). destruct (given_arr h jd) as [a|]; [|congruence].
  destruct R as [(k & -> & B & F) _]. cbn [constant_delta_t alloc arith shape_of]. rewrite fetch_new, broadcast_left. cbn [bind alloc shape_of]. rewrite fetch_new, !fetch_old by (rewrite ?app_one_length; lia). cbn [shape]. rewrite broadcast_same. cbn [bind alloc divide_in_place constant_delta_t]. rewrite fetch_new. cbn [dt]. reflexivity.
Qed.
