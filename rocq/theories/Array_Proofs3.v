From Coq Require Import ZArith QArith Qround List Bool Lia.
From Verif Require Import PyNum Time_Model Array_Model Array_Spec Array_Proofs Array_Proofs2.
Import ListNotations.

(** * What the caller gave *)
Lemma untouched_trans a b c : untouched a b -> (length a <= length b)%nat -> untouched b c -> untouched a c.
Proof. intros U L V k B. rewrite (V k) by lia. apply U, B. Qed.
Lemma untouched_app h x : untouched h (h ++ [x]).
Proof. intros k B. apply fetch_old, B. Qed.
Lemma normalize_untouched h jd f h' w fr : exists_in h jd -> match f with Some f => exists_in h f | None => True end -> ~ differ_in_dims h jd f ->
  normalize h jd f = (h', w, fr) -> untouched h h' /\ (length h <= length h')%nat.
Proof.
  intros Xj Xf ND H. destruct f as [f|].
  - unfold normalize in H. destruct (to_array h jd) as [h1 vj] eqn:Ej. destruct (to_array_ref h jd h1 vj Xj Ej) as (U1 & N1 & Rj).
    assert (Xf1 : exists_in h1 f). { destruct f; cbn in *; [exact I|exact Xf|]. destruct Xf as [B S]. rewrite (U1 a B). split; [lia|exact S]. }
    assert (Gf : given_arr h1 f = given_arr h f). { destruct f; cbn in *; try reflexivity. rewrite (U1 a); [reflexivity|apply Xf]. }
    destruct (to_array h1 f) as [h2 vf] eqn:Ef. destruct (to_array_ref h1 f h2 vf Xf1 Ef) as (U2 & N2 & Rf). rewrite Gf in Rf.
    assert (U : untouched h h2) by (apply (untouched_trans h h1 h2); assumption).
    assert (D : given_arr h jd <> None -> given_arr h f <> None -> dims h jd = dims h f). { intros A B. destruct (Nat.eq_dec (dims h jd) (dims h f)) as [E|E]; [exact E|]. exfalso. apply ND. exists f. auto. }
    unfold dims in D. destruct (given_arr h jd) as [a|] eqn:Gj; destruct (given_arr h f) as [b|] eqn:Gf'.
    + destruct Rj as [Rj _]. destruct Rf as [(l & -> & Bl & Fl) _]. apply (at_ref_kept h1 h2 vj a U2 N2) in Rj. destruct Rj as (k & -> & Bk & Fk). cbn [reconcile] in H. rewrite Fk, Fl in H.
      rewrite (D ltac:(discriminate) ltac:(discriminate)), Nat.ltb_irrefl in H. injection H as <- <- <-. split; [exact U|lia].
    + destruct Rj as [(k & -> & _) _]. destruct Rf as (x & _ & ->). cbn [reconcile alloc] in H. injection H as <- <- <-. rewrite app_one_length. split; [|lia]. apply (untouched_trans h h2); [exact U|lia|apply untouched_app].
    + destruct Rj as (x & _ & ->). destruct Rf as [(l & -> & _) _]. cbn [reconcile alloc] in H. injection H as <- <- <-. rewrite app_one_length. split; [|lia]. apply (untouched_trans h h2); [exact U|lia|apply untouched_app].
    + destruct Rj as (x & _ & ->). destruct Rf as (y & _ & ->). cbn [reconcile] in H. injection H as <- <- <-. split; [exact U|lia].
  - destruct (split_parts h jd h' w fr Xj H) as (_ & _ & _ & U & V). split; [exact U|]. destruct w, fr; try contradiction; [subst; lia|lia].
Qed.
Lemma tt_untouched h jd f h' t : exists_in h jd -> match f with Some f => exists_in h f | None => True end -> ~ differ_in_dims h jd f -> tt_jd h jd f = (h', t) -> untouched h h'.
Proof. intros Xj Xf ND H. unfold tt_jd in H. destruct (normalize h jd f) as [[h1 w] fr] eqn:E. injection H as <- _. apply (normalize_untouched h jd f h1 w fr Xj Xf ND E). Qed.
Lemma tai_untouched h jd f h' t : exists_in h jd -> match f with Some f => exists_in h f | None => True end -> ~ differ_in_dims h jd f -> tai_jd h jd f = Ok (h', t) -> untouched h h'.
Proof.
  intros Xj Xf ND H. unfold tai_jd in H. destruct (normalize h jd f) as [[h1 w] fr] eqn:E. destruct (normalize_untouched h jd f h1 w fr Xj Xf ND E) as [U L].
  destruct (arith Qplus h1 fr (Num tt_minus_tai)) as [[h2 x]| | |] eqn:A; try discriminate. injection H as <- <-. destruct (arith_value _ _ _ _ _ _ A) as (_ & _ & V & _). exact (untouched_trans _ _ _ U L V).
Qed.
Lemma J_untouched h y h' t : exists_in h y -> from_J h y = Ok (h', t) -> untouched h h' /\ fresh h t.
Proof.
  intros X H. unfold from_J in H. destruct (to_array h y) as [h1 v] eqn:E. destruct (to_array_ref h y h1 v X E) as (U & L & R).
  destruct (arith Qmult h1 v (Num (1461 # 4))) as [[h2 d]| | |] eqn:A; try discriminate. cbn [bind] in H.
  destruct (arith Qplus h2 d (Num 1721045)) as [[h3 x]| | |] eqn:B; try discriminate. cbn [bind] in H. injection H as <- <-.
  destruct (arith_value _ _ _ _ _ _ A) as (_ & _ & U2 & L2 & _). destruct (arith_value _ _ _ _ _ _ B) as (_ & _ & U3 & L3 & V). split.
  - apply (untouched_trans h h2); [|lia|exact U3]. apply (untouched_trans h h1); assumption.
  - unfold fresh. cbn. split; [|auto]. destruct x; [exact I|lia].
Qed.
(** The dimensions of the caller's own array are changed. *)
Lemma tt_dims_changed h k l n s h' t : k <> l -> (k < length h)%nat -> (l < length h)%nat -> shape (fetch h k) = [n] -> shape (fetch h l) = n :: s -> s <> [] ->
  tt_jd h (GArray k) (Some (GArray l)) = (h', t) -> shape (fetch h' k) = n :: repeat 1%nat (length s).
Proof.
  intros D Bk Bl Sk Sl NE H. unfold tt_jd, normalize in H. cbn [to_array reconcile] in H. rewrite Sk, Sl in H. cbn [length] in H. destruct s as [|m s]; [congruence|]. cbn in H. injection H as <- _. rewrite fetch_update by exact Bk. cbn. rewrite Sk. reflexivity.
Qed.

(** * What the time keeps *)
Lemma tt_fresh h jd f h' t : exists_in h jd -> match f with Some f => exists_in h f /\ forall a, f <> GArray a | None => True end -> (f = None \/ forall a, jd <> GArray a) -> tt_jd h jd f = (h', t) -> fresh h t.
Proof.
  intros Xj Xf NA H. unfold tt_jd in H. destruct (normalize h jd f) as [[h1 w] fr] eqn:E. injection H as <- <-. unfold fresh. cbn [t_whole t_fraction t_tai t_ut1].
  destruct f as [f|].
  - destruct Xf as [Xf NF]. destruct NA as [NA|NA]; [discriminate|]. destruct jd as [x|a|k]; [| |destruct (NA k eq_refl)]; destruct f as [y|b|l]; try destruct (NF l eq_refl).
    + cbn in E. injection E as <- <- <-. auto.
    + cbn in E. injection E as <- <- <-. rewrite app_one_length. repeat split; lia.
    + cbn in E. injection E as <- <- <-. rewrite app_one_length. repeat split; lia.
    + cbn in E. rewrite app_one_length in E. repeat match type of E with (if ?b then _ else _) = _ => destruct b end; injection E as <- <- <-; repeat split; lia.
  - destruct (split_parts h jd h1 w fr Xj E) as (_ & _ & _ & _ & V). destruct w, fr; try contradiction; [auto|]. repeat split; lia.
Qed.
Lemma arith_agree f h1 h2 a b : (match a with Ref k => fetch h1 k = fetch h2 k | Num _ => True end) -> (match b with Ref k => fetch h1 k = fetch h2 k | Num _ => True end) -> same_reading (arith f h1 a b) (arith f h2 a b).
Proof.
  intros A B. assert (Sa : shape_of h1 a = shape_of h2 a) by (destruct a; cbn; [reflexivity|rewrite A; reflexivity]). assert (Sb : shape_of h1 b = shape_of h2 b) by (destruct b; cbn; [reflexivity|rewrite B; reflexivity]).
  assert (Ra : forall idx, read h1 a idx = read h2 a idx) by (intros idx; destruct a; cbn; [reflexivity|rewrite A; reflexivity]). assert (Rb : forall idx, read h1 b idx = read h2 b idx) by (intros idx; destruct b; cbn; [reflexivity|rewrite B; reflexivity]).
  unfold arith. destruct a as [x|k], b as [y|l]; [cbn; split; reflexivity| | |]; rewrite Sa, Sb; (destruct (broadcast _ _) as [s|]; [|exact I]); cbn [alloc same_reading]; (split; [cbn [shape_of]; rewrite !fetch_new; reflexivity|intros idx; match goal with |- read (_ ++ [?x]) _ _ = read (_ ++ [?y]) _ _ => set (u := x); set (w := y) end; cbn [read]; rewrite !fetch_new; unfold u, w; cbn [shape item]; rewrite Ra, Rb; reflexivity]).
Qed.
Lemma fresh_keeps h h' h2 t : fresh h t -> caller_changes h h' h2 -> same_reading (tt_of h' t) (tt_of h2 t).
Proof.
  intros (A & B & _) [_ C]. apply arith_agree; cbn in *.
  - destruct (t_whole t); [exact I|]. symmetry. apply C, A.
  - destruct (t_fraction t); [exact I|]. symmetry. apply C, B.
Qed.
(** A time that keeps the caller's array changes with it. *)
Lemma alias_changes h h' k t h1 v : (k < length h)%nat -> (k < length h')%nat -> t_whole t = Ref k -> t_fraction t <> Ref k -> tt_of h' t = Ok (h1, v) ->
  exists h2 h3 w, caller_changes h h' h2 /\ tt_of h2 t = Ok (h3, w) /\ shape_of h3 w = shape_of h1 v /\ forall idx, within idx (shape_of h1 v) -> read h3 w idx == read h1 v idx + 1.
Proof.
  intros B B' W F T. set (a' := {| dt := dt (fetch h' k); shape := shape (fetch h' k); item := fun idx => item (fetch h' k) idx + 1 |}). exists (update h' k a').
  assert (E : fetch (update h' k a') k = a') by (apply fetch_update, B').
  assert (O : match t_fraction t with Ref l => fetch (update h' k a') l = fetch h' l | Num _ => True end) by (destruct (t_fraction t) as [y|l]; [exact I|apply fetch_other; congruence]).
  assert (S1 : shape_of (update h' k a') (Ref k) = shape_of h' (Ref k)) by (cbn; rewrite E; reflexivity).
  assert (S2 : shape_of (update h' k a') (t_fraction t) = shape_of h' (t_fraction t)) by (destruct (t_fraction t); cbn; [reflexivity|rewrite O; reflexivity]).
  unfold tt_of in *. rewrite W in *. destruct (arith_value _ _ _ _ _ _ T) as (Bc & R & _).
  assert (X : exists h3 w, arith Qplus (update h' k a') (Ref k) (t_fraction t) = Ok (h3, w)).
  { unfold arith. rewrite S1, S2, Bc. unfold alloc. eauto. }
  destruct X as (h3 & w & X). exists h3, w. split; [|split; [exact X|]].
  - split; [apply update_length|]. intros j Lj. apply fetch_other. lia.
  - destruct (arith_value _ _ _ _ _ _ X) as (Bc' & R' & _). rewrite S1, S2, Bc in Bc'. injection Bc' as Bc'. split; [symmetry; exact Bc'|]. intros idx Wi. rewrite R' by (rewrite <- Bc'; exact Wi). rewrite (R idx Wi).
    assert (Rf : read (update h' k a') (t_fraction t) idx = read h' (t_fraction t) idx) by (destruct (t_fraction t); cbn; [reflexivity|rewrite O; reflexivity]). rewrite Rf. cbn [read]. rewrite E. cbn [a' item shape]. ring.
Qed.
Lemma ut1_keeps h k c h' t : (k < length h)%nat -> ut1_jd (constant_delta_t Float64 c) h (GArray k) = Ok (h', t) -> t_whole t = Ref k /\ t_fraction t <> Ref k /\ (k < length h')%nat.
Proof.
  intros B H. unfold ut1_jd in H. cbn [to_array constant_delta_t alloc] in H. match type of H with context [arith Qdiv ?x _ _] => set (h1 := x) in H end.
  assert (L1 : (length h < length h1)%nat) by (unfold h1; rewrite app_one_length; lia).
  destruct (arith Qdiv h1 (Ref (length h)) (Num DAY_S)) as [[h2 d2]| | |] eqn:A1; cbn [bind] in H; try discriminate. destruct (arith_value _ _ _ _ _ _ A1) as (_ & _ & _ & N1 & _).
  destruct (arith Qplus h2 (Ref k) d2) as [[h3 v]| | |] eqn:A2; cbn [bind] in H; try discriminate. destruct (arith_value _ _ _ _ _ _ A2) as (_ & _ & _ & N2 & _).
  destruct v as [x|a]; cbn [constant_delta_t alloc divide_in_place bind] in H.
  - destruct (arith Qmult h3 (Num 0) (Ref k)) as [[hh z]| | |] eqn:A; cbn [bind] in H; try discriminate. injection H as <- <-. destruct (arith_value _ _ _ _ _ _ A) as (_ & _ & _ & N3 & _). cbn. repeat split; [discriminate|lia].
  - rewrite fetch_new in H. cbn [dt bind] in H. match type of H with context [arith Qmult ?x _ _] => destruct (arith Qmult x (Num 0) (Ref k)) as [[hh z]| | |] eqn:A; cbn [bind] in H; try discriminate end. injection H as <- <-. destruct (arith_value _ _ _ _ _ _ A) as (_ & _ & _ & N3 & _). rewrite update_length, app_one_length in N3. cbn. repeat split; [intros X; injection X; lia|lia].
Qed.
Lemma ut1_alias h k c h' t : (k < length h)%nat -> shape (fetch h k) <> [] -> ut1_jd (constant_delta_t Float64 c) h (GArray k) = Ok (h', t) ->
  exists h1 v h2 h3 w, tt_of h' t = Ok (h1, v) /\ caller_changes h h' h2 /\ tt_of h2 t = Ok (h3, w) /\ shape_of h3 w = shape_of h1 v /\ forall idx, within idx (shape_of h1 v) -> read h3 w idx == read h1 v idx + 1.
Proof.
  intros B S H. destruct (ut1_keeps h k c h' t B H) as (W & F & B'). destruct (ut1_constant h (GArray k) c (conj B S)) as (h0 & t0 & H0 & _ & (h1 & v & T & _) & _). rewrite H in H0. injection H0 as <- <-.
  destruct (alias_changes h h' k t h1 v B B' W F T) as (h2 & h3 & w & X). exists h1, v, h2, h3, w. tauto.
Qed.
Lemma tt_alias h k x h' t : (k < length h)%nat -> shape (fetch h k) <> [] -> tt_jd h (GArray k) (Some (GNum x)) = (h', t) ->
  exists h1 v h2 h3 w, tt_of h' t = Ok (h1, v) /\ caller_changes h h' h2 /\ tt_of h2 t = Ok (h3, w) /\ shape_of h3 w = shape_of h1 v /\ forall idx, within idx (shape_of h1 v) -> read h3 w idx == read h1 v idx + 1.
Proof.
  intros B S H. unfold tt_jd, normalize in H. cbn [to_array reconcile alloc] in H. injection H as <- <-.
  assert (T : exists h1 v, tt_of (h ++ [full_like (fetch h k) x]) {| t_whole := Ref k; t_fraction := Ref (length h); t_tai := None; t_ut1 := None |} = Ok (h1, v)).
  { unfold tt_of. cbn [t_whole t_fraction arith shape_of]. rewrite fetch_new, fetch_old by exact B. cbn [full_like shape]. rewrite broadcast_same. unfold alloc. eauto. }
  destruct T as (h1 & v & T). destruct (alias_changes h (h ++ [full_like (fetch h k) x]) k {| t_whole := Ref k; t_fraction := Ref (length h); t_tai := None; t_ut1 := None |} h1 v B ltac:(rewrite app_one_length; lia) eq_refl ltac:(cbn; intros E; injection E; lia) T) as (h2 & h3 & w & X). exists h1, v, h2, h3, w. tauto.
Qed.
(** [ut1_jd] divides the array that a function for Delta T returns. *)
Lemma delta_t_divided h k n x h' t : (k < length h)%nat -> dt (fetch h k) = Float64 -> shape (fetch h k) = [n] -> ut1_jd (fun h _ => (h, Ref k)) h (GNum x) = Ok (h', t) ->
  forall idx, item (fetch h' k) idx == item (fetch h k) idx / 86400.
Proof.
  intros B D S H idx. unfold ut1_jd in H. cbn [to_array arith shape_of] in H. rewrite S, broadcast_left in H. cbn [bind alloc shape_of] in H. rewrite fetch_new, broadcast_right in H. cbn [shape bind alloc divide_in_place] in H.
  rewrite !fetch_old in H by (rewrite ?app_one_length; lia). rewrite D in H. cbn [bind arith] in H. injection H as <- <-. rewrite fetch_update by (rewrite !app_one_length; lia). reflexivity.
Qed.

(** * Indexing *)
Lemma subscript_value h v i n s : shape_of h v = n :: s -> (i < n)%nat -> exists h' v', subscript h v i = Ok (h', v') /\ untouched h h' /\ (length h <= length h')%nat /\ shape_of h' v' = s /\
  (forall idx, length idx = length s -> read h' v' idx = read h v (i :: idx)) /\ match v' with Ref a => (a < length h')%nat | Num _ => True end.
Proof.
  intros S L. destruct v as [x|a]; [discriminate|]. cbn [subscript shape_of] in *. rewrite S. rewrite (proj2 (Nat.ltb_lt i n) L).
  assert (C : forall idx, length idx = length s -> clip (n :: s) (i :: idx) = i :: clip s idx) by (intros idx _; cbn; destruct (Nat.eqb_spec n 1); [f_equal; lia|reflexivity]).
  destruct s as [|m s].
  - do 2 eexists. split; [reflexivity|]. split; [intros k _; reflexivity|]. split; [lia|]. split; [reflexivity|]. split; [|exact I]. intros idx Li. destruct idx; [|discriminate]. cbn [read]. rewrite S. rewrite stretched_same, C by reflexivity. reflexivity.
  - do 2 eexists. split; [reflexivity|]. split; [apply untouched_app|]. rewrite app_one_length. split; [lia|]. cbn [shape_of read]. rewrite fetch_new. cbn [shape item]. split; [reflexivity|]. split; [|lia].
    intros idx Li. rewrite S. rewrite (stretched_same (n :: m :: s)) by (cbn in *; lia). rewrite C by exact Li. rewrite stretched_same by exact Li. reflexivity.
Qed.
Definition bounded (h : store) (v : value) : Prop := match v with Ref a => (a < length h)%nat | Num _ => True end.
Lemma keep_value h v i n s : match v with Some v => shape_of h v = n :: s /\ bounded h v | None => True end -> (i < n)%nat -> exists h' v', keep h v i = Ok (h', v') /\ untouched h h' /\ (length h <= length h')%nat /\
  match v, v' with Some v, Some v' => shape_of h' v' = s /\ bounded h' v' /\ forall idx, length idx = length s -> read h' v' idx = read h v (i :: idx) | None, None => True | _, _ => False end.
Proof.
  intros S L. destruct v as [v|]; cbn [keep].
  - destruct S as [S _]. destruct (subscript_value h v i n s S L) as (h' & v' & E & U & N & S' & R & B). rewrite E. cbn [bind]. do 2 eexists. split; [reflexivity|]. repeat split; assumption.
  - do 2 eexists. split; [reflexivity|]. split; [intros k _; reflexivity|]. split; [lia|exact I].
Qed.
Lemma value_later h h' v s : untouched h h' -> (length h <= length h')%nat -> bounded h v -> shape_of h v = s -> shape_of h' v = s /\ bounded h' v /\ forall idx, read h' v idx = read h v idx.
Proof. intros U L B S. destruct v as [x|a]; cbn in *; [repeat split; auto|]. rewrite (U a B). repeat split; auto. lia. Qed.
Lemma index_uniform h t n s i : uniform h t (n :: s) -> (i < n)%nat -> exists h' t', time_at h t i = Ok (h', t') /\ untouched h h' /\ uniform h' t' s /\
  (forall idx, length idx = length s -> read h' (t_whole t') idx = read h (t_whole t) (i :: idx) /\ read h' (t_fraction t') idx = read h (t_fraction t) (i :: idx)) /\
  match t_tai t, t_tai t' with Some v, Some v' => forall idx, length idx = length s -> read h' v' idx = read h v (i :: idx) | None, None => True | _, _ => False end /\
  match t_ut1 t, t_ut1 t' with Some v, Some v' => forall idx, length idx = length s -> read h' v' idx = read h v (i :: idx) | None, None => True | _, _ => False end.
Proof.
  intros ((S1 & B1) & (S2 & B2) & O3 & O4) L. unfold time_at. rewrite S1.
  destruct (subscript_value h (t_whole t) i n s S1 L) as (h1 & w & E1 & U1 & N1 & Sw & Rw & Bw). rewrite E1. cbn [bind].
  destruct (value_later h h1 (t_fraction t) (n :: s) U1 N1 B2 S2) as (S2' & B2' & R2). destruct (subscript_value h1 (t_fraction t) i n s S2' L) as (h2 & f & E2 & U2 & N2 & Sf & Rf & Bf). rewrite E2. cbn [bind].
  assert (U02 : untouched h h2) by (apply (untouched_trans h h1); assumption). assert (N02 : (length h <= length h2)%nat) by lia.
  assert (O3' : match t_tai t with Some v => shape_of h2 v = n :: s /\ bounded h2 v | None => True end) by (destruct (t_tai t) as [v|]; [destruct O3 as [A B]; destruct (value_later h h2 v _ U02 N02 B A) as (? & ? & _); auto|exact I]).
  destruct (keep_value h2 (t_tai t) i n s O3' L) as (h3 & v3 & E3 & U3 & N3 & P3). rewrite E3. cbn [bind].
  assert (U03 : untouched h h3) by (apply (untouched_trans h h2); assumption). assert (N03 : (length h <= length h3)%nat) by lia.
  assert (O4' : match t_ut1 t with Some v => shape_of h3 v = n :: s /\ bounded h3 v | None => True end) by (destruct (t_ut1 t) as [v|]; [destruct O4 as [A B]; destruct (value_later h h3 v _ U03 N03 B A) as (? & ? & _); auto|exact I]).
  destruct (keep_value h3 (t_ut1 t) i n s O4' L) as (h4 & v4 & E4 & U4 & N4 & P4). rewrite E4. cbn [bind].
  assert (U14 : untouched h1 h4) by (apply (untouched_trans h1 h2); [exact U2|exact N2|]; apply (untouched_trans h2 h3); assumption). assert (U24 : untouched h2 h4) by (apply (untouched_trans h2 h3); assumption).
  do 2 eexists. split; [reflexivity|]. split; [apply (untouched_trans h h3); assumption|].
  destruct (value_later h1 h4 w s U14 ltac:(lia) Bw Sw) as (Sw4 & Bw4 & Rw4). destruct (value_later h2 h4 f s U24 ltac:(lia) Bf Sf) as (Sf4 & Bf4 & Rf4).
  split; [|split; [|split]].
  - unfold uniform. cbn [t_whole t_fraction t_tai t_ut1]. split; [split; assumption|]. split; [split; assumption|]. split.
    + destruct (t_tai t), v3; try contradiction; [|exact I]. destruct P3 as (A & B & _). destruct (value_later h3 h4 v0 s U4 N4 B A) as (? & ? & _). split; assumption.
    + destruct (t_ut1 t), v4; try contradiction; [|exact I]. destruct P4 as (A & B & _). split; assumption.
  - intros idx Li. cbn [t_whole t_fraction]. rewrite Rw4, Rf4, Rw, Rf, R2 by exact Li. split; reflexivity.
  - cbn [t_tai]. destruct (t_tai t) as [v|], v3 as [v0|]; try contradiction; [|exact I]. intros idx Li. destruct P3 as (A & B & R). destruct (value_later h3 h4 v0 s U4 N4 B A) as (_ & _ & R4). destruct O3 as [A3 B3]. destruct (value_later h h2 v _ U02 N02 B3 A3) as (_ & _ & R5). rewrite R4, R, R5 by exact Li. reflexivity.
  - cbn [t_ut1]. destruct (t_ut1 t) as [v|], v4 as [v0|]; try contradiction; [|exact I]. intros idx Li. destruct P4 as (A & B & R). destruct O4 as [A3 B3]. destruct (value_later h h3 v _ U03 N03 B3 A3) as (_ & _ & R5). rewrite R, R5 by exact Li. reflexivity.
Qed.
Lemma index_beyond h t n s i : uniform h t (n :: s) -> (n <= i)%nat -> time_at h t i = IndexError.
Proof. intros ((S1 & _) & _) L. unfold time_at. rewrite S1. destruct (t_whole t) as [x|a]; [discriminate|]. cbn [subscript shape_of] in *. rewrite S1. rewrite (proj2 (Nat.ltb_ge i n) L). reflexivity. Qed.
Lemma index_single h t : shape_of h (t_whole t) = [] -> forall i, time_at h t i = TypeError.
Proof. intros S i. unfold time_at. rewrite S. reflexivity. Qed.
(** Times of [tt_jd] and [tai_jd] are uniform when their arguments fit. *)
Lemma fit_parts h jd f s h' w fr : exists_in h jd -> exists_in h f -> fit h jd f s -> normalize h jd (Some f) = (h', w, fr) -> (shape_of h' w = s /\ bounded h' w) /\ (shape_of h' fr = s /\ bounded h' fr).
Proof.
  intros Xj Xf Ft H. unfold normalize in H. destruct (to_array h jd) as [h1 vj] eqn:Ej. destruct (to_array_ref h jd h1 vj Xj Ej) as (U1 & N1 & Rj).
  assert (Xf1 : exists_in h1 f). { destruct f; cbn in *; [exact I|exact Xf|]. destruct Xf as [B S]. rewrite (U1 a B). split; [lia|exact S]. }
  assert (Gf : given_arr h1 f = given_arr h f). { destruct f; cbn in *; try reflexivity. rewrite (U1 a); [reflexivity|apply Xf]. }
  destruct (to_array h1 f) as [h2 vf] eqn:Ef. destruct (to_array_ref h1 f h2 vf Xf1 Ef) as (U2 & N2 & Rf). rewrite Gf in Rf. unfold fit in Ft.
  destruct (given_arr h jd) as [a|] eqn:Gj; destruct (given_arr h f) as [b|] eqn:Gf'.
  - destruct Ft as [Fa Fb]. destruct Rj as [Rj _]. destruct Rf as [(l & -> & Bl & Fl) _]. apply (at_ref_kept h1 h2 vj a U2 N2) in Rj. destruct Rj as (k & -> & Bk & Fk). cbn [reconcile] in H. rewrite Fk, Fl, Fa, Fb, Nat.ltb_irrefl in H. injection H as <- <- <-. cbn. rewrite Fk, Fl. auto.
  - destruct Rj as [Rj _]. destruct Rf as (x & -> & ->). apply (at_ref_kept h1 h2 vj a U2 N2) in Rj. destruct Rj as (k & -> & Bk & Fk). cbn [reconcile alloc] in H. rewrite Fk in H. injection H as <- <- <-. cbn. rewrite fetch_new, fetch_old, app_one_length by exact Bk. rewrite Fk. cbn. split; (split; [exact Ft|lia]).
  - destruct Rj as (x & -> & ->). destruct Rf as [(l & -> & Bl & Fl) _]. cbn [reconcile alloc] in H. rewrite Fl in H. injection H as <- <- <-. cbn. rewrite fetch_new, fetch_old, app_one_length by exact Bl. rewrite Fl. cbn. split; (split; [exact Ft|lia]).
  - destruct Rj as (x & -> & ->). destruct Rf as (y & -> & ->). cbn [reconcile] in H. injection H as <- <- <-. cbn. subst s. auto.
Qed.
Lemma tt_uniform h jd f s h' t : exists_in h jd -> exists_in h f -> fit h jd f s -> tt_jd h jd (Some f) = (h', t) -> uniform h' t s.
Proof. intros Xj Xf Ft H. unfold tt_jd in H. destruct (normalize h jd (Some f)) as [[h1 w] fr] eqn:E. injection H as <- <-. destruct (fit_parts h jd f s h1 w fr Xj Xf Ft E) as [A B]. unfold uniform. cbn. auto. Qed.
Lemma tt_uniform_split h jd h' t : exists_in h jd -> tt_jd h jd None = (h', t) -> uniform h' t (match given_arr h jd with Some a => shape a | None => [] end).
Proof.
  intros X H. unfold tt_jd in H. destruct (normalize h jd None) as [[h1 w] fr] eqn:E. injection H as <- <-. unfold normalize in E. destruct (to_array h jd) as [h0 v] eqn:Ej. destruct (to_array_ref h jd h0 v X Ej) as (U1 & N1 & R).
  destruct (given_arr h jd) as [a|].
  - destruct R as [(k & -> & B & F) _]. cbn [alloc] in E. rewrite F in E. injection E as <- <- <-. unfold uniform. cbn [t_whole t_fraction t_tai t_ut1 shape_of]. rewrite fetch_new. rewrite (fetch_old (h0 ++ _)) by (rewrite app_one_length; lia). rewrite fetch_new, !app_one_length. cbn. repeat split; lia.
  - destruct R as (x & _ & ->). injection E as <- <- <-. unfold uniform. cbn. auto.
Qed.
Lemma tai_uniform h jd f s h' t : exists_in h jd -> exists_in h f -> fit h jd f s -> tai_jd h jd (Some f) = Ok (h', t) -> uniform h' t s.
Proof.
  intros Xj Xf Ft H. unfold tai_jd in H. destruct (normalize h jd (Some f)) as [[h1 w] fr] eqn:E. destruct (fit_parts h jd f s h1 w fr Xj Xf Ft E) as [[A A'] [B B']].
  destruct (arith Qplus h1 fr (Num tt_minus_tai)) as [[h2 x]| | |] eqn:Ar; try discriminate. injection H as <- <-. destruct (arith_value _ _ _ _ _ _ Ar) as (Bc & _ & U & N & V). cbn [shape_of] in Bc. rewrite broadcast_left in Bc. injection Bc as Bc.
  destruct (value_later h1 h2 w s U N A' A) as (? & ? & _). destruct (value_later h1 h2 fr s U N B' B) as (? & ? & _). unfold uniform. cbn. repeat split; auto; [congruence|destruct x; [exact I|lia]].
Qed.
Lemma arith_ok_num f h a x : exists h' v, arith f h a (Num x) = Ok (h', v) /\ shape_of h' v = shape_of h a.
Proof. destruct a as [y|k]; cbn [arith shape_of]; [do 2 eexists; split; reflexivity|]. rewrite broadcast_left. cbn [alloc]. do 2 eexists. split; [reflexivity|]. cbn. rewrite fetch_new. reflexivity. Qed.
Lemma J_not_indexed h y a n s : exists_in h y -> given_arr h y = Some a -> shape a = n :: s -> exists h' t, from_J h y = Ok (h', t) /\ time_len h' t = Ok n /\ forall i, (i < n)%nat -> time_at h' t i = TypeError.
Proof.
  intros X G S. unfold from_J. destruct (to_array h y) as [h1 v] eqn:E. destruct (to_array_ref h y h1 v X E) as (U & L & R). rewrite G in R. destruct R as [(k & -> & B & F) _].
  destruct (arith_ok_num Qmult h1 (Ref k) (1461 # 4)) as (h2 & d & E2 & S2). rewrite E2. cbn [bind]. destruct (arith_ok_num Qplus h2 d 1721045) as (h3 & x & E3 & S3). rewrite E3. cbn [bind]. cbn [shape_of] in S2. rewrite F, S in S2. rewrite S2 in S3.
  do 2 eexists. split; [reflexivity|]. split; [unfold time_len; cbn [t_whole]; rewrite S3; reflexivity|]. intros i Li. unfold time_at. cbn [t_whole t_fraction]. rewrite S3. destruct (subscript_value h3 x i n s S3 Li) as (h4 & w & E4 & _). rewrite E4. reflexivity.
Qed.
Lemma uniform_tt h t s : uniform h t s -> exists h' v, tt_of h t = Ok (h', v) /\ shape_of h' v = s /\ forall idx, within idx s -> read h' v idx = read h (t_whole t) idx + read h (t_fraction t) idx.
Proof.
  intros ((S1 & _) & (S2 & _) & _). unfold tt_of. assert (X : exists h' v, arith Qplus h (t_whole t) (t_fraction t) = Ok (h', v)).
  { unfold arith. rewrite S1, S2, broadcast_same. destruct (t_whole t), (t_fraction t); unfold alloc; eauto. }
  destruct X as (h' & v & X). exists h', v. split; [exact X|]. destruct (arith_value _ _ _ _ _ _ X) as (B & R & _). rewrite S1, S2, broadcast_same in B. injection B as B. split; [symmetry; exact B|]. intros idx W. apply R. rewrite <- B. exact W.
Qed.
Lemma tt_total h jd f s h' t : exists_in h jd -> exists_in h f -> fit h jd f s -> no_loss h jd f -> tt_jd h jd (Some f) = (h', t) ->
  exists h'' v, tt_of h' t = Ok (h'', v) /\ holds h'' v s (fun idx => said h jd idx + said h f idx).
Proof.
  intros Xj Xf Ft NL H. destruct (uniform_tt _ _ _ (tt_uniform h jd f s h' t Xj Xf Ft H)) as (h'' & v & T & S & _). exists h'', v. split; [exact T|]. split; [exact S|]. rewrite <- S.
  exact (proj2 (tt_value h jd f h' t h'' v Xj Xf NL H T)).
Qed.
(** Index, then read; or read, then index. *)
Lemma index_commutes h t n s i : uniform h t (n :: s) -> (i < n)%nat -> exists h' t' h1 v1 h2 v2, time_at h t i = Ok (h', t') /\ untouched h h' /\ tt_of h' t' = Ok (h1, v1) /\ tt_of h t = Ok (h2, v2) /\
  shape_of h2 v2 = n :: s /\ holds h1 v1 s (fun idx => read h2 v2 (i :: idx)).
Proof.
  intros U L. destruct (index_uniform h t n s i U L) as (h' & t' & E & Un & U' & R & _). destruct (uniform_tt h' t' s U') as (h1 & v1 & T1 & S1 & R1). destruct (uniform_tt h t (n :: s) U) as (h2 & v2 & T2 & S2 & R2).
  exists h', t', h1, v1, h2, v2. split; [exact E|]. split; [exact Un|]. split; [exact T1|]. split; [exact T2|]. split; [exact S2|]. split; [exact S1|]. intros idx W. rewrite (R1 idx W). destruct (R idx (within_length _ _ W)) as [-> ->].
  rewrite R2 by (constructor; assumption). reflexivity.
Qed.
Lemma index_stops h t n s : uniform h t (n :: s) -> time_len h t = Ok n /\ forall i, (exists h' t', time_at h t i = Ok (h', t')) <-> (i < n)%nat.
Proof.
  intros U. split; [unfold time_len; destruct U as ((-> & _) & _); reflexivity|]. intros i. split.
  - intros (h' & t' & E). destruct (Nat.lt_ge_cases i n) as [L|L]; [exact L|]. rewrite (index_beyond h t n s i U L) in E. discriminate.
  - intros L. destruct (index_uniform h t n s i U L) as (h' & t' & E & _). eauto.
Qed.
Lemma tai_split_uniform h jd h' t : exists_in h jd -> tai_jd h jd None = Ok (h', t) -> uniform h' t (match given_arr h jd with Some a => shape a | None => [] end).
Proof.
  intros X H. unfold tai_jd in H. pose proof (tt_uniform_split h jd) as U. unfold tt_jd in U. destruct (normalize h jd None) as [[h1 w] fr] eqn:E. specialize (U h1 _ X eq_refl). destruct U as ((A & A') & (B & B') & _). cbn [t_whole t_fraction] in *.
  destruct (arith Qplus h1 fr (Num tt_minus_tai)) as [[h2 x]| | |] eqn:Ar; try discriminate. injection H as <- <-. destruct (arith_value _ _ _ _ _ _ Ar) as (Bc & _ & U & N & V). cbn [shape_of] in Bc. rewrite broadcast_left in Bc. injection Bc as Bc.
  destruct (value_later h1 h2 w _ U N A' A) as (? & ? & _). destruct (value_later h1 h2 fr _ U N B' B) as (? & ? & _). unfold uniform. cbn. repeat split; auto; [congruence|destruct x; [exact I|lia]].
Qed.
Lemma ut1_uniform h jd c h' t : exists_in h jd -> ut1_jd (constant_delta_t Float64 c) h jd = Ok (h', t) -> uniform h' t (match given_arr h jd with Some a => shape a | None => [] end).
Proof.
  intros X H. unfold ut1_jd in H. destruct (to_array h jd) as [h0 ut1] eqn:E. destruct (to_array_ref h jd h0 ut1 X E) as (U & N & R). destruct (given_arr h jd) as [a|].
  - destruct R as [(k & -> & B & F) _]. cbn [constant_delta_t alloc] in H. match type of H with context [arith Qdiv ?x _ _] => set (h1 := x) in H end.
    assert (F1 : fetch h1 k = a) by (unfold h1; rewrite fetch_old by exact B; exact F). assert (L1 : (length h0 < length h1)%nat) by (unfold h1; rewrite app_one_length; lia).
    destruct (arith Qdiv h1 (Ref (length h0)) (Num DAY_S)) as [[h2 d2]| | |] eqn:A1; cbn [bind] in H; try discriminate. destruct (arith_value _ _ _ _ _ _ A1) as (B1 & _ & U1 & N1 & _). cbn [shape_of] in B1. unfold h1 in B1 at 1. rewrite fetch_new, broadcast_left in B1. cbn [shape] in B1. injection B1 as B1. rewrite F in B1.
    destruct (arith Qplus h2 (Ref k) d2) as [[h3 v]| | |] eqn:A2; cbn [bind] in H; try discriminate. destruct (arith_value _ _ _ _ _ _ A2) as (B2 & _ & U2 & N2 & _). cbn [shape_of] in B2. rewrite <- B1, (U1 k) in B2 by lia. rewrite F1, broadcast_same in B2. injection B2 as B2.
    assert (F3 : fetch h3 k = a) by (rewrite (U2 k), (U1 k) by lia; exact F1).
    destruct v as [x|b]; cbn [constant_delta_t alloc divide_in_place bind] in H.
    + exfalso. unfold arith in A2. destruct (broadcast _ _); [|discriminate]. unfold alloc in A2. discriminate.
    + rewrite fetch_new in H. cbn [dt bind] in H. match type of H with context [arith Qmult ?x _ _] => set (h4 := x) in H end. assert (F4 : fetch h4 k = a) by (unfold h4; rewrite fetch_other by lia; rewrite fetch_old by lia; exact F3). assert (L4 : length h4 = S (length h3)) by (unfold h4; rewrite update_length, app_one_length; reflexivity).
      assert (S4 : shape (fetch h4 (length h3)) = shape a) by (unfold h4; rewrite fetch_update by (rewrite app_one_length; lia); cbn; cbn in B2; congruence).
      destruct (arith Qmult h4 (Num 0) (Ref k)) as [[h5 z]| | |] eqn:A; cbn [bind] in H; try discriminate. injection H as <- <-. destruct (arith_value _ _ _ _ _ _ A) as (B3 & _ & U3 & N3 & V). cbn [shape_of] in B3. rewrite F4, broadcast_right in B3. injection B3 as B3.
      unfold uniform. cbn [t_whole t_fraction t_tai t_ut1 shape_of]. rewrite (U3 k), (U3 (length h3)) by lia. rewrite F4, S4, <- B3. repeat split; try lia. destruct z; [exact I|lia].
  - destruct R as (x & _ & ->). cbn in H. injection H as <- <-. unfold uniform. cbn. auto.
Qed.
