From Coq Require Import List Ascii String Arith Bool Lia.
From Verif Require Import Download_Model Download_Proofs Files_Model Files_Spec.
Import ListNotations.
Open Scope bool_scope.
Open Scope list_scope.

(** * TLE *)
Lemma l1_not_l2 b : line1 b && line2 b = false.
Proof.
  unfold line1, line2. destruct b as [|c [|d r]]; try reflexivity.
  - cbn. rewrite !andb_false_r. reflexivity.
  - cbn [starts_with chars list_ascii_of_string].
    destruct (Ascii.eqb "1" c) eqn:A; [|reflexivity]. apply Ascii.eqb_eq in A. subst. cbn. rewrite andb_false_r. reflexivity.
Qed.
Lemma nil_not_line1 : line1 [] = false. Proof. reflexivity. Qed.
(* state after reading [pre], about to read the rest *)
Definition state_ok (pre : list name) (b0 b1 : name) : Prop :=
  let n := List.length pre in
  match n with
  | 0 => b0 = [] /\ b1 = []
  | S m => if match m with 0 => false | S k => set_at pre k end then b0 = [] /\ b1 = []
           else b1 = at_line pre m /\
             b0 = match m with 0 => [] | S k => if match k with 0 => false | S l => set_at pre l end then [] else at_line pre k end
  end.
Lemma at_app_l pre x i : i < List.length pre -> at_line (pre ++ x) i = at_line pre i.
Proof. intros H. unfold at_line. apply app_nth1. assumption. Qed.
Lemma set_app_l pre x i : S i < List.length pre -> set_at (pre ++ x) i = set_at pre i.
Proof. intros H. unfold set_at. rewrite !at_app_l by lia. reflexivity. Qed.
Lemma at_end pre b : at_line (pre ++ [b]) (List.length pre) = b.
Proof. unfold at_line. rewrite app_nth2, Nat.sub_diag by lia. reflexivity. Qed.
Lemma set_excl lines i : set_at lines i = true -> set_at lines (S i) = false.
Proof.
  unfold set_at. intros H. apply andb_prop in H as [_ H]. pose proof (l1_not_l2 (at_line lines (S i))) as X.
  rewrite H, andb_true_r in X. rewrite X. reflexivity.
Qed.

Lemma tle_step skip pre b0 b1 b2 : state_ok pre b0 b1 ->
  (line2 b2 && line1 b1 = match List.length pre with 0 => false | S m => set_at (pre ++ [b2]) m end) /\
  (line2 b2 && line1 b1 = true -> tle_name skip b0 = name_at skip (pre ++ [b2]) (List.length pre - 1) /\ b1 = at_line pre (List.length pre - 1) /\ state_ok (pre ++ [b2]) [] []) /\
  (line2 b2 && line1 b1 = false -> state_ok (pre ++ [b2]) b1 b2).
Proof.
  intros H. unfold state_ok in H. destruct pre as [|p0 pre'] eqn:Ep.
  - cbn in H. destruct H as [-> ->]. rewrite nil_not_line1, andb_false_r. split; [reflexivity|]. split; [discriminate|]. intros _. cbn. auto.
  - rewrite <- Ep in *. assert (Hn : List.length pre = S (List.length pre')) by (rewrite Ep; reflexivity).
    set (m := List.length pre') in *. rewrite Hn in *. replace (S m - 1) with m by lia.
    assert (Hlen : List.length (pre ++ [b2]) = S (S m)) by (rewrite app_length, Hn; cbn; lia).
    assert (Eb : at_line (pre ++ [b2]) (S m) = b2) by (rewrite <- Hn; apply at_end).
    assert (Em : at_line (pre ++ [b2]) m = at_line pre m) by (apply at_app_l; lia).
    assert (Es : match m with 0 => false | S k => set_at (pre ++ [b2]) k end = match m with 0 => false | S k => set_at pre k end).
    { destruct m; [reflexivity|]. apply set_app_l. lia. }
    assert (Cond : line2 b2 && line1 b1 = set_at (pre ++ [b2]) m).
    { destruct (match m with 0 => false | S k => set_at pre k end) eqn:T.
      - destruct H as [-> ->]. rewrite nil_not_line1, andb_false_r. destruct m as [|k]; [discriminate|].
        symmetry. apply set_excl. exact Es.
      - destruct H as [-> _]. unfold set_at. rewrite Eb, Em. apply andb_comm. }
    split; [exact Cond|]. rewrite Cond. split; intros C.
    + assert (T : match m with 0 => false | S k => set_at pre k end = false).
      { destruct m as [|k]; [reflexivity|]. destruct (set_at pre k) eqn:X; [|reflexivity].
        apply set_excl in Es. congruence. }
      rewrite T in H. destruct H as [H1 H0]. split; [|split; [assumption|]].
      * rewrite H0. unfold name_at, tle_name. destruct m as [|k]; [destruct skip; reflexivity|].
        replace (match k with 0 => false | S k0 => set_at (pre ++ [b2]) k0 end) with (match k with 0 => false | S l => set_at pre l end)
          by (destruct k; [reflexivity|symmetry; apply set_app_l; lia]).
        destruct (match k with 0 => false | S l => set_at pre l end); [rewrite orb_true_r, andb_false_r; reflexivity|].
        rewrite orb_false_r. rewrite at_app_l by lia. destruct skip; [reflexivity|]. destruct (at_line pre k); reflexivity.
      * unfold state_ok. rewrite Hlen, C. auto.
    + unfold state_ok. rewrite Hlen, C, Eb, Em, Es. split; [reflexivity|].
      destruct (match m with 0 => false | S k => set_at pre k end); tauto.
Qed.
Lemma filter_seq_map {A} (p q : nat -> bool) (g h : nat -> A) l : (forall i, In i l -> p i = q i) -> (forall i, In i l -> p i = true -> g i = h i) ->
  map g (filter p l) = map h (filter q l).
Proof.
  intros H1 H2. induction l as [|a l IH]; [reflexivity|]. cbn [filter].
  rewrite <- (H1 a (or_introl eq_refl)). destruct (p a) eqn:E.
  - cbn [map]. rewrite (H2 a (or_introl eq_refl) E). f_equal. apply IH; intros; [apply H1|apply H2]; try right; assumption.
  - apply IH; intros; [apply H1|apply H2]; try right; assumption.
Qed.
Lemma tle_loop_spec skip : forall rest pre b0 b1, state_ok pre b0 b1 ->
  tle_loop skip b0 b1 rest =
  map (fun i => (name_at skip (pre ++ rest) i, at_line (pre ++ rest) i, at_line (pre ++ rest) (S i)))
      (filter (set_at (pre ++ rest)) (seq (List.length pre - 1) (List.length (pre ++ rest) - (List.length pre - 1)))).
Proof.
  induction rest as [|b2 rest IH]; intros pre b0 b1 H.
  - rewrite app_nil_r. cbn [tle_loop]. destruct pre as [|p pre']; [reflexivity|].
    set (pre := p :: pre') in *. set (n := List.length pre). assert (Hn : n = S (List.length pre')) by reflexivity.
    replace (n - (n - 1)) with 1 by lia. cbn [seq filter].
    replace (set_at pre (n - 1)) with false; [reflexivity|]. symmetry. unfold set_at.
    replace (at_line pre (S (n - 1))) with ([] : name); [rewrite andb_comm; reflexivity|].
    unfold at_line. symmetry. apply nth_overflow. unfold n. lia.
  - cbn [tle_loop]. destruct (tle_step skip pre b0 b1 b2 H) as (C & C1 & C2).
    assert (Ea : pre ++ b2 :: rest = (pre ++ [b2]) ++ rest) by (rewrite <- app_assoc; reflexivity).
    rewrite Ea. remember ((pre ++ [b2]) ++ rest) as all eqn:Eall.
    assert (L1 : List.length (pre ++ [b2]) - 1 = List.length pre) by (rewrite app_length; cbn; lia).
    assert (La : List.length all = List.length pre + S (List.length rest)) by (rewrite Eall, !app_length; cbn; lia).
    assert (Tail : forall b0' b1', state_ok (pre ++ [b2]) b0' b1' -> tle_loop skip b0' b1' rest =
      map (fun i => (name_at skip all i, at_line all i, at_line all (S i))) (filter (set_at all) (seq (List.length pre) (S (List.length rest))))).
    { intros b0' b1' Hs. rewrite (IH (pre ++ [b2]) b0' b1' Hs). rewrite <- Eall, L1. do 3 f_equal. lia. }
    destruct pre as [|p pre'] eqn:Ep.
    + cbn [List.length] in *. rewrite C in *. rewrite (Tail _ _ (C2 eq_refl)). cbn [List.length Nat.sub].
      rewrite Nat.sub_0_r, La. reflexivity.
    + rewrite <- Ep in *. assert (Hn : List.length pre = S (List.length pre')) by (rewrite Ep; reflexivity).
      set (m := List.length pre') in *. rewrite Hn in *. replace (S m - 1) with m in * by lia.
      rewrite La. replace (S m + S (List.length rest) - m) with (S (S (List.length rest))) by lia.
      cbn [seq filter]. fold (seq (S m) (S (List.length rest))).
      assert (Cm : set_at all m = line2 b2 && line1 b1).
      { rewrite C. rewrite Eall. apply set_app_l. rewrite app_length, Hn. cbn. lia. }
      rewrite Cm. destruct (line2 b2 && line1 b1) eqn:B.
      * destruct (C1 eq_refl) as (N & E1 & S'). rewrite (Tail _ _ S'). cbn [map]. f_equal.
        f_equal; [f_equal|].
        -- rewrite N. unfold name_at. rewrite Eall. destruct m as [|j]; [reflexivity|].
           replace (match j with 0 => false | S k => set_at (pre ++ [b2]) k end) with (match j with 0 => false | S k => set_at ((pre ++ [b2]) ++ rest) k end)
             by (destruct j; [reflexivity|]; apply set_app_l; rewrite app_length, Hn; cbn; lia).
           rewrite (at_app_l (pre ++ [b2]) rest) by (rewrite app_length, Hn; cbn; lia). reflexivity.
        -- rewrite E1. rewrite Eall. rewrite at_app_l by (rewrite app_length, Hn; cbn; lia). rewrite at_app_l by lia. reflexivity.
        -- rewrite Eall. rewrite at_app_l by (rewrite app_length, Hn; cbn; lia). rewrite <- Hn. symmetry. apply at_end.
      * apply Tail. apply C2. reflexivity.
Qed.
Lemma tle_ok skip lines : parse_tle_file lines skip = element_sets skip lines.
Proof.
  unfold parse_tle_file, element_sets. rewrite (tle_loop_spec skip lines [] [] []); [|cbn; auto].
  cbn [app List.length Nat.sub]. rewrite Nat.sub_0_r. reflexivity.
Qed.

(** * Text kernels *)
Section Kernel.
Variable V : Type.
Implicit Types (l : list (name * equals * list V)) (vars : variables V).
Lemma load_other l : forall vars n, (forall a, In a l -> names a <> n) -> load vars l n = vars n.
Proof.
  induction l as [|[[m e] vs] l IH]; intros vars n H; [reflexivity|]. cbn [load fold_left]. fold (load (load_one vars (m, e, vs)) l).
  rewrite IH by (intros a Ha; apply H; right; assumption).
  assert (N : n <> m) by (intros ->; apply (H (m, e, vs)); [left; reflexivity|reflexivity]).
  assert (P : forall v, put vars m v n = vars n) by (intros v; unfold put; rewrite name_eqb_neq by assumption; reflexivity).
  cbn. destruct e.
  - destruct vs as [|v [|w vs]]; apply P.
  - destruct (vars m) as [[x|old]|]; [reflexivity|apply P|apply P].
Qed.
Lemma load_appends l : forall vars n, no_assign n l -> (~ is_scalar (vars n) \/ ~ In n (map names l)) ->
  as_list (load vars l n) = as_list (vars n) ++ appended n l.
Proof.
  induction l as [|[[m e] vs] l IH]; intros vars n H Hs; [cbn; rewrite app_nil_r; reflexivity|].
  cbn [load fold_left]. fold (load (load_one vars (m, e, vs)) l).
  assert (H' : no_assign n l) by (intros x y Hx; apply (H x y); right; assumption).
  destruct (list_eq_dec ascii_dec m n) as [->|N].
  - destruct e; [exfalso; apply (H n vs); [left; reflexivity|reflexivity]|].
    destruct Hs as [Hs|Hs]; [|exfalso; apply Hs; left; reflexivity].
    rewrite IH; [|assumption|].
    + cbn. unfold put. destruct (vars n) as [[x|old]|] eqn:E.
      * exfalso. apply Hs. exists x. reflexivity.
      * rewrite name_eqb_refl. cbn. rewrite <- app_assoc. reflexivity.
      * rewrite name_eqb_refl. cbn. reflexivity.
    + left. intros [x X]. cbn in X. unfold put in X. destruct (vars n) as [[y|old]|] eqn:E; rewrite ?name_eqb_refl in X; try discriminate.
      apply Hs. exists x. congruence.
  - assert (E : load_one vars (m, e, vs) n = vars n).
    { apply (load_other [(m, e, vs)]). intros a [<-|[]]. assumption. }
    rewrite IH, E; [|assumption|].
    + cbn. rewrite name_eqb_neq by assumption. destruct e; reflexivity.
    + rewrite E. destruct Hs as [Hs|Hs]; [left; assumption|]. right. intros X. apply Hs. right. assumption.
Qed.
Lemma load_app l1 l2 vars : load vars (l1 ++ l2) = load (load vars l1) l2.
Proof. unfold load. apply fold_left_app. Qed.
Lemma load_assigned pre n vs post vars : no_assign n post -> (List.length vs <> 1 \/ ~ In n (map names post)) ->
  as_list (load vars (pre ++ (n, Assign, vs) :: post) n) = vs ++ appended n post.
Proof.
  intros H Hs. rewrite load_app. cbn [load fold_left]. fold (load (load_one (load vars pre) (n, Assign, vs)) post).
  rewrite load_appends; [|assumption|].
  - f_equal. cbn. unfold put. destruct vs as [|v [|w vs]]; rewrite name_eqb_refl; reflexivity.
  - destruct Hs as [Hs|Hs]; [left|right; assumption]. intros [x X]. cbn in X. unfold put in X.
    destruct vs as [|v [|w vs]]; rewrite name_eqb_refl in X; try discriminate. apply Hs. reflexivity.
Qed.
Lemma scalar_append_lost : forall (x y : V), exists vars l n, no_assign n l /\
  as_list (load vars l n) <> as_list (vars n) ++ appended n l.
Proof.
  intros x y. exists (fun _ => Some (Scalar x)), [([], Append, [y])], []. split.
  - intros m vs [E|[]]. discriminate.
  - cbn. discriminate.
Qed.

Variable evaluate : name -> V.
Lemma take_values_show vs rest : (forall v, In v vs -> v <> chars ")") ->
  take_values evaluate (vs ++ chars ")" :: rest) = (map evaluate vs, rest).
Proof.
  induction vs as [|v vs IH]; intros H.
  - reflexivity.
  - cbn [app take_values]. rewrite name_eqb_neq by (apply H; left; reflexivity). rewrite IH by (intros w Hw; apply H; right; assumption). reflexivity.
Qed.
Lemma parse_show (l : list (name * equals * list name)) : (forall n e vs v, In (n, e, vs) l -> In v vs -> plain_value v) ->
  forall fuel, List.length l <= fuel ->
  parse_assignments evaluate fuel (flat_map show l) = Some (map (fun a => (fst a, map evaluate (snd a))) l).
Proof.
  induction l as [|[[n e] vs] l IH]; intros H fuel Hf; [destruct fuel; reflexivity|].
  destruct fuel as [|fuel]; [cbn in Hf; lia|]. cbn [List.length] in Hf.
  assert (R : read_equals (eq_token e) = Some e) by (destruct e; reflexivity).
  assert (P : forall v, In v vs -> plain_value v) by (intros v; apply (H n e vs v); left; reflexivity).
  assert (IH' : parse_assignments evaluate fuel (flat_map show l) = Some (map (fun a => (fst a, map evaluate (snd a))) l)).
  { apply IH; [|lia]. intros n' e' vs' v Hi. apply (H n' e' vs' v). right; assumption. }
  cbn [flat_map]. 
  assert (G : (vs = [] \/ exists v w r, vs = v :: w :: r) -> parse_assignments evaluate (S fuel) (([n; eq_token e; chars "("] ++ vs ++ [chars ")"]) ++ flat_map show l)
    = Some ((n, e, map evaluate vs) :: map (fun a => (fst a, map evaluate (snd a))) l)).
  { intros _. cbn [app]. cbn [parse_assignments]. rewrite R. rewrite name_eqb_refl, <- app_assoc. cbn [app].
    rewrite take_values_show by (intros v Hv; apply P; assumption). rewrite IH'. reflexivity. }
  destruct vs as [|v [|w r]].
  - apply G. auto.
  - cbn [show app]. cbn [parse_assignments]. rewrite R. rewrite name_eqb_neq by (apply P; left; reflexivity). rewrite IH'. reflexivity.
  - apply G. eauto.
Qed.
End Kernel.

(** * Tokens *)
Lemma break_app p a b : forallb (fun c => negb (p c)) a = true -> (match b with [] => true | c :: _ => p c end = true) -> break p (a ++ b) = (a, b).
Proof.
  induction a as [|c a IH]; intros Ha Hb.
  - destruct b as [|c b]; [reflexivity|]. cbn. rewrite Hb. reflexivity.
  - cbn in Ha. apply andb_prop in Ha as [H1 H2]. cbn. destruct (p c); [discriminate|]. rewrite IH by assumption. reflexivity.
Qed.
Lemma span_app p a b : forallb p a = true -> (match b with [] => true | c :: _ => negb (p c) end = true) -> span p (a ++ b) = (a, b).
Proof.
  intros Ha Hb. apply break_app; [|assumption]. erewrite <- Ha. clear. induction a as [|c a IH]; [reflexivity|]. cbn. rewrite negb_involutive, IH. reflexivity.
Qed.
Definition space : ascii := " "%char.
Lemma alpha_letter c : In c letters -> is_alpha c = true.
Proof. revert c. apply Forall_forall. unfold letters. cbn [chars list_ascii_of_string]. repeat (apply Forall_cons; [reflexivity|]). apply Forall_nil. Qed.
Lemma word_char c : In c (letters ++ digits ++ chars "_") -> is_word c = true.
Proof. revert c. apply Forall_forall. unfold letters, digits. cbn [chars list_ascii_of_string app]. repeat (apply Forall_cons; [reflexivity|]). apply Forall_nil. Qed.
Lemma is_in_false c l : ~ In c l -> is_in c l = false.
Proof. intros H. destruct (is_in c l) eqn:E; [|reflexivity]. exfalso. apply H. unfold is_in in E. apply existsb_exists in E as (x & I & Q). apply Ascii.eqb_eq in Q as ->. exact I. Qed.
Lemma letters_in c l : is_in c l = true -> In c l.
Proof. unfold is_in. intros E. apply existsb_exists in E as (x & I & Q). apply Ascii.eqb_eq in Q as ->. exact I. Qed.
Lemma in_all l m : forallb (fun x => is_in x m) l = true -> forall x, In x l -> In x m.
Proof. intros H x Hx. apply letters_in. rewrite forallb_forall in H. exact (H x Hx). Qed.
Lemma out_all l m : forallb (fun x => negb (is_in x m)) l = true -> forall x, In x l -> ~ In x m.
Proof. intros H x Hx I. rewrite forallb_forall in H. specialize (H x Hx). assert (E : is_in x m = true) by (apply existsb_exists; exists x; split; [exact I|apply Ascii.eqb_refl]). rewrite E in H. discriminate. Qed.
Lemma number_start c : In c (digits ++ chars "-.@") ->
  is_alpha c = false /\ Ascii.eqb c "=" = false /\ Ascii.eqb c "+" = false /\ Ascii.eqb c "(" || Ascii.eqb c ")" = false /\ Ascii.eqb c "'" = false /\
  is_in c (chars "), ") = false.
Proof.
  revert c. apply Forall_forall. unfold digits. cbn [chars list_ascii_of_string app]. repeat (apply Forall_cons; [repeat split|]). apply Forall_nil.
Qed.
Lemma token_clean t rest : clean_token t -> token_here (t ++ space :: rest) = Some (t, space :: rest).
Proof.
  intros H. destruct H as [c d w A W|e| | |c w A W|w W].
  - cbn [app]. unfold token_here. rewrite (alpha_letter c A).
    change (d :: w ++ space :: rest) with ((d :: w) ++ space :: rest). rewrite span_app; [reflexivity| |reflexivity]. apply forallb_forall. intros x Hx. apply word_char, W, Hx.
  - destruct e; reflexivity.
  - reflexivity.
  - reflexivity.
  - destruct (number_start c A) as (N1 & N2 & N3 & N4 & N5 & N6). cbn [app]. unfold token_here. rewrite N1, N2, N3, N4, N5. cbn [andb].
    change (c :: w ++ space :: rest) with ((c :: w) ++ space :: rest). rewrite span_app; [reflexivity| |reflexivity].
    cbn [forallb]. rewrite N6. apply forallb_forall. intros x Hx. rewrite (is_in_false x _ (W x Hx)). reflexivity.
  - cbn [app]. unfold token_here. change (is_alpha "'") with false. cbn match.
    change (Ascii.eqb "'" "=") with false. change (Ascii.eqb "'" "+") with false. change (Ascii.eqb "'" "(" || Ascii.eqb "'" ")") with false. change (Ascii.eqb "'" "'") with true.
    cbn [andb]. cbn match. rewrite <- app_assoc. cbn [app]. rewrite span_app; [| |reflexivity].
    + cbn match. reflexivity.
    + apply forallb_forall. intros x Hx. destruct (Ascii.eqb x "'") eqn:E; [|reflexivity]. apply Ascii.eqb_eq in E. subst x. contradiction.
Qed.
Lemma token_space rest : token_here (space :: rest) = None.
Proof. reflexivity. Qed.
Lemma clean_nonempty t : clean_token t -> t <> [].
Proof. intros H. destruct H; try discriminate. destruct e; discriminate. Qed.
Lemma findall_spaced ts : (forall t, In t ts -> clean_token t) -> forall fuel, List.length (spaced_line ts) <= fuel -> findall fuel (spaced_line ts) = ts.
Proof.
  induction ts as [|t ts IH]; intros H fuel Hf; [destruct fuel; reflexivity|].
  cbn [spaced_line flat_map] in *. rewrite <- app_assoc in *. cbn [app] in *. fold (spaced_line ts) in *.
  assert (C := H t (or_introl eq_refl)). assert (N := clean_nonempty t C).
  rewrite app_length in Hf. cbn [List.length] in Hf. destruct t as [|c t]; [congruence|]. cbn [List.length] in Hf.
  destruct fuel as [|fuel]; [lia|]. cbn [findall app]. change (c :: t ++ " "%char :: spaced_line ts) with ((c :: t) ++ space :: spaced_line ts).
  rewrite token_clean by assumption. f_equal.
  destruct fuel as [|fuel]; [lia|]. cbn [findall]. rewrite token_space. apply IH; [intros u Hu; apply H; right; assumption|lia].
Qed.
Lemma tokens_spaced ts : (forall t, In t ts -> clean_token t) -> tokens_of (spaced_line ts) = ts.
Proof. intros H. apply findall_spaced; [assumption|lia]. Qed.
Lemma single_letter_glued : exists n v, In n letters /\ clean_token v /\ tokens_of ([n] ++ chars "=" ++ v) <> [[n]; chars "="; v].
Proof.
  exists "A"%char, (chars "1"). split; [left; reflexivity|]. split; [apply (clean_number "1" []); [right; left; reflexivity|intros x []]|]. vm_compute. discriminate.
Qed.

(** A whole kernel: text to variables. *)
Lemma kernel_text {V} (evaluate : name -> V) (l : list (name * equals * list name)) vars :
  (forall t, In t (flat_map show l) -> clean_token t) -> (forall n e vs v, In (n, e, vs) l -> In v vs -> plain_value v) ->
  exists as_, parse_assignments evaluate (List.length l) (tokens_of (spaced_line (flat_map show l))) = Some as_ /\
    as_ = map (fun a => (fst a, map evaluate (snd a))) l /\
    forall pre n vs post, l = pre ++ (n, Assign, vs) :: post -> no_assign n post -> (List.length vs <> 1 \/ ~ In n (map names post)) ->
      as_list (load vars as_ n) = map evaluate (vs ++ appended n post).
Proof.
  intros Hc Hp. rewrite tokens_spaced by assumption. eexists. split; [apply parse_show; [assumption|lia]|]. split; [reflexivity|].
  intros pre n vs post -> Hn Hs. rewrite map_app. cbn [map fst snd].
  rewrite load_assigned.
  - rewrite map_app. f_equal. clear. unfold appended. induction post as [|[[m e] ws] post IH]; [reflexivity|].
    cbn [map flat_map fst snd]. rewrite IH, map_app. f_equal. destruct e; [reflexivity|]. destruct (name_eqb m n); reflexivity.
  - intros m ws Hi. apply in_map_iff in Hi as [[[m' e'] ws'] [E Hi]]. cbn in E. injection E as -> -> _. eapply Hn. exact Hi.
  - destruct Hs as [Hs|Hs]; [left; rewrite map_length; assumption|]. right. rewrite map_map. cbn. exact Hs.
Qed.

(** * URLs *)
Lemma drop_to_first a b c rest s : ~ In a s -> drop_to [a; b; c] (s ++ a :: b :: c :: rest) = rest.
Proof.
  induction s as [|x s IH]; intros H.
  - cbn. rewrite !Ascii.eqb_refl. reflexivity.
  - cbn [app drop_to starts_with]. replace (Ascii.eqb a x) with false.
    + cbn [andb]. apply IH. intros X. apply H. right. assumption.
    + symmetry. apply Ascii.eqb_neq. intros ->. apply H. left. reflexivity.
Qed.
Lemma plain_break f s : plain_part f s -> forallb (fun c => negb (is_in c (chars f))) s = true.
Proof.
  intros H. apply forallb_forall. intros c Hc. apply negb_true_iff. destruct (is_in c (chars f)) eqn:E; [|reflexivity].
  exfalso. unfold is_in in E. apply existsb_exists in E as (d & Hd & E). apply Ascii.eqb_eq in E. subst. apply (H d); assumption.
Qed.
Lemma plain_one f a s : plain_part f s -> In a (chars f) -> forallb (fun c => negb (Ascii.eqb a c)) s = true.
Proof.
  intros H Ha. apply forallb_forall. intros c Hc. apply negb_true_iff, Ascii.eqb_neq. intros ->. apply (H c); assumption.
Qed.
Lemma plain_app f a b : plain_part f a -> plain_part f b -> plain_part f (a ++ b).
Proof. intros Ha Hb c Hc. apply in_app_iff in Hc as [Hc|Hc]; [apply Ha|apply Hb]; assumption. Qed.
Lemma after_last_app p a c s : p c = true -> existsb p s = false -> after_last p (a ++ c :: s) = s.
Proof.
  intros H Hs. induction a as [|x a IH].
  - cbn. rewrite Hs, H. reflexivity.
  - cbn. rewrite existsb_app. cbn. rewrite H. cbn. rewrite orb_true_r. exact IH.
Qed.
Lemma exists_not (p : ascii -> bool) s : forallb (fun c => negb (p c)) s = true -> existsb p s = false.
Proof. induction s as [|c s IH]; [reflexivity|]. cbn. intros H. apply andb_prop in H as [H1 H2]. rewrite (IH H2). destruct (p c); [discriminate|reflexivity]. Qed.
Lemma forallb_app' (p : ascii -> bool) a b : forallb p a = true -> forallb p b = true -> forallb p (a ++ b) = true.
Proof. intros. rewrite forallb_app. apply andb_true_intro. auto. Qed.

Lemma break_hash P q x y : forallb (fun c => negb (Ascii.eqb "#" c)) P = true -> break (Ascii.eqb "#") q = (x, y) ->
  break (Ascii.eqb "#") (P ++ "?"%char :: q) = (P ++ "?"%char :: x, y).
Proof.
  intros H B. induction P as [|c P IH]; [cbn [app break]; rewrite B; reflexivity|].
  cbn [forallb] in H. apply andb_prop in H as [H1 H2]. cbn [app break]. destruct (Ascii.eqb "#" c); [discriminate|]. rewrite (IH H2). reflexivity.
Qed.
Lemma url_last scheme host dirs last params query :
  plain_part ":" scheme -> plain_part "/?#" host -> plain_part "?#" dirs -> (dirs = [] \/ exists d, dirs = slash :: d) -> plain_part "/?#;" last ->
  (params = [] \/ exists p, params = ";"%char :: p /\ plain_part "/?#" p) ->
  (query = [] \/ exists c q, query = c :: q /\ (c = "?" \/ c = "#")%char) ->
  url_filename (scheme ++ chars "://" ++ host ++ dirs ++ chars "/" ++ last ++ params ++ query) = last.
Proof.
  intros H1 H2 H3 Hd H4 H5 H6. unfold url_filename.
  change (chars "://") with [":"%char; "/"%char; "/"%char]. cbn [app].
  rewrite drop_to_first by (intros X; apply (H1 _ X); left; reflexivity).
  rewrite break_app; [|apply plain_break; assumption|destruct Hd as [->|[d ->]]; reflexivity].
  set (P := dirs ++ chars "/" ++ last ++ params).
  replace (dirs ++ chars "/" ++ last ++ params ++ query) with (P ++ query) by (unfold P; rewrite <- !app_assoc; reflexivity).
  assert (Hpar : plain_part "?#" params).
  { destruct H5 as [->|(p & -> & Hp)]; [intros c []|]. intros c [<-|Hc]; [cbn; intuition discriminate|].
    intros X. apply (Hp c Hc). cbn in *. tauto. }
  assert (HP : plain_part "?#" P).
  { unfold P. apply plain_app; [assumption|]. apply plain_app; [intros c [<-|[]]; cbn; intuition discriminate|].
    apply plain_app; [|assumption]. intros c Hc X. apply (H4 c Hc). cbn in *. tauto. }
  assert (HPh : forallb (fun c => negb (Ascii.eqb "#" c)) P = true) by (apply (plain_one "?#"); [assumption|cbn; auto]).
  assert (HQ : exists q1 q2, break (Ascii.eqb "#") (P ++ query) = (P ++ q1, q2) /\ match q1 with [] => true | c :: _ => Ascii.eqb "?" c end = true).
  { destruct H6 as [->|(c & q & -> & [->| ->])].
    - exists [], []. split; [|reflexivity]. rewrite !app_nil_r. rewrite <- (app_nil_r P) at 1. apply break_app; [assumption|reflexivity].
    - destruct (break (Ascii.eqb "#") q) as [x y] eqn:B. exists ("?"%char :: x), y. split; [|reflexivity]. apply break_hash; assumption.
    - exists [], ("#"%char :: q). split; [|reflexivity]. rewrite app_nil_r. apply break_app; [assumption|reflexivity]. }
  destruct HQ as (q1 & q2 & -> & Hq).
  rewrite break_app; [|apply (plain_one "?#"); [assumption|cbn; auto]|exact Hq].
  unfold P. change (chars "/" ++ last ++ params) with ("/"%char :: last ++ params). rewrite after_last_app; [|reflexivity|].
  - rewrite break_app; [reflexivity|apply (plain_one "/?#;"); [assumption|cbn; auto]|destruct H5 as [->|(p & -> & _)]; reflexivity].
  - apply exists_not, forallb_app'; [apply (plain_one "/?#;"); [assumption|cbn; auto]|].
    destruct H5 as [->|(p & -> & Hp)]; [reflexivity|]. cbn [forallb]. apply (plain_one "/?#"); [assumption|cbn; auto].
Qed.

(** * Loader *)
Section Loader.
Context {P O : Type}.
Variable L : loader P O.
Variable exists_path : name -> bool.
Definition not_patterns {A} (m : table A) (f : name) : Prop := forall l, get m f <> Some (Patterns l).
Definition known (f : name) : Prop := search (parsers L) f <> None \/ search (openers L) f <> None.
Definition ordinary (f : name) : Prop := not_patterns (urls L) f /\ not_patterns (parsers L) f /\ not_patterns (openers L) f.
Lemma search_direct {A} (m : table A) f : not_patterns m f -> forall e, search m f = Some e -> exists v, e = Direct v.
Proof.
  intros H e. unfold search. destruct (get m f) as [[v|l]|] eqn:E.
  - intros X. injection X as <-. eauto.
  - exfalso. apply (H l E).
  - destruct (get m (splitext f)) as [[v|l]|]; try discriminate. destruct (find _ l) as [[p v]|]; [|discriminate].
    intros X. injection X as <-. eauto.
Qed.
Lemma call_ok f reload net r : contains (chars "://") f = false -> ordinary f -> call_loader L exists_path f reload false = (net, r) ->
  (net <> [] <-> known f /\ search (urls L) f <> None /\ (exists_path (path_to L f) = false \/ reload = true)) /\
  (forall u p, In (u, p) net -> net = [(u, p)] /\ p = path_to L f /\ u <> None) /\
  (known f -> exists_path (path_to L f) = true -> reload = false -> net = [] /\ r <> Raised) /\
  (known f -> net <> [] -> r <> Raised) /\
  (~ known f -> net = [] /\ r = Raised) /\
  (search (urls L) f = None -> exists_path (path_to L f) = false \/ reload = true -> net = [] /\ r = Raised).
Proof.
  intros Hc (Hu & Hp & Ho). unfold call_loader. rewrite Hc. unfold assure, known.
  pose proof (search_direct _ f Hu) as Du. pose proof (search_direct _ f Hp) as Dp. pose proof (search_direct _ f Ho) as Do.
  destruct (search (parsers L) f) as [ep|] eqn:Ep; [destruct (Dp _ eq_refl) as [vp ->]|];
  (destruct (search (openers L) f) as [eo|] eqn:Eo; [destruct (Do _ eq_refl) as [vo ->]|]);
  (destruct (search (urls L) f) as [eu|] eqn:Eu; [destruct (Du _ eq_refl) as [vu ->]; destruct vu as [|vc vu]|]);
  destruct (exists_path (path_to L f)) eqn:Ex; destruct reload; cbn;
  intros X; injection X as <- <-;
  (split; [intuition congruence|]);
  (split; [intros u p HI; cbn in HI; destruct HI as [N|N]; [injection N as <- <-; repeat split; congruence|destruct N] || (intros u p HI; destruct HI)|]);
  intuition congruence.
Qed.
Lemma open_ok url reload net r filename : contains (chars "://") url = true -> open_loader L exists_path url filename reload = (net, r) ->
  let path := path_to L (match filename with Some f => f | None => url_filename url end) in
  r = Opened path /\
  (net <> [] <-> exists_path path = false \/ reload = true) /\ (net <> [] -> net = [(Some url, path)]).
Proof.
  intros Hc. unfold open_loader, assure. rewrite Hc. cbn zeta.
  set (path := path_to L _). destruct (exists_path path); destruct reload; cbn; intros X; injection X as <- <-; repeat split; auto; try discriminate; try congruence; intros H; try (destruct H; discriminate); discriminate.
Qed.
Lemma open_local url reload filename net r : contains (chars "://") url = false -> open_loader L exists_path url filename reload = (net, r) -> net = [].
Proof.
  intros Hc. unfold open_loader. rewrite Hc. destruct (exists_path _); intros X; injection X as <- <-; reflexivity.
Qed.
Lemma call_url url reload net r : contains (chars "://") url = true ->
  (known (url_filename url)) -> ordinary (url_filename url) ->
  call_loader L exists_path url reload false = (net, r) ->
  let path := path_to L (url_filename url) in
  r <> Raised /\ (net <> [] <-> exists_path path = false \/ reload = true) /\ (net <> [] -> net = [(Some url, path)]).
Proof.
  intros Hc K (_ & Hp & Ho). unfold call_loader. rewrite Hc. unfold assure, known in *.
  set (f := url_filename url) in *. 
  pose proof (search_direct _ f Hp) as Dp. pose proof (search_direct _ f Ho) as Do.
  destruct (search (parsers L) f) as [ep|] eqn:Ep; [destruct (Dp _ eq_refl) as [vp ->]|];
  (destruct (search (openers L) f) as [eo|] eqn:Eo; [destruct (Do _ eq_refl) as [vo ->]|]); [| | |destruct K; congruence];
  destruct (exists_path (path_to L f)) eqn:Ex; destruct reload; cbn; intros X; injection X as <- <-; repeat split; auto; try discriminate; try congruence;
  intros H; try (destruct H; discriminate); discriminate.
Qed.
Lemma call_url_unknown url reload builtin : contains (chars "://") url = true -> ~ known (url_filename url) ->
  call_loader L exists_path url reload builtin = ([], Raised).
Proof.
  intros Hc K. unfold call_loader. rewrite Hc. unfold known in K.
  destruct (search (parsers L) _); [exfalso; apply K; left; discriminate|].
  destruct (search (openers L) _); [exfalso; apply K; right; discriminate|]. reflexivity.
Qed.
Lemma call_builtin f reload net r : call_loader L exists_path f reload true = (net, r) -> net = [].
Proof.
  unfold call_loader. destruct (if contains _ f then _ else _) as [u g].
  destruct (search (parsers L) g) as [[p|l]|]; destruct (search (openers L) g) as [[o|l']|]; cbn; intros X; injection X as <- <-; reflexivity.
Qed.
End Loader.

(** The standard tables of [Loader.__init__], iokit.py 117-147, with the parsers and
    openers named by their identifiers and the URL prefixes written out. *)
Definition standard (dir : name) : loader name name :=
  {| directory := dir;
     urls := [(chars "finals2000A.all", Direct (chars "https://datacenter.iers.org/data/9/"));
              (chars ".bsp", Patterns [(chars "jup*.bsp", chars "https://naif.jpl.nasa.gov/"); (chars "*.bsp", chars "https://ssd.jpl.nasa.gov/")])];
     parsers := [(chars "Leap_Second.dat", Direct (chars "parse_leap_seconds"))];
     openers := [(chars ".bsp", Patterns [(chars "*.bsp", chars "SpiceKernel")]);
                 (chars ".tf", Patterns [(chars "*", chars "open")])] |}.
Lemma extension_name : exists f net, contains (chars "://") f = false /\
  call_loader (standard (chars "d")) (fun _ => false) f false false = (net, Raised) /\ net <> [].
Proof. exists (chars ".bsp"). eexists. split; [reflexivity|]. split; [reflexivity|]. discriminate. Qed.
