(** Proofs about names, membership, reports and ranges of kernels. *)
From Coq Require Import ZArith QArith Qround Bool Ascii List Lia Lqa.
From Verif Require Import PyNum Cal_Model Cal_Spec Time_Model Time_Spec Time_Proofs Time_Proofs2 Time_Proofs3 Kernel_Model Kernel_Spec.
Import ListNotations.
Open Scope Z_scope.

Lemma name_eqb_eq a b : name_eqb a b = true <-> a = b.
Proof. unfold name_eqb. destruct (list_eq_dec ascii_dec a b); split; congruence. Qed.

Lemma in_codes_present segs c : in_codes segs c = true <-> present segs c.
Proof.
  unfold in_codes, present. rewrite orb_true_iff, !existsb_exists. split.
  - intros [(s & H & E)|(s & H & E)]; exists s; split; try exact H; [left|right]; lia.
  - intros (s & H & [E|E]); [left|right]; exists s; split; try exact H; lia.
Qed.

Lemma name_code_sound ps n c : name_code ps n = Some c -> In (c, n) ps.
Proof.
  induction ps as [|[c' n'] ps IH]; cbn [name_code]; [discriminate|].
  destruct (name_code ps n) as [x|] eqn:E.
  - intros H. right. apply IH, H.
  - destruct (name_eqb n' n) eqn:E2; [|discriminate]. intros H. injection H as <-. apply name_eqb_eq in E2. subst. left. reflexivity.
Qed.
Lemma name_code_complete ps n c : In (c, n) ps -> exists c', name_code ps n = Some c'.
Proof.
  induction ps as [|[c' n'] ps IH]; intros []; cbn [name_code].
  - injection H as -> ->. destruct (name_code ps n) as [x|]; [exists x; reflexivity|].
    rewrite (proj2 (name_eqb_eq n n) eq_refl). exists c. reflexivity.
  - destruct (IH H) as [x ->]. exists x. reflexivity.
Qed.

Lemma contains_decode ps segs a : contains ps segs a = true <-> exists c, decode ps segs a = Found c.
Proof.
  unfold contains, decode. destruct a as [c|n].
  - destruct (in_codes segs c); split; try discriminate; eauto. intros [x H]. discriminate.
  - destruct (name_code ps (upper n)) as [c|].
    + destruct (in_codes segs c); split; try discriminate; eauto. intros [x H]. discriminate.
    + split; [discriminate|]. intros [x H]. discriminate.
Qed.

Lemma decode_found ps segs a c : decode ps segs a = Found c ->
  present segs c /\ match a with Code k => k = c | Name n => In (c, upper n) ps end.
Proof.
  unfold decode. destruct a as [k|n].
  - destruct (in_codes segs k) eqn:E; [|discriminate]. intros H. injection H as ->. split; [apply in_codes_present, E|reflexivity].
  - destruct (name_code ps (upper n)) as [k|] eqn:E1; [|discriminate].
    destruct (in_codes segs k) eqn:E; [|discriminate]. intros H. injection H as ->.
    split; [apply in_codes_present, E|apply name_code_sound, E1].
Qed.
Lemma decode_unknown ps segs a : decode ps segs a = UnknownName <->
  match a with Code _ => False | Name n => forall c, ~ In (c, upper n) ps end.
Proof.
  unfold decode. destruct a as [k|n].
  - destruct (in_codes segs k); split; (discriminate || tauto).
  - destruct (name_code ps (upper n)) as [k|] eqn:E1.
    + split; [destruct (in_codes segs k); discriminate|]. intros H. exfalso. apply (H k), name_code_sound, E1.
    + split; [|reflexivity]. intros _ c H. destruct (name_code_complete ps (upper n) c H) as [x Hx]. congruence.
Qed.

Lemma upper_char_idem c : upper_char (upper_char c) = upper_char c.
Proof. destruct c as [[] [] [] [] [] [] [] []]; reflexivity. Qed.
Lemma upper_idem s : upper (upper s) = upper s.
Proof. unfold upper. rewrite map_map. apply map_ext, upper_char_idem. Qed.
Lemma decode_case ps segs m n : upper m = upper n -> decode ps segs (Name m) = decode ps segs (Name n).
Proof. intros H. unfold decode. rewrite H. reflexivity. Qed.

(** * names() *)
Lemma get_append d code n c :
  dict_get (append_name d code n) c =
  if code =? c then Some (match dict_get d c with Some l => l ++ [n] | None => [n] end) else dict_get d c.
Proof.
  induction d as [|[k l] d IH]; cbn [append_name dict_get].
  - destruct (code =? c); reflexivity.
  - destruct (Z.eqb_spec k code) as [->|N]; cbn [dict_get].
    + destruct (code =? c); reflexivity.
    + rewrite IH. destruct (Z.eqb_spec k c) as [->|]; [|reflexivity].
      destruct (Z.eqb_spec code c); [congruence|reflexivity].
Qed.

Definition listed (ps : pairs) (c : Z) : list kname := map snd (filter (fun p => fst p =? c) ps).

Lemma names_fold ps segs d c :
  dict_get (fold_left (fun d p => if in_codes segs (fst p) then append_name d (fst p) (snd p) else d) ps d) c =
  if in_codes segs c
  then match listed ps c with [] => dict_get d c | l => Some ((match dict_get d c with Some k => k | None => [] end) ++ l) end
  else dict_get d c.
Proof.
  revert d. induction ps as [|[k n] ps IH]; intros d; cbn [fold_left fst snd].
  - destruct (in_codes segs c); reflexivity.
  - rewrite IH. unfold listed. cbn [filter map fst snd]. destruct (Z.eqb_spec k c) as [->|N].
    + destruct (in_codes segs c) eqn:E; [|reflexivity].
      rewrite get_append, Z.eqb_refl. cbn [map snd].
      destruct (map snd (filter (fun p => fst p =? c) ps)) as [|x l].
      * destruct (dict_get d c); reflexivity.
      * f_equal. destruct (dict_get d c); cbn; [rewrite <- app_assoc; reflexivity|reflexivity].
    + destruct (in_codes segs k); [|reflexivity].
      rewrite get_append. destruct (Z.eqb_spec k c); [contradiction|reflexivity].
Qed.

Lemma names_get ps segs c :
  dict_get (names ps segs) c = if in_codes segs c then match listed ps c with [] => None | l => Some l end else None.
Proof.
  unfold names. rewrite names_fold. cbn [dict_get]. destruct (in_codes segs c); [|reflexivity].
  destruct (listed ps c); reflexivity.
Qed.

Lemma in_listed ps c n : In n (listed ps c) <-> In (c, n) ps.
Proof.
  unfold listed. rewrite in_map_iff. split.
  - intros ([k m] & E & H). cbn in E. subst. apply filter_In in H as [H E]. cbn in E. apply Z.eqb_eq in E. subst. exact H.
  - intros H. exists (c, n). split; [reflexivity|]. apply filter_In. split; [exact H|cbn; apply Z.eqb_refl].
Qed.

(** [names()] has a name under a code exactly when the table pairs them and the body is present. *)
Lemma names_iff ps segs c n :
  (exists l, dict_get (names ps segs) c = Some l /\ In n l) <-> (present segs c /\ In (c, n) ps).
Proof.
  rewrite names_get, <- in_codes_present, <- in_listed. destruct (in_codes segs c).
  - destruct (listed ps c) as [|x l].
    + split; [intros (l & H & _); discriminate|intros [_ []]].
    + split; [intros (l' & H & Hi); injection H as <-; split; [reflexivity|exact Hi]|intros [_ H]; eauto].
  - split; [intros (l & H & _); discriminate|intros [H _]; discriminate].
Qed.

(** Listed names, if in capitals, decode to the code they are listed under. *)
Lemma names_decode ps segs c n l : unambiguous ps ->
  dict_get (names ps segs) c = Some l -> In n l -> upper n = n -> decode ps segs (Name n) = Found c.
Proof.
  intros U H Hi Hu. assert (P : present segs c /\ In (c, n) ps) by (apply names_iff; eauto).
  destruct P as [P1 P2]. unfold decode. rewrite Hu.
  destruct (name_code_complete ps n c P2) as [c' E]. rewrite E.
  assert (c' = c) by (apply (U c' c n); [apply name_code_sound, E|exact P2]). subst c'.
  apply in_codes_present in P1. rewrite P1. reflexivity.
Qed.
Lemma decode_names ps segs n c : decode ps segs (Name n) = Found c ->
  exists l, dict_get (names ps segs) c = Some l /\ In (upper n) l.
Proof. intros H. apply decode_found in H. apply names_iff, H. Qed.

(** The last name listed is the one used for display. *)
Lemma last_snoc {A} (l : list A) x d : last (l ++ [x]) d = x.
Proof. induction l as [|y l IH]; [reflexivity|]. cbn [app last]. destruct (l ++ [x]) eqn:E; [destruct l; discriminate|]. exact IH. Qed.
Lemma code_name_listed ps c : code_name ps c = match listed ps c with [] => None | x :: l => Some (last (x :: l) []) end.
Proof.
  induction ps as [|[k n] ps IH]; [reflexivity|]. cbn [code_name]. rewrite IH.
  unfold listed. cbn [filter fst]. fold (listed ps c) in *.
  destruct (k =? c); cbn [map snd]; fold (listed ps c); destruct (listed ps c) as [|x l]; reflexivity.
Qed.
Lemma names_last ps segs c l : dict_get (names ps segs) c = Some l -> code_name ps c = Some (last l []) /\ l <> [].
Proof.
  rewrite names_get, code_name_listed. destruct (in_codes segs c); [|discriminate].
  destruct (listed ps c) as [|x k]; [discriminate|]. intros H. injection H as <-. split; [reflexivity|discriminate].
Qed.

Lemma append_keys d code n : NoDup (map fst d) -> NoDup (map fst (append_name d code n)) /\
  forall c, In c (map fst (append_name d code n)) -> c = code \/ In c (map fst d).
Proof.
  induction d as [|[k l] d IH]; cbn [append_name map fst].
  - intros _. split; [constructor; [intros []|constructor]|]. intros c [H|[]]. left. congruence.
  - intros H. inversion H as [|? ? H1 H2]; subst. destruct (Z.eqb_spec k code) as [->|N]; cbn [map fst].
    + split; [exact H|]. intros c Hc. right. exact Hc.
    + destruct (IH H2) as [I1 I2]. split.
      * constructor; [|exact I1]. intros Hi. destruct (I2 k Hi); [contradiction|exact (H1 H0)].
      * intros c [Hc|Hc]; [right; left; exact Hc|]. destruct (I2 c Hc); [left; assumption|right; right; assumption].
Qed.
Lemma names_keys ps segs : NoDup (map fst (names ps segs)).
Proof.
  unfold names. assert (H : NoDup (map fst (@nil (Z * list kname)))) by constructor. revert H.
  generalize (@nil (Z * list kname)) as d. induction ps as [|p ps IH]; intros d H; cbn [fold_left]; [exact H|].
  apply IH. destruct (in_codes segs (fst p)); [apply append_keys, H|exact H].
Qed.

(** * close() *)
Lemma closed_empty ps segs a c : decode ps (close segs) a <> Found c /\ contains ps (close segs) a = false /\
  names ps (close segs) = [] /\ kernel_str (close segs) = [].
Proof.
  unfold close. split; [|split; [|split]].
  - unfold decode. destruct (match a with Code _ => _ | Name _ => _ end); cbn; discriminate.
  - unfold contains. destruct a as [k|n]; [reflexivity|]. destruct (name_code ps (upper n)); reflexivity.
  - unfold names. induction ps as [|p ps IH]; [reflexivity|]. exact IH.
  - reflexivity.
Qed.

(** * The report *)
Definition printed_date (jd : Q) : Z * Z * Z := compute_calendar_date (qtrunc jd) None.

Lemma qtrunc_comp a b : (a == b)%Q -> qtrunc a = qtrunc b.
Proof.
  intros H. unfold qtrunc. unfold Qeq in H. destruct a as [an ad], b as [bn bd]. cbn in *.
  rewrite <- (Z.quot_mul_cancel_r an (Z.pos ad) (Z.pos bd)), <- (Z.quot_mul_cancel_r bn (Z.pos bd) (Z.pos ad)) by lia.
  rewrite H, (Z.mul_comm (Z.pos ad)). reflexivity.
Qed.

Lemma qneq_false o x : qneq o x = false -> exists y, o = Some y /\ (y == x)%Q.
Proof.
  destruct o as [y|]; cbn; [|discriminate]. intros H. exists y. split; [reflexivity|].
  apply negb_false_iff in H. apply Qeq_bool_eq, H.
Qed.

Lemma report_read segs : forall ephemeris start stop range,
  (match start, stop with
   | Some a, Some b => exists a' b', range = Some (a', b', printed_date a, printed_date b) /\ (a' == a)%Q /\ (b' == b)%Q
   | None, None => True
   | _, _ => False
   end) ->
  Forall2 (read_ok printed_date) segs (read_report (report segs ephemeris start stop) ephemeris range).
Proof.
  induction segs as [|s segs IH]; intros e a b range H; cbn [report read_report]; [constructor|].
  assert (Efile : forall rest rg, read_report ((if (match e with None => true | Some e0 => negb (Nat.eqb e0 (k_file s)) end)
      then [FileLine (match e with None => true | Some _ => false end) (k_file s)] else []) ++ rest) e rg =
      read_report rest (Some (k_file s)) rg).
  { intros rest rg. destruct e as [e0|]; [|reflexivity]. destruct (Nat.eqb_spec e0 (k_file s)) as [->|]; reflexivity. }
  rewrite Efile.
  replace (if match e with None => true | Some e0 => negb (Nat.eqb e0 (k_file s)) end then Some (k_file s) else e)
    with (Some (k_file s)) by (destruct e as [e0|]; [destruct (Nat.eqb_spec e0 (k_file s)) as [->|]; reflexivity|reflexivity]).
  destruct (qneq a (k_start s) || qneq b (k_end s)) eqn:E.
  - cbn [app read_report]. constructor.
    + unfold read_ok. repeat split; reflexivity.
    + apply IH. eexists. eexists. repeat split; reflexivity.
  - apply orb_false_iff in E as [E1 E2]. apply qneq_false in E1 as (a0 & -> & Ea). apply qneq_false in E2 as (b0 & -> & Eb).
    destruct H as (a' & b' & -> & Ha & Hb). cbn [app read_report]. constructor.
    + unfold read_ok. repeat split.
      * rewrite Ha; exact Ea.
      * rewrite Hb; exact Eb.
      * unfold printed_date. rewrite (qtrunc_comp a0 (k_start s) Ea). reflexivity.
      * unfold printed_date. rewrite (qtrunc_comp b0 (k_end s) Eb). reflexivity.
    + apply IH. exists a', b'. repeat split; assumption.
Qed.

Lemma kernel_str_read segs : Forall2 (read_ok printed_date) segs (read_report (kernel_str segs) None None).
Proof. apply report_read. exact I. Qed.

(** When the printed date is the calendar date. *)
Lemma tdb_date_day jd cut : tdb_date cut jd = compute_calendar_date (Qfloor (jd + (1 # 2))) cut.
Proof.
  unfold tdb_date. pose proof (calendar_tuple_day jd 0 cut) as H.
  destruct (calendar_tuple jd 0 cut) as [[[[[y m] d] h] mi] s]. destruct H as [H _]. rewrite H.
  f_equal. apply Qfloor_comp. ring.
Qed.

Lemma printed_date_ok jd : (0 <= jd)%Q -> (jd - inject_Z (Qfloor jd) < 1 # 2)%Q -> printed_date jd = tdb_date None jd.
Proof.
  intros H0 H. rewrite tdb_date_day. unfold printed_date. rewrite qtrunc_floor by exact H0. f_equal. symmetry.
  destruct (floor_spec jd) as [F1 F2]. apply floor_unique; lra.
Qed.
Lemma printed_date_late jd : (0 <= jd)%Q -> (1 # 2 <= jd - inject_Z (Qfloor jd))%Q ->
  exists J, printed_date jd = compute_calendar_date J None /\ tdb_date None jd = compute_calendar_date (J + 1) None.
Proof.
  intros H0 H. exists (Qfloor jd). rewrite tdb_date_day. unfold printed_date. rewrite qtrunc_floor by exact H0.
  split; [reflexivity|]. f_equal. destruct (floor_spec jd) as [F1 F2].
  apply floor_unique; rewrite inject_Z_plus; change (inject_Z 1) with 1%Q; lra.
Qed.
Lemma de421_dates : printed_date (4829729 # 2) = (1899, 7, 28) /\ tdb_date None (4829729 # 2) = (1899, 7, 29).
Proof. split; vm_compute; reflexivity. Qed.

(** * Ranges *)
Lemma type2_range {A} cut s (r : computed A) : k_type s = 2 ->
  seg_at cut s r = Some (match r with
    | Value a => Result a
    | OutOfRange => EphemerisRangeError (tdb_date cut (k_start s)) (tdb_date cut (k_end s)) (k_start s) (k_end s)
    end).
Proof. intros H. unfold seg_at. rewrite H. reflexivity. Qed.

Definition de421 : kseg := {| k_center := 0; k_target := 4; k_start := 4829729 # 2; k_end := 4942369 # 2; k_type := 2; k_file := 0 |}.
Lemma de421_report : exists r, kernel_str [de421] = [FileLine true 0; r; SegLine 0 4] /\
  r = RangeLine (4829729 # 2) (4942369 # 2) (1899, 7, 28) (2053, 10, 8) /\
  tdb_date None (4829729 # 2) = (1899, 7, 29) /\ tdb_date None (4942369 # 2) = (2053, 10, 9).
Proof. eexists. split; [vm_compute; reflexivity|]. repeat split; vm_compute; reflexivity. Qed.

Lemma range_denotes cut s : good_cutoff cut ->
  forall jd, In jd [k_start s; k_end s] -> exists_under cut (tdb_date cut jd) /\
    (inject_Z (civil_day_number cut (tdb_date cut jd)) - (1 # 2) <= jd /\
     jd < inject_Z (civil_day_number cut (tdb_date cut jd)) + (1 # 2))%Q.
Proof.
  intros Hc jd _. rewrite tdb_date_day. pose proof (civil_of_jd cut (Qfloor (jd + (1 # 2))) Hc) as CV.
  destruct (compute_calendar_date (Qfloor (jd + (1 # 2))) cut) as [[y m] d]. destruct CV as [C1 C2].
  split; [exact C1|]. rewrite C2. destruct (floor_spec (jd + (1 # 2))) as [F1 F2]. split; lra.
Qed.

Lemma type3_range : exists s : kseg, k_type s = 3 /\ forall cut A, @seg_at A cut s OutOfRange = Some RawOutOfRangeError.
Proof. exists {| k_center := 0; k_target := 4; k_start := 0; k_end := 1; k_type := 3; k_file := 0 |}. split; reflexivity. Qed.

Lemma range_error cut (s : kseg) (A : Type) : good_cutoff cut -> k_type s = 2 ->
  exists a b, @seg_at A cut s OutOfRange = Some (EphemerisRangeError a b (k_start s) (k_end s)) /\
    forall d jd, In (d, jd) [(a, k_start s); (b, k_end s)] -> exists_under cut d /\
      (inject_Z (civil_day_number cut d) - (1 # 2) <= jd /\ jd < inject_Z (civil_day_number cut d) + (1 # 2))%Q.
Proof.
  intros Hc H. exists (tdb_date cut (k_start s)), (tdb_date cut (k_end s)). split; [rewrite type2_range by exact H; reflexivity|].
  intros d jd [E|[E|[]]]; injection E as <- <-; apply (range_denotes cut s Hc); [left|right; left]; reflexivity.
Qed.
