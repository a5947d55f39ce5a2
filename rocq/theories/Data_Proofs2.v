(** Proofs about star names, names of satellites, tables of Delta T and polar motion. *)
From Coq Require Import ZArith QArith Qround Qfield Bool String Ascii Lia Lqa List Sorting.Sorted.
From Verif Require Import PyNum Cal_Model Cal_Spec Cal_Proofs Time_Model Time_Spec Time_Proofs Time_Proofs2 Download_Model
  Data_Model Data_Spec Data_Proofs.
Import ListNotations.
Open Scope Z_scope.

(** * Stripping *)
Lemma lstrip_cut s : exists b, blanks b /\ s = b ++ lstrip s.
Proof.
  induction s as [|c s [b [Hb E]]]; [exists []; split; [constructor|reflexivity]|].
  cbn [lstrip]. destruct (isspace c) eqn:Ec.
  - exists (c :: b). split; [constructor; [apply isspace_blank, Ec|exact Hb]|]. cbn. rewrite <- E. reflexivity.
  - exists []. split; [constructor|reflexivity].
Qed.
Definition rstrip (s : txt) : txt := rev (lstrip (rev s)).
Lemma rstrip_cut s : exists b, blanks b /\ s = rstrip s ++ b.
Proof.
  destruct (lstrip_cut (rev s)) as [b [Hb E]]. exists (rev b). split; [apply Forall_rev, Hb|].
  unfold rstrip. rewrite <- rev_app_distr, <- E, rev_involutive. reflexivity.
Qed.
Lemma split_trail t b : blanks b -> forall acc, split_from acc (t ++ b) = split_from acc t.
Proof.
  intros Hb. induction t as [|c t IH]; intros acc.
  - cbn [app]. destruct acc as [|a acc].
    + rewrite <- (app_nil_r b), split_blanks by assumption. reflexivity.
    + destruct Hb as [|c b Hc Hb]; [reflexivity|]. rewrite split_end by (congruence || assumption).
      rewrite <- (app_nil_r b), split_blanks by assumption. reflexivity.
  - cbn [app split_from]. destruct (isspace c); [destruct acc; rewrite ?IH; reflexivity|apply IH].
Qed.
Lemma rstrip_head c t : ~ blank c -> exists r, rstrip (c :: t) = c :: r.
Proof.
  intros Hc. destruct (rstrip_cut (c :: t)) as [b [Hb E]]. destruct (rstrip (c :: t)) as [|d r].
  - cbn in E. subst b. destruct Hc. exact (Forall_inv Hb).
  - cbn in E. injection E as <- _. eauto.
Qed.
Lemma strip_line b c t : blanks b -> ~ blank c -> exists r, strip (b ++ c :: t) = c :: r /\ split_ws (c :: r) = split_ws (c :: t).
Proof.
  intros Hb Hc. unfold strip. rewrite lstrip_blanks, lstrip_word by assumption.
  destruct (rstrip_head c t Hc) as [r E]. change (rev (lstrip (rev (c :: t)))) with (rstrip (c :: t)).
  exists r. split; [exact E|]. destruct (rstrip_cut (c :: t)) as [b' [Hb' E']]. rewrite <- E. rewrite E' at 2.
  unfold split_ws. rewrite split_trail by assumption. reflexivity.
Qed.
Lemma strip_blanks b : blanks b -> strip b = [].
Proof. intros H. unfold strip. rewrite (lstrip_all b) by assumption. reflexivity. Qed.

(** * Star names *)
Lemma first_word w s : word w -> (s = [] \/ exists c r, s = c :: r /\ blank c) -> exists l, split_ws (w ++ s) = w :: l.
Proof.
  intros [Hn Hw] [->|[c [r [-> Hc]]]]; unfold split_ws; rewrite split_word by assumption; rewrite app_nil_r.
  - exists []. cbn. pose proof (rev_nonempty w Hn). destruct (rev w) eqn:E; [congruence|]. rewrite <- E, rev_involutive. reflexivity.
  - rewrite split_end by (auto using rev_nonempty). rewrite rev_involutive. eauto.
Qed.
Lemma split_bar_none w s : ~ In "|"%char s -> split_bar w s = [rev w ++ s].
Proof.
  revert w; induction s as [|c s IH]; intros w H; cbn; [rewrite app_nil_r; reflexivity|].
  destruct (Ascii.eqb_spec c "|"); [subst; destruct H; left; reflexivity|].
  rewrite IH by (intros I; apply H; right; exact I). cbn. rewrite <- app_assoc. reflexivity.
Qed.
Lemma split_bar_cut w a b : ~ In "|"%char a -> split_bar w (a ++ "|"%char :: b) = (rev w ++ a) :: split_bar [] b.
Proof.
  revert w; induction a as [|c a IH]; intros w H; cbn [app split_bar].
  - cbn. rewrite app_nil_r. reflexivity.
  - destruct (Ascii.eqb_spec c "|"); [subst; destruct H; left; reflexivity|].
    rewrite IH by (intros I; apply H; right; exact I). cbn. rewrite <- app_assoc. reflexivity.
Qed.
Lemma plain_quote c : plain_char c -> is_quote c = false.
Proof.
  intros H. unfold is_quote. destruct (existsb (Ascii.eqb c) ["_"; "("; """"; ")"]%char) eqn:E; [|reflexivity].
  apply existsb_exists in E. destruct E as [x [Hx E]]. apply Ascii.eqb_eq in E. subst x. destruct H. cbn in *. tauto.
Qed.
Lemma strip_quotes_mid l name r : Forall (fun c => is_quote c = true) l -> Forall (fun c => is_quote c = true) r ->
  Forall plain_char name -> name <> [] -> strip_quotes (l ++ name ++ r) = name.
Proof.
  intros Hl Hr Hp Hn. unfold strip_quotes.
  assert (A : forall q s, Forall (fun c => is_quote c = true) q -> lstrip_quotes (q ++ s) = lstrip_quotes s).
  { induction 1 as [|c q Hc _ IH]; [reflexivity|]. cbn [app lstrip_quotes]. rewrite Hc. exact IH. }
  assert (B : forall n s, Forall plain_char n -> n <> [] -> lstrip_quotes (n ++ s) = n ++ s).
  { intros [|c n] s Hc Hx; [congruence|]. cbn [app lstrip_quotes]. rewrite plain_quote by exact (Forall_inv Hc). reflexivity. }
  rewrite A, B by assumption. rewrite rev_app_distr, A by (apply Forall_rev; assumption).
  rewrite <- (app_nil_r (rev name)), B by (apply Forall_rev in Hp; auto using rev_nonempty).
  rewrite app_nil_r. apply rev_involutive.
Qed.
Lemma decimal_no_bar n : ~ In "|"%char (decimal n).
Proof. intros H. pose proof (decimal_digits n) as D. rewrite Forall_forall in D. specialize (D _ H). discriminate. Qed.
Lemma plain_no_bar name : Forall plain_char name -> ~ In "|"%char name.
Proof. intros H I. rewrite Forall_forall in H. apply (H _ I). cbn. tauto. Qed.
Lemma quote_chars_word : forall c, In c ["_"; "("; """"; ")"; "|"]%char -> ~ blank c.
Proof. intros c H B. cbn in H. destruct H as [<-|[<-|[<-|[<-|[<-|[]]]]]]; cbn in B; intuition discriminate. Qed.
Lemma decimal_head n : exists c r, decimal n = c :: r /\ isdigit c = true.
Proof.
  pose proof (decimal_digits n) as D. destruct (decimal_int n) as [_ [_ N]]. destruct (decimal n) as [|c r]; [congruence|].
  exists c, r. split; [reflexivity|exact (Forall_inv D)].
Qed.
(** A line beginning with a number, a bar and a word; the rest is ignored. *)
Lemma name_line_reads b n q s rest r : blanks b -> word q -> ~ In "|"%char q -> (s = [] \/ exists c t, s = c :: t /\ blank c) ->
  parse_star_names rest = Some r ->
  parse_star_names ((b ++ decimal n ++ "|"%char :: q ++ s) :: rest) = Some ((Z.of_nat n, strip_quotes q) :: r).
Proof.
  intros Hb Hq Hbar Hs Hr. cbn [parse_star_names]. destruct (decimal_head n) as [c [t [Ed Hc]]].
  assert (Hnb : ~ blank c) by (apply digit_not_blank; exact Hc).
  assert (F : exists l, split_ws (decimal n ++ "|"%char :: q ++ s) = (decimal n ++ "|"%char :: q) :: l).
  { replace (decimal n ++ "|"%char :: q ++ s) with ((decimal n ++ "|"%char :: q) ++ s) by (rewrite <- app_assoc; reflexivity).
    apply first_word; [|exact Hs]. split; [rewrite Ed; discriminate|].
    apply Forall_app. split; [apply decimal_word|]. constructor; [apply quote_chars_word; cbn; tauto|apply Hq]. }
  destruct F as [l F].
  destruct (strip_line b c (t ++ "|"%char :: q ++ s) Hb Hnb) as [x [E1 E2]].
  assert (L : b ++ decimal n ++ "|"%char :: q ++ s = b ++ c :: t ++ "|"%char :: q ++ s) by (rewrite Ed; reflexivity).
  assert (F' : split_ws (c :: x) = (decimal n ++ "|"%char :: q) :: l) by (rewrite E2, <- F, Ed; reflexivity).
  rewrite L, E1. cbn [starts_hash orb]. destruct (Ascii.eqb_spec c "#") as [->|N]; [discriminate|]. rewrite F'.
  assert (G : match split_bar [] (decimal n ++ "|"%char :: q) with
              | [hip; name] => match py_int hip with Some h => match parse_star_names rest with Some r => Some ((h, strip_quotes name) :: r) | None => None end | None => None end
              | _ => None end = Some ((Z.of_nat n, strip_quotes q) :: r)).
  { rewrite split_bar_cut by apply decimal_no_bar. rewrite split_bar_none by assumption. cbn [rev app].
    rewrite (proj1 (decimal_int n)), Hr. reflexivity. }
  exact G.
Qed.
Lemma quote_ok : Forall (fun c => is_quote c = true) ["_"; "("; """"]%char /\ Forall (fun c => is_quote c = true) [""""; ")"]%char.
Proof. split; repeat constructor. Qed.
Lemma quoted_word name : Forall plain_char name -> Forall (fun c => ~ blank c) name -> word (quoted name) /\ ~ In "|"%char (quoted name).
Proof.
  intros Hp Hw. split.
  - split; [discriminate|]. unfold quoted. apply Forall_app. split; [|apply Forall_app; split; [exact Hw|]];
      repeat constructor; apply quote_chars_word; cbn; tauto.
  - unfold quoted. rewrite !in_app_iff. intros [H|[H|H]]; [cbn in H; intuition discriminate| |cbn in H; intuition discriminate].
    exact (plain_no_bar _ Hp H).
Qed.
Lemma star_names_read ls lines : Forall2 name_line ls lines -> Forall (fun p => word (snd p)) (concat ls) ->
  parse_star_names lines = Some (concat ls).
Proof.
  induction 1 as [|l s ls lines H _ IH]; intros Hw; [reflexivity|]. cbn [concat] in *. apply Forall_app in Hw.
  destruct Hw as [Hw1 Hw2]. specialize (IH Hw2). inversion H as [b s' Hb|b Hb|b n name refs Hb Hp Hn Hr]; subst.
  - cbn [parse_star_names app]. destruct (strip_line b "#" s' Hb hash_not_blank) as [r [-> _]]. exact IH.
  - cbn [parse_star_names app]. rewrite strip_blanks by assumption. exact IH.
  - pose proof (Forall_inv Hw1) as W. cbn in W. destruct (quoted_word name Hp (proj2 W)) as [Q1 Q2].
    cbn [app]. rewrite (name_line_reads b n (quoted name) refs lines (concat ls)) by assumption.
    unfold quoted. rewrite strip_quotes_mid by (apply quote_ok || assumption). reflexivity.
Qed.
Lemma star_names_cut b n a c t refs rest r : blanks b -> Forall plain_char (a ++ c :: t) -> word a -> blank c ->
  parse_star_names rest = Some r ->
  name_line [(Z.of_nat n, a ++ c :: t)] (b ++ decimal n ++ "|"%char :: quoted (a ++ c :: t) ++ (" "%char :: refs)) /\
  parse_star_names ((b ++ decimal n ++ "|"%char :: quoted (a ++ c :: t) ++ (" "%char :: refs)) :: rest) = Some ((Z.of_nat n, a) :: r).
Proof.
  intros Hb Hp Ha Hc Hr. split.
  - apply nl_name; [assumption..| |right; exists " "%char, refs; split; [reflexivity|left; reflexivity]].
    destruct a; discriminate.
  - apply Forall_app in Hp. destruct Hp as [Hp Hp2].
    unfold quoted. rewrite <- !app_assoc. cbn [app].
    change ("_"%char :: "("%char :: """"%char :: a ++ c :: t ++ """"%char :: ")"%char :: " "%char :: refs)
      with ((["_"; "("; """"]%char ++ a) ++ c :: t ++ """"%char :: ")"%char :: " "%char :: refs).
    rewrite (name_line_reads b n (["_"; "("; """"]%char ++ a) _ rest r); try assumption.
    + rewrite <- (app_nil_r a) at 1. rewrite strip_quotes_mid; [reflexivity|apply quote_ok|constructor|exact Hp|apply Ha].
    + split; [discriminate|]. apply Forall_app. split; [repeat constructor; apply quote_chars_word; cbn; tauto|apply Ha].
    + rewrite in_app_iff. intros [H|H]; [cbn in H; intuition discriminate|exact (plain_no_bar _ Hp H)].
    + right. eauto.
Qed.

(** * Names of satellites *)
Lemma no_paren_tl c s : no_paren (c :: s) -> no_paren s.
Proof. intros H [a [b E]]. apply H. exists (c :: a), b. rewrite E. reflexivity. Qed.
Lemma split_paren_none s : forall w, no_paren s -> split_paren w s = [rev w ++ s].
Proof.
  induction s as [|c s IH]; intros w H; [cbn; rewrite app_nil_r; reflexivity|]. cbn [split_paren]. destruct s as [|d s].
  - cbn. reflexivity.
  - destruct (Ascii.eqb_spec c " "), (Ascii.eqb_spec d "("); cbn [andb].
    + subst. destruct H. exists [], s. reflexivity.
    + rewrite IH by (eapply no_paren_tl; exact H). cbn [rev]. rewrite <- app_assoc. reflexivity.
    + rewrite IH by (eapply no_paren_tl; exact H). cbn [rev]. rewrite <- app_assoc. reflexivity.
    + rewrite IH by (eapply no_paren_tl; exact H). cbn [rev]. rewrite <- app_assoc. reflexivity.
Qed.
Lemma split_paren_cut a b : forall w, no_paren a -> split_paren w (a ++ " "%char :: "("%char :: b) = (rev w ++ a) :: split_paren [] b.
Proof.
  induction a as [|c a IH]; intros w H; cbn [app].
  - cbn. rewrite app_nil_r. reflexivity.
  - assert (E : (match a ++ " "%char :: "("%char :: b with d :: _ => Ascii.eqb c " " && Ascii.eqb d "(" | [] => false end) = false).
    { destruct a as [|d a]; cbn [app].
      - apply andb_false_r.
      - destruct (Ascii.eqb_spec c " "), (Ascii.eqb_spec d "("); try reflexivity. subst. destruct H. exists [], a. reflexivity. }
    cbn [split_paren]. destruct (a ++ " "%char :: "("%char :: b) as [|d r] eqn:Ea; [destruct a; discriminate|].
    rewrite E, IH by (eapply no_paren_tl; exact H). cbn [rev]. rewrite <- app_assoc. reflexivity.
Qed.
Lemma tle_names_plain n : no_paren n -> n <> [] -> tle_names (Some n) = Some [n].
Proof. intros H Hn. unfold tle_names. destruct n as [|c r]; [congruence|]. rewrite split_paren_none by assumption. reflexivity. Qed.
Lemma rstrip_paren_ok b : last b "x"%char <> ")"%char -> rstrip_paren (b ++ [")"%char]) = b.
Proof.
  intros H. unfold rstrip_paren. rewrite rev_app_distr. cbn [rev app rstrip_paren_rev]. cbn -[rev].
  destruct (rev b) as [|c r] eqn:E; cbn.
  - rewrite <- (rev_involutive b), E. reflexivity.
  - assert (B : b = rev r ++ [c]) by (rewrite <- (rev_involutive b), E; reflexivity).
    rewrite B, last_last in H. destruct (Ascii.eqb_spec c ")"); [congruence|]. cbn. symmetry. exact B.
Qed.
Lemma tle_names_alias a b : no_paren a -> no_paren (b ++ [")"%char]) -> last b "x"%char <> ")"%char ->
  let n := a ++ " "%char :: "("%char :: b ++ [")"%char] in tle_names (Some n) = Some [n; a; b].
Proof.
  intros Ha Hb Hl n. unfold n, tle_names. destruct (a ++ " "%char :: "("%char :: b ++ [")"%char]) as [|c r] eqn:E; [destruct a; discriminate|].
  rewrite <- E, split_paren_cut, split_paren_none by assumption. cbn [rev app]. rewrite rstrip_paren_ok by assumption. reflexivity.
Qed.
Lemma tle_names_two a b c : no_paren a -> no_paren b ->
  tle_names (Some (a ++ " "%char :: "("%char :: b ++ " "%char :: "("%char :: c)) = None.
Proof.
  intros Ha Hb. unfold tle_names. destruct (a ++ " "%char :: "("%char :: b ++ " "%char :: "("%char :: c) as [|x r] eqn:E; [destruct a; discriminate|].
  rewrite <- E, !split_paren_cut by assumption.
  assert (N : forall s w, split_paren w s <> []).
  { clear. induction s as [|y s IH]; intros w; [discriminate|]. cbn [split_paren]. destruct s as [|z s]; [discriminate|].
    destruct (Ascii.eqb y " " && Ascii.eqb z "("); [discriminate|apply IH]. }
  destruct (split_paren [] c) as [|? ?] eqn:F; [exfalso; exact (N _ _ F)|reflexivity].
Qed.
(** What a satellite may be looked up by. *)
Definition carries (s : Z * option txt) (k : tle_key) : bool :=
  match k with
  | Number x => fst s =? x
  | NameKey n => match tle_names (snd s) with Some ns => if in_dec (list_eq_dec ascii_dec) n ns then true else false | None => false end
  end.
Lemma tle_get_names {A} ns (a : A) d k :
  tle_get (rev (map (fun n => (NameKey n, a)) ns) ++ d) k =
  match k with NameKey n => if in_dec (list_eq_dec ascii_dec) n ns then Some a else tle_get d k | _ => tle_get d k end.
Proof.
  assert (G : forall l, tle_get (map (fun n => (NameKey n, a)) l ++ d) k =
    match k with NameKey n => if in_dec (list_eq_dec ascii_dec) n l then Some a else tle_get d k | _ => tle_get d k end).
  { induction l as [|n l IH]; [destruct k; reflexivity|]. cbn [map app tle_get]. rewrite IH. destruct k as [x|m]; [reflexivity|].
    destruct (list_eq_dec ascii_dec m n) as [->|N].
    - destruct (in_dec (list_eq_dec ascii_dec) n (n :: l)) as [|X]; [reflexivity|destruct X; left; reflexivity].
    - destruct (in_dec (list_eq_dec ascii_dec) m l), (in_dec (list_eq_dec ascii_dec) m (n :: l)) as [X|X]; try reflexivity.
      + destruct X. right. assumption.
      + destruct X as [X|X]; [congruence|contradiction]. }
  rewrite <- map_rev, G. destruct k as [x|n]; [reflexivity|].
  destruct (in_dec (list_eq_dec ascii_dec) n (rev ns)) as [X|X], (in_dec (list_eq_dec ascii_dec) n ns) as [Y|Y]; try reflexivity.
  - destruct Y. apply in_rev. exact X.
  - destruct X. apply in_rev in Y. exact Y.
Qed.
Lemma tle_dict_get {A} (sats : list (Z * option txt * A)) : forall d d' k, tle_dict sats d = Some d' ->
  tle_get d' k = match find (fun s => carries (fst s) k) (rev sats) with Some s => Some (snd s) | None => tle_get d k end.
Proof.
  assert (F : forall (f : Z * option txt * A -> bool) l x, find f (l ++ [x]) = match find f l with Some y => Some y | None => if f x then Some x else None end).
  { intros f. induction l as [|y l IH]; intros x; cbn; [reflexivity|]. destruct (f y); [reflexivity|apply IH]. }
  induction sats as [|[[num name] a] sats IH]; intros d d' k H; cbn [tle_dict rev] in *.
  - injection H as <-. reflexivity.
  - destruct (tle_names name) as [ns|] eqn:E; [|discriminate]. rewrite (IH _ _ k H), F.
    destruct (find _ (rev sats)); [reflexivity|]. rewrite tle_get_names. unfold carries. cbn [fst snd].
    destruct k as [x|n]; cbn [tle_get].
    + rewrite (Z.eqb_sym x num). destruct (num =? x); reflexivity.
    + rewrite E. destruct (in_dec (list_eq_dec ascii_dec) n ns); reflexivity.
Qed.
Lemma tle_dict_total {A} (sats : list (Z * option txt * A)) : forall d, (forall s, In s sats -> tle_names (snd (fst s)) <> None) ->
  exists d', tle_dict sats d = Some d'.
Proof.
  induction sats as [|[[num name] a] sats IH]; intros d H; [eexists; reflexivity|]. cbn [tle_dict].
  destruct (tle_names name) as [ns|] eqn:E; [apply IH; intros s Hs; apply H; right; exact Hs|].
  destruct (H (num, name, a) (or_introl eq_refl) E).
Qed.

(** * Delta T tables *)
Open Scope Q_scope.
Lemma sorted_filter_skip (x : Q) preds : ascending preds ->
  skipn (length (filter (fun p => Qle_bool (fst p) x) preds)) preds = filter (fun p => negb (Qle_bool (fst p) x)) preds.
Proof.
  induction 1 as [|p l Hl IH Hp]; [reflexivity|]. cbn [filter]. destruct (Qle_bool (fst p) x) eqn:E; cbn [negb].
  - cbn [length skipn]. exact IH.
  - assert (N : forall q, In q l -> Qle_bool (fst q) x = false).
    { intros q Hq. rewrite Forall_forall in Hp. specialize (Hp q Hq). destruct (Qle_bool (fst q) x) eqn:E'; [|reflexivity].
      apply Qle_bool_iff in E'. assert (fst p <= x) by lra. apply Qle_bool_iff in H. congruence. }
    assert (F : forall l' : list (Q * Q), (forall q, In q l' -> Qle_bool (fst q) x = false) -> filter (fun q => Qle_bool (fst q) x) l' = [] /\
      filter (fun q => negb (Qle_bool (fst q) x)) l' = l').
    { clear. induction l' as [|q l' IH]; intros H; [split; reflexivity|]. cbn. rewrite (H q (or_introl eq_refl)). cbn.
      destruct IH as [I1 I2]; [intros; apply H; right; assumption|]. rewrite I1, I2. split; reflexivity. }
    destruct (F l N) as [F1 F2]. rewrite F1, F2. reflexivity.
Qed.
Lemma ascending_app l1 l2 : ascending l1 -> ascending l2 -> (forall p q, In p l1 -> In q l2 -> fst p < fst q) -> ascending (l1 ++ l2).
Proof.
  unfold ascending. intros H1 H2 H. induction H1 as [|p l Hl IH Hp]; [exact H2|]. cbn. constructor.
  - apply IH. intros a b Ha Hb. apply H; [right; exact Ha|exact Hb].
  - apply Forall_app. split; [exact Hp|]. apply Forall_forall. intros q Hq. apply H; [left; reflexivity|exact Hq].
Qed.
Lemma ascending_filter f l : ascending l -> ascending (filter f l).
Proof.
  unfold ascending. induction 1 as [|p l Hl IH Hp]; [constructor|]. cbn. destruct (f p); [|exact IH]. constructor; [exact IH|].
  apply Forall_forall. intros q Hq. apply filter_In in Hq. rewrite Forall_forall in Hp. apply Hp, Hq.
Qed.
Lemma legacy_joined data last preds : ascending (data ++ [last]) -> ascending preds ->
  exists l, legacy_delta_t (data ++ [last]) preds = Some l /\ ascending l /\
    forall p, In p l <-> In p data \/ p = last \/ (In p preds /\ fst last < fst p).
Proof.
  intros Hd Hp. unfold legacy_delta_t. rewrite rev_app_distr. cbn [rev app].
  rewrite sorted_filter_skip by assumption. eexists. split; [reflexivity|]. split.
  - apply ascending_app; [exact Hd|apply ascending_filter; exact Hp|].
    intros p q Hp' Hq. apply filter_In in Hq. destruct Hq as [_ Hq]. apply negb_true_iff in Hq.
    assert (A : fst last < fst q) by (apply Qnot_le_lt; intros C; apply Qle_bool_iff in C; congruence).
    apply in_app_or in Hp'. destruct Hp' as [Hp'|[<-|[]]]; [|exact A].
    assert (B : fst p < fst last); [|lra]. clear - Hd Hp'. induction data as [|x data IH]; [destruct Hp'|].
    inversion Hd as [|y l Hl Hy]; subst. destruct Hp' as [->|Hp']; [|apply IH; assumption].
    rewrite Forall_forall in Hy. apply Hy. apply in_or_app. right. left. reflexivity.
  - intros p. rewrite !in_app_iff, filter_In, negb_true_iff. cbn. split.
    + intros [[H|[H|[]]]|[H1 H2]]; [left; exact H|right; left; congruence|right; right]. split; [exact H1|].
      apply Qnot_le_lt. intros C. apply Qle_bool_iff in C. congruence.
    + intros [H|[->|[H1 H2]]]; [tauto|tauto|]. right. split; [exact H1|].
      destruct (Qle_bool (fst p) (fst last)) eqn:E; [|reflexivity]. apply Qle_bool_iff in E. lra.
Qed.
Lemma julian_date_midnight y m d : julian_date y m d 0 0 0 == inject_Z (julian_day y m d None) - (1 # 2).
Proof. unfold julian_date. change (inject_Z (0 + 0 * 60 + 0 * 3600)) with 0. field. Qed.
Lemma julian_date_civil y m d h mi s : exists_under None (y, m, d) ->
  julian_date y m d h mi s == inject_Z (civil_day_number None (y, m, d)) - (1 # 2) + inject_Z (h * 3600 + mi * 60 + s) / 86400.
Proof.
  intros H. unfold julian_date. rewrite civil_is_julian_day by (exact I || exact H).
  replace (s + mi * 60 + h * 3600)%Z with (h * 3600 + mi * 60 + s)%Z by ring. reflexivity.
Qed.
Lemma preds_month yf : 0 <= yf -> exists y m, (1 <= m <= 12)%Z /\ exists_under None (y, m, 1%Z) /\
  inject_Z y + inject_Z (m - 1) / 12 <= yf /\ yf < inject_Z y + inject_Z m / 12 /\
  preds_date yf == inject_Z (civil_day_number None (y, m, 1%Z)) - (1 # 2).
Proof.
  intros H. unfold preds_date. rewrite !qtrunc_floor by (try exact H; lra).
  set (N := Qfloor (yf * 12)). destruct (floor_spec (yf * 12)) as [F1 F2]. fold N in F1, F2.
  pose proof (Z.mod_pos_bound N 12 ltac:(lia)) as B. pose proof (Z.div_mod N 12 ltac:(lia)) as D.
  assert (DQ : inject_Z N == 12 * inject_Z (N / 12) + inject_Z (N mod 12)) by (rewrite D at 1; rewrite inject_Z_plus, inject_Z_mult; reflexivity).
  assert (BQ : 0 <= inject_Z (N mod 12) <= 11) by (change 0 with (inject_Z 0); change 11 with (inject_Z 11); rewrite <- !Zle_Qle; lia).
  assert (FY : Qfloor yf = (N / 12)%Z) by (apply floor_unique; lra).
  assert (V : exists_under None ((N / 12)%Z, (1 + N mod 12)%Z, 1%Z)).
  { unfold exists_under, valid_date. assert (28 <= month_length Gregorian (N / 12) (1 + N mod 12))%Z.
    { unfold month_length. repeat match goal with |- context [if ?b then _ else _] => destruct b end; lia. }
    repeat (apply andb_true_intro; split); apply Z.leb_le; lia. }
  exists (N / 12)%Z, (1 + N mod 12)%Z. split; [lia|]. split; [exact V|]. split; [|split].
  - replace (1 + N mod 12 - 1)%Z with (N mod 12)%Z by lia.
    setoid_replace (inject_Z (N / 12) + inject_Z (N mod 12) / 12) with (inject_Z N / 12) by (rewrite DQ; field).
    apply Qle_shift_div_r; [reflexivity|]. exact F1.
  - rewrite inject_Z_plus. setoid_replace (inject_Z (N / 12) + (inject_Z 1 + inject_Z (N mod 12)) / 12) with ((inject_Z N + 1) / 12) by (rewrite DQ; field).
    apply Qlt_shift_div_l; [reflexivity|]. exact F2.
  - rewrite FY, julian_date_midnight, civil_is_julian_day by (exact I || exact V). reflexivity.
Qed.

(** * Polar motion *)
Lemma mjd_day mjd cut : match cut with Some c => (c <= 2400001 + mjd)%Z | None => True end ->
  julian_day 1858 11 (17 + mjd) cut = (2400001 + mjd)%Z.
Proof.
  intros H. destruct cut as [c|].
  - unfold julian_day. set (J := (_ + _ / 5)%Z).
    assert (E : J = (2400001 + mjd + 12)%Z).
    { unfold J. change ((11 - 1) / 12)%Z with 0%Z. change ((11 - 1) mod 12)%Z with 10%Z.
      change (b2z (10 + 1 <=? 2)%Z) with 0%Z. change (1461 * (1858 + 0 + 4716 - 0) / 4)%Z with 2401153%Z.
      change ((153 * ((10 + 1 + 9) mod 12) + 2) / 5)%Z with 245%Z. lia. }
    rewrite E. replace (c <=? 2400001 + mjd + 12)%Z with true by (symmetry; apply Z.leb_le; lia).
    change ((38 - _ * 3 / 4) * b2z true)%Z with (-12)%Z. lia.
  - unfold julian_day. change ((11 - 1) / 12)%Z with 0%Z. change ((11 - 1) mod 12)%Z with 10%Z.
    change (b2z (10 + 1 <=? 2)%Z) with 0%Z. change (1461 * (1858 + 0 + 4716 - 0) / 4)%Z with 2401153%Z.
    change ((153 * ((10 + 1 + 9) mod 12) + 2) / 5)%Z with 245%Z.
    change ((38 - _ * 3 / 4) * 1)%Z with (-12)%Z. lia.
Qed.
Definition tt_of_midnight ns base mjd : Q := (inject_Z (tai_second ns base (2400001 + mjd) 0) + (32184 # 1000)) / 86400.
Lemma polar_row ns base cut ts mjd x y : timescale_for ns base cut ts -> match cut with Some c => (c <= 2400001 + mjd)%Z | None => True end ->
  exists t, install_polar_motion ts [(mjd, x, y)] = [(t, x, y)] /\ t == tt_of_midnight ns base mjd.
Proof.
  intros Hts Hc. eexists. split; [reflexivity|].
  destruct (utc_facts ns base cut ts 1858 11 (17 + mjd) 0 0 0 Hts) as [Co E]. rewrite mjd_day in E by exact Hc.
  unfold tai_instant, tai in E. rewrite (coherent_tai _ Co) in E. unfold tt, tt_of_midnight. unfold tt_minus_tai in E.
  set (t := utc ts 1858 11 (17 + mjd) 0 0 0) in *. set (K := inject_Z _) in *.
  assert (G : whole t + tt_fraction t == (K + (32184 # 1000)) / 86400); [|exact G].
  assert (K == (whole t + (tt_fraction t - (32184 # 1000) / 86400)) * 86400) by (unfold DAY_S in E; rewrite E; ring).
  rewrite H. field.
Qed.
Lemma midnight_mono ns base a b : (a < b)%Z -> tt_of_midnight ns base a < tt_of_midnight ns base b.
Proof.
  intros H. unfold tt_of_midnight. apply Qmult_lt_compat_r; [reflexivity|].
  assert (inject_Z (tai_second ns base (2400001 + a) 0) < inject_Z (tai_second ns base (2400001 + b) 0)); [|lra].
  rewrite <- Zlt_Qlt. unfold tai_second. pose proof (leaps_before_mono ns (2400001 + a) (2400001 + b) ltac:(lia)). lia.
Qed.
Lemma polar_table ns base cut ts rows : timescale_for ns base cut ts ->
  (forall r, In r rows -> match cut with Some c => (c <= 2400001 + fst (fst r))%Z | None => True end) ->
  Forall2 (fun r t => fst (fst t) == tt_of_midnight ns base (fst (fst r)) /\ snd (fst t) = snd (fst r) /\ snd t = snd r)
    rows (install_polar_motion ts rows).
Proof.
  intros Hts. induction rows as [|[[mjd x] y] rows IH]; intros H; [constructor|]. cbn [install_polar_motion map].
  constructor; [|apply IH; intros r Hr; apply H; right; exact Hr].
  destruct (polar_row ns base cut ts mjd x y Hts (H _ (or_introl eq_refl))) as [t [E Et]].
  unfold install_polar_motion in E. cbn [map] in E. injection E as E. rewrite <- E in Et. cbn [fst snd]. auto.
Qed.
